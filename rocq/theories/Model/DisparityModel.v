(** Model of pandora2d/disparity/disparity.py (winner takes all). *)
From Coq Require Import ZArith List Bool.
From Verif Require Import Base.Ext Base.PyList.
Import ListNotations.

(** "type_measure" attribute of the cost volumes
    (pandora2d/disparity/disparity.py:240 compares it with "max"; anything else is a minimum). *)
Inductive measure := MeasureMin | MeasureMax.

(** The four margins of pandora.margins.Margins, in the order left, up, right, down. *)
Record margins := mkMargins { m_left : nat; m_up : nat; m_right : nat; m_down : nat }.

(** The 4D cost volumes dataset: data indexed by [row][col][disp_col][disp_row], the disparity
    coordinates, and the attributes read by the disparity step
    (pandora2d/matching_cost/matching_cost.py:174-217 builds it).
    Row and column coordinates are not read by the disparity step. *)
Record cost_volumes := mkCV {
  cv_nrow : nat; cv_ncol : nat;
  cv_disp_col : list Z;      (* coordinates disp_col *)
  cv_disp_row : list Z;      (* coordinates disp_row *)
  cv_data : list (list (list (list ext)));
  cv_subpix : nat;           (* attrs["subpixel"] *)
  cv_measure : measure;      (* attrs["type_measure"] *)
  cv_margins : option margins (* attrs["disparity_margins"], None allowed *)
}.

(** *** numpy reductions *)

(** np.max / np.min of a non empty 1D array: NaN if there is a NaN.
    numpy raises ValueError on an empty array: None. *)
Definition np_pick (t : measure) (a b : ext) : ext :=
  match a, b with
  | NaN, _ => NaN
  | _, NaN => NaN
  | _, _ => match t with
            | MeasureMax => if ext_ltb a b then b else a
            | MeasureMin => if ext_ltb b a then b else a
            end
  end.
Definition np_ext (t : measure) (l : list ext) : option ext :=
  match l with
  | [] => None
  | a :: l' => Some (fold_left (np_pick t) l' a)
  end.

(** np.argmax / np.argmin of a 1D array: index of the first extremum, or of the first NaN. *)
Definition np_beats (t : measure) (x best : ext) : bool :=
  match best with
  | NaN => false
  | _ => match x with
         | NaN => true
         | _ => match t with
                | MeasureMax => ext_ltb best x
                | MeasureMin => ext_ltb x best
                end
         end
  end.
Fixpoint np_arg_from (t : measure) (i : nat) (best : ext) (besti : nat) (l : list ext) : nat :=
  match l with
  | [] => besti
  | x :: l' => if np_beats t x best then np_arg_from t (S i) x i l'
               else np_arg_from t (S i) best besti l'
  end.
Definition np_arg (t : measure) (l : list ext) : option nat :=
  match l with
  | [] => None
  | a :: l' => Some (np_arg_from t 1 a 0 l')
  end.

(** Reduction of the [disp_col][disp_row] plane of one pixel along axis 2 (over disp_col):
    one value for each disp_row. *)
Definition reduce_axis2 (t : measure) (ndr : nat) (m : list (list ext)) : option (list ext) :=
  map_opt (fun dr => match map_opt (fun line => nth_error line dr) m with
                     | Some column => np_ext t column
                     | None => None
                     end) (seq 0 ndr).
(** Reduction along axis 3 (over disp_row): one value for each disp_col. *)
Definition reduce_axis3 (t : measure) (m : list (list ext)) : option (list ext) :=
  map_opt (np_ext t) m.

(** *** The chunked loops *)

(** Common shape of the double loop of extrema_split, get_score and arg_split
    (pandora2d/disparity/disparity.py:90-109, 128-147, 168-187):
    the array is split along axis 0 at the indices [bounds0] and each piece along axis 1 at
    [bounds1], [f] is applied to the pixels of each piece, and the result is written in the
    pre-allocated output at (row_begin, col_begin).
    None: [f] raised, or the block does not fit in the output. *)
Definition chunk_cols {A B} (f : A -> option B) (bounds1 : list nat) (d1 : nat)
    (cv_row : list (list A)) (row_begin h : nat) (disps : list (list B)) : option (list (list B)) :=
  let step acc se :=
    match acc with
    | Some (col_begin, out) =>
        let '(s, e) := se : nat * nat in
        let cv_col := map (slice s e) cv_row in
        match map_opt (map_opt f) cv_col with
        | Some block =>
            match assign2 row_begin h col_begin (e - s) block out with
            | Some out' => Some (col_begin + (e - s), out')
            | None => None
            end
        | None => None
        end
    | None => None
    end in
  match fold_left step (sections bounds1 d1) (Some (0, disps)) with
  | Some (_, out) => Some out
  | None => None
  end.

Definition chunked {A B} (f : A -> option B) (init : B) (bounds0 bounds1 : list nat)
    (d0 d1 : nat) (data : list (list A)) : option (list (list B)) :=
  let step acc se :=
    match acc with
    | Some (row_begin, out) =>
        let '(s, e) := se : nat * nat in
        match chunk_cols f bounds1 d1 (slice s e data) row_begin (e - s) out with
        | Some out' => Some (row_begin + (e - s), out')
        | None => None
        end
    | None => None
    end in
  match fold_left step (sections bounds0 d0) (Some (0, repeat (repeat init d1) d0)) with
  | Some (_, out) => Some out
  | None => None
  end.

Inductive axis := Axis2 | Axis3.

(** pandora2d/disparity/disparity.py:70-109 (extrema_split).
    The row axis is split at np.arange(100, cv_dims[1], 100), that is according to the number of
    columns, and the column axis according to the number of rows, as in the code.
    [chunk] is 100 in the code. *)
Definition extrema_split (chunk : nat) (t : measure) (ax : axis) (nrow ncol ndr : nat)
    (data : list (list (list (list ext)))) : option (list (list (list ext))) :=
  chunked (match ax with Axis2 => reduce_axis2 t ndr | Axis3 => reduce_axis3 t end) []
    (arange chunk ncol chunk) (arange chunk nrow chunk) nrow ncol data.

(** pandora2d/disparity/disparity.py:111-147 (get_score) *)
Definition get_score (chunk : nat) (t : measure) (d0 d1 : nat)
    (maps : list (list (list ext))) : option (list (list ext)) :=
  chunked (np_ext t) NaN (arange chunk d0 chunk) (arange chunk d1 chunk) d0 d1 maps.

(** pandora2d/disparity/disparity.py:149-187 (arg_split) *)
Definition arg_split (chunk : nat) (t : measure) (d0 d1 : nat)
    (maps : list (list (list ext))) : option (list (list nat)) :=
  chunked (np_arg t) 0 (arange chunk d0 chunk) (arange chunk d1 chunk) d0 d1 maps.

(** *** compute_disp_maps *)

(** pandora2d/disparity/disparity.py:204-235: the cost volumes restricted to the user range.
    [disparity_margins != Margins(0,0,0,0)] guards the slicing. *)
Definition margins_null (m : margins) : bool :=
  (m_left m =? 0) && (m_up m =? 0) && (m_right m =? 0) && (m_down m =? 0).

Definition user_slice {A} (low high : nat) (size : nat) (l : list A) : list A :=
  (* margins["right"] == 0 is replaced by -size, then [low : -right] *)
  let right := if high =? 0 then (- Z.of_nat size)%Z else Z.of_nat high in
  py_slice (Z.of_nat low) (- right)%Z l.

Definition cost_volumes_user (cv : cost_volumes) : cost_volumes :=
  match cv_margins cv with
  | Some m =>
      if margins_null m then cv
      else
        let l := m_left m * cv_subpix cv in
        let u := m_up m * cv_subpix cv in
        let r := m_right m * cv_subpix cv in
        let d := m_down m * cv_subpix cv in
        let ndc := length (cv_disp_col cv) in
        let ndr := length (cv_disp_row cv) in
        mkCV (cv_nrow cv) (cv_ncol cv)
          (user_slice l r ndc (cv_disp_col cv))
          (user_slice u d ndr (cv_disp_row cv))
          (map (map (fun plane => map (user_slice u d ndr) (user_slice l r ndc plane))) (cv_data cv))
          (cv_subpix cv) (cv_measure cv) (cv_margins cv)
  | None => cv
  end.

(** pandora2d/disparity/disparity.py:242, 258: NaN are replaced by the worst infinity. *)
Definition worst (t : measure) : ext :=
  match t with MeasureMax => NInf | MeasureMin => PInf end.
Definition fill_nan (t : measure) (x : ext) : ext := if ext_isnan x then worst t else x.

(** pandora2d/disparity/disparity.py:271: np.all(indices_nan, axis=(2, 3)) *)
Definition all_nan (plane : list (list ext)) : bool := forallb (forallb ext_isnan) plane.

(** [coords.data[index_map]]: IndexError when an index is out of bounds. *)
Definition take_coords (coords : list Z) (idx : list (list nat)) : option (list (list Z)) :=
  map_opt (map_opt (fun i => nth_error coords i)) idx.

(** [map[invalid_mc] = invalid_disparity] *)
Definition put_invalid {A} (inv : ext) (conv : A -> ext) (invalid : list (list bool))
    (m : list (list A)) : list (list ext) :=
  map (fun p : list bool * list A =>
         map (fun q : bool * A => if fst q then inv else conv (snd q)) (combine (fst p) (snd p)))
      (combine invalid m).

(** pandora2d/disparity/disparity.py:189-282 (compute_disp_maps).
    Result: disp_map_col, disp_map_row, score_map, in this order. The casts to float32 are exact
    and not represented: all values are multiples of the same unit (see Base/Ext.v). *)
Definition compute_disp_maps (chunk : nat) (inv : ext) (cv : cost_volumes)
    : option (list (list ext) * list (list ext) * list (list ext)) :=
  let u := cost_volumes_user cv in
  let t := cv_measure cv in
  let nr := cv_nrow cv in
  let nc := cv_ncol cv in
  let filled := map (map (map (map (fill_nan t)))) (cv_data u) in
  let ndr := length (cv_disp_row u) in
  match extrema_split chunk t Axis2 nr nc ndr filled with
  | None => None
  | Some maps_col =>
  match arg_split chunk t nr nc maps_col with
  | None => None
  | Some idx_row =>
  match take_coords (cv_disp_row u) idx_row with
  | None => None
  | Some disp_row =>
  match extrema_split chunk t Axis3 nr nc ndr filled with
  | None => None
  | Some maps_row =>
  match arg_split chunk t nr nc maps_row with
  | None => None
  | Some idx_col =>
  match take_coords (cv_disp_col u) idx_col with
  | None => None
  | Some disp_col =>
  match get_score chunk t nr nc maps_row with
  | None => None
  | Some score =>
      let invalid := map (map all_nan) (cv_data u) in
      Some (put_invalid inv Fin invalid disp_col,
            put_invalid inv Fin invalid disp_row,
            put_invalid inv (fun x => x) invalid score)
  end end end end end end end.
