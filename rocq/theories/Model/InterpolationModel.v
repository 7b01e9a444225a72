(** Model of pandora2d/refinement/interpolation.py. *)
From Coq Require Import ZArith QArith List Bool Arith.
From Verif Require Import Base.PyList Base.Arr Model.CommonModel Model.DisparityModel Model.OpticalFlowModel.
Import ListNotations.
Open Scope nat_scope.

(** Costs: NaN, an infinity (true: +inf) or a rational number (rounding is not modelled). *)
Inductive cost := CNan | CInf (positive : bool) | CFin (q : Q).
Definition c_isnan (x : cost) : bool := match x with CNan => true | _ => false end.
Definition c_neg (x : cost) : cost := match x with CNan => CNan | CInf b => CInf (negb b) | CFin q => CFin (- q)%Q end.
Definition c_abs (x : cost) : cost := match x with CNan => CNan | CInf _ => CInf true | CFin q => CFin (Qabs.Qabs q) end.

(** numpy's rollaxis on 4 axes: axis 3 moved to the first place, axis 3 moved to the second place. *)
Definition roll_3_0 {A} (a : arr4 A) : arr4 A := mkArr4 (a4_n3 a) (a4_n0 a) (a4_n1 a) (a4_n2 a) (fun w x y z => a4_get a x y z w).
Definition roll_3_1 {A} (a : arr4 A) : arr4 A := mkArr4 (a4_n0 a) (a4_n3 a) (a4_n1 a) (a4_n2 a) (fun x w y z => a4_get a x y z w).
(** reshape((n0, n1, n2 * n3)) then [:, :, i]: element i of the two last axes is (i / n3, i mod n3). *)
Definition matrix_of {A} (a : arr4 A) (i : nat) : list (list A) :=
  map (fun x => map (fun y => a4_get a x y (i / a4_n3 a) (i mod a4_n3 a)) (seq 0 (a4_n1 a))) (seq 0 (a4_n0 a)).
(** interpolation.py:148-150 *)
Definition cost_matrix {A} (data : arr4 A) (i : nat) : list (list A) := matrix_of (roll_3_1 (roll_3_0 data)) i.

(** interpolation.py:92-99: the sign is changed to look for a minimum, +inf becomes NaN. *)
Definition prepare (t : measure) (m : list (list cost)) : list (list cost) :=
  map (map (fun x => match (match t with MeasureMax => c_neg x | MeasureMin => x end) with CInf true => CNan | y => y end)) m.

(** Points that are not NaN, row by row: index of the row (np.nonzero(~nans)[0]) and value. *)
Definition known_points (m : list (list cost)) : list (nat * cost) :=
  flat_map (fun p : nat * list cost => map (fun x => (fst p, x)) (List.filter (fun x => negb (c_isnan x)) (snd p))) (combine (seq 0 (length m)) m).
(** np.interp (external, modelled from its source) at x between two consecutive points; -inf is the only infinity left and absorbs the rest. *)
Definition between (p p' : nat * cost) (x : nat) : cost :=
  match snd p, snd p' with
  | CFin a, CFin b => CFin ((b - a) / inject_Z (Z.of_nat (fst p' - fst p)) * inject_Z (Z.of_nat (x - fst p)) + a)%Q
  | _, _ => CInf false
  end.
(** [prev] is the last point at or before x, if any. *)
Fixpoint np_interp (prev : option (nat * cost)) (pts : list (nat * cost)) (x : nat) : cost :=
  match pts with
  | [] => match prev with Some p => snd p | None => CNan end
  | p :: r =>
      if fst p <=? x then np_interp (Some p) r x
      else match prev with None => snd p | Some q => if fst q =? x then snd q else between q p x end
  end.
(** interpolation.py:101-112: missing costs are interpolated along the index of the row alone. *)
Definition fill_missing (m : list (list cost)) : list (list cost) :=
  let pts := known_points m in
  map (fun p : nat * list cost => map (fun x => if c_isnan x then np_interp None pts (fst p) else x) (snd p)) (combine (seq 0 (length m)) m).

Section Interpolation.
  (** scipy's interp2d (cubic) and minimize (interpolation.py:113-121): the function interpolated from the columns disparities, the row disparities and
      the costs; the point found from a starting point with bounds. Disparities of the cost volumes are rational numbers. *)
  Variable interp : list Q -> list Q -> list (list cost) -> num -> num -> cost.
  Variable minimise : (num -> num -> cost) -> num * num -> (Q * Q) * (Q * Q) -> num * num.

  (** interpolation.py:67-124 (compute_cost_matrix). First and last coordinates: IndexError (None) without disparity.
      The arguments coords_pix_row and coords_pix_col are given the column and the row: the start is (column, row). *)
  Definition compute_cost_matrix (t : measure) (disp_col disp_row : list Q) (coords_pix_row coords_pix_col : num) (m : list (list cost)) : option (num * num * cost) :=
    match disp_col, disp_row with
    | c0 :: _, r0 :: _ =>
        let bounds := ((c0, last disp_col c0), (r0, last disp_row r0)) in
        let x0 := (coords_pix_row, coords_pix_col) in
        let matrix_cost := prepare t m in
        if forallb (forallb c_isnan) matrix_cost then Some (None, None, CNan)
        else
          let full := if existsb (existsb c_isnan) matrix_cost then fill_missing matrix_cost else matrix_cost in
          let f := interp disp_col disp_row full in
          let '(delta_col, delta_row) := minimise f x0 bounds in
          Some (delta_col, delta_row, c_abs (f delta_col delta_row))
    | _, _ => None
    end.

  (** interpolation.py:126-172 (refinement_method). Pool.map gives the results in the order of the arguments. None: an error (in particular an
      empty list of results, or a map of another size). *)
  Definition interpolation_refinement (t : measure) (disp_col disp_row : list Q) (data : arr4 cost) (col_map row_map : list (list num))
      : option (list (list num) * list (list num) * list (list cost)) :=
    let list_row := concat row_map in
    let list_col := concat col_map in
    match map_opt (fun i => match nth_error list_col i, nth_error list_row i with
                            | Some c, Some r => compute_cost_matrix t disp_col disp_row c r (cost_matrix data i)
                            | _, _ => None end) (seq 0 (a4_n0 data * a4_n1 data)) with
    | Some (x :: l) =>
        let map_carte := x :: l in
        let n := length col_map in
        let m := match col_map with [] => 0 | line :: _ => length line end in
        bind (reshape2 n m (map (fun p : num * num * cost => fst (fst p)) map_carte)) (fun delta_col =>
        bind (reshape2 n m (map (fun p : num * num * cost => snd (fst p)) map_carte)) (fun delta_row =>
        bind (reshape2 n m (map (fun p : num * num * cost => snd p) map_carte)) (fun score => Some (delta_col, delta_row, score))))
    | _ => None
    end.
End Interpolation.
