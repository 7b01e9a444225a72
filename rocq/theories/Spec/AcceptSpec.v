(** The configurations that are accepted, described on the values written by the user. *)
From Coq Require Import List String Bool ZArith.
From Verif Require Import Base.Json Base.Arr Model.InputModel Spec.ConfigSpec Spec.InputSpec Spec.MachineSpec.
Import ListNotations.
Open Scope Z_scope.
Open Scope string_scope.
Open Scope list_scope.

(** A value or a whole section, read with the three strings that stand for floats. *)
Inductive reads_cfg : json -> json -> Prop :=
| reads_leaf j j' : is_dict j = false -> reads_as j j' -> reads_cfg j j'
| reads_dict d d' : keys d' = keys d -> (forall k v v', lookup k d = Some v -> lookup k d' = Some v' -> reads_cfg v v') -> reads_cfg (JDict d) (JDict d').

(** The value of a key: the one of the user, or the default when there is none (or an empty dictionary). *)
Definition value_or (k : string) (def : json) (u : dict) (v : json) : Prop :=
  lookup k u = None /\ v = def \/ lookup k u = Some (JDict []) /\ v = def \/
  exists w, lookup k u = Some w /\ is_dict w = false /\ reads_as w v.
Definition required (k : string) (u : dict) (v : json) : Prop := exists w, lookup k u = Some w /\ is_dict w = false /\ reads_as w v.
Definition only (l : list string) (u : dict) : Prop := forall k, lookup k u <> None -> In k l.

Section Accept.
  Variable bool_ok : bool.
  (** Pandora's check of the matching cost (window size, subpix, spline order); whether a file can be opened; whether images and masks
      (left image, right image, left mask, right mask) have compatible sizes; size of an image; content of a grid. *)
  Variable pandora_check : dict -> option (json * json * json).
  Variable can_open_mandatory can_open : json -> bool.
  Variable images_ok : json -> json -> json -> json -> bool.
  Variable image_size : string -> nat * nat.
  Variable open_raster : string -> reader.

  (** * Input *)
  Definition nodata_ok (j : json) : Prop := integer bool_ok (fun _ => True) j \/ one_special j.
  Definition image_accepted (j : json) (img : string) (nodata mask : json) : Prop :=
    exists u, j = JDict u /\ only ["img"; "nodata"; "mask"] u /\
      required "img" u (JStr img) /\ can_open_mandatory (JStr img) = true /\
      value_or "nodata" (JInt (-9999)) u nodata /\ nodata_ok nodata /\
      value_or "mask" JNull u mask /\ (mask = JNull \/ exists s, mask = JStr s) /\ can_open mask = true.
  (** A disparity of the user: its initial value and its range; all of it can be missing with an estimation. *)
  Definition disparity_accepted (estimation : bool) (j : option json) (init : json) (range : Z) : Prop :=
    exists u r, (j = Some (JDict u) \/ estimation = true /\ j = None /\ u = []) /\ only ["init"; "range"] u /\
      (if estimation then value_or "init" (JInt (-9997)) u init /\ value_or "range" (JInt 2) u r
       else required "init" u init /\ required "range" u r) /\
      (integer bool_ok (fun _ => True) init \/ can_open init = true) /\ int_value bool_ok r range /\ 0 <= range.
  Inductive constant : json -> Z -> Prop :=
  | constant_int z : constant (JInt z) z
  | constant_bool b : constant (JBool b) (Z.b2z b).
  (** One band of the size of the image, every value reaches the image. *)
  Definition grid_accepted (f : reader) (rows cols size : nat) (range : Z) : Prop :=
    rd_count f = 1%nat /\ a2_n0 (rd_band f) = rows /\ a2_n1 (rd_band f) = cols /\
    forall r c, in2 (rd_band f) r c -> reaches (a2_get (rd_band f) r c) range size.
  (** Two constants or two grids, that reach the image. *)
  Definition disparities_inside (rows cols : nat) (row_init : json) (row_range : Z) (col_init : json) (col_range : Z) : Prop :=
    (exists r c, constant row_init r /\ constant col_init c /\ reaches r row_range rows /\ reaches c col_range cols) \/
    (exists r c, row_init = JStr r /\ col_init = JStr c /\
       grid_accepted (open_raster r) rows cols rows row_range /\ grid_accepted (open_raster c) rows cols cols col_range).
  (** [right_nodata]: no-data value of the right image. *)
  Definition input_accepted (estimation : bool) (j : json) (right_nodata : json) : Prop :=
    exists u l r left right left_nodata left_mask right_mask row_init row_range col_init col_range,
      j = JDict u /\ only ["left"; "right"; "col_disparity"; "row_disparity"] u /\
      lookup "left" u = Some l /\ image_accepted l left left_nodata left_mask /\
      lookup "right" u = Some r /\ image_accepted r right right_nodata right_mask /\
      images_ok (JStr left) (JStr right) left_mask right_mask = true /\
      disparity_accepted estimation (lookup "row_disparity" u) row_init row_range /\
      disparity_accepted estimation (lookup "col_disparity" u) col_init col_range /\
      (estimation = false -> disparities_inside (fst (image_size left)) (snd (image_size left)) row_init row_range col_init col_range).

  (** * Pipeline *)
  (** A configuration of the matching cost with its method and its window size. *)
  Definition matching_cost_accepted (c : dict) (method : string) (window : json) : Prop :=
    exists a b s o, lookup "matching_cost_method" c = Some (JStr method) /\ In method ["ssd"; "sad"; "zncc"; "mc_cnn"] /\
      match lookup "step" c with Some x => x | None => JList [JInt 1; JInt 1] end = JList [a; b] /\
      number_at_least_one a /\ number_at_least_one b /\ pandora_check (assign "step" b c) = Some (window, s, o).
  (** [method]: method of the matching cost, if any. *)
  Definition steps_accepted (p : dict) (method : option string) : Prop :=
    exists window : option json,
      (lookup "matching_cost" p = None /\ method = None /\ window = None \/
       exists c m w, lookup "matching_cost" p = Some (JDict c) /\ method = Some m /\ window = Some w /\ matching_cost_accepted c m w) /\
      (forall c, lookup "estimation" p = Some c -> exists d, c = JDict d /\ described (estimation_fields bool_ok) d) /\
      (forall c, lookup "disparity" p = Some c -> exists d, c = JDict d /\ described (disparity_fields bool_ok) d) /\
      (forall c, lookup "refinement" p = Some c -> exists d, c = JDict d /\
         (described (dichotomy_fields bool_ok) d \/ described interpolation_fields d \/
          described (optical_flow_fields bool_ok) d /\ exists w, window = Some w /\ odd_window bool_ok w)).

  (** * The whole *)
  Definition expert_mode_accepted (j : option json) : Prop :=
    j = None \/ j = Some (JDict []) \/
    exists d f, j = Some (JDict d) /\ lookup "profiling" d = Some (JDict f) /\ only ["folder_name"] f /\ exists s, lookup "folder_name" f = Some (JStr s).
  Definition accepted (user : dict) : Prop :=
    exists raw p method input right_nodata,
      lookup "pipeline" user = Some (JDict raw) /\ reads_cfg (JDict raw) (JDict p) /\
      documented (keys p) /\ steps_accepted p method /\
      lookup "input" user = Some input /\
      input_accepted (match lookup "estimation" p with Some _ => true | None => false end) input right_nodata /\
      (method = Some "sad" \/ method = Some "ssd" -> (exists z, right_nodata = JInt z) \/ (exists b, right_nodata = JBool b)) /\
      (lookup "ROI" user = None \/
       exists j roi, lookup "ROI" user = Some j /\ reads_cfg j (JDict roi) /\ described (roi_fields bool_ok) roi) /\
      expert_mode_accepted (lookup "expert_mode" user).
End Accept.
