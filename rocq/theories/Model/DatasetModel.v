(** Model of the checks done on the datasets and on the disparities of the configuration, and of the creation of the
    dataset of the disparity maps. *)
From Coq Require Import List String Bool ZArith QArith.
From Verif Require Import Base.PyList Base.Arr Base.Json.
Import ListNotations.
Open Scope Z_scope.
Open Scope string_scope.
Open Scope list_scope.

(** What check_datasets reads of an image dataset: the shapes of its variables, and the rest ([ds_rest], looked at by Pandora only). *)
Record image_dataset (R : Type) := mkDataset { ds_shapes : list (string * list nat); ds_rest : R }.
Arguments mkDataset {R}. Arguments ds_shapes {R}. Arguments ds_rest {R}.
Definition has {R} (d : image_dataset R) (v : string) : bool := match lookup v (ds_shapes d) with Some _ => true | None => false end.

Fixpoint nats_eqb (a b : list nat) : bool :=
  match a, b with [], [] => true | x :: a', y :: b' => Nat.eqb x y && nats_eqb a' b' | _, _ => false end.

(** Slice x[-2:] of a shape. *)
Definition last_two (l : list nat) : list nat := py_slice (-2) (Z.of_nat (List.length l)) l.

(** check_configuration.py:48-69 (check_datasets): true when no error is raised. [pandora_check_dataset] is pandora's check_dataset
    (external). A dataset without "im" gives a KeyError. *)
Definition check_datasets {R} (pandora_check_dataset : image_dataset R -> bool) (left right : image_dataset R) : bool :=
  pandora_check_dataset left && pandora_check_dataset right &&
  negb (negb (has left "col_disparity") || negb (has left "row_disparity")) &&
  match lookup "im" (ds_shapes left), lookup "im" (ds_shapes right) with
  | Some a, Some b => nats_eqb (last_two a) (last_two b)
  | _, _ => false
  end.

(** img_tools.py:111-124 (check_disparity_presence) *)
Definition missing (input : dict) : list string :=
  filter (fun k => negb (existsb (fun k' => k =? k') (keys input))) ["col_disparity"; "row_disparity"].
Definition check_disparity_presence (input : dict) : bool :=
  if Nat.eqb (List.length (missing input)) 1 then false else if Nat.eqb (List.length (missing input)) 2 then false else true.

(** img_tools.py:127-154 (check_disparity_types). isinstance(x, int) is true of booleans. *)
Definition is_int (j : json) : bool := match j with JInt _ | JBool _ => true | _ => false end.
Definition is_str (j : json) : bool := match j with JStr _ => true | _ => false end.
(** x < 0; None is python's TypeError. *)
Definition negative (j : json) : option bool :=
  match j with
  | JInt z => Some (Z.ltb z 0)
  | JBool _ => Some false
  | JFloat q => Some (negb (Qle_bool 0 q))
  | JNan => Some false
  | JInf b => Some (negb b)
  | _ => None
  end.
Definition same_keys (d : dict) (l : list string) : bool :=
  forallb (fun k => existsb (fun k' => k =? k') l) (keys d) && forallb (fun k => existsb (fun k' => k =? k') (keys d)) l.
Definition check_disparity_types (disparity : json) : bool :=
  match disparity with
  | JDict d =>
      if negb (same_keys d ["init"; "range"]) then false else
      match lookup "init" d, lookup "range" d with
      | Some i, Some r =>
          if negb (is_int i || is_str i) then false else
          match negative r with
          | Some n => if n || negb (is_int r) then false else true
          | None => false
          end
      | _, _ => false
      end
  | _ => false
  end.
(** img_tools.py:97-108 (check_disparities) *)
Definition check_disparities (input : dict) : bool :=
  check_disparity_presence input &&
  match lookup "col_disparity" input, lookup "row_disparity" input with
  | Some c, Some r => check_disparity_types c && check_disparity_types r
  | _, _ => false
  end.

(** Datasets of the disparity maps: row and column coordinates, the three maps and the attributes. *)
Record maps_dataset (A V : Type) := mkMaps {
  md_row : list Z; md_col : list Z; md_row_map : arr2 A; md_col_map : arr2 A; md_score : arr2 A; md_attrs : V }.
Arguments mkMaps {A V}. Arguments md_row {A V}. Arguments md_col {A V}. Arguments md_row_map {A V}. Arguments md_col_map {A V}.
Arguments md_score {A V}. Arguments md_attrs {A V}.

(** xarray (external): creation of a DataArray with two dimensions; sizes that do not match give a ValueError. *)
Definition data_array {A} (data : arr2 A) (row col : list Z) : option (arr2 A) :=
  if Nat.eqb (a2_n0 data) (List.length row) && Nat.eqb (a2_n1 data) (List.length col) then Some data else None.

(** common.py:144-195 (dataset_disp_maps); [no_attrs] are the attributes of a fresh dataset. *)
Definition dataset_disp_maps {A V} (no_attrs : V) (delta_row delta_col : arr2 A) (coords : list (string * list Z))
    (correlation_score : arr2 A) (attributes : option V) : option (maps_dataset A V) :=
  match lookup "col" coords with
  | None => None
  | Some col =>
      match lookup "row" coords with
      | None => None
      | Some row =>
          match data_array delta_row row col, data_array delta_col row col, data_array correlation_score row col with
          | Some r, Some c, Some s => Some (mkMaps row col r c s (match attributes with Some a => a | None => no_attrs end))
          | _, _, _ => None
          end
      end
  end.
