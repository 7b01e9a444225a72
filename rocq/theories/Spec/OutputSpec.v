(** What the files of a run must be. *)
From Coq Require Import Sorted List String Bool ZArith QArith.
From Verif Require Import Base.Json Base.Dict Model.RoiModel Model.OutputModel.
Import ListNotations.
Open Scope string_scope.
Open Scope list_scope.

(** The files of the maps, in the output folder. *)
Definition map_files (output : path) : list path :=
  [output ++ ["row_disparity.tif"]; output ++ ["columns_disparity.tif"]; output ++ ["correlation_score.tif"]; output ++ ["report.json"]].
Definition config_file (output : path) : path := output ++ ["cfg"; "config.json"].
(** The three rasters, with the same transform, and the report. *)
Definition maps_on_disk {A} (output : path) (saved : dmaps A) (report : json) (d : disk A) : Prop :=
  file d (output ++ ["row_disparity.tif"]) = Some (Raster (dm_row_map saved) (dm_transform saved)) /\
  file d (output ++ ["columns_disparity.tif"]) = Some (Raster (dm_col_map saved) (dm_transform saved)) /\
  file d (output ++ ["correlation_score.tif"]) = Some (Raster (dm_score saved) (dm_transform saved)) /\
  file d (output ++ ["report.json"]) = Some (Text report).
(** Nothing is different outside of these files. *)
Definition others_kept {A} (written : list path) (d d' : disk A) : Prop := forall p, ~ In p written -> file d' p = file d p.
(** The program can write in this folder: none of its folders is a file, none of its files is a folder, and only folders are above folders. *)
Definition beginning (p q : path) : Prop := exists r, q = p ++ r.
Definition writable {A} (output : path) (d : disk A) : Prop :=
  (forall p, beginning p (output ++ ["cfg"]) -> file d p = None) /\
  (forall p, In p (config_file output :: map_files output) -> is_folder p d = false).

(** The name of a step in the tables. *)
Inductive labelled : string -> string -> Prop :=
| l_estimation : labelled "estimation" "Estimation step"
| l_matching_cost : labelled "matching_cost" "Matching cost step"
| l_disparity : labelled "disparity" "Disparity step"
| l_refinement : labelled "refinement" "Refinement step".
(** The k-th row of the table: the name of the k-th step and what was measured. *)
Definition measures (sample : nat -> row) (steps : list string) (rows : list row) : Prop :=
  List.length rows = List.length steps /\
  forall k step r, nth_error steps k = Some step -> nth_error rows k = Some r -> exists name, labelled step name /\ w_name r = name /\
    w_time r = w_time (sample k) /\ w_cpu_time r = w_cpu_time (sample k) /\ w_memory r = w_memory (sample k) /\ w_start r = w_start (sample k) /\
    w_end r = w_end (sample k) /\ w_cpu r = w_cpu (sample k).
(** The rows left in the working directory before the run. *)
Inductive left_over {A} : option (content A) -> list row -> Prop :=
| lo_none : left_over None []
| lo_some l : left_over (Some (Table l)) l.

(** The names of a table, each one once, in increasing order. *)
Definition smaller (a b : string) : Prop := String.compare a b = Lt.
Definition names_of (rows : list row) (l : list string) : Prop := StronglySorted smaller l /\ forall n, In n l <-> exists r, In r rows /\ w_name r = n.
(** The known values of a column for one name, in the order of the table. *)
Inductive values_of (f : row -> option Q) (name : string) : list row -> list Q -> Prop :=
| vo_nil : values_of f name [] []
| vo_other r l v : w_name r <> name -> values_of f name l v -> values_of f name (r :: l) v
| vo_missing r l v : w_name r = name -> f r = None -> values_of f name l v -> values_of f name (r :: l) v
| vo_known r l q v : w_name r = name -> f r = Some q -> values_of f name l v -> values_of f name (r :: l) (q :: v).
Definition sum_of (l : list Q) : Q := fold_right Qplus 0%Q l.
Definition bar_total (f : row -> Q) (rows : list row) (bar : string * option Q) : Prop :=
  exists v x, values_of (fun r => Some (f r)) (fst bar) rows v /\ snd bar = Some x /\ (x == sum_of v)%Q.
Definition bar_mean (f : row -> Q) (rows : list row) (bar : string * option Q) : Prop :=
  exists v x, values_of (fun r => Some (f r)) (fst bar) rows v /\ snd bar = Some x /\ (x * inject_Z (Z.of_nat (List.length v)) == sum_of v)%Q.
Definition bar_count (rows : list row) (bar : string * option Q) : Prop :=
  exists v x, values_of (fun r => Some 0%Q) (fst bar) rows v /\ snd bar = Some x /\ (x == inject_Z (Z.of_nat (List.length v)))%Q.
Definition bar_value (bar : string * option Q) : Q := match snd bar with Some x => x | None => 0%Q end.
(** The marks of a box: at one quarter, one half and three quarters between the mean and the sum of the values, from the least; all zero without values. *)
Definition box_marks (f : row -> option Q) (rows : list row) (b : string * (Q * Q * Q)) : Prop :=
  exists v, values_of f (fst b) rows v /\ let '(q1, med, q3) := snd b in
    (v = [] /\ q1 == 0 /\ med == 0 /\ q3 == 0 \/
     v <> [] /\ exists m lo hi, m * inject_Z (Z.of_nat (List.length v)) == sum_of v /\ (lo == m /\ hi == sum_of v \/ lo == sum_of v /\ hi == m) /\ lo <= hi /\
       q1 == lo + (1 # 4) * (hi - lo) /\ med == (lo + hi) / inject_Z 2 /\ q3 == hi - (1 # 4) * (hi - lo))%Q.
