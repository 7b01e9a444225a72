(** Model of the files that pandora2d.main leaves on the disk: maps, report, configuration, profiling tables and figures. *)
From Coq Require Import List String Bool ZArith QArith.
From Verif Require Import Base.Dict Base.Json Model.RoiModel Model.MachineModel Model.StatisticsModel.
Import ListNotations.
Open Scope string_scope.
Open Scope list_scope.

(** A path: the names of the folders, then of the file. *)
Definition path := list string.
Definition path_eqb (p q : path) : bool := if list_eq_dec string_dec p q then true else false.

(** profiling.py:202: one row of the CSV file. The two maxima are missing (None) when the monitoring thread did not answer. *)
Record row := mkRow { w_name : string; w_time : Q; w_cpu_time : Q; w_memory : option Q; w_start : Q; w_end : Q; w_cpu : option Q }.

(** profiling.py:235-287: bars (name, length; None is NaN) or boxes (name, first quartile, median, third quartile) with the unit of the axis. *)
Inductive figure :=
| Bars (title : string) (bars : list (string * option Q))
| Boxes (title : string) (unit : string) (boxes : list (string * (Q * Q * Q))).

(** Contents of the files: rasters (the crs is that of the left image, it is not modelled), JSON files, CSV files with the header of profiling.py:213-223,
    PDF files. The exact bytes are not modelled. *)
Inductive content (A : Type) :=
| Raster (pixels : list (list A)) (transform : option affine)
| Text (j : json)
| Table (rows : list row)
| Figures (l : list figure).
Arguments Raster {A}. Arguments Text {A}. Arguments Table {A}. Arguments Figures {A}.

(** The folders (the root [[]] is always there) and the files. *)
Record disk (A : Type) := mkDisk { d_folders : list path; d_files : list (path * content A) }.
Arguments mkDisk {A}. Arguments d_folders {A}. Arguments d_files {A}.

Section Disk.
  Context {A : Type}.
  Notation disk := (disk A).
  Notation content := (content A).

  Definition is_folder (p : path) (d : disk) : bool := path_eqb p [] || existsb (path_eqb p) (d_folders d).
  Fixpoint find_file (p : path) (l : list (path * content)) : option content :=
    match l with [] => None | (q, c) :: r => if path_eqb p q then Some c else find_file p r end.
  Definition file (d : disk) (p : path) : option content := find_file p (d_files d).

  (** Operations on the disk; None is an OSError. *)
  Definition action := disk -> option disk.
  (** os.mkdir with exist_ok. *)
  Definition mkdir (p : path) : action := fun d =>
    match file d p with
    | Some _ => None
    | None => if is_folder p d then Some d else if is_folder (removelast p) d then Some (mkDisk (p :: d_folders d) (d_files d)) else None
    end.
  (** pandora.common.mkdir_p: the folders one after the other. *)
  Fixpoint prefixes (p : path) : list path := match p with [] => [[]] | x :: r => [] :: map (cons x) (prefixes r) end.
  Definition mkdir_p (p : path) : list action := map mkdir (prefixes p).
  (** open(..., "w"), rasterio.open(..., "w"), PdfPages. *)
  Definition write (p : path) (c : content) : action := fun d =>
    if is_folder p d then None else if is_folder (removelast p) d then Some (mkDisk (d_folders d) ((p, c) :: d_files d)) else None.
  Definition remove (p : path) : action := fun d =>
    match file d p with Some _ => Some (mkDisk (d_folders d) (List.filter (fun e => negb (path_eqb p (fst e))) (d_files d))) | None => None end.
  (** shutil.copy, an error when both paths are the same file. *)
  Definition copy (p q : path) : action := fun d =>
    if path_eqb p q then None else match file d p with Some c => write q c d | None => None end.
  (** profiling.py:205-226: the header is written only once. A file of that name that is not such a table is not modelled (error). *)
  Definition append_row (p : path) (r : row) : action := fun d =>
    match file d p with
    | Some (Table l) => write p (Table (l ++ [r])) d
    | Some _ => None
    | None => write p (Table [r]) d
    end.
  (** The actions are performed until an error: what is on the disk, whether there was no error. *)
  Fixpoint perform (l : list action) (d : disk) : disk * bool :=
    match l with
    | [] => (d, true)
    | a :: r => match a d with Some d' => perform r d' | None => (d, false) end
    end.
  (** An error outside the disk. *)
  Definition raise : action := fun _ => None.
End Disk.

(** *** The figures of the summary *)

(** pandas.DataFrame.groupby: the names in increasing order, each one once. *)
Fixpoint add_name (s : string) (l : list string) : list string :=
  match l with
  | [] => [s]
  | x :: r => match String.compare s x with Lt => s :: l | Eq => l | Gt => x :: add_name s r end
  end.
Definition names (rows : list row) : list string := fold_right (fun r l => add_name (w_name r) l) [] rows.
Definition group (name : string) (rows : list row) : list row := List.filter (fun r => w_name r =? name) rows.
(** agg(["mean", "sum"]): missing values are ignored, the mean of nothing is NaN. *)
Definition known (f : row -> option Q) (rows : list row) : list Q := flat_map (fun r => match f r with Some q => [q] | None => [] end) rows.
Definition total (l : list Q) : Q := fold_right Qplus 0%Q l.
Definition average (l : list Q) : option Q := over (total l) (List.length l).
(** profiling.py:265-277, DataFrame.describe of the transposed table: quartiles of the two values mean and sum (of the sum alone when the mean is NaN). *)
Definition box (l : list Q) : Q * Q * Q :=
  match average l with
  | None => (total l, total l, total l)
  | Some m => let lo := if Qle_bool m (total l) then m else total l in let hi := if Qle_bool m (total l) then total l else m in
      (lo + (1 # 4) * (hi - lo), lo + (1 # 2) * (hi - lo), lo + (3 # 4) * (hi - lo))%Q
  end.
(** profiling.py:310-382. grouped["Function_name"].value_counts().reset_index() is taken as one line per name with its number of rows. *)
Definition figures (rows : list row) : list figure :=
  let bars f := map (fun n => (n, f (group n rows))) (names rows) in
  let boxes f := map (fun n => (n, box (known f (group n rows)))) (names rows) in
  let time := known (fun r => Some (w_time r)) in
  let cpu_time := known (fun r => Some (w_cpu_time r)) in
  [ Bars "Mean time" (bars (fun g => average (time g)));
    Bars "Total time" (bars (fun g => Some (total (time g))));
    Bars "Mean CPU time" (bars (fun g => average (cpu_time g)));
    Bars "Total CPU time" (bars (fun g => Some (total (cpu_time g))));
    Boxes "Max CPU" "MiB" (boxes w_cpu);
    Boxes "Maximum memory per task" "MiB" (boxes w_memory);
    Bars "Number of calls" (bars (fun g => Some (inject_Z (Z.of_nat (List.length g))))) ].

(** *** What main writes *)
Section Output.
  Context {A : Type}.
  (** Output folder, working directory, timestamp of the process (profiling.py:59, fixed when the module is imported). *)
  Variable output cwd : path.
  Variable timestamp : string.
  (** The names in a relative path written with "/". *)
  Variable components : string -> path.

  (** common.py:74-93 *)
  Definition write_maps (saved : dmaps A) : list (action (A := A)) :=
    mkdir_p output ++
    [ write (output ++ ["row_disparity.tif"]) (Raster (dm_row_map saved) (dm_transform saved));
      write (output ++ ["columns_disparity.tif"]) (Raster (dm_col_map saved) (dm_transform saved));
      write (output ++ ["correlation_score.tif"]) (Raster (dm_score saved) (dm_transform saved)) ].
  (** __init__.py:128-130 *)
  Definition write_report (report : json) : list (action (A := A)) := [ write (output ++ ["report.json"]) (Text report) ].
  (** pandora.common.save_config (__init__.py:134) *)
  Definition save_config (cfg : dict) : list (action (A := A)) :=
    mkdir_p (output ++ ["cfg"]) ++ [ write (output ++ ["cfg"; "config.json"]) (Text (JDict cfg)) ].

  Definition csv_name : string := timestamp ++ "_profiling.csv".
  Definition pdf_name : string := timestamp ++ "_graph_perf.pdf".
  (** profiling.py:204-226, once for each call that ends without error. *)
  Definition timed (rows : list row) : list (action (A := A)) := map (append_row (cwd ++ [csv_name])) rows.
  (** profiling.py:290-386 *)
  Definition generate_summary (folder_name : string) : list (action (A := A)) :=
    let folder := output ++ components folder_name in
    [ mkdir folder;
      copy (cwd ++ [csv_name]) (folder ++ [csv_name]);
      remove (cwd ++ [csv_name]);
      fun d => match file d (folder ++ [csv_name]) with
               | Some (Table rows) => write (folder ++ [pdf_name]) (Figures (figures rows)) d
               | _ => None
               end ].

  (** __init__.py:124-140, after the run: [maps] are the maps and the report, if there is a disparity step. *)
  Definition finish_run (maps : option (dmaps A * json)) (cfg : dict) : list (action (A := A)) :=
    match maps with Some (saved, report) => write_maps saved ++ write_report report | None => [] end ++
    save_config cfg ++
    match get_path ["expert_mode"; "profiling"; "folder_name"] (JDict cfg) with
    | Some (JStr s) => generate_summary s
    | _ => if existsb (String.eqb "expert_mode") (keys cfg) then [raise] else []
    end.
End Output.

(** state_machine.py:314, 337, 353, 381: the names given to the four decorated functions. *)
Definition label_of (step : string) : string :=
  let s := before_dot step in
  if s =? "estimation" then "Estimation step" else if s =? "matching_cost" then "Matching cost step"
  else if s =? "disparity" then "Disparity step" else "Refinement step".
