(** C107: the command line. *)
From Coq Require Import List String Bool ZArith QArith Lia.
From Verif Require Import Base.Ext Base.PyList Base.Arr Base.Json Base.Dict Model.CommonModel Model.DisparityModel Model.MatchingCostModel Model.DichotomyModel
  Model.RoiModel Model.InputModel Model.ConfigModel Model.DatasetModel Model.EstimationModel Model.OpticalFlowModel Model.InterpolationModel Model.MachineModel Model.CheckConfModel
  Model.PipelineModel Model.WholeModel Model.ImgShiftModel Model.OutputModel Model.WholeFilesModel Model.CommandModel
  Spec.MatchingCostSpec Spec.DichotomySpec Spec.RoiSpec Spec.PipelineSpec Spec.ConfigSpec Spec.InputSpec Spec.MachineSpec Spec.CheckConfSpec Spec.AcceptSpec Spec.WholeSpec Spec.BestSpec Spec.WtaSpec Spec.ShiftSpec Spec.WholeEverySpec Spec.OutputSpec Spec.CommandSpec
  Proofs.CheckConfProofs Proofs.AcceptProofs Proofs.WholeProofs Proofs.OutputProofs Proofs.WholeFilesProofs Proofs.CommandProofs
  Props.CheckConfProps Props.WholeProps Props.WholeMoreProps Props.WholeEveryProps Props.OutputProps.
Import ListNotations.
Open Scope Z_scope.
Open Scope string_scope.
Open Scope list_scope.


(** * C107: the lines that run the pipeline, and with what *)
Theorem C107_line l config path_output verbose : parse l = Run config path_output verbose <-> reads l [config; path_output] verbose.
Proof.
  unfold parse. split.
  - destruct (existsb _ (items l)); [discriminate|]. intros H. destruct (parse_reads l [] false false _ _ _ H) as (_ & files & v & R & E & ->). rewrite app_nil_r in E.
    assert (files = [config; path_output]) as -> by (rewrite <- (rev_involutive files), E; reflexivity). exact R.
  - intros R. destruct (reads_parse _ _ _ R) as [A P]. unfold ambiguous in A. rewrite A, P. reflexivity.
Qed.
(** Any other line: at most the help is displayed, nothing is read or written. *)
Theorem C107_other {D U P : Type} (read : string -> option U) (path_of : string -> P) run l (d : D) : (forall config path_output verbose, ~ reads l [config; path_output] verbose) -> fst (command read path_of run l d) = d.
Proof.
  intros N. unfold command. destruct (parse l) as [c o v| |] eqn:E; [|reflexivity|reflexivity]. apply C107_line in E. elim (N c o v E).
Qed.
(** Only the two files matter: the options, their places and their abbreviations change nothing to what is written. *)
Theorem C107_same {D U P : Type} (read : string -> option U) (path_of : string -> P) run l l' config path_output v v' (d : D) : reads l [config; path_output] v -> reads l' [config; path_output] v' ->
  command read path_of run l d = command read path_of run l' d.
Proof. intros R R'. apply C107_line in R, R'. unfold command. now rewrite R, R'. Qed.
(** A configuration that cannot be read: an error, nothing is written. *)
Theorem C107_unread {D U P : Type} (read : string -> option U) (path_of : string -> P) run l config path_output v (d : D) : reads l [config; path_output] v -> read config = None ->
  command read path_of run l d = (d, false).
Proof. intros R E. apply C107_line in R. unfold command. now rewrite R, E. Qed.
(** The other lines are errors, unless the help is asked before any error. *)
Theorem C107_help l : parse l = Help <-> helps l.
Proof. exact (parse_help l). Qed.
Theorem C107_error {D U P : Type} (read : string -> option U) (path_of : string -> P) run l (d : D) : (forall config path_output verbose, ~ reads l [config; path_output] verbose) ->
  (snd (command read path_of run l d) = true <-> helps l).
Proof.
  intros N. rewrite <- C107_help. unfold command. destruct (parse l) as [c o v| |] eqn:E; cbn [snd]; [apply C107_line in E; elim (N c o v E) | tauto | split; discriminate].
Qed.

Section Program.
  (** The libraries: see WholeModel. *)
  Context {px : Type} (px_eqb : px -> px -> bool) (nan : px).
  Variable bool_ok : bool.
  Variable pandora_check : dict -> option (json * json * json).
  Variable matching_cost_margins : dict -> margins.
  Variable can_open_mandatory can_open : json -> bool.
  Variable images_ok : json -> json -> json -> json -> bool.
  Variable image_size : string -> nat * nat.
  Variable open_raster : string -> reader.
  Variable load : dict -> Z -> nat -> Z -> nat -> image px.
  Variable transform_of : dict -> option affine.
  Variable dataset_ok : image_dataset (image px) -> bool.
  Variable measure_of : dict -> measure.
  Variable offset_of : dict -> Z.
  Variable pandora_cost : dict -> mc_input -> image px -> list (list px) -> list (list Z) -> nat -> nat -> nat -> ext.
  Variable zoomed : image px -> nat -> nat -> nat -> px.
  Variable one : Z.
  Variable store : ext -> ext.
  Variable filter_apply : dict -> list (list ext) -> Z -> Z -> ext.
  Variable lstsq : list (list px) -> list (list px) -> option (num * num).
  Variable resample : list (list px) -> num -> num -> list (list px).
  Variable junk : nat -> list (list px).
  Variable interp : list Q -> list Q -> list (list cost) -> num -> num -> cost.
  Variable minimise : (num -> num -> cost) -> num * num -> (Q * Q) * (Q * Q) -> num * num.
  Variable estimate : json -> image px -> image px -> (Q * Q) * json * json.
  Variable global_margins : list (string * margins) -> list (string * margins) -> margins.
  Variable margins_to_dict : list (string * margins) -> list (string * margins) -> json.
  Notation main := (main px_eqb nan bool_ok pandora_check matching_cost_margins can_open_mandatory can_open images_ok image_size open_raster load transform_of dataset_ok
    measure_of offset_of pandora_cost zoomed one store filter_apply lstsq resample junk interp minimise estimate global_margins margins_to_dict).
  Notation check_user := (check_user px_eqb nan bool_ok pandora_check matching_cost_margins can_open_mandatory can_open images_ok image_size open_raster
    measure_of offset_of pandora_cost zoomed one store filter_apply lstsq resample junk interp minimise estimate).
  Notation libraries := (libraries bool_ok pandora_check images_ok image_size load dataset_ok measure_of pandora_cost one).
  Notation asked := (asked bool_ok pandora_check can_open_mandatory can_open images_ok image_size open_raster).
  Notation programmed := (programmed bool_ok pandora_check can_open_mandatory can_open images_ok image_size open_raster).
  Notation cost_contract := (cost_contract measure_of pandora_cost).
  Notation optimal := (optimal px_eqb nan bool_ok pandora_check matching_cost_margins can_open_mandatory can_open images_ok image_size open_raster load measure_of offset_of pandora_cost zoomed one store
    filter_apply lstsq resample junk interp minimise estimate).
  Variable timestamp : string.
  Variable cwd : path.
  Variable components : string -> path.
  Variable report_of : json -> dmaps cost -> json.
  Notation main_files output := (main_files (fun user => snd (check_user user (new_machine None))) main output cwd timestamp components report_of).
  Notation csv := (cwd ++ [csv_name timestamp]).
  Hypothesis Hpandora : pandora_contract pandora_check.

  Variable read : string -> option dict.
  Variable path_of : string -> path.
  Notation command sample completed := (command read path_of (fun output user => main_files output sample completed user)).

  (** The files of the configuration of the first argument are in the folder of the second one. *)
  Theorem C107_files sample completed l config path_output verbose user d : reads l [config; path_output] verbose -> read config = Some user -> wf (JDict user) -> plain user ->
    match main user with
    | Some out => writable (path_of path_output) d -> exists d', command sample completed l d = (d', true) /\
        (forall saved inv reported, o_maps out = Some saved -> o_reported out = Some (inv, reported) -> maps_on_disk (path_of path_output) saved (report_of inv reported) d') /\
        file d' (config_file (path_of path_output)) = Some (Text (JDict (o_cfg out))) /\ others_kept (config_file (path_of path_output) :: map_files (path_of path_output)) d d'
    | None => command sample completed l d = (d, false)
    end.
  Proof.
    intros R Er W P. apply C107_line in R. unfold CommandModel.command. rewrite R, Er.
    destruct (main user) as [out|] eqn:M.
    - intros Wr. destruct (C95_no_error px_eqb nan bool_ok pandora_check matching_cost_margins can_open_mandatory can_open images_ok image_size open_raster load transform_of dataset_ok
      measure_of offset_of pandora_cost zoomed one store filter_apply lstsq resample junk interp minimise estimate global_margins margins_to_dict timestamp cwd components report_of
      Hpandora (path_of path_output) sample completed user out d W P M Wr) as (d' & E).
      exists d'. split; [exact E|]. destruct (C95_files px_eqb nan bool_ok pandora_check matching_cost_margins can_open_mandatory can_open images_ok image_size open_raster load transform_of dataset_ok
      measure_of offset_of pandora_cost zoomed one store filter_apply lstsq resample junk interp minimise estimate global_margins margins_to_dict timestamp cwd components report_of
      Hpandora (path_of path_output) sample completed user out d d' W P M E) as (F1 & F2 & F3 & _). auto.
    - apply (C95_failed px_eqb nan bool_ok pandora_check matching_cost_margins can_open_mandatory can_open images_ok image_size open_raster load transform_of dataset_ok
      measure_of offset_of pandora_cost zoomed one store filter_apply lstsq resample junk interp minimise estimate global_margins margins_to_dict timestamp cwd components report_of Hpandora). all: assumption.
  Qed.
End Program.

(** ** Examples *)
Lemma only_vs : only_v "vv".
Proof. repeat constructor. Qed.
Example C107_line_example : reads ["-vv"; "cfg.json"; "--verb"; "my out"] ["cfg.json"; "my out"] true /\ parse ["-vv"; "cfg.json"; "--verb"; "my out"] = Run "cfg.json" "my out" true /\
  parse ["--"; "-cfg.json"; "-v"] = Run "-cfg.json" "-v" false /\ parse ["cfg.json"; "-1"] = Run "cfg.json" "-1" false.
Proof.
  split; [|repeat split].
  apply (reads_flag "-vv" _ _ true); [left; exists "vv"; split; [exact only_vs | reflexivity]|]. apply reads_file; [left; discriminate|].
  apply (reads_flag "--verb" _ _ false); [right; exists "erb", "ose"; split; reflexivity|]. apply reads_file; [left; discriminate | constructor].
Qed.
Example C107_other_example : parse ["cfg.json"] = Wrong /\ parse ["cfg.json"; "out"; "more"] = Wrong /\ parse ["-h"; "--unknown"] = Help /\ parse ["cfg.json"; "-out"] = Wrong /\ parse ["--verbose=1"; "cfg.json"; "out"] = Wrong.
Proof. repeat split. Qed.
Example C107_same_example : reads ["cfg.json"; "out"; "-v"] ["cfg.json"; "out"] true /\ reads ["--"; "cfg.json"; "out"] ["cfg.json"; "out"] false.
Proof. split; [apply C107_line; reflexivity | apply C107_line; reflexivity]. Qed.
(** The help is displayed although the files are missing and an option is unknown; not after an option with a value, nor with --=. *)
Example C107_help_example : helps ["-x"; "cfg.json"; "-vh"; "--verbose=1"] /\ parse ["-x"; "cfg.json"; "-vh"; "--verbose=1"] = Help /\ parse ["--verbose=1"; "-h"] = Wrong /\ parse ["-h"; "--=1"] = Wrong /\ parse ["--"; "-h"] = Wrong /\
  parse ["--he"; "--"; "--=1"] = Help.
Proof. split; [apply C107_help; reflexivity | repeat split]. Qed.
Definition cl_read (s : string) : option dict := if s =? "cfg.json" then Some wh_user1 else if s =? "step.json" then Some wh_user3 else None.
Definition cl_command : list string -> disk cost -> disk cost * bool := command cl_read (fun s => [s]) (fun output user => ou_files output ou_sample 0 user).
Example C107_files_example : cl_read "cfg.json" = Some wh_user1 /\ wf (JDict wh_user1) /\ plain wh_user1 /\ writable ["out"] ou_disk /\
  (let (d, ok) := cl_command ["cfg.json"; "-v"; "out"] ou_disk in ok = true /\ file d ["out"; "report.json"] = Some (Text (JDict [("invalid", JNan); ("rows", JInt 4)]))) /\
  cl_command ["step.json"; "out"] ou_disk = (ou_disk, false) /\ cl_command ["no.json"; "out"] ou_disk = (ou_disk, false).
Proof.
  split; [reflexivity|]. split; [apply wh_asked1|]. split; [left; reflexivity|]. split; [exact ou_writable|]. split; [vm_compute; repeat split; reflexivity|]. split; vm_compute; reflexivity.
Qed.

Print Assumptions C107_line.
Print Assumptions C107_other.
Print Assumptions C107_same.
Print Assumptions C107_unread.
Print Assumptions C107_help.
Print Assumptions C107_error.
Print Assumptions C107_files.
