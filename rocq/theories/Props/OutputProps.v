(** C95, C97: the files left by the program. *)
From Coq Require Import List String Bool ZArith QArith Lia.
From Verif Require Import Base.Ext Base.PyList Base.Arr Base.Json Base.Dict Model.CommonModel Model.DisparityModel Model.MatchingCostModel Model.DichotomyModel
  Model.RoiModel Model.InputModel Model.ConfigModel Model.DatasetModel Model.EstimationModel Model.OpticalFlowModel Model.InterpolationModel Model.MachineModel Model.CheckConfModel
  Model.PipelineModel Model.WholeModel Model.ImgShiftModel Model.OutputModel Model.WholeFilesModel
  Spec.MatchingCostSpec Spec.DichotomySpec Spec.RoiSpec Spec.PipelineSpec Spec.ConfigSpec Spec.InputSpec Spec.MachineSpec Spec.CheckConfSpec Spec.AcceptSpec Spec.WholeSpec Spec.BestSpec Spec.WtaSpec Spec.ShiftSpec Spec.WholeEverySpec Spec.OutputSpec
  Proofs.CheckConfProofs Proofs.AcceptProofs Proofs.WholeProofs Proofs.OutputProofs Proofs.WholeFilesProofs
  Props.CheckConfProps Props.WholeProps Props.WholeMoreProps Props.WholeEveryProps.
Import ListNotations.
Open Scope Z_scope.
Open Scope string_scope.
Open Scope list_scope.

Section Program.
  (** The libraries: see WholeModel. *)
  Context {px : Type} (px_eqb : px -> px -> bool) (nan : px).
  Variable bool_ok : bool.
  Variable pandora_check : dict -> option (json * json * json).
  Variable matching_cost_margins : dict -> margins.
  Variable can_open_mandatory can_open : json -> bool.
  Variable images_ok : json -> json -> json -> json -> bool.
  Variable image_size : string -> nat * nat.
  Variable open_raster : string -> reader.
  Variable load : dict -> Z -> nat -> Z -> nat -> image px.
  Variable transform_of : dict -> option affine.
  Variable dataset_ok : image_dataset (image px) -> bool.
  Variable measure_of : dict -> measure.
  Variable offset_of : dict -> Z.
  Variable pandora_cost : dict -> mc_input -> image px -> list (list px) -> list (list Z) -> nat -> nat -> nat -> ext.
  Variable zoomed : image px -> nat -> nat -> nat -> px.
  Variable one : Z.
  Variable store : ext -> ext.
  Variable filter_apply : dict -> list (list ext) -> Z -> Z -> ext.
  Variable lstsq : list (list px) -> list (list px) -> option (num * num).
  Variable resample : list (list px) -> num -> num -> list (list px).
  Variable junk : nat -> list (list px).
  Variable interp : list Q -> list Q -> list (list cost) -> num -> num -> cost.
  Variable minimise : (num -> num -> cost) -> num * num -> (Q * Q) * (Q * Q) -> num * num.
  Variable estimate : json -> image px -> image px -> (Q * Q) * json * json.
  Variable global_margins : list (string * margins) -> list (string * margins) -> margins.
  Variable margins_to_dict : list (string * margins) -> list (string * margins) -> json.
  Notation main := (main px_eqb nan bool_ok pandora_check matching_cost_margins can_open_mandatory can_open images_ok image_size open_raster load transform_of dataset_ok
    measure_of offset_of pandora_cost zoomed one store filter_apply lstsq resample junk interp minimise estimate global_margins margins_to_dict).
  Notation check_user := (check_user px_eqb nan bool_ok pandora_check matching_cost_margins can_open_mandatory can_open images_ok image_size open_raster
    measure_of offset_of pandora_cost zoomed one store filter_apply lstsq resample junk interp minimise estimate).
  Notation libraries := (libraries bool_ok pandora_check images_ok image_size load dataset_ok measure_of pandora_cost one).
  Notation asked := (asked bool_ok pandora_check can_open_mandatory can_open images_ok image_size open_raster).
  Notation programmed := (programmed bool_ok pandora_check can_open_mandatory can_open images_ok image_size open_raster).
  Notation cost_contract := (cost_contract measure_of pandora_cost).
  Notation optimal := (optimal px_eqb nan bool_ok pandora_check matching_cost_margins can_open_mandatory can_open images_ok image_size open_raster load measure_of offset_of pandora_cost zoomed one store
    filter_apply lstsq resample junk interp minimise estimate).
  Variable timestamp : string.
  Variable cwd : path.
  Variable components : string -> path.
  Variable report_of : json -> dmaps cost -> json.
  Notation main_files output := (main_files (fun user => snd (check_user user (new_machine None))) main output cwd timestamp components report_of).
  Notation csv := (cwd ++ [csv_name timestamp]).
  Hypothesis Hpandora : pandora_contract pandora_check.

  (** No profiling is asked for. *)
  Definition plain (user : dict) : Prop := lookup "expert_mode" user = None \/ lookup "expert_mode" user = Some (JDict []).
  (** A profiling is asked for, in this folder. *)
  Definition profiled (user : dict) (folder : string) : Prop := get_path ["expert_mode"; "profiling"; "folder_name"] (JDict user) = Some (JStr folder).

  Lemma plain_section user : plain user -> expert_section user = None.
  Proof. unfold plain, expert_section. intros [-> | ->]; reflexivity. Qed.
  Lemma no_expert (cfg : dict) : lookup "expert_mode" cfg = None -> existsb (String.eqb "expert_mode") (keys cfg) = false.
  Proof.
    intros H. destruct (existsb _ (keys cfg)) eqn:E; [|reflexivity]. apply existsb_exists in E as (x & Hx & E). apply String.eqb_eq in E. subst x. apply lookup_in in Hx. congruence.
  Qed.
  Lemma an_expert (cfg : dict) j : lookup "expert_mode" cfg = Some j -> existsb (String.eqb "expert_mode") (keys cfg) = true.
  Proof. intros H. apply existsb_exists. exists "expert_mode". split; [apply lookup_in; congruence | apply String.eqb_refl]. Qed.

  (** * C95: the files *)
  Lemma main_files_plain output sample completed user out d : wf (JDict user) -> plain user -> main user = Some out ->
    main_files output sample completed user d = perform (match o_maps out, o_reported out with Some saved, Some (inv, reported) => write_maps output saved ++ write_report output (report_of inv reported) | _, _ => [] end ++ save_config output (o_cfg out)) d.
  Proof.
    intros Hw Hp H. assert (X := H). apply main_sections in X as (m & cfg & Hc & Eo); [|exact Hw].
    destruct (checked_sections _ _ _ _ _ _ _ _ _ _ _ _ _ _ _ _ _ _ _ _ _ _ _ Hpandora _ _ _ Hw Hc) as (E & _). rewrite (plain_section _ Hp) in E. rewrite E in Eo.
    unfold WholeFilesModel.main_files. rewrite Hc, H. cbn [snd]. unfold measured. rewrite (no_expert _ E). cbn [timed map app]. unfold finish_run.
    rewrite (no_expert _ Eo). cbn [get_path]. rewrite Eo, app_nil_r.
    destruct (o_maps out); [|reflexivity]. destruct (o_reported out) as [[? ?]|]; reflexivity.
  Qed.
  (** When it ends without error: the three maps, the report and the configuration; every other file is as it was. *)
  Theorem C95_files output sample completed user out d d' : wf (JDict user) -> plain user -> main user = Some out -> main_files output sample completed user d = (d', true) ->
    (forall saved inv reported, o_maps out = Some saved -> o_reported out = Some (inv, reported) -> maps_on_disk output saved (report_of inv reported) d') /\
    file d' (config_file output) = Some (Text (JDict (o_cfg out))) /\
    others_kept (config_file output :: map_files output) d d' /\ (o_maps out = None -> others_kept [config_file output] d d').
  Proof.
    intros Hw Hp H E. rewrite (main_files_plain _ _ _ _ _ _ Hw Hp H) in E. apply perform_app_true in E as (d1 & E1 & E2). apply config_written in E2 as (C & K).
    assert (Far : forall p, In p (map_files output) -> ~ In p [config_file output]).
    { intros p Hp1 [X|[]]. unfold config_file, map_files in *. subst p. cbn [In] in Hp1. destruct Hp1 as [X|[X|[X|[X|[]]]]]; apply app_inv_head in X; discriminate. }
    assert (Cases : (exists saved inv reported, o_maps out = Some saved /\ o_reported out = Some (inv, reported) /\ maps_on_disk output saved (report_of inv reported) d1 /\ others_kept (map_files output) d d1) \/
      ((o_maps out = None \/ o_reported out = None) /\ d1 = d)).
    { destruct (o_maps out) as [saved|]; [|right; cbn in E1; injection E1 as <-; auto]. destruct (o_reported out) as [[inv reported]|]; [|right; cbn in E1; injection E1 as <-; auto].
      left. apply maps_written in E1. destruct E1. eauto 10. }
    split; [|split; [exact C|split]].
    - intros saved inv reported Es Er. destruct Cases as [(s' & i' & r' & Es' & Er' & M & _)|([X|X] & _)]; try congruence. rewrite Es in Es'. rewrite Er in Er'. injection Es' as <-. injection Er' as <- <-.
      unfold maps_on_disk in *. rewrite !K by (apply Far; cbn; tauto). exact M.
    - intros p Np. rewrite K by (intros [X|[]]; apply Np; now left). destruct Cases as [(_ & _ & _ & _ & _ & _ & K')|(_ & ->)]; [|reflexivity]. apply K'. intros X. apply Np. now right.
    - intros Em p Np. rewrite (K p Np). destruct Cases as [(s' & _ & _ & Es & _)|(_ & ->)]; [congruence | reflexivity].
  Qed.
  (** It can write when nothing prevents it. *)
  Theorem C95_no_error output sample completed user out d : wf (JDict user) -> plain user -> main user = Some out -> writable output d ->
    exists d', main_files output sample completed user d = (d', true).
  Proof.
    intros Hw Hp H W. rewrite (main_files_plain _ _ _ _ _ _ Hw Hp H), perform_app.
    assert (X : exists d1, perform (match o_maps out, o_reported out with Some saved, Some (inv, reported) => write_maps output saved ++ write_report output (report_of inv reported) | _, _ => [] end) d = (d1, true) /\ writable output d1).
    { destruct (o_maps out) as [saved|]; [|exists d; auto]. destruct (o_reported out) as [[inv reported]|]; [|exists d; auto]. now apply maps_ok. }
    destruct X as (d1 & -> & W1). now apply config_ok.
  Qed.
  (** A run that fails before writing changes nothing. *)
  Theorem C95_failed output sample completed user d : wf (JDict user) -> plain user -> main user = None -> main_files output sample completed user d = (d, false).
  Proof.
    intros Hw Hp H. unfold WholeFilesModel.main_files. destruct (check_user user (new_machine None)) as [m [cfg|]] eqn:Hc; cbn [snd]; [|reflexivity].
    destruct (checked_sections _ _ _ _ _ _ _ _ _ _ _ _ _ _ _ _ _ _ _ _ _ _ _ Hpandora _ _ _ Hw Hc) as (E & _). rewrite (plain_section _ Hp) in E.
    rewrite H. unfold measured. rewrite (no_expert _ E), firstn_nil. reflexivity.
  Qed.
  (** With a disparity step, every file of the output folder describes this run: the maps have the pixels that were asked for. *)
  Theorem C95_this_run output sample completed user q rows cols e r d d' : libraries -> programmed user q rows cols e r -> plain user -> main_files output sample completed user d = (d', true) ->
    exists saved reported cfg left m, check_user user (new_machine None) = (m, Some cfg) /\ get_path ["input"; "left"] (JDict cfg) = Some (JDict left) /\
      maps_on_disk output saved (report_of (q_invalid q) reported) d' /\
      saved_pixels q rows cols saved /\ georeferenced (transform_of left) saved /\ part_of saved reported /\ (q_zone q = None -> reported = saved).
  Proof.
    intros L P Hp E. assert (Hw : wf (JDict user)) by (destruct P as (P & _); destruct e; [exact (proj1 P) | exact (proj1 (proj1 P))]).
    destruct (main user) as [out|] eqn:H; [|rewrite (C95_failed _ _ _ _ _ Hw Hp H) in E; discriminate].
    destruct (C80_every_pipeline px_eqb nan bool_ok pandora_check matching_cost_margins can_open_mandatory can_open images_ok image_size open_raster load transform_of dataset_ok
      measure_of offset_of pandora_cost zoomed one store filter_apply lstsq resample junk interp minimise estimate global_margins margins_to_dict user q rows cols e r out L P H) as (m & cfg & left & saved & reported & Hc & Hl & Es & Er & X).
    destruct (C95_files _ _ _ _ _ _ _ Hw Hp H E) as (M & _). exists saved, reported, cfg, left, m. split; [exact Hc|]. split; [exact Hl|]. split; [now apply M | exact X].
  Qed.
  (** The rasters hold the best disparities: the whole program, from the configuration to the files. *)
  Theorem C95_best output sample completed pixel_cost user q rows cols a b d : libraries -> cost_contract pixel_cost -> asked user q rows cols ->
    steps_are user ["matching_cost"; "disparity"] -> constant (q_row_init q) a -> constant (q_col_init q) b -> plain user -> writable output d ->
    exists saved report d', main_files output sample completed user d = (d', true) /\ maps_on_disk output saved report d' /\ saved_right open_raster one q rows cols saved /\ optimal pixel_cost user q rows cols saved /\
      others_kept (config_file output :: map_files output) d d'.
  Proof.
    intros L C A S Ca Cb Hp W. assert (Hw := proj1 A).
    destruct (C74_optimal_constant px_eqb nan bool_ok pandora_check matching_cost_margins can_open_mandatory can_open images_ok image_size open_raster load transform_of dataset_ok
      measure_of offset_of pandora_cost zoomed one store filter_apply lstsq resample junk interp minimise estimate global_margins margins_to_dict pixel_cost user q rows cols a b L C A S Ca Cb) as (out & saved & H & Es & R & O).
    destruct (C95_no_error output sample completed user out d Hw Hp H W) as (d' & E).
    assert (P : programmed user q rows cols false false) by (split; [split; [exact A | intros s Hs; rewrite Hs in Ca; inversion Ca] | exact S]).
    destruct (C80_every_pipeline px_eqb nan bool_ok pandora_check matching_cost_margins can_open_mandatory can_open images_ok image_size open_raster load transform_of dataset_ok
      measure_of offset_of pandora_cost zoomed one store filter_apply lstsq resample junk interp minimise estimate global_margins margins_to_dict user q rows cols false false out L P H) as (m & cfg & left & saved' & reported & _ & _ & _ & Er & _).
    destruct (C95_files _ _ _ _ _ _ _ Hw Hp H E) as (M & _ & K & _). exists saved. eexists. exists d'. split; [exact E|]. split; [apply (M _ _ _ Es Er)|]. auto.
  Qed.

  (** * C97: profiling *)
  Lemma profiled_section user folder : profiled user folder -> exists j, expert_section user = Some j /\ get_path ["profiling"; "folder_name"] j = Some (JStr folder).
  Proof.
    unfold profiled, expert_section. cbn [get_path]. destruct (lookup "expert_mode" user) as [j|]; [|discriminate]. intros H.
    destruct j as [| | | | | | | |[|e0 dj]]; try discriminate. exists (JDict (e0 :: dj)). split; [reflexivity | exact H].
  Qed.
  Lemma labels steps step : documented steps -> In step steps -> labelled step (label_of step).
  Proof.
    intros (e & m & di & n & ->) H. apply in_app_or in H as [H|H].
    - destruct e; [destruct H as [<-|[]]; constructor | destruct H].
    - destruct m; [|destruct H]. destruct H as [<-|H]; [constructor|]. destruct di; [|destruct H]. destruct H as [<-|H]; [constructor|]. apply repeat_spec in H as ->. constructor.
  Qed.
  Lemma nth_combine_seq {B} (l : list B) : forall a k, nth_error (combine (seq a (List.length l)) l) k = option_map (fun x => ((a + k)%nat, x)) (nth_error l k).
  Proof.
    induction l as [|x l IH]; intros a [|k]; cbn; [reflexivity | reflexivity | now rewrite Nat.add_0_r|]. rewrite IH. now rewrite <- Nat.add_succ_comm.
  Qed.
  Lemma calls_measured sample cfg p steps : lookup "pipeline" cfg = Some (JDict p) -> keys p = steps -> documented steps -> measures sample steps (calls sample cfg).
  Proof.
    intros L K D. unfold calls. rewrite L, K. assert (N : List.length p = List.length steps) by (rewrite <- K; unfold keys; now rewrite map_length). rewrite N. split.
    - rewrite map_length, combine_length, seq_length. lia.
    - intros k step r Hs Hr. rewrite nth_error_map, nth_combine_seq, Hs in Hr. cbn in Hr. injection Hr as <-.
      exists (label_of step). split; [apply (labels steps); [exact D | now apply (nth_error_In _ k)]|]. cbn. auto 10.
  Qed.
  (** The table and the figures have names of their own. *)
  Lemma table_name p output : ~ In (p ++ [csv_name timestamp]) (config_file output :: map_files output).
  Proof.
    assert (T : forall x, csv_name timestamp = x -> ends "_profiling.csv" x = true) by (intros x <-; apply ends_app).
    unfold config_file, map_files. cbn [In]. intros [X|[X|[X|[X|[X|[]]]]]]; symmetry in X;
      try (change (output ++ ["cfg"; "config.json"]) with (output ++ ["cfg"] ++ ["config.json"]) in X; rewrite app_assoc in X); apply app_inj_tail in X as [_ X]; apply T in X; discriminate.
  Qed.
  Lemma graph_name p output : ~ In (p ++ [pdf_name timestamp]) (config_file output :: map_files output).
  Proof.
    assert (T : forall x, pdf_name timestamp = x -> ends "_graph_perf.pdf" x = true) by (intros x <-; apply ends_app).
    unfold config_file, map_files. cbn [In]. intros [X|[X|[X|[X|[X|[]]]]]]; symmetry in X;
      try (change (output ++ ["cfg"; "config.json"]) with (output ++ ["cfg"] ++ ["config.json"]) in X; rewrite app_assoc in X); apply app_inj_tail in X as [_ X]; apply T in X; discriminate.
  Qed.
  Lemma config_apart output p : In p (map_files output) -> ~ In p [config_file output].
  Proof. intros Hp1 [X|[]]. unfold config_file, map_files in *. subst p. cbn [In] in Hp1. destruct Hp1 as [X|[X|[X|[X|[]]]]]; apply app_inv_head in X; discriminate. Qed.
  Definition table (output : path) (folder : string) : path := output ++ components folder ++ [csv_name timestamp].
  Definition graph (output : path) (folder : string) : path := output ++ components folder ++ [pdf_name timestamp].
  (** A profiled run without error: the same files as without profiling; the table of the working directory, with one more row for each step, has moved to the folder; the figures are those of this table. *)
  Theorem C97_table output sample completed user folder out d d' : wf (JDict user) -> profiled user folder -> main user = Some out -> main_files output sample completed user d = (d', true) ->
    exists raw rows old, lookup "pipeline" user = Some (JDict raw) /\ measures sample (keys raw) rows /\ left_over (file d csv) old /\
      file d' (table output folder) = Some (Table (old ++ rows)) /\ file d' (graph output folder) = Some (Figures (figures (old ++ rows))) /\ file d' csv = None /\
      (forall saved inv reported, o_maps out = Some saved -> o_reported out = Some (inv, reported) -> maps_on_disk output saved (report_of inv reported) d') /\
      file d' (config_file output) = Some (Text (JDict (o_cfg out))) /\
      others_kept (csv :: table output folder :: graph output folder :: config_file output :: map_files output) d d'.
  Proof.
    intros Hw Hp H E. assert (X := H). apply main_sections in X as (m & cfg & Hc & Eo); [|exact Hw].
    destruct (checked_sections _ _ _ _ _ _ _ _ _ _ _ _ _ _ _ _ _ _ _ _ _ _ _ Hpandora _ _ _ Hw Hc) as (Ec & _ & raw & p2 & L1 & L2 & K2 & D).
    destruct (profiled_section _ _ Hp) as (j & Ej & Gj). rewrite Ej in Ec. rewrite Ec in Eo.
    unfold WholeFilesModel.main_files in E. rewrite Hc, H in E. cbn [snd] in E. unfold measured in E. rewrite (an_expert _ _ Ec) in E. unfold finish_run in E.
    change (get_path ["expert_mode"; "profiling"; "folder_name"] (JDict (o_cfg out))) with (match lookup "expert_mode" (o_cfg out) with Some v => get_path ["profiling"; "folder_name"] v | None => None end) in E.
    rewrite Eo, Gj in E.
    apply perform_app_true in E as (d1 & E1 & E). apply perform_app_true in E as (d2 & E2 & E). apply perform_app_true in E as (d3 & E3 & E4).
    destruct (timed_true _ _ _ _ _ E1) as (T1 & K1). apply config_written in E3 as (C3 & K3). destruct (summary_true _ _ _ _ _ _ _ E4) as (_ & rows & S1 & S2 & S3 & S4 & S5).
    assert (Maps : (forall saved inv reported, o_maps out = Some saved -> o_reported out = Some (inv, reported) -> maps_on_disk output saved (report_of inv reported) d2) /\ others_kept (map_files output) d1 d2).
    { destruct (o_maps out) as [saved|]; [|cbn in E2; injection E2 as <-; split; [discriminate | intros p _; reflexivity]].
      destruct (o_reported out) as [[inv reported]|]; [|cbn in E2; injection E2 as <-; split; [discriminate | intros p _; reflexivity]].
      apply maps_written in E2 as (M & K). split; [|exact K]. intros s i r Es Er. injection Es as <-. injection Er as <- <-. exact M. }
    destruct Maps as (M2 & K2'). clear E2.
    assert (S1' : file d1 csv = Some (Table rows)).
    { rewrite <- K2', <- K3; [exact S1 | |]; intros Y; apply (table_name cwd output); [destruct Y as [->|[]]; now left | now right]. }
    assert (Far : forall p, In p (config_file output :: map_files output) -> ~ In p [csv; (output ++ components folder) ++ [csv_name timestamp]; (output ++ components folder) ++ [pdf_name timestamp]]).
    { intros p Hi Y. cbn [In] in Y. destruct Y as [<-|[<-|[<-|[]]]]; [now apply table_name in Hi | now apply table_name in Hi | now apply graph_name in Hi]. }
    assert (Old : exists old, left_over (file d csv) old /\ rows = old ++ calls sample cfg).
    { destruct T1 as [(N & ->)|(T1 & Lo)].
      - rewrite N, S1'. exists rows. split; [constructor | now rewrite app_nil_r].
      - rewrite T1 in S1'. injection S1' as <-. eauto. }
    destruct Old as (old & Lo & ->). exists raw, (calls sample cfg), old. split; [exact L1|]. split; [now apply (calls_measured _ _ p2)|]. split; [exact Lo|].
    unfold table, graph. rewrite !app_assoc. split; [exact S3|]. split; [exact S4|]. split; [exact S2|]. split; [|split].
    - intros saved inv reported Es Er. specialize (M2 _ _ _ Es Er). unfold maps_on_disk in *. rewrite !S5 by (apply Far; cbn; tauto). rewrite !K3 by (apply config_apart; cbn; tauto). exact M2.
    - rewrite S5 by (apply Far; now left). exact C3.
    - intros p Np. cbn [In] in Np. rewrite S5 by (cbn [In]; tauto). rewrite K3 by (cbn [In]; tauto). rewrite K2' by tauto. apply K1. cbn [In]. tauto.
  Qed.
  (** Nothing was left in the working directory: the table has exactly one row for each step of this run, in their order. *)
  Theorem C97_summary output sample completed user folder out d d' : wf (JDict user) -> profiled user folder -> main user = Some out -> main_files output sample completed user d = (d', true) -> file d csv = None ->
    exists raw rows, lookup "pipeline" user = Some (JDict raw) /\ measures sample (keys raw) rows /\ file d' (table output folder) = Some (Table rows) /\ file d' (graph output folder) = Some (Figures (figures rows)) /\ file d' csv = None.
  Proof.
    intros Hw Hp H E N. destruct (C97_table _ _ _ _ _ _ _ _ Hw Hp H E) as (raw & rows & old & L & M & Lo & T & G & A & _). rewrite N in Lo. inversion Lo; subst old.
    exists raw, rows. auto.
  Qed.
  (** A profiled run that fails before writing changes only the table of the working directory, and nothing when the configuration is refused. *)
  Theorem C97_failed output sample completed user folder d : wf (JDict user) -> profiled user folder -> main user = None ->
    exists d', main_files output sample completed user d = (d', false) /\ others_kept [csv] d d' /\ (forall m, check_user user (new_machine None) = (m, None) -> d' = d).
  Proof.
    intros Hw Hp H. unfold WholeFilesModel.main_files. destruct (check_user user (new_machine None)) as [m [cfg|]] eqn:Hc; cbn [snd].
    - rewrite H, perform_app. destruct (perform (timed cwd timestamp (firstn completed (measured sample cfg))) d) as [d1 ok] eqn:E. exists d1.
      split; [destruct ok; reflexivity|]. split; [apply (timed_others _ _ _ _ _ _ E) | intros ? X; discriminate].
    - exists d. split; [reflexivity|]. split; [intros p _; reflexivity | reflexivity].
  Qed.

  (** Several runs of the same process, with the same working directory. *)
  Record launch := mkLaunch { l_output : path; l_user : dict; l_sample : nat -> row; l_completed : nat }.
  Definition start (l : launch) : disk cost -> disk cost * bool := main_files (l_output l) (l_sample l) (l_completed l) (l_user l).
  Fixpoint session (l : list launch) (d : disk cost) : disk cost * bool := match l with [] => (d, true) | x :: r => match start x d with (d', true) => session r d' | (d', false) => (d', false) end end.
  Lemma start_main l d d' : start l d = (d', true) -> exists out, main (l_user l) = Some out.
  Proof.
    unfold start, WholeFilesModel.main_files. destruct (snd _); [|discriminate]. destruct (main (l_user l)) as [out|]; [eauto|]. rewrite perform_app.
    destruct (perform _ d) as [d1 [|]]; discriminate.
  Qed.
  Lemma plain_or user m cfg : wf (JDict user) -> check_user user (new_machine None) = (m, Some cfg) -> plain user \/ exists folder, profiled user folder.
  Proof.
    intros Hw Hc. destruct (checked_sections _ _ _ _ _ _ _ _ _ _ _ _ _ _ _ _ _ _ _ _ _ _ _ Hpandora _ _ _ Hw Hc) as (_ & F & _). unfold plain, profiled. cbn [get_path]. unfold expert_section in F.
    destruct (lookup "expert_mode" user) as [j|]; [|auto]. destruct j as [| | | | | | | |[|e0 dj]]; auto; destruct (F _ eq_refl) as (t & Ht); try discriminate. right. exists t. exact Ht.
  Qed.
  Lemma session_clean l : forall d d', (forall x, In x l -> wf (JDict (l_user x))) -> session l d = (d', true) -> file d csv = None -> file d' csv = None.
  Proof.
    induction l as [|x l IH]; intros d d' Hw; cbn [session]; [congruence|]. destruct (start x d) as [d1 [|]] eqn:E; [|discriminate]. intros S N.
    refine (IH d1 d' (fun y Hy => Hw y (or_intror Hy)) S _). assert (Wx := Hw x (or_introl eq_refl)). destruct (start_main _ _ _ E) as (out & H).
    assert (X := H). apply main_sections in X as (m & cfg & Hc & _); [|exact Wx]. unfold start in E. destruct (plain_or _ _ _ Wx Hc) as [P|(folder & P)].
    - destruct (C95_files _ _ _ _ _ _ _ Wx P H E) as (_ & _ & K & _). rewrite (K csv (table_name _ _)). exact N.
    - now destruct (C97_summary _ _ _ _ _ _ _ _ Wx P H E N) as (_ & _ & _ & _ & _ & _ & A).
  Qed.
  (** After runs without error, profiled or not, each table has the calls of its own run only. *)
  Theorem C97_session l last folder d d' : (forall x, In x (l ++ [last]) -> wf (JDict (l_user x))) -> profiled (l_user last) folder -> session (l ++ [last]) d = (d', true) -> file d csv = None ->
    exists raw rows, lookup "pipeline" (l_user last) = Some (JDict raw) /\ measures (l_sample last) (keys raw) rows /\
      file d' (table (l_output last) folder) = Some (Table rows) /\ file d' (graph (l_output last) folder) = Some (Figures (figures rows)) /\ file d' csv = None.
  Proof.
    intros Hw P S N. assert (X : exists d1, session l d = (d1, true) /\ start last d1 = (d', true)).
    { clear Hw P N. revert d S. induction l as [|x l' IH]; intros d; cbn [session app].
      - destruct (start last d) as [d1 [|]] eqn:E; [|discriminate]. intros S. injection S as <-. eauto.
      - destruct (start x d) as [d1 [|]]; [apply IH | discriminate]. }
    destruct X as (d1 & S1 & E). assert (N1 : file d1 csv = None) by (apply (session_clean _ _ _ (fun x Hx => Hw x (in_or_app _ _ _ (or_introl Hx))) S1 N)).
    destruct (start_main _ _ _ E) as (out & H). assert (Wl : wf (JDict (l_user last))) by (apply Hw, in_or_app; right; now left). apply (C97_summary _ _ _ _ _ _ _ _ Wl P H E N1).
  Qed.
End Program.

(** * C97: the figures *)
(** Each name once and in increasing order; the totals, the means and the numbers of calls are those of the rows with this name, and nothing is lost or counted twice. *)
Theorem C97_figures rows : exists l mean_time time mean_cpu cpu boxes memory calls,
  figures rows = [Bars "Mean time" mean_time; Bars "Total time" time; Bars "Mean CPU time" mean_cpu; Bars "Total CPU time" cpu; Boxes "Max CPU" "MiB" boxes; Boxes "Maximum memory per task" "MiB" memory; Bars "Number of calls" calls] /\
  names_of rows l /\ map fst mean_time = l /\ map fst time = l /\ map fst mean_cpu = l /\ map fst cpu = l /\ map fst boxes = l /\ map fst memory = l /\ map fst calls = l /\
  (forall b, In b mean_time -> bar_mean w_time rows b) /\ (forall b, In b time -> bar_total w_time rows b) /\
  (forall b, In b mean_cpu -> bar_mean w_cpu_time rows b) /\ (forall b, In b cpu -> bar_total w_cpu_time rows b) /\ (forall b, In b calls -> bar_count rows b) /\
  (sum_of (map bar_value time) == sum_of (map w_time rows))%Q /\ (sum_of (map bar_value cpu) == sum_of (map w_cpu_time rows))%Q /\
  (sum_of (map bar_value calls) == inject_Z (Z.of_nat (List.length rows)))%Q.
Proof.
  exists (names rows). do 7 eexists. split; [reflexivity|]. split; [apply names_right|].
  assert (Names : forall (B : Type) (g : string -> B) l, map fst (map (fun n => (n, g n)) l) = l) by (intros B g l; rewrite map_map; apply map_id).
  do 7 (split; [apply Names|]).
  assert (Mean : forall f b, In b (map (fun n => (n, average (known (fun r => Some (f r)) (group n rows)))) (names rows)) -> bar_mean f rows b).
  { intros f b Hb. apply in_map_iff in Hb as (n & <- & Hn). pose proof (known_right (fun r => Some (f r)) n rows) as V.
    assert (NE : known (fun r => Some (f r)) (group n rows) <> []).
    { intros X. apply (names_group _ _ Hn). apply values_count in V; [|discriminate]. rewrite X in V. destruct (group n rows); [reflexivity | discriminate]. }
    destruct (mean_right _ NE) as (x & Ex & Hx). exists (known (fun r => Some (f r)) (group n rows)), x. cbn [fst snd]. auto. }
  assert (Total : forall f b, In b (map (fun n => (n, Some (OutputModel.total (known (fun r => Some (f r)) (group n rows))))) (names rows)) -> bar_total f rows b).
  { intros f b Hb. apply in_map_iff in Hb as (n & <- & Hn). eexists. eexists. split; [apply known_right|]. split; reflexivity. }
  split; [apply Mean|]. split; [apply Total|]. split; [apply Mean|]. split; [apply Total|]. split; [|split; [|split]].
  - intros b Hb. apply in_map_iff in Hb as (n & <- & Hn). pose proof (known_right (fun _ => Some 0%Q) n rows) as V.
    assert (L : List.length (known (fun _ => Some 0%Q) (group n rows)) = List.length (group n rows)) by (refine (values_count _ _ _ _ _ V); discriminate).
    eexists. eexists. split; [exact V|]. split; [reflexivity|]. rewrite L. reflexivity.
  - rewrite map_map. apply sum_names.
  - rewrite map_map. apply sum_names.
  - rewrite map_map, count_total, <- (sum_names (fun _ => 1%Q)). unfold bar_value. cbn [snd]. unfold sum_of. clear Mean Total. induction (names rows) as [|n l IH]; cbn [map fold_right]; [reflexivity|].
    rewrite IH, count_total, known_ones. reflexivity.
Qed.

(** * C97: the boxes *)
(** A function called once: the three marks are its value. *)
Theorem C97_box_once rows f name v : values_of f name rows [v] -> let '(q1, med, q3) := box (known f (group name rows)) in (q1 == v /\ med == v /\ q3 == v)%Q.
Proof.
  intros V. rewrite (values_unique _ _ _ _ V _ (known_right f name rows)). unfold box, average, StatisticsModel.over. cbn [List.length OutputModel.total fold_right].
  assert (E : ((v + 0) / inject_Z (Z.of_nat 1) == v)%Q) by (cbn; field). destruct (Qle_bool _ _); rewrite ?E; repeat split; rewrite ?E; ring.
Qed.
(** Whatever the number of calls. *)
Theorem C97_boxes rows title unit boxes : In (Boxes title unit boxes) (figures rows) ->
  title = "Max CPU" /\ (forall b, In b boxes -> box_marks w_cpu rows b) \/ title = "Maximum memory per task" /\ (forall b, In b boxes -> box_marks w_memory rows b).
Proof.
  assert (M : forall f b, In b (map (fun n => (n, box (known f (group n rows)))) (names rows)) -> box_marks f rows b).
  { intros f b Hb. apply in_map_iff in Hb as (n & <- & _). exists (known f (group n rows)). split; [apply known_right|]. cbn [snd]. unfold box.
    destruct (known f (group n rows)) as [|a l] eqn:E; [left; repeat split; reflexivity|].
    destruct (mean_right (a :: l)) as (m & -> & Hm); [discriminate|]. unfold sum_of. fold (OutputModel.total (a :: l)). set (t := OutputModel.total (a :: l)) in *.
    destruct (Qle_bool m t) eqn:L; cbv zeta; right; (split; [discriminate|]); exists m.
    - exists m, t. apply Qle_bool_iff in L. split; [exact Hm|]. split; [left; split; reflexivity|]. split; [exact L|]. split; [reflexivity|]. split; [field | ring].
    - exists t, m. assert (L' : ~ (m <= t)%Q) by (intros X; apply Qle_bool_iff in X; congruence). apply Qnot_le_lt, Qlt_le_weak in L'. split; [exact Hm|]. split; [right; split; reflexivity|]. split; [exact L'|]. split; [reflexivity|]. split; [field | ring]. }
  intros [H|[H|[H|[H|[H|[H|[H|[]]]]]]]]; try discriminate H; injection H as <- <- <-; [left | right]; (split; [reflexivity | apply M]).
Qed.
(** Between the mean and the sum, not among the measures: a function called several times (several refinements) is shown with marks above every measure. *)
Theorem C97_box_refuted : exists rows name v, values_of w_memory name rows v /\ List.length v = 2%nat /\
  let '(q1, med, q3) := box (known w_memory (group name rows)) in (forall x, In x v -> x < q1 /\ x < med)%Q.
Proof.
  pose (r := fun m => mkRow "Refinement step" 1 1 (Some m) 0 0 None).
  exists [r 10%Q; r 10%Q], "Refinement step", [10%Q; 10%Q]. split; [repeat (apply vo_known; [reflexivity | reflexivity|]); constructor|]. split; [reflexivity|].
  cbn. intros x [<-|[<-|[]]]; split; reflexivity.
Qed.

(** * Examples *)
(** A disk with maps of an earlier run in the output folder. *)
Definition ou_old : content cost := Raster [[CFin 7]] None.
Definition ou_disk : disk cost := mkDisk [["out"]; ["home"]] [(["out"; "row_disparity.tif"], ou_old); (["home"; "left.tif"], ou_old)].
Definition ou_report (inv : json) (d : dmaps cost) : json := JDict [("invalid", inv); ("rows", JInt (Z.of_nat (List.length (dm_row_map d))))].
Definition ou_components (s : string) : path := if s =? "a/b" then ["a"; "b"] else [s].
Definition ou_sample (k : nat) : row := mkRow "" (inject_Z (Z.of_nat k) + 1) 2 (Some 10%Q) 0 1 (if (k =? 0)%nat then None else Some 5%Q).
Notation ou_files output := (main_files (fun user => snd (wh_check user)) wh_main output ["home"] "now" ou_components ou_report).
Definition ou_expert (folder : string) : dict := [("expert_mode", JDict [("profiling", JDict [("folder_name", JStr folder)])])].
Definition ou_user (folder : string) : dict := wh_user1 ++ ou_expert folder.
Definition ou_shown (c : option (content cost)) : option (list (list (option Q))) := match c with Some (Raster l _) => Some (map (map wh_number) l) | _ => None end.
Lemma ou_wf folder : wf (JDict (ou_user folder)).
Proof. unfold ou_user, ou_expert, wh_user1, wh_user, wh_roi, wh_disp; cbn [app]; solve_wf. Qed.
Lemma ou_writable : writable ["out"] ou_disk.
Proof.
  split.
  - intros p (r & E). destruct p as [|x [|y [|z p]]]; cbn in E; [reflexivity | | | discriminate]; injection E; intros; subst; reflexivity.
  - intros p Hp. cbn in Hp. destruct Hp as [<-|[<-|[<-|[<-|[<-|[]]]]]]; reflexivity.
Qed.
(** The hypotheses of C95_best, and the files: the old map is replaced, the images are kept. *)
Example C95_example : wh_asked wh_user1 wh_request1 8 9 /\ steps_are wh_user1 ["matching_cost"; "disparity"] /\ constant (q_row_init wh_request1) 0 /\ constant (q_col_init wh_request1) (-1) /\
  plain wh_user1 /\ writable ["out"] ou_disk /\
  let (d, ok) := ou_files ["out"] ou_sample 0 wh_user1 ou_disk in ok = true /\
    ou_shown (file d ["out"; "row_disparity.tif"]) = Some [[Some 1%Q; Some 1%Q]; [Some 1%Q; Some 1%Q]; [Some 0%Q; Some 1%Q]] /\
    ou_shown (file d ["out"; "columns_disparity.tif"]) = Some [[Some (-1)%Q; Some (-1)%Q]; [Some (-1)%Q; Some (-1)%Q]; [Some (-2)%Q; Some (-1)%Q]] /\ ou_shown (file d ["out"; "correlation_score.tif"]) = Some [[Some 0%Q; Some 0%Q]; [Some 0%Q; Some 0%Q]; [Some 0%Q; Some 0%Q]] /\
    file d ["out"; "report.json"] = Some (Text (JDict [("invalid", JNan); ("rows", JInt 4)])) /\ file d ["home"; "left.tif"] = Some ou_old /\
    is_folder ["out"; "cfg"] d = true.
Proof.
  split; [exact wh_asked1|]. split; [eexists; split; reflexivity|]. split; [constructor|]. split; [constructor|]. split; [left; reflexivity|]. split; [exact ou_writable|].
  vm_compute. repeat split; reflexivity.
Qed.
(** A run whose check succeeds and that fails afterwards (grids with a step): nothing is changed. *)
Example C95_failed_example : plain wh_user3 /\ wh_main wh_user3 = None /\ snd (wh_check wh_user3) <> None /\ ou_files ["out"] ou_sample 0 wh_user3 ou_disk = (ou_disk, false).
Proof. split; [left; reflexivity|]. split; [vm_compute; reflexivity|]. split; [vm_compute; discriminate | vm_compute; reflexivity]. Qed.

(** The estimation alone saves no map: those of an earlier run stay in the output folder, beside the configuration of this run. *)
Definition ou_estimation : dict :=
  [("input", JDict [("left", JDict [("img", JStr "left.tif")]); ("right", JDict [("img", JStr "right.tif")])]);
   ("pipeline", JDict [("estimation", JDict [("estimation_method", JStr "phase_cross_correlation"); ("range_row", JInt 3)])])].
Theorem C95_old_maps_refuted : exists out d', wf (JDict ou_estimation) /\ plain ou_estimation /\ wh_main ou_estimation = Some out /\ writable ["out"] ou_disk /\
  ou_files ["out"] ou_sample 0 ou_estimation ou_disk = (d', true) /\
  file d' (config_file ["out"]) = Some (Text (JDict (o_cfg out))) /\ file d' ["out"; "row_disparity.tif"] = Some ou_old.
Proof.
  eexists. eexists. split; [unfold ou_estimation; solve_wf|]. split; [left; reflexivity|]. split; [vm_compute; reflexivity|]. split; [exact ou_writable|].
  split; [vm_compute; reflexivity|]. split; vm_compute; reflexivity.
Qed.

(** Two profiled runs, a run without profiling between them. *)
Example C97_example : wf (JDict (ou_user "perf")) /\ profiled (ou_user "perf") "perf" /\
  let run user := mkLaunch ["out"] user ou_sample 0 in
  let (d, ok) := session Z.eqb 0 true wh_pandora (fun _ => mkMargins 2 2 2 2) (fun _ => true) (fun _ => true) (fun _ _ _ _ => true) wh_size wh_raster wh_load (fun _ => None) (fun _ => true)
    (fun _ => MeasureMin) (fun _ => 0) wh_cost (fun _ _ _ _ => 0) 512 (fun x => x) wh_filter (fun _ _ => None) (fun w _ _ => w) (fun _ => []) (fun _ _ _ _ _ => CNan) (fun _ p _ => p)
    (fun _ _ _ => ((0, 0)%Q, JNull, JNull)) wh_margins wh_dict "now" ["home"] ou_components ou_report [run (ou_user "first"); run wh_user1; run (ou_user "perf")] ou_disk in
  ok = true /\ (exists a b, file d ["out"; "perf"; "now_profiling.csv"] = Some (Table [a; b]) /\ w_name a = "Matching cost step" /\ w_name b = "Disparity step") /\
  (exists a b, file d ["out"; "first"; "now_profiling.csv"] = Some (Table [a; b])) /\ file d ["home"; "now_profiling.csv"] = None.
Proof.
  split; [apply ou_wf|]. split; [reflexivity|]. vm_compute. split; [reflexivity|]. split; [do 2 eexists; repeat split|]. split; [do 2 eexists; reflexivity | reflexivity].
Qed.
(** A folder in a folder is accepted by the check; everything is computed and saved, then the program stops with an error and leaves its table. *)
Theorem C97_nested_refuted : exists out d', wf (JDict (ou_user "a/b")) /\ profiled (ou_user "a/b") "a/b" /\ wh_main (ou_user "a/b") = Some out /\ writable ["out"] ou_disk /\
  ou_files ["out"] ou_sample 0 (ou_user "a/b") ou_disk = (d', false) /\ file d' ["home"; "now_profiling.csv"] <> None /\ file d' (config_file ["out"]) = Some (Text (JDict (o_cfg out))).
Proof.
  eexists. eexists. split; [apply ou_wf|]. split; [reflexivity|]. split; [vm_compute; reflexivity|]. split; [exact ou_writable|]. split; [vm_compute; reflexivity|].
  split; [vm_compute; discriminate | vm_compute; reflexivity].
Qed.
(** The next profiled run of the same process then counts the calls of both: four rows for two steps. *)
Theorem C97_leftover_refuted : exists d1 d2 rows, wf (JDict (ou_user "perf")) /\ profiled (ou_user "perf") "perf" /\ wh_main (ou_user "perf") <> None /\
  ou_files ["out"] ou_sample 0 (ou_user "a/b") ou_disk = (d1, false) /\ ou_files ["out"] ou_sample 0 (ou_user "perf") d1 = (d2, true) /\
  steps_are (ou_user "perf") ["matching_cost"; "disparity"] /\ file d2 ["out"; "perf"; "now_profiling.csv"] = Some (Table rows) /\ List.length rows = 4%nat.
Proof.
  do 3 eexists. split; [apply ou_wf|]. split; [reflexivity|]. split; [vm_compute; discriminate|]. split; [vm_compute; reflexivity|]. split; [vm_compute; reflexivity|].
  split; [eexists; split; reflexivity|]. split; vm_compute; reflexivity.
Qed.
(** A profiled run that fails after two steps. *)
Example C97_failed_example : profiled (wh_user3 ++ ou_expert "perf") "perf" /\ wh_main (wh_user3 ++ ou_expert "perf") = None /\
  exists d' a b, ou_files ["out"] ou_sample 2 (wh_user3 ++ ou_expert "perf") ou_disk = (d', false) /\ file d' ["home"; "now_profiling.csv"] = Some (Table [a; b]) /\ file d' ["out"; "row_disparity.tif"] = Some ou_old.
Proof. split; [reflexivity|]. split; [vm_compute; reflexivity|]. do 3 eexists. split; [vm_compute; reflexivity|]. split; vm_compute; reflexivity. Qed.
(** The figures of three calls. *)
Example C97_figures_example : let r n t := mkRow n t 1 (Some 10%Q) 0 1 None in let rows := [r "Refinement step" 2%Q; r "Disparity step" 1%Q; r "Refinement step" 4%Q] in
  nth_error (figures rows) 0 = Some (Bars "Mean time" [("Disparity step", Some ((1 + 0) / 1)%Q); ("Refinement step", Some ((2 + (4 + 0)) / 2)%Q)]) /\
  In (Boxes "Maximum memory per task" "MiB" [("Disparity step", box [10%Q]); ("Refinement step", box [10%Q; 10%Q])]) (figures rows) /\
  values_of w_memory "Disparity step" rows [10%Q].
Proof. split; [reflexivity|]. split; [do 5 right; left; reflexivity|]. apply vo_other; [discriminate|]. apply vo_known; [reflexivity | reflexivity|]. apply vo_other; [discriminate|]. constructor. Qed.

Print Assumptions C95_files.
Print Assumptions C95_no_error.
Print Assumptions C95_failed.
Print Assumptions C95_this_run.
Print Assumptions C95_best.
Print Assumptions C95_old_maps_refuted.
Print Assumptions C97_table.
Print Assumptions C97_summary.
Print Assumptions C97_failed.
Print Assumptions C97_session.
Print Assumptions C97_figures.
Print Assumptions C97_box_once.
Print Assumptions C97_boxes.
Print Assumptions C97_box_refuted.
Print Assumptions C97_nested_refuted.
Print Assumptions C97_leftover_refuted.
