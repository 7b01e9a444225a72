(** C96: the report written by the program. *)
From Coq Require Import List String Bool ZArith QArith Lia.
From Verif Require Import Base.Ext Base.PyList Base.Arr Base.Json Base.Dict Model.CommonModel Model.DisparityModel Model.MatchingCostModel Model.DichotomyModel
  Model.RoiModel Model.InputModel Model.ConfigModel Model.DatasetModel Model.EstimationModel Model.OpticalFlowModel Model.InterpolationModel Model.MachineModel Model.CheckConfModel
  Model.PipelineModel Model.WholeModel Model.ImgShiftModel Model.OutputModel Model.WholeFilesModel Model.ReportModel
  Spec.MatchingCostSpec Spec.DichotomySpec Spec.RoiSpec Spec.PipelineSpec Spec.ConfigSpec Spec.InputSpec Spec.MachineSpec Spec.CheckConfSpec Spec.AcceptSpec Spec.WholeSpec Spec.BestSpec Spec.WtaSpec Spec.ShiftSpec Spec.WholeEverySpec Spec.OutputSpec Spec.ReportSpec
  Proofs.CheckConfProofs Proofs.AcceptProofs Proofs.WholeProofs Proofs.OutputProofs Proofs.WholeFilesProofs
  Props.CheckConfProps Props.WholeProps Props.WholeMoreProps Props.WholeEveryProps Props.OutputProps Props.ReportProps.
Import ListNotations.
Open Scope Z_scope.
Open Scope string_scope.
Open Scope list_scope.

(** The valid disparities are well defined when the values are finite, NaN or the invalid value. *)
Lemma exactly_dec inv q : exactly inv (CFin q) \/ ~ exactly inv (CFin q).
Proof.
  rewrite element_exactly. assert (F := flat inv). destruct (element inv) eqn:E; try (right; intros X; now inversion X); try (destruct F; fail).
  - destruct (same_invalid (JInt z) (CFin q)) eqn:S; [left | right; intros X; apply (same_exactly (JInt z)) in X; [congruence | discriminate | exact I]]. apply (same_exactly (JInt z)); [discriminate | exact I | exact S].
  - destruct (same_invalid (JFloat q0) (CFin q)) eqn:S; [left | right; intros X; apply (same_exactly (JFloat q0)) in X; [congruence | discriminate | exact I]]. apply (same_exactly (JFloat q0)); [discriminate | exact I | exact S].
  - right. intros X. inversion X; subst. exact F.
Qed.
Lemma valid_exists inv data : (forall x, In x data -> x = CNan \/ exactly inv x \/ exists q, x = CFin q) -> exists l, valid_numbers inv data l.
Proof.
  induction data as [|x data IH]; intros H; [exists []; constructor|]. destruct (IH (fun y Hy => H y (or_intror Hy))) as (l & V). destruct (H x (or_introl eq_refl)) as [->|[E|(q & ->)]].
  - exists l. constructor; auto.
  - exists l. constructor; auto.
  - destruct (exactly_dec inv q) as [E|E]; [exists l; apply vn_skip; auto | exists (q :: l); now apply vn_keep].
Qed.
Lemma in_pixels {A} (m : list (list A)) n k x : rect n k m -> In x (List.concat m) -> exists a b, (a < n)%nat /\ (b < k)%nat /\ nth2 m a b = Some x.
Proof.
  intros (R1 & R2) H. apply in_concat in H as (row & Hr & Hx). apply In_nth_error in Hr as (a & Ha). apply In_nth_error in Hx as (b & Hb). exists a, b.
  assert (La : (a < List.length m)%nat) by (apply nth_error_Some; congruence). assert (Lb : (b < List.length row)%nat) by (apply nth_error_Some; congruence).
  split; [lia|]. split; [|unfold nth2; now rewrite Ha]. rewrite <- (proj1 (Forall_forall _ _) R2 row); [exact Lb | now apply (nth_error_In _ a)].
Qed.
(** The invalid value is saved exactly (integers, and the floats of float32). *)
Definition exact_invalid (one : Z) (inv : json) : Prop := forall c, shows one inv c -> exactly inv c.
Lemma exact_int one z : exact_invalid one (JInt z).
Proof. intros c H. inversion H; subst. now constructor. Qed.
Lemma exact_nan one : exact_invalid one JNan.
Proof. intros c H. inversion H; subst. now constructor. Qed.

Section Program.
  (** The libraries: see WholeModel. *)
  Context {px : Type} (px_eqb : px -> px -> bool) (nan : px).
  Variable bool_ok : bool.
  Variable pandora_check : dict -> option (json * json * json).
  Variable matching_cost_margins : dict -> margins.
  Variable can_open_mandatory can_open : json -> bool.
  Variable images_ok : json -> json -> json -> json -> bool.
  Variable image_size : string -> nat * nat.
  Variable open_raster : string -> reader.
  Variable load : dict -> Z -> nat -> Z -> nat -> image px.
  Variable transform_of : dict -> option affine.
  Variable dataset_ok : image_dataset (image px) -> bool.
  Variable measure_of : dict -> measure.
  Variable offset_of : dict -> Z.
  Variable pandora_cost : dict -> mc_input -> image px -> list (list px) -> list (list Z) -> nat -> nat -> nat -> ext.
  Variable zoomed : image px -> nat -> nat -> nat -> px.
  Variable one : Z.
  Variable store : ext -> ext.
  Variable filter_apply : dict -> list (list ext) -> Z -> Z -> ext.
  Variable lstsq : list (list px) -> list (list px) -> option (num * num).
  Variable resample : list (list px) -> num -> num -> list (list px).
  Variable junk : nat -> list (list px).
  Variable interp : list Q -> list Q -> list (list cost) -> num -> num -> cost.
  Variable minimise : (num -> num -> cost) -> num * num -> (Q * Q) * (Q * Q) -> num * num.
  Variable estimate : json -> image px -> image px -> (Q * Q) * json * json.
  Variable global_margins : list (string * margins) -> list (string * margins) -> margins.
  Variable margins_to_dict : list (string * margins) -> list (string * margins) -> json.
  Notation main := (main px_eqb nan bool_ok pandora_check matching_cost_margins can_open_mandatory can_open images_ok image_size open_raster load transform_of dataset_ok
    measure_of offset_of pandora_cost zoomed one store filter_apply lstsq resample junk interp minimise estimate global_margins margins_to_dict).
  Notation check_user := (check_user px_eqb nan bool_ok pandora_check matching_cost_margins can_open_mandatory can_open images_ok image_size open_raster
    measure_of offset_of pandora_cost zoomed one store filter_apply lstsq resample junk interp minimise estimate).
  Notation libraries := (libraries bool_ok pandora_check images_ok image_size load dataset_ok measure_of pandora_cost one).
  Notation asked := (asked bool_ok pandora_check can_open_mandatory can_open images_ok image_size open_raster).
  Notation programmed := (programmed bool_ok pandora_check can_open_mandatory can_open images_ok image_size open_raster).
  Notation cost_contract := (cost_contract measure_of pandora_cost).
  Notation optimal := (optimal px_eqb nan bool_ok pandora_check matching_cost_margins can_open_mandatory can_open images_ok image_size open_raster load measure_of offset_of pandora_cost zoomed one store
    filter_apply lstsq resample junk interp minimise estimate).
  Variable timestamp : string.
  Variable cwd : path.
  Variable components : string -> path.
  Variable root : Q -> Q.
  Notation main_files output := (main_files (fun user => snd (check_user user (new_machine None))) main output cwd timestamp components (report_of root)).
  Hypothesis Hpandora : pandora_contract pandora_check.

  (** What the report of a run must be, for the saved maps. *)
  Definition report_says (inv : json) (saved : dmaps cost) (report : json) : Prop :=
    exists r c, get_path ["statistics"; "disparity"; "row"] report = Some r /\ get_path ["statistics"; "disparity"; "col"] report = Some c /\
      (forall rows, valid_numbers inv (List.concat (dm_row_map saved)) rows -> (rows = [] -> says_nothing r) /\ (rows <> [] -> says root rows r)) /\
      (forall cols, valid_numbers inv (List.concat (dm_col_map saved)) cols -> (cols = [] -> says_nothing c) /\ (cols <> [] -> says root cols c)).
  (** Every run without ROI that ends without error: report.json describes the three rasters beside it. *)
  Theorem C96_this_run output sample completed user q rows cols e r d d' : libraries -> programmed user q rows cols e r -> plain user -> q_zone q = None -> main_files output sample completed user d = (d', true) ->
    exists saved report, maps_on_disk output saved report d' /\ saved_pixels q rows cols saved /\ report_says (q_invalid q) saved report.
  Proof.
    intros L P Hp Z E. edestruct (C95_this_run px_eqb nan bool_ok pandora_check matching_cost_margins can_open_mandatory can_open images_ok image_size open_raster load transform_of dataset_ok
      measure_of offset_of pandora_cost zoomed one store filter_apply lstsq resample junk interp minimise estimate global_margins margins_to_dict timestamp cwd components (report_of root) Hpandora output sample completed user q rows cols e r d d' L P Hp E)
      as (saved & reported & cfg & left & m & _ & _ & M & S & _ & _ & R). rewrite (R Z) in M. exists saved, (report_of root (q_invalid q) saved). split; [exact M|]. split; [exact S|].
    do 2 eexists. split; [reflexivity|]. split; [reflexivity|]. split; intros l V; apply (statistics_right root _ _ _ V).
  Qed.
  (** Constant disparities without refinement: the statistics are those of the best disparities of the valid pixels; they are well defined. *)
  Theorem C96_best output sample completed pixel_cost user q rows cols a b d : libraries -> cost_contract pixel_cost -> asked user q rows cols ->
    steps_are user ["matching_cost"; "disparity"] -> constant (q_row_init q) a -> constant (q_col_init q) b -> plain user -> writable output d -> q_zone q = None -> exact_invalid one (q_invalid q) ->
    exists saved report d' lr lc, main_files output sample completed user d = (d', true) /\ maps_on_disk output saved report d' /\ optimal pixel_cost user q rows cols saved /\
      report_says (q_invalid q) saved report /\ valid_numbers (q_invalid q) (List.concat (dm_row_map saved)) lr /\ valid_numbers (q_invalid q) (List.concat (dm_col_map saved)) lc.
  Proof.
    intros L C A S Ca Cb Hp W Z X.
    edestruct (C95_best px_eqb nan bool_ok pandora_check matching_cost_margins can_open_mandatory can_open images_ok image_size open_raster load transform_of dataset_ok
      measure_of offset_of pandora_cost zoomed one store filter_apply lstsq resample junk interp minimise estimate global_margins margins_to_dict timestamp cwd components (report_of root) Hpandora output sample completed pixel_cost user q rows cols a b d L C A S Ca Cb Hp W)
      as (saved & report & d' & E & M & R & O & _).
    assert (P : programmed user q rows cols false false) by (split; [split; [exact A | intros s Hs; rewrite Hs in Ca; inversion Ca] | exact S]).
    destruct (C96_this_run output sample completed user q rows cols false false d d' L P Hp Z E) as (saved' & report' & M' & Sp & Rs).
    assert (Same : dm_row_map saved' = dm_row_map saved /\ dm_col_map saved' = dm_col_map saved /\ report' = report).
    { destruct M as (M1 & M2 & _ & M4). destruct M' as (N1 & N2 & _ & N4). rewrite M1 in N1. rewrite M2 in N2. rewrite M4 in N4. injection N1 as N1 _. injection N2 as N2 _. injection N4 as N4. auto. }
    destruct Same as (Sr & Sc & ->). unfold report_says in Rs. rewrite Sr, Sc in Rs.
    destruct R as (_ & _ & _ & _ & Wf & V).
    assert (Finite : forall mp, (mp = dm_row_map saved \/ mp = dm_col_map saved) -> exists l, valid_numbers (q_invalid q) (List.concat mp) l).
    { intros mp Hm. apply valid_exists. intros x Hx. assert (Rm : rect (List.length (dm_rows saved)) (List.length (dm_cols saved)) mp) by (apply Wf; tauto).
      destruct (in_pixels _ _ _ _ Rm Hx) as (i & k & Hi & Hk & Hn). apply nth_error_Some in Hi. apply nth_error_Some in Hk.
      destruct (nth_error (dm_rows saved) i) as [xx|] eqn:Ei; [|congruence]. destruct (nth_error (dm_cols saved) k) as [yy|] eqn:Ek; [|congruence].
      destruct (V i k xx yy Ei Ek) as (vr & vc & Hr & Hc & Cases).
      destruct Hm as [-> | ->]; [rewrite Hr in Hn | rewrite Hc in Hn]; injection Hn as <-; (destruct Cases as [(C1 & C2)|((w & u & _ & -> & _) & (w' & u' & _ & -> & _))]; [right; left; now apply X | right; right; eauto]). }
    destruct (Finite _ (or_introl eq_refl)) as (lr & Vr). destruct (Finite _ (or_intror eq_refl)) as (lc & Vc).
    exists saved, report, d', lr, lc. auto 10.
  Qed.
End Program.

(** Pixels whose valid values are all missing: report.json is not standard JSON. *)
Theorem C96_standard_refuted : exists inv maps, (forall m, m = dm_row_map maps \/ m = dm_col_map maps -> rect 1 2 m /\ forall x, In x (List.concat m) -> exactly inv x) /\
  ~ standard (report_of (fun x => x) inv maps).
Proof.
  exists (JInt (-9999)), (mkDmaps [0] [0; 1] [[CFin (-9999); CFin (-9999)]] [[CFin (-9999); CFin (-9999)]] [[CFin (-9999); CFin (-9999)]] None). split.
  - intros m Hm. assert (m = [[CFin (-9999); CFin (-9999)]]) as -> by (destruct Hm as [-> | ->]; reflexivity). split; [split; [reflexivity | repeat constructor]|].
    intros x Hx. cbn in Hx. destruct Hx as [<-|[<-|[]]]; constructor; reflexivity.
  - rewrite (C96_standard (fun x => x) _ _ [] []); [intros (H & _); now apply H | |]; cbn; repeat (apply vn_skip; [right; constructor; reflexivity|]); constructor.
Qed.
(** An invalid value that is not a float32: the pixels without disparity have the nearest float32 and are counted as valid. Here 0.1, whose float32 is 13421773 / 2^27. *)
Theorem C96_float_refuted : exists inv maps r mu, (forall x, In x (List.concat (dm_row_map maps)) -> x = CFin (13421773 # 134217728) \/ x = CFin 7) /\
  inv = JFloat (1 # 10) /\ In (CFin 7) (List.concat (dm_row_map maps)) /\
  get_path ["statistics"; "disparity"; "row"] (report_of (fun x => x) inv maps) = Some r /\ number_at ["mean"] r mu /\ ~ (mu == 7)%Q.
Proof.
  exists (JFloat (1 # 10)), (mkDmaps [0] [0; 1] [[CFin (13421773 # 134217728); CFin 7]] [[CFin 0; CFin 0]] [[CFin 0; CFin 0]] None). do 2 eexists.
  split; [intros x Hx; cbn in Hx; destruct Hx as [<-|[<-|[]]]; auto|]. split; [reflexivity|]. split; [cbn; auto|]. split; [reflexivity|]. split; [reflexivity|].
  vm_compute. discriminate.
Qed.

(** * Examples *)
Notation wr_files output := (main_files (fun user => snd (wh_check user)) wh_main output ["home"] "now" ou_components (report_of (fun x => x))).
Definition wr_user : dict := wh_user [JInt 2; JInt 3] (wh_disp (JInt 0) 2) (wh_disp (JInt (-1)) 1) [] [].
Definition wr_request : request := mkRequest (JInt 0) 2 (JInt (-1)) 1 2 3 None JNan.
Lemma wr_asked : wh_asked wr_user wr_request 8 9.
Proof. unfold wr_user. wh_asked_tac. Qed.
Definition wr_shown (c : option (content cost)) : option json :=
  match c with Some (Text j) => match get_path ["statistics"; "disparity"; "row"; "mean"] j with Some (JFloat q) => Some (JFloat (Qred q)) | x => x end | _ => None end.
Example C96_example : wh_asked wr_user wr_request 8 9 /\ steps_are wr_user ["matching_cost"; "disparity"] /\ constant (q_row_init wr_request) 0 /\ constant (q_col_init wr_request) (-1) /\
  plain wr_user /\ writable ["out"] ou_disk /\ exact_invalid 512 (q_invalid wr_request) /\
  let (d, ok) := wr_files ["out"] ou_sample 0 wr_user ou_disk in ok = true /\ 
    ou_shown (file d ["out"; "row_disparity.tif"]) = Some [[Some 2%Q; Some 1%Q; Some 1%Q]; [Some 1%Q; Some 1%Q; Some 1%Q]; [Some 0%Q; Some 1%Q; Some 1%Q]; [Some (-1)%Q; Some 1%Q; Some 1%Q]] /\
    wr_shown (file d ["out"; "report.json"]) = Some (JFloat (5 # 6)).
Proof.
  split; [exact wr_asked|]. split; [eexists; split; reflexivity|]. split; [constructor|]. split; [constructor|]. split; [left; reflexivity|]. split; [exact ou_writable|]. split; [apply exact_nan|].
  vm_compute. repeat split; reflexivity.
Qed.

Print Assumptions C96_report.
Print Assumptions C96_standard.
Print Assumptions C96_this_run.
Print Assumptions C96_best.
Print Assumptions C96_standard_refuted.
Print Assumptions C96_float_refuted.
