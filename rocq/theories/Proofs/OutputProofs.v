(** Proofs about the files. *)
From Coq Require Import Sorted List String Bool ZArith QArith Lia.
From Verif Require Import Base.Json Base.Dict Model.RoiModel Model.StatisticsModel Model.OutputModel Spec.OutputSpec.
Import ListNotations.
Open Scope string_scope.
Open Scope list_scope.

Lemma path_eqb_spec p q : reflect (p = q) (path_eqb p q).
Proof. unfold path_eqb. destruct (list_eq_dec string_dec p q); constructor; assumption. Qed.
Lemma path_eqb_refl p : path_eqb p p = true.
Proof. now destruct (path_eqb_spec p p). Qed.
Lemma path_eqb_neq p q : p <> q -> path_eqb p q = false.
Proof. intros H. now destruct (path_eqb_spec p q). Qed.

(** Ends of strings: no name ends like these two. *)
Lemma append_inj s a b : (s ++ a)%string = (s ++ b)%string -> a = b.
Proof. induction s as [|c s IH]; cbn; [auto|]. intros H. injection H as H. auto. Qed.
Lemma string_length_app a b : String.length (a ++ b)%string = (String.length a + String.length b)%nat.
Proof. induction a; cbn; auto. Qed.
Fixpoint ends (suffix s : string) : bool := (s =? suffix) || match s with EmptyString => false | String _ r => ends suffix r end.
Lemma ends_app s suffix : ends suffix (s ++ suffix)%string = true.
Proof.
  induction s as [|c s IH]; cbn [append].
  - destruct suffix; cbn [ends]; now rewrite String.eqb_refl.
  - cbn [ends]. now rewrite IH, Bool.orb_true_r.
Qed.

Section Disk.
  Context {A : Type}.
  Notation disk := (disk A).
  Notation content := (content A).
  Notation action := (@action A).

  Lemma perform_app (a b : list action) d : perform (a ++ b) d = let '(d', ok) := perform a d in if ok then perform b d' else (d', false).
  Proof. revert d. induction a as [|x a IH]; intros d; cbn [app perform]; [reflexivity|]. destruct (x d); [apply IH | reflexivity]. Qed.
  Lemma perform_app_true (a b : list action) d d' : perform (a ++ b) d = (d', true) -> exists d1, perform a d = (d1, true) /\ perform b d1 = (d', true).
  Proof. rewrite perform_app. destruct (perform a d) as [d1 [|]]; [eauto | discriminate]. Qed.

  Lemma file_cons p q (c : content) f l : file (mkDisk f ((p, c) :: l)) q = if path_eqb q p then Some c else find_file q l.
  Proof. reflexivity. Qed.
  Lemma mkdir_files p (d d' : disk) : mkdir p d = Some d' -> d_files d' = d_files d.
  Proof. unfold mkdir. destruct (file d p); [discriminate|]. destruct (is_folder p d); [intros H; now injection H as <-|]. destruct (is_folder (removelast p) d); [|discriminate]. intros H. now injection H as <-. Qed.
  Lemma mkdirs_files l (d d' : disk) ok : perform (map mkdir l) d = (d', ok) -> d_files d' = d_files d.
  Proof.
    revert d. induction l as [|p l IH]; intros d; cbn [map perform]; [intros H; now injection H as <- _|].
    destruct (mkdir p d) as [d1|] eqn:E; [|intros H; now injection H as <- _]. intros H. rewrite (IH _ H). now apply (mkdir_files p).
  Qed.
  Lemma write_some p c (d d' : disk) : write p c d = Some d' -> d_files d' = (p, c) :: d_files d /\ d_folders d' = d_folders d.
  Proof. unfold write. destruct (is_folder p d); [discriminate|]. destruct (is_folder (removelast p) d); [|discriminate]. intros H. now injection H as <-. Qed.
  Lemma file_written p c (d d' : disk) q : write p c d = Some d' -> file d' q = if path_eqb q p then Some c else file d q.
  Proof. intros H. apply write_some in H as [H _]. unfold file. rewrite H. reflexivity. Qed.
  Lemma file_same (d d' : disk) : d_files d' = d_files d -> forall p, file d' p = file d p.
  Proof. intros H p. unfold file. now rewrite H. Qed.
  Lemma file_removed p (d d' : disk) q : remove p d = Some d' -> file d' q = if path_eqb q p then None else file d q.
  Proof.
    unfold remove. destruct (file d p); [|discriminate]. intros H. injection H as <-. unfold file. cbn [d_files].
    induction (d_files d) as [|[r x] l IH]; cbn [List.filter find_file fst]; [now destruct (path_eqb q p)|].
    destruct (path_eqb_spec p r) as [<-|N]; cbn [negb].
    - rewrite IH. destruct (path_eqb_spec q p) as [->|M]; reflexivity.
    - cbn [find_file]. rewrite IH. destruct (path_eqb_spec q r) as [->|M]; [|reflexivity]. destruct (path_eqb_spec r p) as [->|_]; [now elim N | reflexivity].
  Qed.

  (** Folders. *)
  Lemma prefixes_in p q : In p (prefixes q) <-> beginning p q.
  Proof.
    revert p. induction q as [|x q IH]; intros p; cbn [prefixes].
    - split; [intros [<-|[]]; now exists [] | intros (r & H); destruct p; [now left | discriminate]].
    - cbn [In]. rewrite in_map_iff. split.
      + intros [<-|(y & <- & Hy)]; [now exists (x :: q)|]. apply IH in Hy as (r & ->). now exists r.
      + intros (r & H). destruct p as [|y p]; [now left|]. right. injection H as <- H. exists p. split; [reflexivity|]. apply IH. now exists r.
  Qed.
  Lemma mkdir_ok p (d : disk) : file d p = None -> is_folder p d = true \/ is_folder (removelast p) d = true -> exists d', mkdir p d = Some d' /\
    (forall q, is_folder q d' = true <-> is_folder q d = true \/ q = p).
  Proof.
    intros F P. unfold mkdir. rewrite F. destruct (is_folder p d) eqn:E.
    - exists d. split; [reflexivity|]. intros q. split; [auto|]. intros [H| ->]; auto.
    - destruct P as [P|P]; [discriminate|]. rewrite P. eexists. split; [reflexivity|]. unfold is_folder. cbn [d_folders existsb].
      intros q. destruct (path_eqb_spec q p) as [->|N]; [split; [auto | intros _; apply orb_true_r]|]. cbn [orb]. split; [auto | intros [H|H]; [exact H | now elim N]].
  Qed.
  Lemma mkdirs_ok l : forall pre (d : disk), (forall p, beginning p (pre ++ l) -> file d p = None) -> is_folder pre d = true \/ is_folder (removelast pre) d = true ->
    exists d', perform (map mkdir (map (app pre) (prefixes l))) d = (d', true) /\ (forall q, is_folder q d' = true <-> is_folder q d = true \/ exists r, beginning r l /\ q = pre ++ r).
  Proof.
    induction l as [|x l IH]; intros pre d F P; cbn [prefixes map perform]; rewrite app_nil_r; (destruct (mkdir_ok pre d) as (d1 & E & Q); [apply F; eexists; reflexivity | exact P|]); rewrite E.
    - exists d1. split; [reflexivity|]. intros q. rewrite Q. split; intros [H|H]; auto.
      + right. exists []. subst q. split; [now exists [] | now rewrite app_nil_r].
      + right. destruct H as (r & (t & Hr) & ->). destruct r; [now rewrite app_nil_r | discriminate].
    - rewrite (map_map (cons x) (app pre)). rewrite (map_ext _ (app (pre ++ [x]))) by (intros a; now rewrite <- app_assoc).
      destruct (IH (pre ++ [x]) d1) as (d2 & E2 & Q2).
      + intros p (t & Hp). rewrite (file_same _ _ (mkdir_files _ _ _ E)). apply F. exists t. rewrite <- Hp, <- app_assoc. reflexivity.
      + right. rewrite removelast_last. apply Q. now right.
      + exists d2. split; [exact E2|]. intros q. rewrite Q2, Q. split.
        * intros [[H| ->]|(r & (t & Hr) & ->)]; [now left | right; exists []; split; [now exists (x :: l) | now rewrite app_nil_r]|].
          right. exists (x :: r). split; [exists t; cbn; now rewrite Hr | rewrite <- app_assoc; reflexivity].
        * intros [H|(r & (t & Hr) & ->)]; [auto|]. destruct r as [|y r]; [left; right; now rewrite app_nil_r|]. injection Hr as <- Hr.
          right. exists r. split; [now exists t | now rewrite <- app_assoc].
  Qed.
  Lemma mkdir_p_ok p (d : disk) : (forall q, beginning q p -> file d q = None) -> exists d', perform (mkdir_p p) d = (d', true) /\ d_files d' = d_files d /\
    (forall q, is_folder q d' = true <-> is_folder q d = true \/ beginning q p).
  Proof.
    intros F. destruct (mkdirs_ok p [] d) as (d' & E & Q); [exact F | left; reflexivity|]. unfold mkdir_p. rewrite map_id in E.
    exists d'. split; [exact E|]. split; [exact (mkdirs_files _ _ _ _ E)|]. intros q. rewrite Q. split; (intros [H|H]; [now left | right]); [destruct H as (r & H & ->); exact H | now exists q].
  Qed.
  Lemma write_ok p c (d : disk) : is_folder p d = false -> is_folder (removelast p) d = true -> exists d', write p c d = Some d' /\ d_files d' = (p, c) :: d_files d /\ (forall q, is_folder q d' = is_folder q d).
  Proof. intros H1 H2. unfold write. rewrite H1, H2. eexists. split; [reflexivity|]. split; reflexivity. Qed.

  (** Without error, the files of the maps. *)
  Lemma maps_written output saved report (d d' : disk) : perform (write_maps output saved ++ write_report output report) d = (d', true) ->
    maps_on_disk output saved report d' /\ others_kept (map_files output) d d'.
  Proof.
    intros H. apply perform_app_true in H as (d0 & H & H4). unfold write_maps in H. apply perform_app_true in H as (d1 & H0 & H1).
    apply mkdirs_files in H0. cbn [perform write_report] in H1, H4.
    destruct (write _ _ d1) as [d2|] eqn:E1; [|discriminate]. destruct (write _ _ d2) as [d3|] eqn:E2; [|discriminate]. destruct (write _ _ d3) as [d4|] eqn:E3; [|discriminate].
    injection H1 as ->. destruct (write _ _ d0) as [d5|] eqn:E4; [|discriminate]. injection H4 as ->.
    assert (X : forall a b : string, a <> b -> output ++ [a] <> output ++ [b]) by (intros a b N Y; apply app_inv_head in Y; congruence).
    unfold maps_on_disk, others_kept, map_files. rewrite !(file_written _ _ _ _ _ E4), !(file_written _ _ _ _ _ E3), !(file_written _ _ _ _ _ E2), !(file_written _ _ _ _ _ E1).
    rewrite !path_eqb_refl. rewrite !(path_eqb_neq (output ++ [_]) (output ++ [_])) by (apply X; discriminate). split; [auto|].
    intros p Np. cbn [In] in Np. rewrite (file_written _ _ _ _ _ E4), (file_written _ _ _ _ _ E3), (file_written _ _ _ _ _ E2), (file_written _ _ _ _ _ E1), !path_eqb_neq by (intros ->; tauto). now apply file_same.
  Qed.
  Lemma config_written output cfg (d d' : disk) : perform (save_config output cfg) d = (d', true) ->
    file d' (config_file output) = Some (Text (JDict cfg)) /\ others_kept [config_file output] d d'.
  Proof.
    intros H. unfold save_config in H. apply perform_app_true in H as (d1 & H0 & H1). apply mkdirs_files in H0. cbn [perform] in H1. destruct (write _ _ d1) as [d2|] eqn:E; [|discriminate]. injection H1 as ->.
    unfold config_file. split; [rewrite (file_written _ _ _ _ _ E); now rewrite path_eqb_refl|]. intros p Np. cbn [In] in Np. rewrite (file_written _ _ _ _ _ E), path_eqb_neq by (intros ->; tauto). now apply file_same.
  Qed.
End Disk.

Lemma not_beginning (output : path) a b : a <> b -> ~ beginning (output ++ [a]) (output ++ [b]).
Proof. intros N (r & H). rewrite <- app_assoc in H. apply app_inv_head in H. cbn in H. congruence. Qed.
Lemma beginning_trans p q r : beginning p q -> beginning q r -> beginning p r.
Proof. intros (a & ->) (b & ->). exists (a ++ b). now rewrite app_assoc. Qed.
Lemma beginning_longer (p : path) x r : ~ beginning (p ++ x :: r) p.
Proof. intros (t & H). apply (f_equal (@List.length string)) in H. rewrite !app_length in H. cbn in H. lia. Qed.

Section Ready.
  Context {A : Type}.
  Notation disk := (disk A).
  Lemma maps_ok output saved report (d : disk) : writable output d -> exists d', perform (write_maps output saved ++ write_report output report) d = (d', true) /\ writable output d'.
  Proof.
    intros (F & N). destruct (mkdir_p_ok output d) as (d0 & E0 & F0 & G0).
    { intros q Hq. apply F. apply (beginning_trans _ output); [exact Hq | now exists ["cfg"]]. }
    assert (N0 : forall a, In (output ++ [a]) (map_files output) -> is_folder (output ++ [a]) d0 = false).
    { intros a Ha. destruct (is_folder (output ++ [a]) d0) eqn:E; [|reflexivity]. apply G0 in E as [E|E]; [|now apply beginning_longer in E]. rewrite N in E; [discriminate | now right]. }
    assert (P0 : is_folder output d0 = true) by (apply G0; right; exists []; now rewrite app_nil_r).
    assert (Step : forall a c (x : disk), In (output ++ [a]) (map_files output) -> (forall q, is_folder q x = is_folder q d0) ->
      exists y, write (output ++ [a]) c x = Some y /\ d_files y = (output ++ [a], c) :: d_files x /\ (forall q, is_folder q y = is_folder q d0)).
    { intros a c x Ha Hx. destruct (write_ok (output ++ [a]) c x) as (y & E & Fy & Gy); [rewrite Hx; now apply N0 | rewrite removelast_last, Hx; exact P0|].
      exists y. split; [exact E|]. split; [exact Fy|]. intros q. now rewrite Gy. }
    destruct (Step "row_disparity.tif" (Raster (dm_row_map saved) (dm_transform saved)) d0) as (d1 & E1 & F1 & G1); [cbn; tauto | reflexivity|].
    destruct (Step "columns_disparity.tif" (Raster (dm_col_map saved) (dm_transform saved)) d1) as (d2 & E2 & F2 & G2); [cbn; tauto | exact G1|].
    destruct (Step "correlation_score.tif" (Raster (dm_score saved) (dm_transform saved)) d2) as (d3 & E3 & F3 & G3); [cbn; tauto | exact G2|].
    destruct (Step "report.json" (Text report) d3) as (d4 & E4 & F4 & G4); [cbn; tauto | exact G3|].
    exists d4. split.
    - unfold write_maps, write_report. rewrite <- app_assoc, perform_app, E0. cbn [app perform]. now rewrite E1, E2, E3, E4.
    - split.
      + intros p Hp. unfold file. rewrite F4, F3, F2, F1. cbn [find_file].
        rewrite !path_eqb_neq by (intros ->; revert Hp; apply not_beginning; discriminate). rewrite F0. exact (F p Hp).
      + intros p Hp. rewrite G4. destruct (is_folder p d0) eqn:E; [|reflexivity]. apply G0 in E as [E|E]; [now rewrite (N p Hp) in E|].
        exfalso. cbn [In map_files] in Hp. unfold config_file in Hp. destruct Hp as [<-|[<-|[<-|[<-|[<-|[]]]]]]; now apply beginning_longer in E.
  Qed.
  Lemma config_ok output cfg (d : disk) : writable output d -> exists d', perform (save_config output cfg) d = (d', true).
  Proof.
    intros (F & N). unfold save_config. destruct (mkdir_p_ok (output ++ ["cfg"]) d F) as (d0 & E0 & F0 & G0). rewrite perform_app, E0. cbn [perform].
    assert (X : output ++ ["cfg"; "config.json"] = (output ++ ["cfg"]) ++ ["config.json"]) by (rewrite <- app_assoc; reflexivity).
    destruct (write_ok (output ++ ["cfg"; "config.json"]) (Text (JDict cfg)) d0) as (d1 & E1 & _).
    - destruct (is_folder _ d0) eqn:E; [|reflexivity]. apply G0 in E as [E|E]; [rewrite N in E; [discriminate | now left]|]. rewrite X in E. now apply beginning_longer in E.
    - rewrite X, removelast_last. apply G0. right. exists []. now rewrite app_nil_r.
    - rewrite E1. eauto.
  Qed.

  (** Tables. *)
  Definition table_of (c : option (content A)) : list row := match c with Some (Table l) => l | _ => [] end.
  Lemma timed_true cwd ts rows : forall d d' : disk, perform (timed cwd ts rows) d = (d', true) ->
    (rows = [] /\ d' = d \/ file d' (cwd ++ [csv_name ts]) = Some (Table (table_of (file d (cwd ++ [csv_name ts])) ++ rows)) /\ left_over (file d (cwd ++ [csv_name ts])) (table_of (file d (cwd ++ [csv_name ts])))) /\ others_kept [cwd ++ [csv_name ts]] d d'.
  Proof.
    induction rows as [|r rows IH]; intros d d'; cbn [timed map perform].
    - intros H. injection H as <-. split; [auto|]. intros p _. reflexivity.
    - destruct (append_row _ r d) as [d1|] eqn:E; [|discriminate]. intros H. destruct (IH _ _ H) as (T & K).
      assert (W : write (cwd ++ [csv_name ts]) (Table (table_of (file d (cwd ++ [csv_name ts])) ++ [r])) d = Some d1).
      { unfold append_row in E. destruct (file d _) as [[| |l|]|]; try discriminate; exact E. }
      pose proof (fun q => file_written _ _ _ _ q W) as W'. split.
      + right. split.
        * destruct T as [(-> & ->)|(T & _)].
          -- rewrite W', path_eqb_refl. reflexivity.
          -- rewrite T. rewrite W', path_eqb_refl. cbn [table_of]. now rewrite <- app_assoc.
        * unfold append_row in E. destruct (file d _) as [[| |l|]|]; try discriminate; constructor.
      + intros p Hp. rewrite (K p Hp), W', path_eqb_neq; [reflexivity|]. intros ->. apply Hp. now left.
  Qed.
  (** Whatever happens, only the table can change. *)
  Lemma timed_others cwd ts rows : forall d d' : disk, forall ok, perform (timed cwd ts rows) d = (d', ok) -> others_kept [cwd ++ [csv_name ts]] d d'.
  Proof.
    induction rows as [|r rows IH]; intros d d' ok; cbn [timed map perform].
    - intros H. injection H as <- <-. intros p _. reflexivity.
    - destruct (append_row _ r d) as [d1|] eqn:E; [|intros H; injection H as <- <-; intros p _; reflexivity]. intros H p Hp. rewrite (IH _ _ _ H p Hp).
      assert (W : exists c, write (cwd ++ [csv_name ts]) c d = Some d1) by (unfold append_row in E; destruct (file d _) as [[| |l|]|]; try discriminate; eauto).
      destruct W as (c & W). rewrite (file_written _ _ _ _ _ W), path_eqb_neq; [reflexivity|]. intros ->. apply Hp. now left.
  Qed.
  Lemma names_differ ts : csv_name ts <> pdf_name ts.
  Proof. unfold csv_name, pdf_name. intros H. apply append_inj in H. discriminate. Qed.
  (** The summary, without error. *)
  Lemma summary_true output cwd ts components name (d d' : disk) : perform (generate_summary output cwd ts components name) d = (d', true) ->
    let folder := output ++ components name in let csv := cwd ++ [csv_name ts] in
    folder <> cwd /\ exists rows, file d csv = Some (Table rows) /\ file d' csv = None /\ file d' (folder ++ [csv_name ts]) = Some (Table rows) /\
      file d' (folder ++ [pdf_name ts]) = Some (Figures (figures rows)) /\ others_kept [csv; folder ++ [csv_name ts]; folder ++ [pdf_name ts]] d d'.
  Proof.
    intros H folder csv. cbn [generate_summary perform] in H. fold folder csv in H.
    destruct (mkdir folder d) as [d1|] eqn:E1; [|discriminate]. pose proof (file_same _ _ (mkdir_files _ _ _ E1)) as M.
    destruct (copy csv (folder ++ [csv_name ts]) d1) as [d2|] eqn:E2; [|discriminate]. unfold copy in E2.
    destruct (path_eqb_spec csv (folder ++ [csv_name ts])) as [|N]; [discriminate|]. destruct (file d1 csv) as [c|] eqn:C; [|discriminate].
    pose proof (fun q => file_written _ _ _ _ q E2) as W2. destruct (remove csv d2) as [d3|] eqn:E3; [|discriminate]. pose proof (fun q => file_removed _ _ _ q E3) as W3.
    assert (K : file d3 (folder ++ [csv_name ts]) = Some c) by (rewrite W3, W2, path_eqb_refl, path_eqb_neq by (intros X; now apply N); reflexivity).
    rewrite K in H. destruct c as [| |rows|]; try discriminate. destruct (write _ _ d3) as [d4|] eqn:E4; [|discriminate]. injection H as <-. pose proof (fun q => file_written _ _ _ _ q E4) as W4.
    assert (D : folder ++ [csv_name ts] <> folder ++ [pdf_name ts]) by (intros X; apply app_inv_head in X; injection X; apply names_differ).
    assert (D2 : csv <> folder ++ [pdf_name ts]) by (intros X; apply app_inj_tail in X as [_ X]; now apply names_differ in X).
    split; [intros X; apply N; unfold csv; now rewrite X|]. exists rows. rewrite <- M. split; [exact C|].
    rewrite !W4, path_eqb_refl, (path_eqb_neq _ _ D), (path_eqb_neq _ _ D2). split; [rewrite W3, path_eqb_refl; reflexivity|]. split; [exact K|]. split; [reflexivity|].
    intros p Hp. cbn [In] in Hp. rewrite W4, path_eqb_neq by (intros ->; tauto). rewrite W3, path_eqb_neq by (intros ->; tauto). rewrite W2, path_eqb_neq by (intros ->; tauto). apply M.
  Qed.
End Ready.

(** * The figures *)
Lemma compare_refl s : String.compare s s = Eq.
Proof. induction s as [|c s IH]; cbn; [reflexivity|]. unfold Ascii.compare. now rewrite N.compare_refl. Qed.
Lemma smaller_trans a : forall b c, smaller a b -> smaller b c -> smaller a c.
Proof.
  unfold smaller. induction a as [|x a IH]; intros [|y b] [|z c]; cbn; try discriminate; auto. unfold Ascii.compare.
  destruct (N.compare_spec (Ascii.N_of_ascii x) (Ascii.N_of_ascii y)) as [E1|E1|E1]; try discriminate; destruct (N.compare_spec (Ascii.N_of_ascii y) (Ascii.N_of_ascii z)) as [E2|E2|E2]; try discriminate; intros H1 H2.
  - rewrite E1, E2, N.compare_refl. now apply (IH b).
  - rewrite E1. now apply N.compare_lt_iff in E2 as ->.
  - rewrite <- E2. now apply N.compare_lt_iff in E1 as ->.
  - now rewrite (proj2 (N.compare_lt_iff _ _) (N.lt_trans _ _ _ E1 E2)).
Qed.
Lemma smaller_irrefl a : ~ smaller a a.
Proof. unfold smaller. rewrite compare_refl. discriminate. Qed.
Lemma smaller_flip a b : String.compare a b = Gt -> smaller b a.
Proof. unfold smaller. intros H. rewrite String.compare_antisym, H. reflexivity. Qed.
Lemma add_name_in s n l : In n (add_name s l) <-> n = s \/ In n l.
Proof.
  induction l as [|x l IH]; cbn [add_name]; [cbn; intuition congruence|]. destruct (String.compare s x) eqn:E.
  - apply String.compare_eq_iff in E as ->. cbn. intuition congruence.
  - cbn. intuition congruence.
  - cbn [In]. rewrite IH. tauto.
Qed.
Lemma add_name_sorted s l : StronglySorted smaller l -> StronglySorted smaller (add_name s l).
Proof.
  induction l as [|x l IH]; cbn [add_name]; intros S; [repeat constructor|]. inversion S as [|? ? S' F]; subst. destruct (String.compare s x) eqn:E; [exact S | |].
  - constructor; [exact S|]. constructor; [exact E|]. eapply Forall_impl; [|exact F]. intros y. now apply smaller_trans.
  - constructor; [now apply IH|]. apply Forall_forall. intros y Hy. apply add_name_in in Hy as [->|Hy]; [now apply smaller_flip | exact (proj1 (Forall_forall _ _) F y Hy)].
Qed.
Lemma names_right rows : names_of rows (names rows).
Proof.
  split.
  - induction rows as [|r rows IH]; [constructor|]. now apply add_name_sorted.
  - intros n. induction rows as [|r rows IH]; cbn [names fold_right]; [split; [intros [] | intros (? & [] & _)]|]. rewrite add_name_in. fold (names rows). rewrite IH. split.
    + intros [->|(r' & Hr & <-)]; [exists r; split; [now left | reflexivity] | exists r'; split; [now right | reflexivity]].
    + intros (r' & [<-|Hr] & <-); [now left | right; eauto].
Qed.
Lemma known_right f n rows : values_of f n rows (known f (group n rows)).
Proof.
  induction rows as [|r rows IH]; cbn [group List.filter]; [constructor|]. destruct (String.eqb_spec (w_name r) n) as [E|E]; [|now constructor].
  unfold known. cbn [flat_map]. fold (known f (group n rows)). destruct (f r) as [q|] eqn:F; cbn [app]; [now apply vo_known | now apply vo_missing].
Qed.
Lemma values_unique f n rows v : values_of f n rows v -> forall w, values_of f n rows w -> w = v.
Proof. induction 1; intros w W; inversion W; subst; try congruence; auto. f_equal; [congruence | auto]. Qed.
Lemma values_count f n rows v : (forall r, f r <> None) -> values_of f n rows v -> List.length v = List.length (group n rows).
Proof.
  intros T. induction 1 as [|r l v E V IH|r l v E F V IH|r l q v E F V IH]; cbn [group List.filter].
  - reflexivity.
  - rewrite (proj2 (String.eqb_neq _ _) E). exact IH.
  - now elim (T r).
  - rewrite (proj2 (String.eqb_eq _ _) E). cbn. now rewrite IH.
Qed.
Lemma names_group n rows : In n (names rows) -> group n rows <> [].
Proof.
  intros H. apply (proj2 (names_right rows)) in H as (r & Hr & <-). intros E. assert (X : In r (group (w_name r) rows)) by (apply filter_In; split; [exact Hr | apply String.eqb_refl]). now rewrite E in X.
Qed.
Lemma mean_right l : l <> [] -> exists x, average l = Some x /\ (x * inject_Z (Z.of_nat (List.length l)) == total l)%Q.
Proof.
  intros N. unfold average, over. destruct l as [|a l]; [now elim N|]. cbn [List.length]. eexists. split; [reflexivity|].
  assert (P : ~ (inject_Z (Z.of_nat (S (List.length l))) == 0)%Q) by (unfold Qeq; cbn; lia).
  field. exact P.
Qed.
Open Scope Q_scope.
Lemma sum_names (f : row -> Q) rows : fold_right Qplus 0 (map (fun n => total (known (fun r => Some (f r)) (group n rows))) (names rows)) == total (map f rows).
Proof.
  assert (Split : forall l rows, (forall r, In r rows -> In (w_name r) l) -> NoDup l -> fold_right Qplus 0 (map (fun n => total (known (fun r => Some (f r)) (group n rows))) l) == total (map f rows)).
  { clear rows. intros l rows. induction rows as [|r rows IH]; intros A N.
    - cbn. clear A N. induction l as [|x l IH]; cbn; [reflexivity|]. rewrite IH. ring.
    - cbn [map total fold_right]. fold (total (map f rows)). rewrite <- (IH (fun y Hy => A y (or_intror Hy)) N).
      specialize (A r (or_introl eq_refl)). clear IH. induction l as [|x l IHl]; [destruct A|]. inversion N as [|? ? Nx N']; subst. cbn [map fold_right].
      unfold group at 1. cbn [List.filter]. destruct (String.eqb_spec (w_name r) x) as [E|E].
      + fold (group x rows). unfold known at 1. cbn [flat_map app total fold_right]. fold (known (fun r => Some (f r)) (group x rows)). fold (total (known (fun r => Some (f r)) (group x rows))).
        assert (Z : fold_right Qplus 0 (map (fun n => total (known (fun r0 => Some (f r0)) (group n (r :: rows)))) l) == fold_right Qplus 0 (map (fun n => total (known (fun r0 => Some (f r0)) (group n rows))) l)).
        { clear IHl A N. subst x. induction l as [|y l IHy]; cbn [map fold_right]; [reflexivity|]. rewrite IHy; [|intros Y; apply Nx; now right | now inversion N'].
          unfold group at 1. cbn [List.filter]. destruct (String.eqb_spec (w_name r) y) as [Ey|Ey]; [elim Nx; left; congruence|]. reflexivity. }
        rewrite Z. ring.
      + fold (group x rows). destruct A as [A|A]; [congruence|]. rewrite (IHl A N'). ring. }
  apply Split.
  - intros r Hr. apply (proj2 (names_right rows)). eauto.
  - destruct (names_right rows) as (S & _). induction S as [|x l S IH F]; constructor; [|exact IH]. intros X. apply (smaller_irrefl x). exact (proj1 (Forall_forall _ _) F x X).
Qed.
Lemma count_total (rows : list row) : inject_Z (Z.of_nat (List.length rows)) == total (map (fun _ => 1) rows).
Proof.
  induction rows as [|r rows IH]; [reflexivity|]. cbn [List.length map total fold_right]. fold (total (map (fun _ : row => 1) rows)). rewrite <- IH, Nat2Z.inj_succ, <- Z.add_1_l, inject_Z_plus. reflexivity.
Qed.
Lemma known_ones (rows : list row) : known (fun _ => Some 1) rows = map (fun _ => 1) rows.
Proof. induction rows as [|r rows IH]; [reflexivity|]. cbn. now f_equal. Qed.
