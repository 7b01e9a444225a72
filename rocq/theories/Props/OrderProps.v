(** C110: the order of the keys of a configuration. *)
From Coq Require Import List String Bool ZArith Lia.
From Verif Require Import Base.Json Base.Arr Model.CommonModel Model.ConfigModel Model.InputModel Model.MachineModel Model.CheckConfModel
  Spec.ConfigSpec Spec.MachineSpec Spec.CheckConfSpec Spec.AcceptSpec Spec.OrderSpec Proofs.ConfigProofs Proofs.MachineProofs Proofs.AcceptProofs
  Proofs.OrderProofs Props.CheckConfProps Props.AcceptProps.
Import ListNotations.
Open Scope Z_scope.
Open Scope string_scope.
Open Scope list_scope.

Section Environment.
  Context {D M : Type}.
  Variable bool_ok : bool.
  Variable pandora_check : dict -> option (json * json * json).
  Variable matching_cost_margins refinement_margins : dict -> M.
  Variable disparity_margins : M.
  Variable run_step : callback -> string -> json -> option M -> option json -> option json -> D -> option D.
  Variable can_open_mandatory can_open : json -> bool.
  Variable images_ok : json -> json -> json -> json -> bool.
  Variable image_size : string -> nat * nat.
  Variable open_raster : string -> reader.
  Notation check_conf := (check_conf bool_ok pandora_check matching_cost_margins refinement_margins disparity_margins run_step
    can_open_mandatory can_open (check_images_of images_ok) image_size open_raster).

  (** * C110: the keys can be written in any order, at every level, but for the steps of the pipeline *)
  Theorem C110_any_order user user2 d : pandora_contract pandora_check -> sized image_size -> reads_values pandora_check ->
    wf (JDict user) -> wf (JDict user2) -> same_values (JDict user) (JDict user2) -> same_steps user user2 ->
    ((exists m cfg, check_conf user (new_machine d) = (m, Some cfg)) <-> (exists m cfg, check_conf user2 (new_machine d) = (m, Some cfg))).
  Proof.
    intros HP HS HR W W2 S K. rewrite !C70_accepted_iff by auto. split.
    - exact (accepted_same _ _ _ _ _ _ _ HR user user2 W2 S K).
    - apply (accepted_same _ _ _ _ _ _ _ HR user2 user W (same_sym _ _ S)). intros p q Hp Hq. symmetry. exact (K _ _ Hq Hp).
  Qed.
  (** The checked configurations have the same values too. *)
  Theorem C110_same_checked user user2 d m m2 cfg cfg2 : pandora_contract pandora_check -> reads_values pandora_check ->
    wf (JDict user) -> wf (JDict user2) -> same_values (JDict user) (JDict user2) -> same_steps user user2 ->
    check_conf user (new_machine d) = (m, Some cfg) -> check_conf user2 (new_machine d) = (m2, Some cfg2) -> same_values (JDict cfg) (JDict cfg2).
  Proof. intros HP HR W W2 S K H H2. exact (checked_same _ _ _ _ _ _ _ _ _ _ _ HP HR user user2 d m m2 cfg cfg2 W W2 S K H H2). Qed.
End Environment.

(** * Examples *)
Lemma pandora_default_values : reads_values pandora_default.
Proof.
  intros c e S. unfold pandora_default.
  assert (L : forall k def, match lookup k e with Some (JInt v) => Some (JInt v) | None => Some (JInt def) | Some _ => None end =
                            match lookup k c with Some (JInt v) => Some (JInt v) | None => Some (JInt def) | Some _ => None end).
  { intros k def. destruct (lookup k c) as [v|] eqn:E; [|now rewrite (same_none _ _ _ S E)].
    destruct (same_lookup _ _ _ _ S E) as (w & -> & Sw). destruct Sw; reflexivity. }
  rewrite !L. reflexivity.
Qed.
(** The same configuration as [example_user], written the other way round but for the three steps; with the steps reversed. *)
Definition reversed_steps (steps : dict -> dict) : dict :=
  [("expert_mode", JDict [("profiling", JDict [("folder_name", JStr "out")])]);
   ("input", JDict [("row_disparity", JDict [("range", JInt 2); ("init", JInt (-1))]); ("col_disparity", JDict [("range", JInt 2); ("init", JInt (-1))]);
                    ("right", JDict [("img", JStr "right.tif")]); ("left", JDict [("nodata", JStr "NaN"); ("img", JStr "left.tif")])]);
   ("pipeline", JDict (steps [("matching_cost", JDict [("matching_cost_method", JStr "zncc")]);
                       ("disparity", JDict [("invalid_disparity", JStr "NaN"); ("disparity_method", JStr "wta")]);
                       ("refinement", JDict [("refinement_method", JStr "optical_flow")])]))].
Ltac same_keys := let k := fresh "k" in intros k; cbn [lookup];
  repeat match goal with |- context [if (k =? ?s)%string then _ else _] => destruct (k =? s)%string end; split; intros; (reflexivity || discriminate).
Ltac solve_same := match goal with
  | |- same_values (JDict _) (JDict _) => apply same_dict; [same_keys|]; let k := fresh "k" in let v := fresh "v" in let w := fresh "w" in intros k v w; cbn [lookup];
      repeat match goal with |- context [if (k =? ?s)%string then _ else _] => let E := fresh "E" in destruct (k =? s)%string eqn:E; [apply String.eqb_eq in E; subst k; cbn [String.eqb Ascii.eqb Bool.eqb]|] end;
      let A := fresh "A" in let B := fresh "B" in intros A B; try discriminate A; try discriminate B; injection A as <-; injection B as <-; solve_same
  | |- same_values _ _ => apply same_leaf; reflexivity
  end.
Lemma example_same : same_values (JDict (example_user [])) (JDict (reversed_steps (fun p => p))) /\ same_values (JDict (example_user [])) (JDict (reversed_steps (@rev _))).
Proof. unfold example_user, reversed_steps, example_disparity. cbn [app rev]. split; solve_same. Qed.
Lemma reversed_wf : wf (JDict (reversed_steps (fun p => p))) /\ wf (JDict (reversed_steps (@rev _))).
Proof. unfold reversed_steps. cbn [app rev]. split; solve_wf. Qed.
Example C110_example : wf (JDict (example_user [])) /\ wf (JDict (reversed_steps (fun p => p))) /\
  same_values (JDict (example_user [])) (JDict (reversed_steps (fun p => p))) /\ same_steps (example_user []) (reversed_steps (fun p => p)) /\
  reads_values pandora_default /\ env_accepted (example_user []) /\ env_accepted (reversed_steps (fun p => p)).
Proof.
  split; [apply C68_example|]. split; [apply reversed_wf|]. split; [apply example_same|]. split; [|split; [exact pandora_default_values|]].
  - intros p q A B. vm_compute in A, B. injection A as <-. injection B as <-. reflexivity.
  - split; (apply env_iff; [first [apply C68_example | apply reversed_wf] | vm_compute; discriminate]).
Qed.
(** The two checked configurations are written in different orders. *)
Example C110_checked_example : exists m m2 cfg cfg2, env_accept (example_user []) (new_machine tt) = (m, Some cfg) /\
  env_accept (reversed_steps (fun p => p)) (new_machine tt) = (m2, Some cfg2) /\ cfg <> cfg2 /\ same_values (JDict cfg) (JDict cfg2).
Proof.
  destruct C110_example as (W & W2 & S & K & R & _).
  assert (A : match snd (env_accept (example_user []) (new_machine tt)) with Some c => get_path ["pipeline"; "disparity"] (JDict c) | None => None end =
    Some (JDict [("disparity_method", JStr "wta"); ("invalid_disparity", JNan)])) by (vm_compute; reflexivity).
  assert (B : match snd (env_accept (reversed_steps (fun p => p)) (new_machine tt)) with Some c => get_path ["pipeline"; "disparity"] (JDict c) | None => None end =
    Some (JDict [("invalid_disparity", JNan); ("disparity_method", JStr "wta")])) by (vm_compute; reflexivity).
  revert W W2 S K A B. generalize (example_user []) as u, (reversed_steps (fun p => p)) as u2. intros u u2 W W2 S K A B.
  destruct (env_accept u (new_machine tt)) as [m [cfg|]] eqn:X; [|discriminate].
  destruct (env_accept u2 (new_machine tt)) as [m2 [cfg2|]] eqn:Y; [|discriminate]. cbn [snd] in A, B.
  exists m, m2, cfg, cfg2. split; [reflexivity|]. split; [reflexivity|]. split; [congruence|].
  unfold env_accept in X, Y. exact (C110_same_checked _ _ _ _ _ _ _ _ _ _ _ u u2 tt m m2 cfg cfg2 pandora_default_contract R W W2 S K X Y).
Qed.
(** The order of the steps of the pipeline matters: the same values with the steps in another order are refused. *)
Theorem C110_steps_order_refuted : exists user user2, wf (JDict user) /\ wf (JDict user2) /\ same_values (JDict user) (JDict user2) /\
  snd (env_accept user (new_machine tt)) <> None /\ snd (env_accept user2 (new_machine tt)) = None.
Proof.
  exists (example_user []), (reversed_steps (@rev _)). split; [apply C68_example|]. split; [apply reversed_wf|]. split; [apply example_same|].
  split; [vm_compute; discriminate | vm_compute; reflexivity].
Qed.

Print Assumptions C110_any_order.
Print Assumptions C110_same_checked.
Print Assumptions C110_steps_order_refuted.
