(** Proofs about the command line. *)
From Coq Require Import List String Ascii Bool Arith Lia.
From Verif Require Import Model.CommandModel Spec.CommandSpec.
Import ListNotations.
Open Scope string_scope.
Open Scope list_scope.

Lemma prefix_app a : forall s, String.prefix a s = true <-> exists b, (a ++ b)%string = s.
Proof.
  induction a as [|c a IH]; intros s.
  - cbn. split; [exists s; reflexivity | destruct s; reflexivity].
  - destruct s as [|c' s]; [split; [discriminate | intros (b & H); discriminate]|]. cbn [String.prefix]. destruct (ascii_dec c c') as [->|N].
    + specialize (IH s). destruct IH as [I1 I2]. split; [intros H; destruct (I1 H) as (b & <-); exists b; reflexivity | intros (b & H); apply I2; exists b; now injection H].
    + split; [discriminate|]. intros (b & H). injection H as H _. contradiction.
Qed.
Lemma space_spec s : has_space s = true <-> exists a b, s = (a ++ String " " b)%string.
Proof.
  unfold has_space. rewrite negb_true_iff. induction s as [|c s IH]; cbn.
  - split; [discriminate|]. intros ([|] & b & H); discriminate.
  - destruct (Ascii.eqb_spec c " ") as [->|N]; cbn [negb andb].
    + split; [exists "", s; reflexivity | reflexivity].
    + rewrite IH. split; [intros (a & b & ->); exists (String c a), b; reflexivity|]. intros (a & b & H). destruct a as [|c' a]; cbn in H; injection H as -> H; [contradiction|]. exists a, b. exact H.
Qed.
Definition no_equal (a : string) : Prop := forall x y, a <> (x ++ String "=" y)%string.
Lemma no_equal_cons c a : no_equal (String c a) <-> c <> "="%char /\ no_equal a.
Proof.
  split.
  - intros H. split; [intros ->; apply (H "" a); reflexivity|]. intros x y ->. apply (H (String c x) y). reflexivity.
  - intros (N & H) x y E. destruct x as [|c' x]; cbn in E; injection E as -> E; [contradiction | apply (H x y E)].
Qed.
Lemma before_spec s a : ((exists b, s = (a ++ String "=" b)%string /\ no_equal a) \/ s = a /\ no_equal a) <-> fst (before_equal s) = a.
Proof.
  revert a. induction s as [|c s IH]; intros a; cbn.
  - split; [intros [(b & H & _)|(<- & _)]; [destruct a; discriminate | reflexivity] | intros <-; right; split; [reflexivity|]; intros [|]; discriminate].
  - destruct (Ascii.eqb_spec c "=") as [->|N]; cbn [fst].
    + split.
      * intros [(b & H & Na)|(<- & Na)]; [|now apply no_equal_cons in Na]. destruct a as [|c' a]; [reflexivity|]. cbn in H. injection H as <- _. now apply no_equal_cons in Na.
      * intros <-. left. exists s. split; [reflexivity|]. intros [|]; discriminate.
    + split.
      * intros [(b & H & Na)|(<- & Na)].
        -- destruct a as [|c' a]; cbn in H; injection H as -> H; [contradiction|]. apply no_equal_cons in Na. f_equal. apply IH. left. exists b. tauto.
        -- f_equal. apply IH. right. apply no_equal_cons in Na. tauto.
      * intros <-. destruct (proj2 (IH _) eq_refl) as [(b & H & Na)|(H & Na)]; [left; exists b; split; [cbn; now f_equal | now apply no_equal_cons] | right; split; [now f_equal | now apply no_equal_cons]].
Qed.
Lemma before_valued s : if snd (before_equal s) then exists b, s = (fst (before_equal s) ++ String "=" b)%string else s = fst (before_equal s).
Proof.
  induction s as [|c s IH]; cbn; [reflexivity|]. destruct (Ascii.eqb_spec c "=") as [->|N]; cbn [fst snd]; [exists s; reflexivity|].
  destruct (snd (before_equal s)); [destruct IH as (b & IH); exists b; cbn; now rewrite <- IH | now f_equal].
Qed.
Lemma before_none s : no_equal s -> before_equal s = (s, false).
Proof.
  intros N. assert (F : fst (before_equal s) = s) by (apply before_spec; right; auto). pose proof (before_valued s) as V. destruct (before_equal s) as [a v]. cbn in *. subst a. destruct v; [|reflexivity].
  destruct V as (b & V). elim (N s b V).
Qed.

Lemma digit_spec c : is_digit c = true <-> (48 <= nat_of_ascii c <= 57)%nat.
Proof. unfold is_digit. rewrite andb_true_iff, !Nat.leb_le. tauto. Qed.
Lemma digits_spec s : negb (String.eqb s "") && all_chars is_digit s = true <-> digits s.
Proof.
  induction s as [|c s IH]; cbn; [split; [discriminate | inversion 1]|]. rewrite andb_true_iff, digit_spec. split.
  - intros (H & A). destruct s as [|c' s]; [now constructor|]. apply digits_more; [exact H|]. apply IH. cbn in *. exact A.
  - intros H. inversion H as [c0 H1|c0 s0 H1 H2]; subst; [split; [assumption | reflexivity]|]. split; [assumption|]. apply IH in H2. now apply andb_true_iff in H2.
Qed.
Lemma point_spec s : digits_point s = true <-> exists a c, s = (a ++ String "." c)%string /\ (a = "" \/ digits a) /\ digits c.
Proof.
  induction s as [|c s IH]; cbn; [split; [discriminate | intros ([|] & c & H & _); discriminate]|].
  destruct (Ascii.eqb_spec c ".") as [->|N].
  - rewrite digits_spec. split; [intros H; exists "", s; auto|]. intros (a & c & H & Ha & Hc). destruct a as [|c' a]; cbn in H; [injection H as ->; assumption|]. injection H as <- H.
    destruct Ha as [Ha|Ha]; [discriminate|]. exfalso. assert (X : (48 <= nat_of_ascii "." <= 57)%nat) by (inversion Ha; assumption). vm_compute in X. lia.
  - rewrite andb_true_iff, digit_spec, IH. split.
    + intros (Hc & a & c' & -> & Ha & Hc'). exists (String c a), c'. split; [reflexivity|]. split; [|assumption]. right. destruct Ha as [->|Ha]; [now constructor | now apply digits_more].
    + intros (a & c' & H & Ha & Hc'). destruct a as [|c0 a]; cbn in H; injection H as -> H; [contradiction|]. destruct Ha as [Ha|Ha]; [discriminate|].
      inversion Ha as [? H1|? ? H1 H2]; subst; (split; [assumption|]); [exists "", c' | exists a, c']; auto.
Qed.
Lemma app_empty (a : string) : (a ++ "")%string = a.
Proof. induction a; cbn; congruence. Qed.
Lemma negative_spec rest : negative_number (String "-" rest) = true <-> negative (String "-" rest).
Proof.
  cbn [negative_number]. rewrite orb_true_iff, digits_spec, point_spec. split.
  - intros [H|(a & c & -> & Ha & Hc)].
    + exists rest, "". split; [now rewrite app_empty|]. left. auto.
    + exists a, (String "." c). split; [reflexivity|]. destruct Ha as [->|Ha]; [right | left]; eauto.
  - intros (a & b & E & H). injection E as E. destruct H as [(Ha & [->|(c & -> & Hc)])|(-> & c & -> & Hc)].
    + left. rewrite E, app_empty. exact Ha.
    + right. exists a, c. auto.
    + right. exists "", c. auto.
Qed.

Definition only_verbose (l : list flag) : bool := negb (existsb (fun f => match f with HelpFlag => true | Verbose => false end) l).
Lemma letters_verbose s : (s = "" \/ only_v s) <-> exists l, letters s = Some l /\ only_verbose l = true.
Proof.
  induction s as [|c s IH]; cbn [letters].
  - split; [exists []; auto | auto].
  - unfold short_option. destruct (Ascii.eqb_spec c "h") as [->|N].
    + split; [intros [H|H]; [discriminate | inversion H]|]. intros (l & E & O). destruct (letters s); [|discriminate]. injection E as <-. discriminate O.
    + destruct (Ascii.eqb_spec c "v") as [->|N'].
      * split.
        -- intros [H|H]; [discriminate|]. assert (H' : s = "" \/ only_v s) by (inversion H; auto). apply IH in H' as (l & -> & O). exists (Verbose :: l). auto.
        -- intros (l & E & O). right. destruct (letters s) as [l'|] eqn:El; [|discriminate]. injection E as <-. destruct (proj2 IH) as [->|H]; [exists l'; auto | constructor | now constructor].
      * split; [intros [H|H]; [discriminate | inversion H; subst; contradiction] | intros (l & E & _); discriminate].
Qed.

(** The two kinds of strings. *)
Lemma no_equal_verbose a b : (a ++ b)%string = "erbose" -> no_equal ("--v" ++ a).
Proof.
  intros E. assert (H : forall s, String.prefix s "erbose" = true -> no_equal ("--v" ++ s)).
  { intros s P. cbn. do 3 (apply no_equal_cons; split; [discriminate|]). clear E a b.
    assert (G : forall t s, no_equal t -> String.prefix s t = true -> no_equal s).
    { intros t s' Nt Ps x y ->. apply prefix_app in Ps as (b & E). apply (Nt x (y ++ b)%string). rewrite <- E. clear. induction x; cbn; congruence. }
    apply (G "erbose"); [|exact P]. repeat (apply no_equal_cons; split; [discriminate|]). intros [|]; discriminate. }
  apply H, prefix_app. eauto.
Qed.
Lemma flag_spec s : verbose_flag s <-> exists l, classify s = Actions l /\ only_verbose l = true.
Proof.
  split.
  - intros [(vs & Hv & ->)|(a & b & -> & E)].
    + inversion Hv as [|vs' Hv']; subst; cbn; [exists [Verbose]; auto|]. destruct (proj1 (letters_verbose vs') (or_intror Hv')) as (l & -> & O). exists (Verbose :: l). auto.
    + pose proof (before_none _ (no_equal_verbose _ _ E)) as B. cbn [classify String.append]. cbn [Ascii.eqb Bool.eqb negb]. cbn [String.append] in B. rewrite B.
      cbn [List.filter long_options fst]. assert (P1 : String.prefix (String "-" (String "-" (String "v" a))) "--help" = false) by reflexivity.
      assert (P2 : String.prefix (String "-" (String "-" (String "v" a))) "--verbose" = true) by (apply prefix_app; exists b; cbn; now rewrite E). rewrite P1, P2. exists [Verbose]. auto.
  - intros (l & C & O). destruct s as [|c [|c' t]]; cbn [classify] in C; [discriminate | destruct (negb _); discriminate|].
    destruct (Ascii.eqb_spec c "-") as [->|]; cbn [negb] in C; [|discriminate]. destruct (Ascii.eqb_spec c' "-") as [->|].
    + right. pose proof (before_valued (String "-" (String "-" t))) as V. destruct (before_equal (String "-" (String "-" t))) as [name valued] eqn:B. cbn [fst snd] in V.
      cbn [List.filter long_options fst] in C. destruct (String.prefix name "--help") eqn:P1, (String.prefix name "--verbose") eqn:P2; try discriminate.
      * destruct valued; [discriminate|]. injection C as <-. discriminate O.
      * destruct valued; [discriminate|]. injection C as <-. subst name. apply prefix_app in P2 as (b & E). cbn in E. injection E as E. destruct t as [|c t]; [cbn in P1; discriminate|]. cbn in E. injection E as -> E. exists t, b. auto.
      * unfold not_an_option in C. destruct (_ || _); discriminate.
    + left. destruct (short_option c') as [f|] eqn:Ef; [|unfold not_an_option in C; destruct (_ || _); discriminate]. destruct (letters t) as [l'|] eqn:El; [|discriminate]. injection C as <-.
      assert (Eq : letters (String c' t) = Some (f :: l')) by (cbn [letters]; now rewrite Ef, El). destruct (proj2 (letters_verbose (String c' t))) as [H|H]; [eauto | discriminate | eauto].
Qed.
Lemma file_spec s : file_name s <-> s <> "--" /\ exists t, classify s = Positional t.
Proof.
  destruct s as [|c [|c' t]].
  - split; [split; [discriminate | eexists; reflexivity]|]. intros _. left. discriminate.
  - split; [split; [discriminate|]; cbn; destruct (negb _); eauto|]. intros _. destruct (Ascii.eqb_spec c "-") as [->|N]; [right; left; reflexivity | left; intros t E; injection E as -> _; contradiction].
  - destruct (Ascii.eqb_spec c "-") as [->|N].
    2: { split; [intros _; split; [intros E; injection E as -> _; contradiction|]; cbn [classify]; apply Ascii.eqb_neq in N; rewrite N; cbn [negb]; eauto|]. intros _. left. intros t' E. injection E as -> _. contradiction. }
    assert (File : file_name (String "-" (String c' t)) <-> negative (String "-" (String c' t)) \/ odd_name (String "-" (String c' t))).
    { unfold file_name. split; [intros [H|[H|H]]; [elim (H (String c' t)); reflexivity | discriminate | exact H] | tauto]. }
    assert (Neg : negative (String "-" (String c' t)) -> is_digit c' = true \/ c' = "."%char).
    { intros (a & b & E & H). injection E as E. destruct H as [(Ha & _)|(-> & x & -> & _)]; [|cbn in E; injection E as -> _; auto].
      left. inversion Ha as [c0 H1|c0 s0 H1 H2]; subst; cbn in E; injection E as -> _; now apply digit_spec. }
    assert (Not : (negative (String "-" (String c' t)) \/ exists a b, String "-" (String c' t) = (a ++ String " " b)%string) <-> exists t', not_an_option (String "-" (String c' t)) = Positional t').
    { rewrite <- negative_spec, <- space_spec, <- orb_true_iff. unfold not_an_option. destruct (_ || _); [split; eauto | split; [discriminate | intros (? & H); discriminate]]. }
    rewrite File. cbn [classify Ascii.eqb Bool.eqb negb]. destruct (Ascii.eqb_spec c' "-") as [->|N].
    + assert (NN : ~ negative (String "-" (String "-" t))) by (intros H; destruct (Neg H) as [H'|H']; discriminate).
      set (s := String "-" (String "-" t)) in *. destruct (before_equal s) as [name valued] eqn:B. pose proof (before_spec s) as Bs. rewrite B in Bs. cbn [fst] in Bs.
      assert (Odd : odd_name s <-> (exists a b, s = (a ++ String " " b)%string) /\ String.prefix name "--help" = false /\ String.prefix name "--verbose" = false).
      { unfold odd_name. split.
        - intros (Sp & _ & H). split; [exact Sp|]. destruct (H name (ex_intro _ t eq_refl) (proj2 (Bs name) eq_refl)) as [H1 H2].
          split; (destruct (String.prefix name _) eqn:P; [apply prefix_app in P as (b & P) | reflexivity]); [elim (H1 b P) | elim (H2 b P)].
        - intros (Sp & P1 & P2). split; [exact Sp|]. split; [exists "-"%char, t; repeat split; discriminate|]. intros a _ Ha. apply Bs in Ha. subst a.
          split; intros b E; [assert (X : String.prefix name "--help" = true) by (apply prefix_app; eauto) | assert (X : String.prefix name "--verbose" = true) by (apply prefix_app; eauto)]; congruence. }
      rewrite Odd. cbn [List.filter long_options fst snd]. destruct (String.prefix name "--help") eqn:P1, (String.prefix name "--verbose") eqn:P2; cbn [List.length].
      * split; [intros [H|(_ & H & _)]; [contradiction | discriminate] | intros (_ & x & H); discriminate].
      * split; [intros [H|(_ & H & _)]; [contradiction | discriminate] | intros (_ & x & H); destruct valued; discriminate].
      * split; [intros [H|(_ & _ & H)]; [contradiction | discriminate] | intros (_ & x & H); destruct valued; discriminate].
      * rewrite <- Not. split.
        -- intros [H|(H & _)]; [contradiction|]. split; [intros E; rewrite E in H; destruct H as (a & b & H); do 2 (destruct a as [|? a]; [discriminate H|]; cbn in H; injection H as _ H); destruct a; discriminate H | auto].
        -- intros (_ & [H|H]); [contradiction | auto].
    + assert (D : String "-" (String c' t) <> "--") by (intros E; injection E as -> _; contradiction).
      unfold short_option. destruct (Ascii.eqb_spec c' "h") as [->|Nh]; [|destruct (Ascii.eqb_spec c' "v") as [->|Nv]].
      * split; [|intros (_ & x & H); destruct (letters t); discriminate]. intros [H|(_ & (c & t' & E & _ & H) & _)]; [destruct (Neg H); discriminate | injection E as <- _; elim H; reflexivity].
      * split; [|intros (_ & x & H); destruct (letters t); discriminate]. intros [H|(_ & (c & t' & E & H & _) & _)]; [destruct (Neg H); discriminate | injection E as <- _; elim H; reflexivity].
      * rewrite <- Not. split; [intros [H|(H & _)]; auto|]. intros (_ & [H|H]); [auto|]. right. split; [exact H|]. split; [exists c', t; auto|].
        intros a (t' & E) _. injection E as -> _. contradiction.
Qed.

Lemma classify_file s t : classify s = Positional t -> t = s.
Proof.
  destruct s as [|c [|c' r]]; cbn [classify]; [congruence | destruct (negb _); congruence|]. destruct (negb _); [congruence|]. destruct (Ascii.eqb c' "-").
  - destruct (before_equal _) as [name valued]. destruct (List.filter _ _) as [|o [|]]; [|destruct valued; discriminate | discriminate]. unfold not_an_option. destruct (_ || _); congruence.
  - destruct (short_option c'); [destruct (letters r); discriminate|]. unfold not_an_option. destruct (_ || _); congruence.
Qed.
Definition ambiguous (i : item) : bool := match i with Ambiguous => true | _ => false end.
Lemma read_after l : forall found v u, (forall s, In s l -> s <> "--") ->
  read_items found v u (map (fun s => if String.eqb s "--" then Refused else Positional s) l) = match rev l ++ found with [o; c] => if u then Wrong else Run c o v | _ => Wrong end.
Proof.
  induction l as [|s l IH]; intros found v u H; cbn [map read_items rev app]; [reflexivity|]. destruct (String.eqb_spec s "--") as [->|N]; [elim (H "--"); [left; reflexivity | reflexivity]|].
  cbn [read_items]. rewrite IH by (intros x Hx; apply H; right; exact Hx). now rewrite <- app_assoc.
Qed.
Lemma reads_parse l files v : reads l files v -> existsb ambiguous (items l) = false /\
  forall found w, read_items found w false (items l) = match rev files ++ found with [o; c] => Run c o (w || v) | _ => Wrong end.
Proof.
  induction 1 as [|s l files v F R IH|s l files v F R IH|l H].
  - split; [reflexivity|]. intros found w. cbn [items read_items rev app]. now rewrite orb_false_r.
  - apply file_spec in F as (N & t & C). destruct IH as [I1 I2]. cbn [items]. apply String.eqb_neq in N. rewrite N, C. cbn [existsb ambiguous orb]. split; [exact I1|].
    intros found w. cbn [read_items rev]. rewrite I2, <- app_assoc. now rewrite (classify_file _ _ C).
  - apply flag_spec in F as (a & C & O). destruct IH as [I1 I2]. cbn [items]. destruct (String.eqb_spec s "--") as [->|N]; [discriminate C|]. rewrite C. cbn [existsb ambiguous orb]. split; [exact I1|].
    intros found w. cbn [read_items]. unfold only_verbose in O. apply negb_true_iff in O. rewrite O, I2. now rewrite orb_true_r.
  - cbn [items String.eqb Ascii.eqb Bool.eqb]. split.
    + induction l as [|s l IH]; [reflexivity|]. cbn [map existsb]. destruct (String.eqb s "--"); cbn [ambiguous orb]; apply IH; intros x Hx; apply H; right; exact Hx.
    + intros found w. rewrite (read_after l found w false H). now rewrite orb_false_r.
Qed.
Lemma parse_reads l : forall found w u c o v, read_items found w u (items l) = Run c o v -> u = false /\ exists files v', reads l files v' /\ rev files ++ found = [o; c] /\ v = w || v'.
Proof.
  induction l as [|s l IH]; intros found w u c o v.
  - cbn [items read_items]. intros H. destruct found as [|x [|y [|]]]; try discriminate. destruct u; [discriminate|]. injection H as <- <- <-. split; [reflexivity|]. exists [], false. split; [constructor|]. split; [reflexivity | now rewrite orb_false_r].
  - cbn [items]. destruct (String.eqb_spec s "--") as [->|N].
    + intros H. assert (A : forall s, In s l -> s <> "--").
      { clear IH. revert found H. induction l as [|x l IHl]; intros found H s Hs; [contradiction|]. cbn [map read_items] in H. destruct (String.eqb_spec x "--") as [->|Nx]; [discriminate|]. cbn [read_items] in H.
        destruct Hs as [<- | Hs]; [exact Nx | exact (IHl _ H s Hs)]. }
      rewrite (read_after l found w u A) in H. destruct (rev l ++ found) as [|x [|y [|]]] eqn:E; try discriminate. destruct u; [discriminate|]. injection H as <- <- <-. split; [reflexivity|].
      exists l, false. split; [now constructor|]. split; [exact E | now rewrite orb_false_r].
    + destruct (classify s) as [t|a| | |] eqn:C; cbn [read_items]; intros H; try discriminate.
      * pose proof (classify_file _ _ C) as ->. destruct (IH _ _ _ _ _ _ H) as (-> & files & v' & R & E & ->). split; [reflexivity|]. exists (s :: files), v'.
        split; [constructor; [apply file_spec; eauto | exact R]|]. split; [cbn [rev]; now rewrite <- app_assoc | reflexivity].
      * destruct (existsb _ a) eqn:O; [discriminate|]. destruct (IH _ _ _ _ _ _ H) as (-> & files & v' & R & E & ->). split; [reflexivity|]. exists files, true.
        split; [apply (reads_flag s l files v'); [apply flag_spec; exists a; split; [exact C | unfold only_verbose; now rewrite O] | exact R]|]. split; [exact E | now rewrite orb_true_r].
      * destruct (IH _ _ _ _ _ _ H) as (H0 & _). discriminate H0.
Qed.

(** ** The help *)
Lemma letters_all s : (forall c, has_char c s -> letter c) <-> exists l, letters s = Some l.
Proof.
  induction s as [|c s IH]; cbn [letters has_char].
  - split; [exists []; reflexivity | intros _ c []].
  - split.
    + intros H. destruct (proj1 IH (fun x Hx => H x (or_intror Hx))) as (l & El). rewrite El. destruct (H c (or_introl eq_refl)) as [-> | ->]; cbn; eauto.
    + intros (l & E) x [<- | Hx].
      * unfold short_option in E. destruct (Ascii.eqb_spec c "h") as [->|]; [right; reflexivity|]. destruct (Ascii.eqb_spec c "v") as [->|]; [left; reflexivity | discriminate].
      * destruct (short_option c); [|discriminate]. destruct (letters s) as [l'|]; [|discriminate]. apply (proj2 IH (ex_intro _ l' eq_refl)). exact Hx.
Qed.
Lemma letters_help s l : letters s = Some l -> (only_verbose l = false <-> has_char "h" s).
Proof.
  revert l. induction s as [|c s IH]; intros l; cbn [letters has_char]; [intros E; injection E as <-; split; [discriminate | intros []]|].
  unfold short_option. destruct (Ascii.eqb_spec c "h") as [->|N].
  - destruct (letters s) as [l'|]; [|discriminate]. intros E. injection E as <-. split; auto.
  - destruct (Ascii.eqb_spec c "v") as [->|]; [|discriminate]. destruct (letters s) as [l'|]; [|discriminate]. intros E. injection E as <-. change (only_verbose (Verbose :: l')) with (only_verbose l'). rewrite (IH l' eq_refl).
    split; [auto | intros [X|X]; [discriminate | exact X]].
Qed.
Lemma no_equal_prefix t s : no_equal t -> String.prefix s t = true -> no_equal s.
Proof. intros Nt Ps x y ->. apply prefix_app in Ps as (b & E). apply (Nt x (y ++ b)%string). rewrite <- E. clear. induction x; cbn; congruence. Qed.
Lemma no_equal_long t : t = "--help" \/ t = "--verbose" -> no_equal t.
Proof. intros [-> | ->]; repeat (apply no_equal_cons; split; [discriminate|]); intros [|]; discriminate. Qed.

(** What the strings that begin with -- are. *)
Lemma classify_long t : let s := String "-" (String "-" t) in let name := fst (before_equal s) in
  classify s = match String.prefix name "--help", String.prefix name "--verbose" with
               | true, true => Ambiguous
               | true, false => if snd (before_equal s) then Refused else Actions [HelpFlag]
               | false, true => if snd (before_equal s) then Refused else Actions [Verbose]
               | false, false => not_an_option s
               end.
Proof.
  intros s name. unfold name, s. cbn [classify Ascii.eqb Bool.eqb negb]. destruct (before_equal (String "-" (String "-" t))) as [n v]. cbn [List.filter long_options fst snd].
  destruct (String.prefix n "--help"), (String.prefix n "--verbose"); reflexivity.
Qed.
Lemma classify_short c t : c <> "-"%char -> classify (String "-" (String c t)) =
  match short_option c with Some f => match letters t with Some l => Actions (f :: l) | None => Refused end | None => not_an_option (String "-" (String c t)) end.
Proof. intros N. cbn [classify Ascii.eqb Bool.eqb negb]. apply Ascii.eqb_neq in N. rewrite N. reflexivity. Qed.
Lemma both_long name : String.prefix name "--help" = true -> String.prefix name "--verbose" = true -> name = "" \/ name = "-" \/ name = "--".
Proof.
  intros H1 H2. apply prefix_app in H1 as (b & H1). apply prefix_app in H2 as (b' & H2). destruct name as [|c [|c' [|c'' n]]]; cbn in H1, H2; [auto| | |].
  - injection H1 as -> _. auto.
  - injection H1 as -> -> _. auto.
  - injection H1 as _ _ H1 _. injection H2 as _ _ H2 _. congruence.
Qed.
Lemma before_dashes t : exists n, fst (before_equal (String "-" (String "-" t))) = String "-" (String "-" n) /\ snd (before_equal (String "-" (String "-" t))) = snd (before_equal t) /\ n = fst (before_equal t).
Proof. cbn. eauto. Qed.
Lemma help_spec s : help_flag s <-> exists l, classify s = Actions l /\ only_verbose l = false.
Proof.
  split.
  - intros [(t & -> & Hh & Ha)|(a & b & -> & E)].
    + destruct t as [|c t]; [contradiction|]. destruct (proj1 (letters_all (String c t)) Ha) as (l & El). pose proof (letters_help _ _ El) as L. apply proj2 in L. specialize (L Hh). cbn [letters] in El.
      assert (Nc : c <> "-"%char) by (intros ->; destruct (Ha "-"%char (or_introl eq_refl)); discriminate). rewrite (classify_short c t Nc). destruct (short_option c); [|discriminate]. destruct (letters t) as [l'|]; [|discriminate].
      injection El as <-. eauto.
    + change ("--h" ++ a)%string with (String "-" (String "-" (String "h" a))). rewrite classify_long. cbv zeta.
      assert (P1 : String.prefix (String "-" (String "-" (String "h" a))) "--help" = true) by (apply prefix_app; exists b; cbn; now rewrite E).
      rewrite (before_none _ (no_equal_prefix _ _ (no_equal_long _ (or_introl eq_refl)) P1)). cbn [fst snd]. rewrite P1. cbn. eauto.
  - intros (l & C & O). destruct s as [|c [|c' t]]; cbn [classify] in C; [discriminate | destruct (negb _); discriminate|].
    destruct (Ascii.eqb_spec c "-") as [->|]; cbn [negb] in C; [|discriminate]. fold (classify (String "-" (String c' t))) in C. destruct (Ascii.eqb_spec c' "-") as [->|N].
    + right. change (classify (String "-" (String "-" t)) = Actions l) in C. rewrite classify_long in C. cbv zeta in C. pose proof (before_valued (String "-" (String "-" t))) as V.
      destruct (before_equal (String "-" (String "-" t))) as [name valued]. cbn [fst snd] in *. destruct (String.prefix name "--help") eqn:P1, (String.prefix name "--verbose") eqn:P2; try discriminate.
      * destruct valued; [discriminate|]. subst name. apply prefix_app in P1 as (b & E). cbn in E. injection E as E. destruct t as [|c t]; [cbn in P2; discriminate|]. cbn in E. injection E as -> E. exists t, b. auto.
      * destruct valued; [discriminate|]. injection C as <-. discriminate.
      * unfold not_an_option in C. destruct (_ || _); discriminate.
    + left. change (classify (String "-" (String c' t)) = Actions l) in C || idtac. destruct (short_option c') as [f|] eqn:Ef; [|unfold not_an_option in C; destruct (_ || _); discriminate]. destruct (letters t) as [l'|] eqn:El; [|discriminate]. injection C as <-.
      assert (Eq : letters (String c' t) = Some (f :: l')) by (cbn [letters]; now rewrite Ef, El). exists (String c' t). split; [reflexivity|]. split; [apply (letters_help _ _ Eq); exact O | apply letters_all; eauto].
Qed.
Lemma unclear_spec s : s <> "--" -> (unclear s <-> classify s = Ambiguous).
Proof.
  intros Ns. split.
  - intros (t & ->). reflexivity.
  - intros C. destruct s as [|c [|c' t]]; cbn [classify] in C; [discriminate | destruct (negb _); discriminate|].
    destruct (Ascii.eqb_spec c "-") as [->|]; cbn [negb] in C; [|discriminate]. destruct (Ascii.eqb_spec c' "-") as [->|N].
    + change (classify (String "-" (String "-" t)) = Ambiguous) in C. rewrite classify_long in C. cbv zeta in C. pose proof (before_valued (String "-" (String "-" t))) as V.
      destruct (before_dashes t) as (n & B1 & _ & _). rewrite B1 in *.
      destruct (String.prefix (String "-" (String "-" n)) "--help") eqn:P1, (String.prefix (String "-" (String "-" n)) "--verbose") eqn:P2.
      * destruct (both_long _ P1 P2) as [E|[E|E]]; [discriminate | discriminate|]. injection E as ->. destruct (snd (before_equal (String "-" (String "-" t)))); [|contradiction].
        destruct V as (b & V). exists b. exact V.
      * destruct (snd _); discriminate.
      * destruct (snd _); discriminate.
      * unfold not_an_option in C. destruct (_ || _); discriminate.
    + destruct (short_option c'); [destruct (letters t); discriminate|]. unfold not_an_option in C. destruct (_ || _); discriminate.
Qed.
Lemma letters_none s : letters s = None <-> exists c, has_char c s /\ ~ letter c.
Proof.
  split.
  - induction s as [|c s IH]; cbn [letters]; [discriminate|]. unfold short_option. destruct (Ascii.eqb_spec c "h") as [->|Nh]; [|destruct (Ascii.eqb_spec c "v") as [->|Nv]].
    + destruct (letters s); [discriminate|]. intros _. destruct (IH eq_refl) as (x & Hx & Nx). exists x. split; [right; exact Hx | exact Nx].
    + destruct (letters s); [discriminate|]. intros _. destruct (IH eq_refl) as (x & Hx & Nx). exists x. split; [right; exact Hx | exact Nx].
    + intros _. exists c. split; [left; reflexivity|]. intros [-> | ->]; contradiction.
  - intros (c & Hc & Nc). destruct (letters s) as [l|] eqn:E; [|reflexivity]. elim Nc. apply (proj2 (letters_all s) (ex_intro _ l E)). exact Hc.
Qed.
Lemma bad_spec s : bad_option s <-> classify s = Refused.
Proof.
  split.
  - intros [(a & b & t & -> & E & L)|(c & c' & t & -> & Lc & Hc & Nc)].
    + assert (Na : no_equal a) by (destruct E as [E|E]; [apply (no_equal_prefix "--help") | apply (no_equal_prefix "--verbose")]; try (apply no_equal_long; auto); apply prefix_app; eauto).
      destruct a as [|c0 [|c1 [|c2 a]]]; cbn in L; try lia.
      assert (D : c0 = "-"%char /\ c1 = "-"%char) by (destruct E as [E|E]; cbn in E; injection E as -> -> _ _; auto). destruct D as [-> ->].
      cbn [String.append]. rewrite classify_long. cbv zeta.
      set (s := String "-" (String "-" (String c2 (a ++ String "=" t)))).
      assert (F : fst (before_equal s) = String "-" (String "-" (String c2 a))) by (apply before_spec; left; exists t; split; [reflexivity | exact Na]).
      assert (V : snd (before_equal s) = true).
      { pose proof (before_valued s) as V. destruct (snd (before_equal s)); [reflexivity|]. rewrite F in V. exfalso. apply (Na (String "-" (String "-" (String c2 a))) t). exact (eq_sym V). }
      rewrite F, V. destruct (String.prefix _ "--help") eqn:P1, (String.prefix _ "--verbose") eqn:P2; try reflexivity.
      * destruct (both_long _ P1 P2) as [X|[X|X]]; discriminate.
      * destruct E as [E|E]; [assert (X : String.prefix (String "-" (String "-" (String c2 a))) "--help" = true) by (apply prefix_app; eauto) | assert (X : String.prefix (String "-" (String "-" (String c2 a))) "--verbose" = true) by (apply prefix_app; eauto)]; congruence.
    + assert (X : letters t = None) by (apply letters_none; eauto). destruct Lc as [-> | ->]; rewrite classify_short by discriminate; cbn [short_option Ascii.eqb Bool.eqb]; rewrite X; reflexivity.
  - intros C. destruct s as [|c [|c' t]]; cbn [classify] in C; [discriminate | destruct (negb _); discriminate|].
    destruct (Ascii.eqb_spec c "-") as [->|]; cbn [negb] in C; [|discriminate]. destruct (Ascii.eqb_spec c' "-") as [->|N].
    + left. change (classify (String "-" (String "-" t)) = Refused) in C. rewrite classify_long in C. cbv zeta in C. pose proof (before_valued (String "-" (String "-" t))) as V.
      destruct (before_dashes t) as (n & B1 & _ & _). rewrite B1 in *. destruct (snd (before_equal (String "-" (String "-" t)))).
      * destruct V as (b & V). exists (String "-" (String "-" n)).
        destruct (String.prefix (String "-" (String "-" n)) "--help") eqn:P1, (String.prefix (String "-" (String "-" n)) "--verbose") eqn:P2; try discriminate.
        -- apply prefix_app in P1 as (b' & P1). exists b', b. split; [exact V|]. split; [left; exact P1|]. destruct n; [cbn in P2; discriminate | cbn; lia].
        -- apply prefix_app in P2 as (b' & P2). exists b', b. split; [exact V|]. split; [right; exact P2|]. destruct n; [cbn in P1; discriminate | cbn; lia].
        -- unfold not_an_option in C. destruct (_ || _); discriminate.
      * destruct (String.prefix _ "--help"), (String.prefix _ "--verbose"); try discriminate. unfold not_an_option in C. destruct (_ || _); discriminate.
    + right. destruct (short_option c') as [f|] eqn:Ef; [|unfold not_an_option in C; destruct (_ || _); discriminate]. destruct (letters t) eqn:El; [discriminate|].
      apply letters_none in El as (x & Hx & Nx). exists c', x, t. split; [reflexivity|]. split; [|auto]. unfold short_option in Ef. destruct (Ascii.eqb_spec c' "h") as [->|]; [right; reflexivity|]. destruct (Ascii.eqb_spec c' "v") as [->|]; [left; reflexivity | discriminate].
Qed.
Lemma clear_spec l : existsb ambiguous (items l) = false <-> (forall a x b, l = a ++ x :: b -> ~ In "--" a -> ~ unclear x).
Proof.
  induction l as [|s l IH]; cbn [items].
  - split; [intros _ [|] x b E; discriminate | reflexivity].
  - destruct (String.eqb_spec s "--") as [->|N].
    + split.
      * intros _ a x b E Na (t & U). destruct a as [|y a]; cbn [app] in E; injection E as X E; [rewrite U in X; discriminate X|]. apply Na. left. symmetry. exact X.
      * intros _. clear. induction l as [|s l IH]; [reflexivity|]. cbn [map existsb]. destruct (String.eqb s "--"); cbn [ambiguous orb]; exact IH.
    + cbn [existsb]. rewrite orb_false_iff, IH. split.
      * intros (H1 & H2) a x b E Na U. destruct a as [|y a]; cbn [app] in E; injection E as <- E.
        -- apply (unclear_spec s N) in U. rewrite U in H1. discriminate.
        -- apply (H2 a x b E); [intros I; apply Na; right; exact I | exact U].
      * intros H. split.
        -- destruct (classify s) eqn:C; try reflexivity. exfalso. apply (H [] s l eq_refl); [intros [] | apply (unclear_spec s N); exact C].
        -- intros a x b E Na. apply (H (s :: a) x b); [now rewrite E|]. intros [X|X]; contradiction.
Qed.
Lemma read_help l : forall found w u, (existsb ambiguous (items l) = false /\ read_items found w u (items l) = Help) <-> helps l.
Proof.
  induction l as [|s l IH]; intros found w u.
  - split; [|inversion 1]. cbn [items read_items]. intros (_ & H). destruct found as [|x [|y [|]]]; try discriminate. destruct u; discriminate.
  - destruct (String.eqb_spec s "--") as [->|N].
    + split.
      * cbn [items String.eqb Ascii.eqb Bool.eqb]. intros (_ & H). exfalso. revert found H. clear. induction l as [|x l IHl]; intros found H; cbn [map read_items] in H.
        -- destruct found as [|a [|b [|]]]; try discriminate. destruct u; discriminate.
        -- destruct (String.eqb x "--"); cbn [read_items] in H; [discriminate | exact (IHl _ H)].
      * inversion 1 as [s0 l0 Hf|s0 l0 Nd]; subst; [|contradiction]. exfalso. apply help_spec in Hf as (a & C & _). discriminate C.
    + apply String.eqb_neq in N as Ne. cbn [items]. rewrite Ne. cbn [existsb]. rewrite orb_false_iff. split.
      * intros ((H1 & H2) & H). destruct (classify s) as [t|a| | |] eqn:C; cbn [read_items] in H; try discriminate.
        -- apply helps_later; [exact N | intros B; apply bad_spec in B; congruence | intros B; apply (unclear_spec s N) in B; congruence | exact (proj1 (IH _ _ _) (conj H2 H))].
        -- destruct (existsb _ a) eqn:O.
           ++ apply helps_here; [apply help_spec; exists a; split; [exact C | unfold only_verbose; now rewrite O] | apply clear_spec; exact H2].
           ++ apply helps_later; [exact N | intros B; apply bad_spec in B; congruence | intros B; apply (unclear_spec s N) in B; congruence | exact (proj1 (IH _ _ _) (conj H2 H))].
        -- apply helps_later; [exact N | intros B; apply bad_spec in B; congruence | intros B; apply (unclear_spec s N) in B; congruence | exact (proj1 (IH _ _ _) (conj H2 H))].
      * inversion 1 as [s0 l0 Hf Cl|s0 l0 _ Nb Nu Hl]; subst.
        -- apply help_spec in Hf as (a & C & O). rewrite C. cbn [read_items ambiguous]. unfold only_verbose in O. apply negb_false_iff in O. rewrite O. split; [split; [reflexivity | apply clear_spec; exact Cl] | reflexivity].
        -- destruct (classify s) as [t|a| | |] eqn:C; cbn [read_items ambiguous].
           ++ destruct (proj2 (IH (t :: found) w u) Hl) as [X Y]. auto.
           ++ destruct (proj2 (IH found true u) Hl) as [X Y]. destruct (existsb _ a); auto.
           ++ elim Nb. apply bad_spec. exact C.
           ++ elim Nu. apply (unclear_spec s N). exact C.
           ++ destruct (proj2 (IH found w true) Hl) as [X Y]. auto.
Qed.
Lemma parse_help l : parse l = Help <-> helps l.
Proof.
  rewrite <- (read_help l [] false false). unfold parse. fold ambiguous. change (existsb (fun i => match i with Ambiguous => true | _ => false end) (items l)) with (existsb ambiguous (items l)).
  destruct (existsb ambiguous (items l)); split; intros H; try discriminate; [destruct H; discriminate | auto | tauto].
Qed.
