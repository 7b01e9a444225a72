(** Extended numbers: the float values that the code only compares and copies.

    A finite float32 value x is represented by the integer x * 2^149 (every finite
    float32 is a multiple of 2^-149), so that comparisons are exact.
    No arithmetic on floats is done with this type. *)
From Coq Require Import ZArith Bool Lia.

Inductive ext : Set :=
| NaN : ext
| NInf : ext
| Fin : Z -> ext
| PInf : ext.

(** IEEE "<": false as soon as one operand is NaN. *)
Definition ext_ltb (a b : ext) : bool :=
  match a, b with
  | NaN, _ | _, NaN => false
  | NInf, NInf => false
  | NInf, _ => true
  | _, NInf => false
  | PInf, _ => false
  | _, PInf => true
  | Fin x, Fin y => (x <? y)%Z
  end.

(** IEEE "<=". *)
Definition ext_leb (a b : ext) : bool :=
  match a, b with
  | NaN, _ | _, NaN => false
  | NInf, _ => true
  | _, NInf => false
  | _, PInf => true
  | PInf, _ => false
  | Fin x, Fin y => (x <=? y)%Z
  end.

(** np.isnan *)
Definition ext_isnan (a : ext) : bool :=
  match a with NaN => true | _ => false end.

(** IEEE "==": NaN is different from everything. *)
Definition ext_eqb (a b : ext) : bool :=
  match a, b with
  | NInf, NInf => true
  | PInf, PInf => true
  | Fin x, Fin y => (x =? y)%Z
  | _, _ => false
  end.

Definition ext_eq_dec (a b : ext) : {a = b} + {a <> b}.
Proof. decide equality. apply Z.eq_dec. Defined.

Lemma ext_leb_refl a : a <> NaN -> ext_leb a a = true.
Proof. destruct a; simpl; auto; try congruence. intros; apply Z.leb_refl. Qed.

Lemma ext_leb_trans a b c : ext_leb a b = true -> ext_leb b c = true -> ext_leb a c = true.
Proof.
  destruct a, b, c; simpl; auto; try discriminate.
  rewrite !Z.leb_le; lia.
Qed.

Lemma ext_leb_total a b : a <> NaN -> b <> NaN -> ext_leb a b = true \/ ext_leb b a = true.
Proof.
  destruct a, b; simpl; auto; try congruence. intros _ _.
  rewrite !Z.leb_le; lia.
Qed.

Lemma ext_leb_antisym a b : ext_leb a b = true -> ext_leb b a = true -> a = b.
Proof.
  destruct a, b; simpl; auto; try discriminate.
  rewrite !Z.leb_le. intros. f_equal. lia.
Qed.

Lemma ext_ltb_leb a b : a <> NaN -> b <> NaN -> ext_ltb a b = negb (ext_leb b a).
Proof.
  destruct a, b; simpl; auto; try congruence. intros _ _.
  rewrite Z.leb_antisym, negb_involutive. reflexivity.
Qed.
