(** Configurations: the values of a JSON file read by Python. *)
From Coq Require Import List String Bool ZArith QArith Lia.
From Verif Require Export Base.Dict.
Import ListNotations.
Open Scope string_scope.
Open Scope list_scope.

(** [JFloat] is a finite float, [JInf true] is +inf. *)
Inductive json :=
| JNull | JBool (b : bool) | JInt (z : Z) | JFloat (q : Q) | JNan | JInf (positive : bool) | JStr (s : string)
| JList (l : list json) | JDict (d : list (string * json)).
Definition dict := list (string * json).

Definition is_dict (j : json) : bool := match j with JDict _ => true | _ => false end.

(** Value at a path of keys. *)
Fixpoint get_path (p : list string) (j : json) : option json :=
  match p with
  | [] => Some j
  | k :: p' => match j with JDict d => match lookup k d with Some v => get_path p' v | None => None end | _ => None end
  end.

(** No key twice in a dictionary (true of every Python dictionary); lists are not explored. *)
Inductive wf : json -> Prop :=
| wf_dict d : NoDup (keys d) -> (forall k v, In (k, v) d -> wf v) -> wf (JDict d)
| wf_leaf j : is_dict j = false -> wf j.

Section Induction.
  Variable P : json -> Prop.
  Hypothesis Hleaf : forall j, is_dict j = false -> P j.
  Hypothesis Hdict : forall d, (forall k v, In (k, v) d -> P v) -> P (JDict d).
  Fixpoint json_dict_ind (j : json) : P j :=
    match j with
    | JDict d => Hdict d ((fix go (d : dict) : forall k v, In (k, v) d -> P v :=
        match d with
        | [] => fun k v H => match H with end
        | (k0, v0) :: d' => fun k v H => match H with
            | or_introl E => eq_ind v0 P (json_dict_ind v0) v (f_equal snd E)
            | or_intror H' => go d' k v H' end
        end) d)
    | JNull => Hleaf JNull eq_refl
    | JBool b => Hleaf (JBool b) eq_refl
    | JInt z => Hleaf (JInt z) eq_refl
    | JFloat q => Hleaf (JFloat q) eq_refl
    | JNan => Hleaf JNan eq_refl
    | JInf b => Hleaf (JInf b) eq_refl
    | JStr s => Hleaf (JStr s) eq_refl
    | JList l => Hleaf (JList l) eq_refl
    end.
End Induction.

Lemma wf_dict_inv d : wf (JDict d) -> NoDup (keys d) /\ (forall k v, In (k, v) d -> wf v).
Proof. intros H. inversion H; subst; [auto | discriminate]. Qed.

Lemma lookup_In {A} k (v : A) l : lookup k l = Some v -> In (k, v) l.
Proof.
  induction l as [|[a x] l IH]; cbn; [discriminate|]. destruct (k =? a) eqn:E.
  - apply String.eqb_eq in E. intros H. injection H as ->. left. now subst.
  - auto.
Qed.
Lemma In_lookup {A} k (v : A) l : NoDup (keys l) -> In (k, v) l -> lookup k l = Some v.
Proof.
  induction l as [|[a x] l IH]; cbn; [tauto|]. intros H [E|Hin].
  - injection E as -> ->. now rewrite String.eqb_refl.
  - inversion H; subst. destruct (k =? a) eqn:E; [|auto]. apply String.eqb_eq in E. subst.
    exfalso. apply H2. apply in_map_iff. now exists (a, v).
Qed.
