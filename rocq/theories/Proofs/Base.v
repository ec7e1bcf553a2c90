(** Facts about strings, lists and association lists used everywhere. *)
From Coq Require Import List Arith NArith Bool String Lia.
From Verif Require Import Py.Str Py.Val.
Import ListNotations.

Lemma str_eqb_eq a b : str_eqb a b = true <-> a = b.
Proof.
  revert b. induction a as [|x a IH]; intros [|y b]; cbn [str_eqb]; split; intros H;
    try discriminate; try reflexivity.
  - apply andb_true_iff in H as [H1 H2]. apply N.eqb_eq in H1. apply IH in H2. congruence.
  - inversion H; subst. rewrite N.eqb_refl. apply IH. reflexivity.
Qed.
Lemma str_eqb_refl a : str_eqb a a = true.
Proof. apply str_eqb_eq. reflexivity. Qed.
Lemma str_eqb_neq a b : str_eqb a b = false <-> a <> b.
Proof.
  split; intros H.
  - intros ->. rewrite str_eqb_refl in H. discriminate.
  - destruct (str_eqb a b) eqn:He; [|reflexivity]. apply str_eqb_eq in He. contradiction.
Qed.
Lemma str_eqb_spec a b : reflect (a = b) (str_eqb a b).
Proof. apply iff_reflect. symmetry. apply str_eqb_eq. Qed.
Lemma str_eqb_sym a b : str_eqb a b = str_eqb b a.
Proof. destruct (str_eqb_spec a b), (str_eqb_spec b a); congruence. Qed.
Lemma str_dec (a b : str) : {a = b} + {a <> b}.
Proof. destruct (str_eqb_spec a b); auto. Qed.

(** ** Association lists *)
Lemma aget_aset {A} k k' (v : A) l : aget k (aset k' v l) = if str_eqb k k' then Some v else aget k l.
Proof.
  induction l as [|[k0 v0] l IH]; cbn [aset aget].
  - destruct (str_eqb k k'); reflexivity.
  - destruct (str_eqb_spec k' k0) as [->|Hk]; cbn [aget].
    + destruct (str_eqb k k0); reflexivity.
    + destruct (str_eqb_spec k k0) as [->|Hk2].
      * destruct (str_eqb_spec k0 k'); [congruence|reflexivity].
      * exact IH.
Qed.
