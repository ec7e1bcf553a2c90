(** Trees that are the same up to positions and up to which of the two terminals
    for quoted keys was read (bicep.lark:81). *)
From Coq Require Import List Arith NArith Bool String.
From Verif Require Import Py.Str Py.Val Lark.Tree Lark.Shape Lark.Terminals Spec.Schema Spec.Trees Spec.Numbering Proofs.Base Proofs.State.
Import ListNotations.
Local Open Scope string_scope.

Definition alike (a b : str) : Prop := a = b \/ (a = u "QUOTED_STRING" /\ b = u "QUOTED_INTERPOLATION").
Inductive like : ptree -> ptree -> Prop :=
| like_tok a b : alike (ttype a) (ttype b) -> tval a = tval b -> like (TTok a) (TTok b)
| like_none : like TNone TNone
| like_node l m m' cs cs' : Forall2 like cs cs' -> like (TNode l m cs) (TNode l m' cs').

Lemma same_like : forall a b, same_tree a b -> like a b.
Proof.
  apply (ptree_all (fun a => forall b, same_tree a b -> like a b)).
  - intros t b H. inversion H; subst. constructor; [left; assumption|assumption].
  - intros b H. inversion H. constructor.
  - intros l m cs IH b H. inversion H as [| |? ? ? ? cs' HF]; subst. constructor. clear H.
    induction HF as [|x y xs ys Hx HF IHF]; constructor; inversion IH; subst; auto.
Qed.
Lemma like_pretty : forall a b, like a b -> forall n, pretty_at n a = pretty_at n b.
Proof.
  apply (ptree_all (fun a => forall b, like a b -> forall n, pretty_at n a = pretty_at n b)).
  - intros t b H n. inversion H; subst. cbn. congruence.
  - intros b H n. inversion H. reflexivity.
  - intros l m cs IH b H n. inversion H as [| |? ? ? ? cs' HF]; subst. clear H.
    assert (Hm : map (pretty_at (Datatypes.S n)) cs = map (pretty_at (Datatypes.S n)) cs').
    { clear -IH HF. induction HF as [|x y xs ys Hx HF IHF]; [reflexivity|]. inversion IH; subst. cbn [map]. f_equal; auto. }
    cbn [pretty_at]. destruct HF as [|x y xs ys Hx HF]; [reflexivity|]. destruct HF as [|x' y' xs ys Hx' HF].
    + inversion Hx; subst; cbn [leaf_text]; congruence.
    + rewrite Hm. destruct x, y; reflexivity.
Qed.
