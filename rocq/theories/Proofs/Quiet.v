(** Reports of subtrees: no state is involved below declarations. *)
From Coq Require Import List Arith NArith ZArith Bool String Lia.
From Verif Require Import Py.Str Py.Val Pycep.Transformer Lark.Tree Spec.Program Spec.Reports
  Proofs.Base Proofs.TreeGrammar Proofs.Transform Proofs.State.
Import ListNotations.
Local Open Scope string_scope.

Fixpoint calm (s : sort) : bool :=
  match s with sStart | sElem => false | sOpt s' => calm s' | _ => true end.
Lemma ok_quiet E : (forall s t, ok E s t -> calm s = true -> quiet t = true) /\
  (forall s cs, oks E s cs -> calm s = true -> forallb quiet cs = true) /\
  (forall cs, okp E cs -> forallb quiet cs = true).
Proof.
  apply ok_mutind; intros; cbn [quiet forallb calm] in *; rewrite ?forallb_app; cbn [forallb];
    repeat match goal with
    | H : ?a = true -> _ |- _ => specialize (H ltac:(first [assumption | reflexivity]))
    end; repeat (apply andb_true_iff; split); auto; try discriminate; try reflexivity;
    match goal with l : label |- _ => destruct l; try discriminate; reflexivity end.
Qed.
Lemma quiet_ok E s t : ok E s t -> calm s = true -> quiet t = true.
Proof. intros H. exact (proj1 (ok_quiet E) s t H). Qed.
Lemma quiet_oks E s cs : oks E s cs -> calm s = true -> forallb quiet cs = true.
Proof. intros H. exact (proj1 (proj2 (ok_quiet E)) s cs H). Qed.
Lemma quiet_okp E cs : okp E cs -> forallb quiet cs = true.
Proof. intros H. exact (proj2 (proj2 (ok_quiet E)) cs H). Qed.

Lemma quiet_nostart : forall t, quiet t = true -> nostart t = true.
Proof.
  apply (ptree_all (fun t => quiet t = true -> nostart t = true)); try reflexivity.
  intros l m cs IH H. cbn [quiet nostart] in *. apply andb_true_iff in H as [Hl H]. apply andb_true_iff. split.
  - destruct l; try reflexivity. discriminate.
  - clear -IH H. induction IH as [|c cs Hc IH IHcs]; [reflexivity|]. cbn [forallb] in *.
    apply andb_true_iff in H as [H1 H2]. apply andb_true_iff. auto.
Qed.

Section Quiet.
  Variable E : pyenv.
  Variable ln : bool.
  (** The callback alone. *)
  Definition callv (l : label) (m : meta) (vs : list pyval) : result pyval :=
    let* (v, _) := call E ln l m vs tstate0 in Ok v.
  Lemma call_quiet l m vs st : match l with L_start | L_custom_import | L_resource => false | _ => true end = true ->
    call E ln l m vs st = let* v := callv l m vs in Ok (v, st).
  Proof.
    intros Hl. unfold callv. destruct l; try discriminate; unfold call, pure;
      try reflexivity;
      match goal with |- bind ?x _ = _ => destruct x end; reflexivity.
  Qed.
  Definition with_state {A} (st : tstate) (r : result A) : result (A * tstate) := let* v := r in Ok (v, st).
  Lemma transform_quiet : forall t, quiet t = true -> forall st,
    transform_tree E ln t st = with_state st (transform E ln t).
  Proof.
    apply (ptree_all (fun t => quiet t = true -> forall st, transform_tree E ln t st = with_state st (transform E ln t)));
      try reflexivity.
    intros l m cs IH H st. cbn [quiet] in H. apply andb_true_iff in H as [Hl H]. unfold transform. rewrite !transform_node.
    assert (Hcs : forall st, transform_list E ln cs st = with_state st (all_ok (transform E ln) cs)).
    { clear st Hl. induction IH as [|c cs Hc IH IHcs]; intros st; [reflexivity|]. cbn [forallb] in H.
      apply andb_true_iff in H as [H1 H2]. cbn [transform_list all_ok]. rewrite (Hc H1).
      destruct (transform E ln c) as [v|e]; cbn [with_state bind]; [|reflexivity]. rewrite (IHcs H2).
      destruct (all_ok (transform E ln) cs); reflexivity. }
    rewrite !Hcs. destruct (all_ok (transform E ln) cs) as [vs|e]; cbn [with_state bind]; [|reflexivity].
    rewrite (call_quiet l m vs st Hl), (call_quiet l m vs tstate0 Hl). unfold wrap, with_state.
    destruct (callv l m vs); reflexivity.
  Qed.
  Lemma transform_list_quiet cs : forallb quiet cs = true -> forall st,
    transform_list E ln cs st = with_state st (all_ok (transform E ln) cs).
  Proof.
    induction cs as [|c cs IH]; intros H st; [reflexivity|]. cbn [forallb] in H. apply andb_true_iff in H as [H1 H2].
    cbn [transform_list all_ok]. rewrite (transform_quiet c H1).
    destruct (transform E ln c) as [v|e]; cbn [with_state bind]; [|reflexivity]. rewrite (IH H2).
    destruct (all_ok (transform E ln) cs); reflexivity.
  Qed.
  (** Any node over quiet children. *)
  Lemma transform_over l m cs : forallb quiet cs = true -> forall st,
    transform_tree E ln (TNode l m cs) st = let* vs := all_ok (transform E ln) cs in wrap l (call E ln l m vs st).
  Proof.
    intros H st. rewrite transform_node, (transform_list_quiet cs H). destruct (all_ok (transform E ln) cs); reflexivity.
  Qed.
  Lemma transform_node_quiet l m cs : forallb quiet cs = true ->
    transform E ln (TNode l m cs) = let* vs := all_ok (transform E ln) cs in wrap l (callv l m vs).
  Proof.
    intros H. unfold transform at 1. rewrite (transform_over l m cs H).
    destruct (all_ok (transform E ln) cs); [|reflexivity]. cbn [bind]. unfold callv, wrap.
    destruct (call E ln l m a tstate0) as [[v st]|e]; reflexivity.
  Qed.
  Lemma all_ok_app {A B} (f : A -> result B) a b : all_ok f (a ++ b)%list =
    let* x := all_ok f a in let* y := all_ok f b in Ok (x ++ y)%list.
  Proof.
    induction a as [|c a IH]; cbn [app all_ok bind].
    - destruct (all_ok f b); reflexivity.
    - destruct (f c); [|reflexivity]. rewrite IH. destruct (all_ok f a); cbn [bind]; [|reflexivity].
      destruct (all_ok f b); reflexivity.
  Qed.
  Lemma all_ok_Forall2 {A B} (f : A -> result B) cs vs : all_ok f cs = Ok vs <-> Forall2 (fun c v => f c = Ok v) cs vs.
  Proof.
    split.
    - revert vs. induction cs as [|c cs IH]; intros vs H; cbn [all_ok] in H.
      + injection H as <-. constructor.
      + destruct (f c) as [v|e] eqn:Hc; [|discriminate]. destruct (all_ok f cs) as [ws|e]; [|discriminate].
        injection H as <-. constructor; auto.
    - induction 1 as [|c v cs vs Hc Hcs IH]; [reflexivity|]. cbn [all_ok]. rewrite Hc, IH. reflexivity.
  Qed.
  Lemma transform_tok t : transform E ln (TTok t) = Ok (PTok t).
  Proof. reflexivity. Qed.
  Lemma transform_none : transform E ln TNone = Ok PNone.
  Proof. reflexivity. Qed.
End Quiet.
