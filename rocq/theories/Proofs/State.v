(** The transformer's state only collects: what a declaration reports does not
    depend on the declarations before it. *)
From Coq Require Import List Arith NArith ZArith Bool String Lia.
From Verif Require Import Py.Str Py.Val Pycep.Transformer Lark.Tree
  Proofs.Base Proofs.TreeGrammar Proofs.Transform.
Import ListNotations.
Local Open Scope string_scope.

Section PtreeInd.
  Variable P : ptree -> Prop.
  Hypothesis Htok : forall t, P (TTok t).
  Hypothesis Hnone : P TNone.
  Hypothesis Hnode : forall l m cs, Forall P cs -> P (TNode l m cs).
  Fixpoint ptree_all (t : ptree) : P t :=
    match t with
    | TTok t => Htok t
    | TNone => Hnone
    | TNode l m cs => Hnode l m cs ((fix go cs : Forall P cs :=
        match cs with [] => Forall_nil _ | c :: cs' => Forall_cons _ (ptree_all c) (go cs') end) cs)
    end.
End PtreeInd.

(** No [start] node inside. *)
Fixpoint nostart (t : ptree) : bool :=
  match t with
  | TNode l _ cs => match l with L_start => false | _ => true end && forallb nostart cs
  | _ => true
  end.
Fixpoint startless (s : sort) : bool :=
  match s with sStart => false | sOpt s' => startless s' | _ => true end.
Lemma ok_nostart E : (forall s t, ok E s t -> startless s = true -> nostart t = true) /\
  (forall s cs, oks E s cs -> startless s = true -> forallb nostart cs = true) /\
  (forall cs, okp E cs -> forallb nostart cs = true).
Proof.
  apply ok_mutind; intros; cbn [nostart forallb startless] in *; rewrite ?forallb_app; cbn [forallb];
    repeat match goal with
    | H : ?a = true -> _ |- _ => specialize (H ltac:(first [assumption | reflexivity]))
    end; repeat (apply andb_true_iff; split); auto; try discriminate; try reflexivity;
    match goal with l : label |- _ => destruct l; try discriminate; reflexivity end.
Qed.

Definition st_app (a b : tstate) : tstate :=
  {| imports := (imports a ++ imports b)%list; child_resources := (child_resources a ++ child_resources b)%list |}.
Lemma st_app_nil a : st_app a tstate0 = a.
Proof. destruct a. unfold st_app. cbn. rewrite !app_nil_r. reflexivity. Qed.
Lemma st_nil_app a : st_app tstate0 a = a.
Proof. destruct a. reflexivity. Qed.
Lemma st_app_assoc a b c : st_app (st_app a b) c = st_app a (st_app b c).
Proof. unfold st_app. cbn. rewrite !app_assoc. reflexivity. Qed.
Definition shift {A} (st : tstate) (r : result (A * tstate)) : result (A * tstate) :=
  match r with Ok (v, d) => Ok (v, st_app st d) | Err e => Err e end.

Section Additive.
  Variable E : pyenv.
  Variable ln : bool.
  Lemma call_add l m args st d : l <> L_start ->
    call E ln l m args (st_app st d) = shift st (call E ln l m args d).
  Proof.
    intros Hl. destruct l; try congruence; unfold call, pure;
      try match goal with |- context [bind ?x _] => destruct x end; cbn [bind shift]; try reflexivity.
    - unfold st_app. cbn. rewrite <- app_assoc. reflexivity.
    - destruct a as [v cs]. cbn. unfold st_app. cbn. rewrite <- app_assoc. reflexivity.
  Qed.
  Lemma transform_tree_add : forall t, nostart t = true -> forall st, transform_tree E ln t st = shift st (transform_tree E ln t tstate0).
  Proof.
    apply (ptree_all (fun t => nostart t = true -> forall st, transform_tree E ln t st = shift st (transform_tree E ln t tstate0))).
    - intros t _ st. cbn. rewrite st_app_nil. reflexivity.
    - intros _ st. cbn. rewrite st_app_nil. reflexivity.
    - intros l m cs IH Hn st. cbn [nostart] in Hn. apply andb_true_iff in Hn as [Hl Hn]. rewrite !transform_node.
      assert (Hcs : forall st, transform_list E ln cs st = shift st (transform_list E ln cs tstate0)).
      { clear st. induction IH as [|c cs Hc IH IHcs]; intros st; cbn [transform_list shift].
        - rewrite st_app_nil. reflexivity.
        - cbn [forallb] in Hn. apply andb_true_iff in Hn as [Hn1 Hn2]. specialize (Hc Hn1). specialize (IHcs Hn2).
          rewrite Hc. destruct (transform_tree E ln c tstate0) as [[v d]|e]; cbn [bind shift]; [|reflexivity].
          rewrite (IHcs (st_app st d)), (IHcs d). destruct (transform_list E ln cs tstate0) as [[vs d']|e]; cbn [bind shift]; [|reflexivity].
          rewrite st_app_assoc. reflexivity. }
      rewrite Hcs. destruct (transform_list E ln cs tstate0) as [[vs d]|e]; cbn [bind shift]; [|reflexivity].
      rewrite call_add by (destruct l; discriminate). unfold wrap. destruct (call E ln l m vs d) as [[v d']|e]; reflexivity.
  Qed.

  (** Reports of a list of trees, one by one. *)
  Definition reported (c : ptree) (o : pyval * tstate) : Prop := transform_tree E ln c tstate0 = Ok o.
  Definition collect (outs : list (pyval * tstate)) : tstate := fold_right st_app tstate0 (map snd outs).
  Lemma transform_list_reports cs : forallb nostart cs = true ->
    match transform_list E ln cs tstate0 with
    | Ok (vs, d) => exists outs, Forall2 reported cs outs /\ vs = map fst outs /\ d = collect outs
    | Err e => exists a c b outs, cs = (a ++ c :: b)%list /\ Forall2 reported a outs /\ transform_tree E ln c tstate0 = Err e
    end.
  Proof.
    intros Hn. induction cs as [|c cs IH]; cbn [transform_list].
    - exists []. repeat split. constructor.
    - cbn [forallb] in Hn. apply andb_true_iff in Hn as [Hn1 Hn2]. specialize (IH Hn2).
      destruct (transform_tree E ln c tstate0) as [[v d]|e] eqn:Hc; cbn [bind].
      2:{ exists [], c, cs, []. repeat split; [constructor|exact Hc]. }
      assert (Hadd : transform_list E ln cs d = shift d (transform_list E ln cs tstate0)).
      { clear -Hn2. revert d. induction cs as [|c cs IH]; intros d; cbn [transform_list shift]; [rewrite st_app_nil; reflexivity|].
        cbn [forallb] in Hn2. apply andb_true_iff in Hn2 as [H1 H2]. rewrite (transform_tree_add c H1).
        destruct (transform_tree E ln c tstate0) as [[v d1]|e]; cbn [bind shift]; [|reflexivity].
        rewrite (IH H2 (st_app d d1)), (IH H2 d1). destruct (transform_list E ln cs tstate0) as [[vs d2]|e]; cbn [bind shift]; [|reflexivity].
        rewrite st_app_assoc. reflexivity. }
      rewrite Hadd. destruct (transform_list E ln cs tstate0) as [[vs d']|e]; cbn [bind shift].
      + destruct IH as (outs & H1 & H2 & H3). exists ((v, d) :: outs). subst. split; [constructor; assumption|].
        split; [reflexivity|]. unfold collect. cbn [map fold_right snd]. reflexivity.
      + destruct IH as (a & c' & b & outs & H1 & H2 & H3). exists (c :: a), c', b, ((v, d) :: outs). subst.
        split; [reflexivity|]. split; [constructor; assumption|exact H3].
  Qed.
End Additive.
