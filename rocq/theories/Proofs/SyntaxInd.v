(** Induction over expressions and the items of objects. *)
From Coq Require Import List.
From Verif Require Import Py.Str Spec.Syntax.
Import ListNotations.

Definition maybe {A} (R : A -> Prop) (o : option A) : Prop := match o with Some a => R a | None => True end.
Section principle.
  Variable P : expr -> Prop.
  Variable Q : item -> Prop.
  Hypothesis Hnull : P ENull.
  Hypothesis Hbool : forall b, P (EBool b).
  Hypothesis Hint : forall v, P (EInt v).
  Hypothesis Href : forall v, P (ERef v).
  Hypothesis Hstr : forall c, P (EStr c).
  Hypothesis Hmulti : forall c, P (EMulti c).
  Hypothesis Hnext : forall br a, P a -> P (ENext br a).
  Hypothesis Harray : forall lead rows, Forall (fun r => P (fst (fst r)) /\ Forall P (snd (fst r))) rows -> P (EArray lead rows).
  Hypothesis Hobject : forall lead rows, Forall (fun r => Q (fst r)) rows -> P (EObject lead rows).
  Hypothesis Hcall : forall f lead first more trail, maybe P first -> Forall (fun a => P (snd a)) more -> P (ECall f lead first more trail).
  Hypothesis Hbin : forall o a b, P a -> P b -> P (EBin o a b).
  Hypothesis Hnot : forall a, P a -> P (ENot a).
  Hypothesis Hminus : forall a, P a -> P (EMinus a).
  Hypothesis Hcond : forall c a b, P c -> P a -> P b -> P (ECond c a b).
  Hypothesis Hdot : forall s a b, P a -> P b -> P (EDot s a b).
  Hypothesis Hindex : forall s a b, P a -> P b -> P (EIndex s a b).
  Hypothesis Hnested : forall a b, P a -> P b -> P (ENested a b).
  Hypothesis Hmethod : forall a f first more, P a -> maybe P first -> Forall P more -> P (EMethod a f first more).
  Hypothesis Hlambda : forall x b, P x -> P b -> P (ELambda x b).
  Hypothesis Hlambdas : forall x y more b, P x -> P y -> Forall P more -> P b -> P (ELambdas x y more b).
  Hypothesis Hparen : forall a, P a -> P (EParen a).
  Hypothesis Hbang : forall a, P a -> P (EBang a).
  Hypothesis Hloop : forall lead r over cond body trail, P over -> maybe P cond -> P body ->
    P (ELoop lead r over cond body trail).
  Hypothesis Hif : forall lead c body, P c -> P body -> P (EIf lead c body).
  Hypothesis Hpairs : forall k v q more, P v -> Forall (fun p => P (snd (fst p))) more -> Q (Pairs k v q more).
  Hypothesis Hchild : forall n ty ex body, P body -> Q (Child n ty ex body).

  Definition all {A} (R : A -> Prop) (f : forall a, R a) : forall l, Forall R l :=
    fix go l := match l with [] => Forall_nil R | a :: l' => Forall_cons a (f a) (go l') end.
  Fixpoint expr_induction (e : expr) : P e :=
    match e with
    | ENull => Hnull
    | EBool b => Hbool b
    | EInt v => Hint v
    | ERef v => Href v
    | EStr c => Hstr c
    | EMulti c => Hmulti c
    | ENext br a => Hnext br a (expr_induction a)
    | EArray lead rows =>
        Harray lead rows (all (fun r => P (fst (fst r)) /\ Forall P (snd (fst r)))
          (fun r => match r with (x, xs, brs) => conj (expr_induction x) (all P expr_induction xs) end) rows)
    | EObject lead rows => Hobject lead rows (all (fun r => Q (fst r)) (fun r => match r with (i, brs) => item_induction i end) rows)
    | ECall f lead first more trail => Hcall f lead first more trail
        match first as o return maybe P o with Some x => expr_induction x | None => I end
        (all (fun a => P (snd a)) (fun a => match a with (b, x) => expr_induction x end) more)
    | EBin o a b => Hbin o a b (expr_induction a) (expr_induction b)
    | ENot a => Hnot a (expr_induction a)
    | EMinus a => Hminus a (expr_induction a)
    | ECond c a b => Hcond c a b (expr_induction c) (expr_induction a) (expr_induction b)
    | EDot s a b => Hdot s a b (expr_induction a) (expr_induction b)
    | EIndex s a b => Hindex s a b (expr_induction a) (expr_induction b)
    | ENested a b => Hnested a b (expr_induction a) (expr_induction b)
    | EMethod a f first more => Hmethod a f first more (expr_induction a)
        match first as o return maybe P o with Some x => expr_induction x | None => I end (all P expr_induction more)
    | ELambda x b => Hlambda x b (expr_induction x) (expr_induction b)
    | ELambdas x y more b => Hlambdas x y more b (expr_induction x) (expr_induction y) (all P expr_induction more) (expr_induction b)
    | EParen a => Hparen a (expr_induction a)
    | EBang a => Hbang a (expr_induction a)
    | ELoop lead r over cond body trail =>
        Hloop lead r over cond body trail (expr_induction over)
          match cond as o return maybe P o with Some c => expr_induction c | None => I end (expr_induction body)
    | EIf lead c body => Hif lead c body (expr_induction c) (expr_induction body)
    end
  with item_induction (i : item) : Q i :=
    match i with
    | Pairs k v q more => Hpairs k v q more (expr_induction v) (all (fun p => P (snd (fst p))) (fun p => match p with (k, x, q) => expr_induction x end) more)
    | Child n ty ex body => Hchild n ty ex body (expr_induction body)
    end.
  Lemma syntax_induction : (forall e, P e) /\ (forall i, Q i).
  Proof. split; [exact expr_induction|exact item_induction]. Qed.
End principle.
