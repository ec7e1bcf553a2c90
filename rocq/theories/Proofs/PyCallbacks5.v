(** pycep/transformer.py: running its text is calling the model's callbacks.
    Part 5: decorator and function. *)
From Coq Require Import List NArith ZArith Bool String Lia.
From Verif Require Import Py.Str Py.Val Python.Syntax Python.Eval Python.Program Proofs.Base Proofs.PyHeap Proofs.PyRun Proofs.PyLoops Proofs.PyMethods Proofs.PyCallbacks4.
From Verif Require Import Proofs.PyDecorators Proofs.PyFunctions1 Proofs.PyFunctions2 Proofs.PyFunctions3.
From Verif Require Import Pycep.Utils Pycep.Functions Pycep.Decorators Lark.Tree.
From Verif Require Pycep.Transformer.
Import ListNotations.
Local Open Scope string_scope.
Section C.
  Variable E : pyenv.
  Variable rt : Pycep.Main.path -> result str.
  Lemma same_some k a b m : Forall2 (same_entry E rt) a b -> aget k b = Some m -> exists f, aget k a = Some (VFun f) /\ fun_like E rt f m /\ In (VFun f) (map snd a).
  Proof. intros H Hm. pose proof (same_aget E rt k a b H) as S. now rewrite Hm in S. Qed.
  Lemma same_none k a b : Forall2 (same_entry E rt) a b -> aget k b = None -> aget k a = None.
  Proof. intros H Hm. pose proof (same_aget E rt k a b H) as S. now rewrite Hm in S. Qed.
  (** The call of a function that gets the list [VRef l'] standing for [qs]. *)
  Ltac the_call X FL m qs R2 H :=
    match goal with |- context [X [VStr ?nm; VRef ?l'] [] ?h'] =>
      let Q := fresh "Q" in let X0 := fresh "X" in
      let O' := fresh "O" in
      assert (O' : own h' (l' :: H)) by cnt_tac;
      assert (Q : gives h' (l' :: H) (m nm qs) (X [VStr nm; VRef l'] [] h')) by
        (eapply FL; [cell|refine (reps_ext _ _ _ _ _ _ _ R2); [below_tac|ext_tac]|exact O']);
      match goal with |- gives ?h ?F _ _ => apply (gives_trans h h' F (l' :: H)); [ext_tac|cnt_tac|] end;
      destruct (m nm qs); [destruct Q as (w & h2 & F2 & Q & Rw & X2 & Hf); assert (O2 := fits_own _ _ _ _ O' X2 Hf); rewrite Q; clear Q; eapply (gives_trans _ h2 _ F2); [exact X2|exact Hf|]; clear X2 Hf; run|rewrite Q; reflexivity]
    end.
  Lemma text_decorator : cb_like E rt "decorator" (Transformer.cb_decorator E).
  Proof.
    cb0; args 1; [finish|]. unfold Transformer.cb_decorator.
    assert (HC := run_decorators E rt (S (S n))).
    assert (Ca : calls E rt (([], VFun "unknown_deco") :: decorators_table)) by (apply calls_of; vm_cast_no_check (@eq_refl _ true)).
    assert (Sa := decorators_same E rt).
    assert (Un := text_unknown_deco E rt).
    remember decorators_table as T eqn:ET. clear ET. remember (DECORATORS E) as D eqn:ED. clear ED.
    remember unknown_deco as un eqn:EU. clear EU.
    destruct (aget (py_str E p) D) as [m|] eqn:Ea.
    - destruct (same_some _ _ _ _ Sa Ea) as (f & Ga & Fl & Hi). assert (HV := fun pos kw h => Ca f (S (S (S n))) pos kw h (or_intror Hi)). clear Ca.
      cbv beta in HV. remember (fun pos kw h => pcall E rt (S (S (S n))) f pos kw h) as X eqn:EX.
      assert (FL : forall h l vs ps F name, get h l = Some (OList vs) -> reps h vs ps F -> own h (l :: F) -> gives h (l :: F) (m name ps) (X [VStr name; VRef l] [] h)) by (subst X; exact (Fl (S (S n)))).
      assert (HV' : forall pos kw h, pvalue E rt (S (S (S n))) (VFun f) pos kw h = X pos kw h) by (subst X; exact HV). clear HV EX Sa Un Fl Hi.
      run. the_call X FL m qs R1 H.
      done_tac.
    - assert (Ga := same_none _ _ _ Sa Ea). assert (HV := fun pos kw h => Ca "unknown_deco" (S (S (S n))) pos kw h (or_introl eq_refl)). clear Ca.
      cbv beta in HV. remember (fun pos kw h => pcall E rt (S (S (S n))) "unknown_deco" pos kw h) as X eqn:EX.
      assert (FL : forall h l vs ps F name, get h l = Some (OList vs) -> reps h vs ps F -> own h (l :: F) -> gives h (l :: F) (un name ps) (X [VStr name; VRef l] [] h)) by (subst X; exact (Un (S (S n)))).
      assert (HV' : forall pos kw h, pvalue E rt (S (S (S n))) (VFun "unknown_deco") pos kw h = X pos kw h) by (subst X; exact HV). clear HV EX Sa Un.
      run. the_call X FL un qs R1 H.
      done_tac.
  Qed.
  Lemma text_function : cb_like E rt "function" (Transformer.cb_function E).
  Proof.
    cb0; args 1; [finish|]. unfold Transformer.cb_function.
    assert (HC := run_functions E rt (S (S n))).
    assert (Ca : calls E rt (([], VFun "unknown_func") :: functions_table)) by (apply calls_of; vm_cast_no_check (@eq_refl _ true)).
    assert (Sa := functions_same E rt).
    assert (Un := text_unknown_func E rt).
    remember functions_table as T eqn:ET. clear ET. remember FUNCTIONS as D eqn:ED. clear ED.
    remember f_unknown_func as un eqn:EU. clear EU.
    change (u "(") with [40%N]. destruct (aget (remove_suffix [40%N] (py_str E p)) D) as [m|] eqn:Ea.
    - destruct (same_some _ _ _ _ Sa Ea) as (f & Ga & Fl & Hi). assert (HV := fun pos kw h => Ca f (S (S (S n))) pos kw h (or_intror Hi)). clear Ca.
      cbv beta in HV. remember (fun pos kw h => pcall E rt (S (S (S n))) f pos kw h) as X eqn:EX.
      assert (FL : forall h l vs ps F name, get h l = Some (OList vs) -> reps h vs ps F -> own h (l :: F) -> gives h (l :: F) (m name ps) (X [VStr name; VRef l] [] h)) by (subst X; exact (Fl (S (S n)))).
      assert (HV' : forall pos kw h, pvalue E rt (S (S (S n))) (VFun f) pos kw h = X pos kw h) by (subst X; exact HV). clear HV EX Sa Un Fl Hi.
      run. the_call X FL m qs R1 H. done_tac.
    - assert (Ga := same_none _ _ _ Sa Ea). assert (HV := fun pos kw h => Ca "unknown_func" (S (S (S n))) pos kw h (or_introl eq_refl)). clear Ca.
      cbv beta in HV. remember (fun pos kw h => pcall E rt (S (S (S n))) "unknown_func" pos kw h) as X eqn:EX.
      assert (FL : forall h l vs ps F name, get h l = Some (OList vs) -> reps h vs ps F -> own h (l :: F) -> gives h (l :: F) (un name ps) (X [VStr name; VRef l] [] h)) by (subst X; exact (Un (S (S n)))).
      assert (HV' : forall pos kw h, pvalue E rt (S (S (S n))) (VFun "unknown_func") pos kw h = X pos kw h) by (subst X; exact HV). clear HV EX Sa Un.
      run. the_call X FL un qs R1 H. done_tac.
  Qed.
End C.
