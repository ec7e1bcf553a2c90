(** pycep/transformer.py, custom_import (continued): running its text is calling the model's callback. *)
From Coq Require Import List Arith NArith ZArith Bool String Lia.
From Verif Require Import Py.Str Py.Val Python.Syntax Python.Eval Python.Program Proofs.Base Proofs.PyHeap Proofs.PyRun Proofs.PyLoops Proofs.PyMethods Proofs.PyChildren Proofs.PyChildren2 Proofs.PyImports.
From Verif Require Import Pycep.Utils Lark.Tree.
From Verif Require Pycep.Transformer.
Import ListNotations.
Local Open Scope string_scope.

Section R.
  Variable E : pyenv.
  Variable rt : Pycep.Main.path -> result str.
  Notation tst := (tst E rt).
  Notation import_round := (import_round E rt).
  Lemma text_custom_import n h ls ln li lc vi mt l vs F nas t : self_is h ls ln li lc -> get h li = Some (OList vi) -> get h l = Some (OList vs) ->
    reps h vs (nas ++ [PTok t]) F -> own h (ls :: li :: l :: F) -> Forall named nas ->
    match Transformer.cb_custom_import E ln mt (nas ++ [PTok t]) with
    | Ok es => exists h' vnew, pcall E rt (S (S (S (S n)))) "BicepToJson.custom_import" [VRef ls; VMeta mt; VRef l] [] h = Got (VNone, h') /\ appends h li vi h' vnew es
    | Err e => pcall E rt (S (S (S (S n)))) "BicepToJson.custom_import" [VRef ls; VMeta mt; VRef l] [] h = Exn e
    end.
  Proof.
    intros Hs Hli Hl R O Hn.
    assert (O1 : forall k, cnt (ls :: li :: l :: F) k <= 1) by (intros k; specialize (O k); destruct (Nat.ltb k (next h)); lia).
    assert (B := own_below _ _ O). assert (Lls : ls < next h) by known B. assert (Lli : li < next h) by known B. assert (Ll : l < next h) by known B.
    assert (N1 : ne ls li) by (unfold ne; differ). assert (N2 : ne ls l) by (unfold ne; differ). assert (N3 : ne li l) by (unfold ne; differ).
    pose proof (tst (S n) t) as HT. destruct (tok_ok t) as (pt & Ht & Rt). remember (tok_val t) as vt eqn:Evt. clear Evt.
    destruct nas as [|na nas].
    { cbn [app] in *. inversion R as [|v ? F0 vs0 ? G0 Rv Rs]; subst. inversion Rs; subst. inversion Rv; subst. clear R Rs Rv O O1 B. unfold Transformer.cb_custom_import.
      rewrite Ht. cbn [bind]. unfold self_is in *. lits. eexists _, _. split; [enter; run3; reflexivity|].
      eapply appends_one; [cell|cell|cell|cell|constructor|repeat first [rewrite next_set | rewrite next_push]; reflexivity|frame_tac|apply Rt]. }
    assert (Hc : Transformer.cb_custom_import E ln mt ((na :: nas) ++ [PTok t]) = Transformer.import_entries E ln mt (PTok t) (na :: nas)).
    { unfold Transformer.cb_custom_import. destruct ((na :: nas) ++ [PTok t])%list as [|x [|y r]] eqn:Ex; [discriminate|destruct nas; discriminate|]. rewrite <- Ex, last_last, removelast_last. reflexivity. }
    rewrite Hc. clear Hc. assert (exists ws, vs = ws ++ [VTok t] /\ exists F1, reps h ws (na :: nas) F1 /\ forall k, cnt F1 k <= cnt F k)%list.
    { clear - R. revert vs F R. generalize (na :: nas) as l. induction l as [|p l IH]; intros vs F R; cbn [app] in R; inversion R as [|v ? F0 vs0 ? G0 Rv Rs]; subst.
      - inversion Rs; subst. inversion Rv; subst. exists []. split; [reflexivity|]. exists []. split; [constructor|]. intros k. cbn. lia.
      - destruct (IH _ _ Rs) as (ws & -> & F1 & Rw & C). exists (v :: ws). split; [reflexivity|]. exists (F0 ++ F1)%list. split; [now constructor|]. intros k. specialize (C k). rewrite !cnt_app. lia. }
    destruct H as (ws & -> & F1 & Rw & C). 
    assert (Ow : own (push h (OList ws)) (ls :: li :: F1)).
    { intros k. specialize (O k). specialize (C k). rewrite next_push. rewrite ?cnt_cons in *. destruct (Nat.ltb_spec k (next h)), (Nat.ltb_spec k (S (next h))); lia. }
    assert (Hz : exists a b r, (ws ++ [VTok t])%list = a :: b :: r).
    { inversion Rw; subst. destruct vs as [|b r]; [do 3 eexists; reflexivity|do 3 eexists; reflexivity]. }
    destruct Hz as (a & b & r & Hz). assert (Hrev : rev (a :: b :: r) = VTok t :: rev ws) by (rewrite <- Hz; apply rev_unit). rewrite Hz in Hl.
    pose proof (fun env Hi => loop_imports _ (fun env => free_of env ls mt t) E ln mt t ls li lc (import_round n ln mt t ls li lc) ws (na :: nas) F1 env (push h (OList ws)) vi Hi) as L.
    eassert (Hr : pcall E rt (S (S (S (S n)))) "BicepToJson.custom_import" [VRef ls; VMeta mt; VRef l] [] h = _).
    { unfold self_is in *. clear L Rw R Ow O O1 B C Hz Hn Rt Ht HT; enter; run3; reflexivity. }
    rewrite Hr. rewrite !rev_involutive. clear Hr. cbv zeta in L.
    match type of L with context [match entry_of pycep ?x with Some _ => _ | None => _ end] => let b := eval vm_compute in (match entry_of pycep x with Some (Function _ _ (_ :: _ :: SFor _ _ b :: _)) => b | _ => [] end) in
      replace (match entry_of pycep x with Some (Function _ _ (_ :: _ :: SFor _ _ b0 :: _)) => b0 | _ => [] end) with b in L by (vm_cast_no_check (eq_refl b)) end.
    assert (Hs1 : self_is (push h (OList ws)) ls ln li lc) by (unfold self_is in *; rewrite get_push_old by lia; exact Hs).
    assert (Hli1 : get (push h (OList ws)) li = Some (OList vi)) by (rewrite get_push_old by lia; exact Hli).
    assert (Rw1 : reps (push h (OList ws)) ws (na :: nas) F1).
    { refine (reps_ext h _ _ _ _ _ (ext_push h _) Rw). intros k Hk. apply B. specialize (C k). rewrite !cnt_cons. lia. }
    specialize (L [("name_alias_pairs", VRef (next h)); ("file_path", VTok t); ("self", VRef ls); ("meta", VMeta mt); ("args", VRef l)] ltac:(repeat split) Hs1 Hli1 Rw1 Ow Hn).
    destruct (Transformer.import_entries E ln mt (PTok t) (na :: nas)) as [es|e].
    - destruct L as (env' & h' & vnew & Lr & A). exists h', vnew. split.
      + match type of Lr with ?a = ?b => match goal with |- context [for_loop ?f ?xs ?st] => change (for_loop f xs st) with a end; rewrite Lr end. reflexivity.
      + destruct A as (F2 & A1 & A2 & A3 & A4 & A5). rewrite next_push in A3. exists F2. split; [exact A1|]. split; [exact A2|]. split; [lia|]. split.
        * intros k Hk Hne. rewrite A4 by (rewrite ?next_push; lia). apply get_push_old, Hk.
        * intros k. specialize (A5 k). rewrite next_push in A5. destruct (Nat.ltb_spec k (next h)), (Nat.ltb_spec k (S (next h))), (Nat.ltb_spec k (next h')); lia.
    - match type of L with ?a = ?b => match goal with |- context [for_loop ?f ?xs ?st] => change (for_loop f xs st) with a end; rewrite L end. reflexivity.
  Qed.
End R.
