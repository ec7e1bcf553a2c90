(** Calling the methods resource and custom_import by running the text: they append to lists of [self]. *)
From Coq Require Import List Arith NArith ZArith Bool String Lia.
From Verif Require Import Py.Str Py.Val Python.Syntax Python.Eval Python.Program Proofs.Base Proofs.PyHeap Proofs.PyRun Proofs.PyLoops Proofs.PyMethods Proofs.PyUserfunc Proofs.PyChildren Proofs.PyChildren2 Proofs.PyResource Proofs.PyImports Proofs.PyImports2.
From Verif Require Import Pycep.Utils Lark.Tree.
From Verif Require Pycep.Transformer.
Import ListNotations.
Local Open Scope string_scope.

Section S.
  Variable E : pyenv.
  Variable rt : Pycep.Main.path -> result str.
  Lemma own_args h vs F G : own h (F ++ G)%list -> own (push h (OList vs)) (F ++ next h :: G)%list.
  Proof.
    intros O k. specialize (O k). rewrite next_push. rewrite ?cnt_app, ?cnt_cons in *. unfold one. destruct (Nat.eqb_spec (next h) k), (Nat.ltb_spec k (next h)), (Nat.ltb_spec k (S (next h))); lia.
  Qed.
  Lemma call_resource n h ls ln li lc vc mt vs F dec nm tq ex cq ty api st : self_is h ls ln li lc -> get h lc = Some (OList vc) ->
    reps h vs [dec; nm; PDict tq; ex; PDict cq] F -> own h (ls :: lc :: F) -> aget (u "type") tq = Some (PStr ty) -> aget (u "api_version") tq = Some (PStr api) ->
    fam cq -> Transformer.pv_depth (PDict cq) <= n ->
    match Transformer.wrap L_resource (Transformer.call E ln L_resource mt [dec; nm; PDict tq; ex; PDict cq] st) with
    | Ok (p, st') => exists new v h' F1 vnew F2, st' = {| Transformer.imports := Transformer.imports st; Transformer.child_resources := (Transformer.child_resources st ++ new)%list |} /\
        puserfunc E rt (2 + n) ls L_resource mt vs h = Got (v, h') /\ rep h' v p F1 /\ get h' lc = Some (OList (vc ++ vnew)) /\ reps h' vnew new F2 /\
        (forall k, k < next h -> cnt (lc :: F) k = 0 -> get h' k = get h k) /\ fits h h' F (F1 ++ F2)
    | Err e => puserfunc E rt (2 + n) ls L_resource mt vs h = Exn e
    end.
  Proof.
    intros Hs Hlc R O Ht Ha Hf Hn. assert (B := own_below _ _ O). assert (Lls : ls < next h) by known B. assert (Llc : lc < next h) by known B.
    assert (BF : below h F) by (intros k Hk; apply B; rewrite !cnt_cons; lia).
    assert (Hs1 : self_is (push h (OList vs)) ls ln li lc) by (unfold self_is in *; rewrite get_push_old by lia; exact Hs).
    assert (Hlc1 : get (push h (OList vs)) lc = Some (OList vc)) by (rewrite get_push_old by lia; exact Hlc).
    pose proof (text_resource E rt n (push h (OList vs)) ls ln li lc vc mt (next h) vs F dec nm tq ex cq ty api Hs1 Hlc1 (get_push_new h _) (reps_ext _ _ _ _ _ BF (ext_push h _) R) (own_args h vs [ls; lc] F O) Ht Ha Hf Hn) as P.
    unfold puserfunc, userfunc. assert (K := entry_kind L_resource ltac:(discriminate)). destruct (entry_of pycep (method_name "BicepToJson" L_resource)) as [[?|b ? ?|]|]; try contradiction.
    subst b. cbn [takes_meta Transformer.call]. change (method_name "BicepToJson" L_resource) with "BicepToJson.resource". cbn [Nat.add].
    destruct (Transformer.cb_resource E ln mt [dec; nm; PDict tq; ex; PDict cq]) as [[p cs]|e]; cbn [bind Transformer.wrap].
    - destruct P as (v & h' & F1 & vnew & F2 & P1 & P2 & P3 & P4 & P5 & P6 & P7). exists cs, v, h', F1, vnew, F2. split; [reflexivity|]. split; [cbv zeta beta; rewrite P1; reflexivity|].
      split; [exact P2|]. split; [exact P3|]. split; [exact P4|]. rewrite next_push in P5. split.
      + intros k Hk Hc. rewrite P6 by (rewrite ?next_push; lia || exact Hc). now apply get_push_old.
      + intros k. specialize (P7 k). rewrite next_push in P7. specialize (BF k).
        destruct (Nat.ltb_spec k (next h)), (Nat.ltb_spec k (S (next h))), (Nat.ltb_spec k (next h')); lia.
    - cbv zeta beta. rewrite P. reflexivity.
  Qed.
  Lemma call_custom_import n h ls ln li lc vi mt vs F nas t st : self_is h ls ln li lc -> get h li = Some (OList vi) ->
    reps h vs (nas ++ [PTok t]) F -> own h (ls :: li :: F) -> Forall named nas ->
    match Transformer.wrap L_custom_import (Transformer.call E ln L_custom_import mt (nas ++ [PTok t]) st) with
    | Ok (p, st') => exists new h' vnew, p = PNone /\ st' = {| Transformer.imports := (Transformer.imports st ++ new)%list; Transformer.child_resources := Transformer.child_resources st |} /\
        puserfunc E rt (4 + n) ls L_custom_import mt vs h = Got (VNone, h') /\ appends h li vi h' vnew new
    | Err e => puserfunc E rt (4 + n) ls L_custom_import mt vs h = Exn e
    end.
  Proof.
    intros Hs Hli R O Hn. assert (B := own_below _ _ O). assert (Lls : ls < next h) by known B. assert (Lli : li < next h) by known B.
    assert (BF : below h F) by (intros k Hk; apply B; rewrite !cnt_cons; lia).
    assert (Hs1 : self_is (push h (OList vs)) ls ln li lc) by (unfold self_is in *; rewrite get_push_old by lia; exact Hs).
    assert (Hli1 : get (push h (OList vs)) li = Some (OList vi)) by (rewrite get_push_old by lia; exact Hli).
    pose proof (text_custom_import E rt n (push h (OList vs)) ls ln li lc vi mt (next h) vs F nas t Hs1 Hli1 (get_push_new h _) (reps_ext _ _ _ _ _ BF (ext_push h _) R) (own_args h vs [ls; li] F O) Hn) as P.
    unfold puserfunc, userfunc. assert (K := entry_kind L_custom_import ltac:(discriminate)). destruct (entry_of pycep (method_name "BicepToJson" L_custom_import)) as [[?|b ? ?|]|]; try contradiction.
    subst b. cbn [takes_meta Transformer.call]. change (method_name "BicepToJson" L_custom_import) with "BicepToJson.custom_import". cbn [Nat.add].
    destruct (Transformer.cb_custom_import E ln mt (nas ++ [PTok t])) as [es|e]; cbn [bind Transformer.wrap].
    - destruct P as (h' & vnew & P1 & F2 & A1 & A2 & A3 & A4 & A5). exists es, h', vnew. split; [reflexivity|]. split; [reflexivity|]. split; [cbv zeta beta; rewrite P1; reflexivity|].
      rewrite next_push in A3. exists F2. split; [exact A1|]. split; [exact A2|]. split; [lia|]. split.
      + intros k Hk Hne. rewrite A4 by (rewrite ?next_push; lia). apply get_push_old, Hk.
      + intros k. specialize (A5 k). rewrite next_push in A5. destruct (Nat.ltb_spec k (next h)), (Nat.ltb_spec k (S (next h))), (Nat.ltb_spec k (next h')); lia.
    - cbv zeta beta. rewrite P. reflexivity.
  Qed.
End S.
