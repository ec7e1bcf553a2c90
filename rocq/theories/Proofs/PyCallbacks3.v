(** pycep/transformer.py: running its text is calling the model's callbacks.
    Part 3: methods with comprehensions and loops. *)
From Coq Require Import List NArith ZArith Bool String Lia.
From Verif Require Import Py.Str Py.Val Python.Syntax Python.Eval Python.Program Proofs.Base Proofs.PyHeap Proofs.PyRun Proofs.PyLoops Proofs.PyMethods.
From Verif Require Import Pycep.Utils Lark.Tree.
From Verif Require Pycep.Transformer.
Import ListNotations.
Local Open Scope string_scope.
Section C.
  Variable E : pyenv.
  Variable rt : Pycep.Main.path -> result str.
  Lemma text_function_accessor : cb_like E rt "function_accessor" (Transformer.cb_function_accessor E).
  Proof.
    cb0; args 2; [finish|finish|]. unfold Transformer.cb_function_accessor, Transformer.op_dict.
    let key := eval cbv -[dec_Z app Z.add] in (fun z => u "operand_" ++ dec_Z (z + 2))%list in
    (destruct (repd_truthy h key (u "operand_") vs qs0 H0 0 2 R2) as (F' & M & B);
    [intros j; cbv beta; f_equal; apply dec_Z_of_N; lia|];
    remember (filter _ _) as fl eqn:Efl; run;
    comp_g (@nil string) key (fun (v : val) p => if truthy p then Some v else None) R2).
    run. rewrite ?merge_nil.
    match goal with |- context [dict_of (?x :: ?y :: fl)] => change (dict_of (x :: y :: fl)) with (merge [x; y] fl) end.
    merge_have M. done_tac.
  Qed.
  Lemma reps_snoc h : forall vs ps F, reps h vs ps F -> vs <> [] ->
    exists w q G H, last ps PNone = q /\ last vs VNone = w /\ rep h w q G /\ reps h (removelast vs) (removelast ps) H /\ forall l, cnt H l + cnt G l <= cnt F l.
  Proof.
    induction vs as [|v vs IH]; intros ps F R Hn; [easy|]. inversion R as [|? p F0 ? ps' G0 Hv Hs]; subst.
    destruct vs as [|v' vs].
    - inversion Hs; subst. exists v, p, F0, []. repeat split; [exact Hv|constructor|]. intros l. rewrite cnt_app. cbn. lia.
    - destruct (IH _ _ Hs ltac:(discriminate)) as (w & q & G & H & A1 & A2 & A3 & A4 & A5). inversion Hs; subst.
      exists (last (v' :: vs) VNone), (last (p0 :: ps) PNone), G, (F0 ++ H)%list. repeat split.
      + exact A3.
      + cbn [removelast] in *. now constructor.
      + intros l. rewrite !cnt_app in *. specialize (A5 l). rewrite !cnt_app in A5. lia.
  Qed.
  Lemma rev_removelast {A} (x : A) l d : rev (x :: l) = last (x :: l) d :: rev (removelast (x :: l)).
  Proof. rewrite (app_removelast_last d (l := x :: l)) at 1 by discriminate. now rewrite rev_app_distr. Qed.
  Lemma text_lambda_expression : cb_like E rt "lambda_expression" (Transformer.cb_lambda_expression E).
  Proof.
    cb0; args 2; [finish|finish|]. unfold Transformer.cb_lambda_expression. cbn [tl].
    assert (Q : reps h (v0 :: vs) (p0 :: qs0) (G0 ++ H0)) by now constructor.
    destruct (reps_snoc h _ _ _ Q ltac:(discriminate)) as (w & q & G1 & H1 & E1 & E2 & Rw & Rm & B). rewrite E1.
    let key := eval cbv -[dec_Z app Z.add] in (fun z => u "var_" ++ dec_Z (z + 2))%list in
    (assert (M : repd h (vnumo key (fun v p => Some (VStr (py_str E p))) 0 (removelast (v0 :: vs)) (removelast (p0 :: qs0))) (numbered (u "var_") 2 (map (Transformer.py_str' E) (removelast (p0 :: qs0)))) [])
      by (refine (repd_strs E h key (u "var_") _ _ _ 0 2 Rm _); intros j; cbv beta; f_equal; apply dec_Z_of_N; lia)).
    remember (numbered _ _ _) as fl eqn:Efl.
    assert (Hz : rev (v0 :: vs) = w :: rev (removelast (v0 :: vs))) by (rewrite (rev_removelast v0 vs VNone), E2; reflexivity).
    remember (v0 :: vs) as zs eqn:Ez. remember (p0 :: qs0) as zq. clear Ez Heqzq E1 E2.
    remember (removelast zs) as ys. remember (removelast zq) as yq.
    run. rewrite rev_involutive. run.
    let key := eval cbv -[dec_Z app Z.add] in (fun z => u "var_" ++ dec_Z (z + 2))%list in
    comp_g ["str"] key (fun (_ : val) p => Some (VStr (py_str E p))) Rm.
    run. rewrite ?merge_nil.
    match goal with |- context [dict_of ?d0] => lazymatch d0 with (?x :: (fl ++ [(?k, ?y)])%list) =>
      let Hd := fresh in assert (Hd : dict_of d0 = aset k y (merge [x] fl)) by exact (dict_of_app (x :: fl) [(k, y)]); rewrite Hd; clear Hd end end.
    merge_have M. aset_have M0 Rw. done_tac.
  Qed.

  Definition untok (v : val) (p : pyval) : val := match v with VTok t => VStr (tval t) | _ => v end.
  Lemma reps_untok h : forall vs ps F, reps h vs ps F -> reps h (vmap untok vs ps) (map Transformer.untoken ps) F.
  Proof.
    induction vs as [|v vs IH]; intros ps F R; inversion R as [|? p F0 ? ps' G0 Hv Hs]; subst; cbn [vmap map]; [constructor|].
    constructor; [|now apply IH]. inversion Hv; subst; cbn; try assumption. constructor.
  Qed.
  Lemma text_array : cb_like E rt "array" Transformer.cb_array.
  Proof.
    cb0. unfold Transformer.cb_array. assert (R' := reps_untok h vs ps F R). remember (map Transformer.untoken ps) as ps' eqn:Ep. clear Ep. run.
    list_g ["isinstance"; "Token"] untok R.
    { val_cases v; body. }
    run. done_tac.
  Qed.
  Lemma text_type_value : cb_like E rt "type_value" (Transformer.cb_type_value E).
  Proof.
    cb0. unfold Transformer.cb_type_value.
    assert (R' : all (map text_of (vmap (fun (_ : val) p => VStr (py_str E p)) vs ps)) = Some (map (py_str E) ps)).
    { clear - R. revert vs F R. induction ps as [|p ps IH]; intros vs F R; inversion R; subst; cbn [vmap map all text_of]; [reflexivity|]. match goal with Q : reps _ _ ps _ |- _ => now rewrite (IH _ _ Q) end. }
    remember (map (py_str E) ps) as ts eqn:Ep. clear Ep. run.
    list_g ["str"] (fun (_ : val) p => VStr (py_str E p)) R.
    { body. }
    cbv -[vmap py_str] in R'. run.
    done_tac.
  Qed.
  (** [for _ in suffixes: result = {...}] *)
  Lemma text_data_type : cb_like E rt "data_type" Transformer.cb_data_type.
  Proof.
    cb0; args 1; [finish|]. unfold Transformer.cb_data_type.
    rewrite <- (fold_same Transformer.array_of vs qs) by (eapply reps_length; eassumption).
    remember (fold_left _ vs p) as res eqn:Er. run.
    match goal with |- context [for_loop ?f ?xs ?st] =>
      destruct (fun K => for_fold f Transformer.array_of
        (fun a st' => exists w F', assoc "result" (fst st') = Some w /\ rep (snd st') w a F' /\ ext h (snd st') /\ fits h (snd st') G F') K xs p st) as ([env' h'] & -> & w & F' & A & Rw & X & Fi) end.
    - intros a x [env h1] (w & F' & A & Rw & X & Fi). cbn [fst snd] in *. pose proof A as A'. cbv beta iota zeta delta [assoc String.eqb Ascii.eqb Bool.eqb] in A'. eexists. split; [run; reflexivity|].
      cbn [fst snd]. assert (O1 : own h1 F') by (eapply fits_own; [|exact X|exact Fi]; own_tac).
      exists (VRef (next h1)), (next h1 :: [] ++ F' ++ [])%list. rewrite app_nil_r. repeat split.
      + unfold Transformer.array_of. rewrite <- (app_nil_r F'). rep_tac. 
      + destruct X. rewrite next_push. lia.
      + intros j Hj. rewrite get_push_old by (destruct X; lia). now apply X.
      + destruct X as [X _]. intros j. specialize (Fi j). rewrite next_push. cbn [cnt app].
        repeat match goal with |- context [Nat.eqb ?a ?b] => destruct (Nat.eqb_spec a b) | |- context [Nat.ltb ?a ?b] => destruct (Nat.ltb_spec a b)
               | H : context [Nat.ltb ?a ?b] |- _ => destruct (Nat.ltb_spec a b) end; lia.
    - exists v, G. cbn [fst snd]. repeat split.
      + rep_tac.
      + rewrite next_push. lia.
      + intros j Hj. now rewrite get_push_old.
      + cnt_tac.
    - cbn [fst snd] in *. cbv beta iota zeta delta [assoc String.eqb Ascii.eqb Bool.eqb] in A. rewrite <- Er in Rw. run.
      exists w, h', F'. repeat split; try assumption; try apply X. intros j. specialize (Fi j). cbn [cnt]. rewrite cnt_app.
        repeat match goal with |- context [Nat.ltb ?a ?b] => destruct (Nat.ltb_spec a b) end; lia.
  Qed.
  Lemma text_object n h ls l vs ps F qs : get h l = Some (OList vs) -> reps h vs ps F -> own h (l :: F) -> Transformer.tuple_pairs ps = Ok qs ->
    gives h (l :: F) (Transformer.cb_object ps) (pcall E rt (S (S (S (S n)))) "BicepToJson.object" [VRef ls; VRef l] [] h).
  Proof.
    intros Hl R O T. assert (Ll := own_head _ _ _ O). enter. unfold Transformer.cb_object. rewrite T.
    assert (P : exists d G, pairs vs = Some d /\ repd h d qs G /\ forall l, cnt G l <= cnt F l).
    { clear - R T. revert vs F R qs T. induction ps as [|p ps IH]; intros vs F R qs T; inversion R as [|v ? F0 vs' ? G0 Hv Hs]; subst; cbn in T; [injection T as <-; exists [], []; repeat split; constructor|].
      destruct p as [| | | | | | |[|k [|x [|]]]|]; try discriminate. destruct (str_text k) as [k'|] eqn:Ek; [|discriminate].
      destruct (Transformer.tuple_pairs ps) as [qs'|] eqn:Eq; [|discriminate]. injection T as <-.
      destruct (IH _ _ Hs _ eq_refl) as (d & G & A & B & C). inversion Hv as [| | | | | |ws ? ? Hw| |]; subst.
      inversion Hw as [|w1 ? F1 ? ? G1 W1 Wt]; subst. inversion Wt as [|w2 ? F2 ? ? G2 W2 Wn]; subst. inversion Wn; subst.
      exists ((k', w2) :: d), (F2 ++ G)%list. repeat split.
      - unfold pairs in *. cbn [map all]. rewrite A. assert (Et : text_of w1 = Some k') by (inversion W1; subst; cbn in *; congruence). now rewrite Et.
      - now constructor.
      - intros j. rewrite !cnt_app. specialize (C j). cbn. lia. }
    destruct P as (d & G & Ep & Rd & B).
    destruct (repd_merge h _ _ _ _ _ _ Rd (rd_nil h)) as (G' & M & B'). run. cbv in Ep. run. change (dict_of qs) with (merge [] qs).
    match goal with |- context [dict_of d] => change (dict_of d) with (merge [] d) end. done_tac.
  Qed.
End C.
