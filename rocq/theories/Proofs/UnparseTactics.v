(** From a derivation back to abstract syntax, part 2: tactics for the productions. *)
From Coq Require Import List Arith NArith PArith Bool String Lia.
From Verif Require Import Py.Str Py.Val Lark.Tree Lark.Shape Lark.Terminals Lark.Ebnf
     Lark.Lalr Lark.BicepGrammar Lark.BicepTables Lark.Driver
     Spec.Lexemes Proofs.Follow Proofs.Generate Proofs.Derive Proofs.DerivePrograms Proofs.TreeGrammar Proofs.Like
     Spec.Types Spec.Spelling Spec.Syntax Spec.Reading Proofs.Unparse.
Import ListNotations.
Local Open Scope string_scope.
Local Open Scope list_scope.

Lemma to_ref E w v : words E w [Name v] -> words E w [Ref v].
Proof. intros H. inversion H as [|? ? ? ? Hx Hr]; subst. inversion Hr; subst. constructor; [exact Hx|constructor]. Qed.
Lemma to_key E w v : words E w [Name v] -> words E w [Key v].
Proof. intros H. inversion H as [|? ? ? ? Hx Hr]; subst. inversion Hr; subst. constructor; [exact Hx|constructor]. Qed.
Lemma spliced_put m t : spliced_t (put m t) = spliced_t t.
Proof. destruct t; reflexivity. Qed.
Lemma child_more i bs bs' : item_row_shaped (i, bs) = true -> item_row_shaped (i, bs ++ bs') = true.
Proof. unfold item_row_shaped. cbn [fst snd]. intros H. apply andb_true_iff in H as [H1 H2]. rewrite H1. destruct bs; [|destruct (is_child i); reflexivity]. cbn [some] in H2. rewrite orb_false_r in H2. rewrite H2. reflexivity. Qed.
Lemma only_rparen t : can_reduce 342 t = true -> t = rparen.
Proof. intros H. unfold can_reduce in H. change (PM.find 342%positive reduced_before) with (Some [rparen]) in H. cbn [existsb] in H. rewrite orb_false_r in H. apply Pos.eqb_eq in H. exact H. Qed.

Lemma comma_pairs ps : flat_map comma_pair ps = flat_map (fun p => let '(k, v, q) := p in [Sym ","; key_token k; Sym ":"] ++ tokens v ++ mark q "?") ps.
Proof. induction ps as [|[[k v] q] ps IH]; [reflexivity|]. cbn [flat_map]. rewrite IH. reflexivity. Qed.
Lemma pair_trees ps : map pair_tree ps = map (fun p => let '(k, v, _) := p in N_ L_pair [key_tree k; tree v]) ps.
Proof. induction ps as [|[[k v] q] ps IH]; [reflexivity|]. cbn [map]. rewrite IH. reflexivity. Qed.

Ltac start :=
  let m := fresh "m" in intros m t Hr;
  match goal with |- all_in ?E ?ks _ (fun ts w => interp _ ?k _ _ (put _ (built ?l ?e ?a (select_t ?r _)))) =>
    let ks' := eval vm_compute in ks in let k' := eval vm_compute in k in let l' := eval vm_compute in l in
    let e' := eval vm_compute in e in let a' := eval vm_compute in a in let r' := eval vm_compute in r in
    change (all_in E ks' t (fun ts w => interp E k' t w (put m (built l' e' a' (select_t r' ts))))) end;
  cbn [all_in behind interp].
Ltac sel := cbn [select_t built]; repeat match goal with H : context [behind [] ?t] |- _ => change (behind [] t) with t in H end.
(** The first operand does not end with an operand. *)
Ltac closed e O N :=
  let X := fresh "X" in assert (X : open e = false);
  [destruct (open e); [exfalso; specialize (O eq_refl); rewrite N in O; vm_compute in O; discriminate O|reflexivity]|].
Ltac wsplit := first [ eassumption | apply Forall2_nil | eapply Forall2_app; [eassumption|wsplit] ].
Ltac syntax := cbn [tokens item_tokens tree item_trees decl_tokens decl_tree deco_tokens deco_tree d_name d_lead d_arg d_trail d_after decos_tree symbol_tokens symbol_tree alias_tokens maybe_name
  param_tokens param_trees type_tokens type_tree base_tree layers repeat key_token key_tree range_tokens range_tree row_tokens row_trees pair_tokens pair_tree line_tokens line_trees program_tree
  break opt or_none mark breaks map flat_map fst snd existing_tree op_sign op_label comma comma_pair arg_tokens bar bars_type comma_param comma_symbol func_tokens app];
  unfold program_tokens, breaks, comma, comma_pair, arg_tokens, bar, bars_type, comma_param, comma_symbol.
Ltac same_list := syntax; rewrite ?map_app, ?flat_map_app, <- ?app_assoc, ?app_nil_r; syntax; rewrite ?map_app, <- ?app_assoc, ?app_nil_r; syntax; rewrite <- ?app_assoc, ?app_nil_r; try reflexivity.
Ltac wtac := eapply words_eq; [ wsplit | same_list ].
Ltac lsplit := first [ eassumption | apply Forall2_nil | apply Forall2_cons; [first [eassumption|apply like_none]|lsplit] | eapply Forall2_app; [eassumption|lsplit] ].
Ltac lks := eapply likes_eq; [ lsplit | same_list ].
Ltac lk := apply like_put; first [ eassumption | syntax; apply like_node; lks ].
Ltac lkop := apply like_put_in; first [ eassumption | cbn [tree]; unfold operator; apply like_node; apply Forall2_cons; [apply like_node; lks|apply Forall2_nil] ].
Ltac lkr := rewrite spliced_put; cbn [spliced_t]; lks.
Ltac shapes := cbn [ordinary shaped item_shaped decl_shaped forallb fst snd is_child is_body is_loop is_paren bare lone some given negb andb orb d_lead d_arg d_trail d_after List.length Nat.leb type_wf].
Ltac shapes_in := cbn [ordinary shaped item_shaped decl_shaped forallb fst snd is_child is_body is_loop is_paren bare lone some given negb andb orb d_lead d_arg d_trail d_after List.length Nat.leb type_wf] in *.
Ltac bt :=
  unfold program_shaped, line_shaped, deco_shaped, row_shaped, pair_shaped, item_row_shaped, value_shaped in *;
  shapes; unfold deco_shaped, value_shaped; rewrite ?forallb_snoc; shapes; unfold Syntax.pair_ok in *; shapes_in;
  repeat match goal with H : _ && _ = true |- _ => apply andb_true_iff in H as [? ?] end;
  rewrite ?forallb_app;
  repeat (shapes; match goal with H : ?x = true |- context [?x] => rewrite H | H : ?x = false |- context [?x] => rewrite H end; cbn [negb andb orb]);
  shapes; rewrite ?andb_true_r, ?orb_true_r; try reflexivity.
Ltac op := cbn [open]; first [ assumption | discriminate | congruence | intros _; eapply open_after; [|eassumption]; reflexivity ].
Ltac bg := cbn [open banged]; first [ assumption | intros _; discriminate | intros _; congruence | intros; apply bang_banged; auto; fail ].
Ltac fin_KVb := split; [wtac|]; split; [lk|]; split; [bt|]; split; [op|]; first [reflexivity|intros _; reflexivity | let H := fresh in intros H; exfalso; subst; match goal with Hr : can_reduce _ _ = true |- _ => vm_compute in Hr; discriminate Hr end].
Ltac fin_KVal := split; [wtac|]; split; [lk|]; split; [bt|]; split; [bt|]; split; [op|bg].
Ltac fin_KOp := split; [wtac|]; split; [lkop|]; split; [bt|]; split; [bt|]; split; [op|bg].
Ltac fin_KCall := split; [wtac|]; split; [lk|]; split; [bt|reflexivity].
Ltac fin_KObj := fin_KCall.
Ltac fin_KLoop := fin_KCall.
Ltac fin_KBody := split; [wtac|]; split; [lk|bt].
Ltac fin_KVarVal := fin_KBody.
Ltac fin_KRange := fin_KBody.
Ltac fin_KQS := split; [wtac|lk].
Ltac fin_KKey := fin_KQS.
Ltac fin_KPair := fin_KBody.
Ltac fin_KChild := split; [wtac|]; split; [apply Forall2_cons; [lk|apply Forall2_nil]|]; split; bt.
Ltac fin_KBreaks := split; [wtac|]; split; [rewrite spliced_put; cbn [spliced_t]; assumption || reflexivity|]; first [reflexivity|apply some_snoc].
Ltac fin_KCommas := split; [wtac|]; split; [lkr|]; split; [bt|first [reflexivity|apply some_snoc]].
Ltac fin_KRows := split; [wtac|]; split; [lkr|bt].
Ltac fin_KPairs := fin_KRows.
Ltac fin_KItems := fin_KRows.
Ltac fin_KArgs := fin_KCommas.
Ltac fin_KMArgs := split; [wtac|]; split; [lkr|]; split; [bt|intros; first [assumption|discriminate]].
Ltac fin_KBars := fin_KCommas.
Ltac fin_KTypeVal := fin_KBody.
Ltac fin_KType := split; [eapply words_eq; [wsplit|rewrite arrays_tokens; unfold suffixes; same_list]|]; split; [apply like_put; rewrite arrays_tree by assumption; apply like_node; lks|rewrite arrays_wf; assumption].
Ltac fin_KBase := split; [wtac|]; split; [lk|]; split; [bt|assumption || reflexivity].
Ltac fin_KUnion := fin_KBase.
Ltac fin_KSuf := fin_KQS.
Ltac fin_KSufs := split; [eapply words_eq; [wsplit|rewrite <- ?suffixes_snoc; same_list]|rewrite spliced_put; cbn [spliced_t]; rewrite <- ?repeat_snoc; lks].
Ltac fin_KBarTypes := fin_KCommas.
Ltac fin_KTap := fin_KQS.
Ltac fin_KMp := fin_KQS.
Ltac fin_KMeta := fin_KQS.
Ltac fin_KImp := fin_KQS.
Ltac fin_KImps := split; [wtac|lkr].
Ltac fin_KImportSt := do 2 eexists; split; [wsplit|]; split; [rewrite spliced_put; cbn [spliced_t]; lsplit|]; split; [same_list|]; split; [same_list|reflexivity].
Ltac fin_KFuncSt := fin_KRows.
Ltac fin_KParams := fin_KRows.
Ltac fin_KDeco := fin_KBody.
Ltac fin_KDecoRep := fin_KCommas.
Ltac fin_KDecos := fin_KBody.
Ltac fin_KDecl := fin_KBody.
Ltac fin_KLines := fin_KRows.
Ltac fin_KStart := fin_KBody.
