(** Completeness of the parser, part 3: a text that spells the tokens of a
    derivation is parsed, and the derivation is the result. *)
From Coq Require Import List Arith NArith PArith Bool String Lia.
From Verif Require Import Py.Str Py.Val Lark.Regex Lark.Terminals Lark.Lexer Lark.Ebnf
     Lark.Lalr Lark.BicepGrammar Lark.BicepTables Lark.Driver Spec.Lexemes Spec.Sentences Spec.Spelling
     Proofs.Base Proofs.LR Proofs.Refine Proofs.Complete Proofs.Regex Proofs.Lexer Proofs.TokenForms Proofs.Match
     Proofs.Patterns Proofs.Quotes Proofs.Lexable Proofs.Scan Proofs.Parse.
Import ListNotations.
Local Open Scope string_scope.

(** ** Facts about the tables *)
#[local] Transparent bicep_tables.
Lemma final_idle : match PM.find final (tb_action bicep_tables) with Some row => forallb (fun e => match snd e with Shift _ => true | Reduce _ => false end) (PM.elements row) | None => true end = true.
Proof. vm_compute. reflexivity. Qed.
Lemma goto_start : goto init_state start_sym = Some final.
Proof. vm_compute. reflexivity. Qed.
#[local] Opaque bicep_tables.
Lemma final_no_reduce t p : action final t = Some (Reduce p) -> False.
Proof.
  unfold action. pose proof final_idle as H. destruct (PM.find final (tb_action bicep_tables)) as [row|]; [|discriminate].
  intros Ha. apply In_elements_find in Ha. rewrite forallb_forall in H. specialize (H _ Ha). discriminate.
Qed.
Definition class_terminal (t : tokn) : bool := Pos.eqb (terminal_of (class_of t)) (term_id (tname t)).
Lemma class_terminals : forallb class_terminal kinds = true.
Proof. vm_compute. reflexivity. Qed.
Lemma class_term t : legal t -> terminal_of (class_of t) = term_id (tname t).
Proof.
  intros H. destruct (rep_class t H) as [Hr _]. pose proof class_terminals as Hc. rewrite forallb_forall in Hc.
  specialize (Hc _ (rep_in _ _ Hr)). unfold class_terminal in Hc. apply Pos.eqb_eq in Hc. rewrite class_erase in Hc.
  rewrite Hc. destruct t; reflexivity.
Qed.
Lemma end_class : terminal_of 1 = 1%positive. Proof. vm_compute. reflexivity. Qed.
Lemma tname_id t : legal t -> term_id (tname t) <> 1%positive.
Proof.
  intros H. assert (Hc : forallb (fun k => negb (Pos.eqb (term_id (tname k)) 1)) kinds = true) by (vm_compute; reflexivity).
  destruct (rep_class t H) as [Hr _]. rewrite forallb_forall in Hc. specialize (Hc _ (rep_in _ _ Hr)).
  replace (tname (erase t)) with (tname t) in Hc by (destruct t; reflexivity). apply negb_true_iff, Pos.eqb_neq in Hc. exact Hc.
Qed.

(** ** Reductions in front of a token *)
Inductive rds (t : positive) : stack -> stack -> Prop :=
| rds_refl st : rds t st st
| rds_step st p st1 st2 : action (top_state st) t = Some (Reduce p) -> reduce p st = Some st1 -> rds t st1 st2 -> rds t st st2.
Lemma rds_snoc t st st1 p st2 : rds t st st1 -> action (top_state st1) t = Some (Reduce p) -> reduce p st1 = Some st2 -> rds t st st2.
Proof. intros H. induction H; intros Ha Hr; econstructor; eauto. constructor. Qed.
Lemma feed_rds t st st1 s' l : rds t st st1 -> action (top_state st1) t = Some (Shift s') ->
  forall f, feed f st t (Some l) = FFuel \/ feed f st t (Some l) = FShift ((s', l) :: st1).
Proof.
  intros H Hs. induction H as [st|st p st1 st2 Ha Hr H IH]; intros f; destruct f as [|f]; [left; reflexivity| |left; reflexivity|]; cbn [feed].
  - rewrite Hs. right. reflexivity.
  - rewrite Ha, Hr. destruct st1 as [|e st1]; apply IH; exact Hs.
Qed.
Lemma feed_end_rds st st1 p v st2 : rds 1 st st1 -> action (top_state st1) 1 = Some (Reduce p) -> reduce p st1 = Some ((final, v) :: st2) ->
  forall f, feed f st 1 None = FFuel \/ feed f st 1 None = FDone v.
Proof.
  intros H Ha Hr. induction H as [st|st q st1 st3 Hq Hrq H IH]; intros f; destruct f as [|f]; [left; reflexivity| |left; reflexivity|]; cbn [feed].
  - rewrite Ha, Hr. fold final. rewrite Pos.eqb_refl. right. reflexivity.
  - rewrite Hq, Hrq. destruct st1 as [|[s' w] st1]; [apply IH; assumption|]. fold final. destruct (Pos.eqb_spec s' final) as [->|_]; [|apply IH; assumption].
    exfalso. inversion H; subst.
    + exact (final_no_reduce _ _ Ha).
    + cbn [top_state] in *. eapply final_no_reduce. eassumption.
Qed.

Section Accept.
  Variable E : pyenv.

  (** A spelling with the tokens it gives. *)
  Inductive placed : option tokn -> list tokn -> str -> N -> list yl -> Prop :=
  | pl_end prev b line : skipped b [] -> placed prev [] b line []
  | pl_tok prev b t ts rest line w a e : skipped b (text t ++ rest)%list -> fits E prev t rest ->
      a = (line + count_nl b)%N -> e = (a + count_nl (text t))%N -> placed (Some t) ts rest e w ->
      placed prev (t :: ts) (b ++ text t ++ rest)%list line
        ((class_of t, Leaf (tname t) {| ttype := u (tname t); tval := text t; tline := a; tend := e |}) :: w).
  Lemma placed_exists prev ts s : spells E prev ts s -> forall line, exists w, placed prev ts s line w.
  Proof.
    induction 1 as [prev b Hb|prev b t ts rest Hb Hf Hs IH]; intros line.
    - exists []. constructor. exact Hb.
    - destruct (IH (line + count_nl b + count_nl (text t))%N) as [w Hw]. eexists. econstructor; eauto.
  Qed.
  Lemma fits_legal prev t rest : fits E prev t rest -> legal t.
  Proof. destruct t; cbn [fits legal]; try tauto. Qed.

  Definition expected (prev : option tokn) (lx : lexer) (w : list yl) : Prop :=
    match w with
    | [] => True
    | (c, _) :: _ => forall t, legal t -> class_of t = c -> lexable (option_map erase prev) lx (erase t) = true
    end.
  Lemma after_expected c s w prev : Forall (fun e : yl => In (fst e) classes) w -> class_of prev = c -> legal prev -> after c s (next_class w 1) -> expected (Some prev) (lexer_of s) w.
  Proof.
    intros Hw Hc Hl Ha. destruct w as [|[a l] w]; [exact I|]. cbn [expected next_class] in *. intros t Ht Hta.
    inversion Hw as [|? ? Hin _]; subst. cbn [fst] in Hin.
    destruct (rep_class t Ht) as [Hrt _]. destruct (rep_class prev Hl) as [Hrp _]. cbn [option_map].
    exact (after_lexable _ _ _ _ _ Ha Hin Hrp Hrt).
  Qed.
  Lemma steps_run st w a st2 : steps st w a st2 -> a = 1%positive -> Forall (fun e : yl => In (fst e) classes) w ->
    forall st0 xs0 prev ts s line fuel, rds (terminal_of (next_class w 1)) st0 st -> stk st0 xs0 -> top_state st0 <> final ->
    placed prev ts s line w -> expected prev (lexer_of (top_state st0)) w -> List.length s < fuel ->
    exists st1 xs1 s1 line1 fuel1, run E fuel st0 s line = run E fuel1 st1 s1 line1 /\ rds 1 st1 st2 /\ stk st1 xs1 /\
      top_state st1 <> final /\ skipped s1 [] /\ List.length s1 < fuel1.
  Proof.
    intros H. induction H as [st a|st p st1 w a st2 Hin Ha Hr H IH|st c l s' w a st2 Ha Haf H IH]; intros -> Hcl st0 xs0 prev ts s line fuel Hrd Hst Hfin Hpl Hex Hlen.
    - inversion Hpl; subst. cbn [next_class] in Hrd. rewrite end_class in Hrd. exists st0, xs0, s, line, fuel. repeat split; auto.
    - apply (IH eq_refl Hcl st0 xs0 prev ts s line fuel); auto. eapply rds_snoc; eassumption.
    - inversion Hpl as [|prev' b t ts' rest line' w' a e Hsk Hfit He1 He2 Hrest]; subst.
      set (tk := {| ttype := u (tname t); tval := text t; tline := (line + count_nl b)%N; tend := (line + count_nl b + count_nl (text t))%N |}) in *.
      pose proof (fits_legal _ _ _ Hfit) as Hleg. cbn [next_class expected] in *. inversion Hcl as [|? ? Hc Hcl']; subst.
      rewrite (class_term t Hleg) in *.
      destruct fuel as [|fuel]; [lia|]. cbn [run]. unfold lex_next.
      destruct (lexer_of_form (top_state st0)) as [acc Hacc].
      rewrite (next_tok E _ acc Hacc (lexer_skips _) prev t b rest line _ (Hex t Hleg eq_refl) Hfit Hsk (Nat.lt_succ_diag_r _)). cbv zeta.
      pose proof (feed_rds _ _ _ _ (Leaf (tname t) tk) Hrd Ha (feed_fuel st0)) as Hfeed.
      destruct (feed_shift_sound (feed_fuel st0) st0 xs0 _ (tname t) tk Hst eq_refl (tname_id t Hleg) Hfin (measure_feed_fuel _ _ Hst)) as [(st' & xs' & Hfd & Hst' & Hfin')|Hfd];
        [|rewrite Hfd in Hfeed; destruct Hfeed; discriminate].
      rewrite Hfd in Hfeed. destruct Hfeed as [Hfeed|Hfeed]; [discriminate|]. inversion Hfeed; subst st'.
      fold tk. rewrite Hfd. apply (IH eq_refl Hcl' _ xs' (Some t) ts' rest); auto.
      + constructor.
      + eapply after_expected; eauto.
      + destruct (text_head E _ acc Hacc (lexer_skips _) _ _ _ Hfit) as [Hne _]. rewrite !app_length in Hlen. destruct (text t); [contradiction|]. cbn [List.length] in Hlen. lia.
  Qed.
  Theorem accept ts s w c : placed None ts s 1 w -> rderiv (RN start_sym 255) c w -> parse_cst E s = Ok c.
  Proof.
    intros Hpl Hd. destruct (complete_start _ _ Hd) as (p & cs & st' & -> & Hst & Hpu & Ha & Hmay & Hinfo).
    pose proof (proj1 classes_yield _ _ _ Hd) as Hcl.
    assert (Hf : top_state [] <> final) by (apply Pos.eqb_neq; exact init_not_final).
    unfold parse_cst.
    destruct (steps_run _ _ _ _ Hst eq_refl Hcl [] [] None ts s 1%N (Datatypes.S (List.length s))) as (st1 & xs1 & s1 & line1 & fuel1 & -> & Hrd & Hst1 & Hfin1 & Hsk & Hlen); auto.
    - constructor.
    - constructor.
    - destruct w as [|[a l] w]; [exact I|]. cbn [expected next_class] in *. intros t Ht Hta.
      inversion Hcl as [|? ? Hin _]; subst. cbn [fst] in Hin. destruct (rep_class t Ht) as [Hrt _]. cbn [option_map].
      exact (init_lexable _ _ Hmay Hin Hrt).
    - destruct fuel1 as [|fuel1]; [lia|]. cbn [run]. unfold lex_next.
      destruct (lexer_of_form (top_state st1)) as [acc Hacc].
      rewrite (next_end E _ acc Hacc (lexer_skips _) s1 line1 _ Hsk (Nat.lt_succ_diag_r _)), g_end_1.
      assert (Hred : reduce p st' = Some [(final, Br p cs)]).
      { destruct Hinfo as (rhs & k & Hp & Hl). unfold reduce. rewrite Hp, Hl, (pop_pushed _ _ _ Hpu), app_nil_r. cbn [top_state].
        fold init_state. rewrite goto_start. reflexivity. }
      pose proof (feed_end_rds _ _ _ _ _ Hrd Ha Hred (feed_fuel st1)) as Hfeed.
      destruct (feed_end_sound (feed_fuel st1) st1 xs1 Hst1 Hfin1 (measure_feed_fuel _ _ Hst1)) as [(v & Hv & _)|Hv];
        rewrite Hv in Hfeed |- *; destruct Hfeed as [Hx|Hx]; try discriminate. inversion Hx. reflexivity.
  Qed.
End Accept.
