(** The parser as a whole: it returns a derivation of the start symbol whose
    tokens, with blanks in between, are exactly the source text; or it rejects.
    It never runs out of steps. *)
From Coq Require Import List Arith NArith PArith Bool String Lia.
From Verif Require Import Py.Str Py.Val Lark.Regex Lark.Terminals Lark.Lexer Lark.Ebnf
     Lark.Lalr Lark.BicepGrammar Lark.BicepTables Lark.Driver Proofs.Base Proofs.Regex Proofs.LR Proofs.Lexer Spec.Sentences.
Import ListNotations.

(** ** More validation: the initial state is entered by no transition, and the
    final one only from it. *)
#[local] Transparent bicep_tables.
Definition init_state : positive := tb_init bicep_tables.
Definition act_init_ok (s t : positive) (a : act) : bool :=
  match a with Shift s' => negb (Pos.eqb s' init_state) | Reduce _ => true end.
Definition goto_init_ok (s x s' : positive) : bool :=
  negb (Pos.eqb s' init_state) && (negb (Pos.eqb s' final) || Pos.eqb s init_state).
Lemma acts_init_ok : forallb (fun e => forallb (fun e' => act_init_ok (fst e) (fst e') (snd e')) (PM.elements (snd e)))
   (PM.elements (tb_action bicep_tables)) = true.
Proof. vm_compute. reflexivity. Qed.
Lemma gotos_init_ok : forallb (fun e => forallb (fun e' => goto_init_ok (fst e) (fst e') (snd e')) (PM.elements (snd e)))
   (PM.elements (tb_goto bicep_tables)) = true.
Proof. vm_compute. reflexivity. Qed.
Lemma init_not_final : Pos.eqb init_state final = false.
Proof. vm_compute. reflexivity. Qed.
Lemma term_ids_ok : forallb (fun t => mem_str (t_name t) ignored || negb (Pos.eqb (term_id (t_name t)) 1)) sorted_terminals = true.
Proof. vm_compute. reflexivity. Qed.
Lemma g_end_1 : g_end bicep_gram = 1%positive.
Proof. vm_compute. reflexivity. Qed.
#[local] Opaque bicep_tables.

Lemma trans_init s x s' : trans s x s' -> s' <> init_state.
Proof.
  intros [H|H] ->.
  - unfold action in H. destruct (PM.find s (tb_action bicep_tables)) as [row|] eqn:Hs; [|discriminate].
    pose proof (forallb2_lift act_init_ok _ acts_init_ok s row x _ Hs H) as Hk.
    cbn [act_init_ok] in Hk. rewrite Pos.eqb_refl in Hk. discriminate.
  - unfold goto in H. destruct (PM.find s (tb_goto bicep_tables)) as [row|] eqn:Hs; [|discriminate].
    pose proof (forallb2_lift goto_init_ok _ gotos_init_ok s row x _ Hs H) as Hk.
    unfold goto_init_ok in Hk. rewrite Pos.eqb_refl in Hk. discriminate.
Qed.
Lemma goto_final s x : goto s x = Some final -> s = init_state.
Proof.
  intros H. unfold goto in H. destruct (PM.find s (tb_goto bicep_tables)) as [row|] eqn:Hs; [|discriminate].
  pose proof (forallb2_lift goto_init_ok _ gotos_init_ok s row x _ Hs H) as Hk.
  unfold goto_init_ok in Hk. rewrite Pos.eqb_refl in Hk. cbn [negb orb] in Hk.
  apply andb_true_iff in Hk as [_ Hk]. apply Pos.eqb_eq in Hk. exact Hk.
Qed.
Lemma stk_init st xs : stk st xs -> top_state st = init_state -> st = [].
Proof.
  intros H Ht. destruct H as [|s v st x xs Hst Htr Hwf]; [reflexivity|].
  cbn [top_state] in Ht. subst. exfalso. exact (trans_init _ _ _ Htr eq_refl).
Qed.

(** ** Tokens of a derivation *)
Fixpoint leaves (c : cst) : list (string * token) :=
  match c with
  | Leaf n t => [(n, t)]
  | Br _ cs => flat_map leaves cs
  end.
Definition st_leaves (st : stack) : list (string * token) := flat_map (fun e => leaves (snd e)) (rev st).
Lemma st_leaves_cons s v st : st_leaves ((s, v) :: st) = st_leaves st ++ leaves v.
Proof. unfold st_leaves. cbn [rev]. rewrite flat_map_app. cbn [flat_map snd]. rewrite app_nil_r. reflexivity. Qed.

Lemma pop_leaves n : forall st acc cs st', pop n st acc = Some (cs, st') ->
  st_leaves st ++ flat_map leaves acc = st_leaves st' ++ flat_map leaves cs.
Proof.
  induction n as [|n IH]; intros st acc cs st' H; cbn [pop] in H.
  - inversion H; reflexivity.
  - destruct st as [|[s v] st]; [discriminate|]. rewrite <- (IH _ _ _ _ H). cbn [flat_map].
    rewrite st_leaves_cons, <- app_assoc. reflexivity.
Qed.
Lemma reduce_leaves p st st' : reduce p st = Some st' -> st_leaves st' = st_leaves st.
Proof.
  unfold reduce. destruct (PM.find p prod_info) as [[[x rhs] k]|]; [|discriminate].
  destruct (pop (List.length rhs) st []) as [[cs st0]|] eqn:Hp; [|discriminate].
  destruct (goto (top_state st0) x); [|discriminate]. intros H. inversion H; subst.
  rewrite st_leaves_cons. cbn [leaves]. rewrite <- (pop_leaves _ _ _ _ _ Hp). cbn [flat_map]. apply app_nil_r.
Qed.
Lemma feed_leaves fuel : forall st t c st', feed fuel st t (Some c) = FShift st' -> st_leaves st' = st_leaves st ++ leaves c.
Proof.
  induction fuel as [|fuel IH]; intros st t c st' H; cbn [feed] in H; [discriminate|].
  destruct (action (top_state st) t) as [[s'|p]|]; [| |discriminate].
  - inversion H; subst. apply st_leaves_cons.
  - destruct (reduce p st) as [st1|] eqn:Hr; [|discriminate].
    rewrite <- (reduce_leaves _ _ _ Hr). apply (IH _ t). destruct st1; exact H.
Qed.
Lemma feed_end_leaves fuel : forall st xs v, stk st xs -> feed fuel st 1 None = FDone v -> leaves v = st_leaves st.
Proof.
  induction fuel as [|fuel IH]; intros st xs v Hst H; cbn [feed] in H; [discriminate|].
  destruct (action (top_state st) 1) as [[s'|p]|] eqn:Ha; [discriminate| |discriminate].
  destruct (reduce_sound _ _ _ _ Hst Ha) as (x & rhs & k & s' & cs & st0 & xs0 & Hp & Hr & Hst' & Hpop & Hg & _).
  rewrite Hr in H. rewrite <- (reduce_leaves _ _ _ Hr). fold final in H.
  destruct (Pos.eqb_spec s' final) as [->|Hne].
  - inversion H; subst. apply goto_final in Hg.
    assert (Hst0 : st0 = []). { inversion Hst'; subst. eapply stk_init; eassumption. }
    subst st0. unfold st_leaves. cbn [rev app flat_map snd]. rewrite app_nil_r. reflexivity.
  - exact (IH _ _ _ Hst' H).
Qed.

(** ** Reading tokens off the source text *)
Inductive reads (E : pyenv) : list (string * token) -> str -> N -> Prop :=
| reads_end s line : blank s -> reads E [] s line
| reads_tok ig n t ts rest line :
    blank ig -> tok_ok E n (tval t) -> tval t <> [] -> ttype t = u n ->
    tline t = (line + count_nl ig)%N -> tend t = (tline t + count_nl (tval t))%N ->
    reads E ts rest (tend t) ->
    reads E ((n, t) :: ts) (ig ++ tval t ++ rest) line.

Lemma lexer_of_form s : exists acc, lexer_of s = make_lexer acc.
Proof.
  unfold lexer_of. destruct (PM.find s state_lexers) as [lx|] eqn:H; [|eauto].
  unfold state_lexers in H.
  unfold PM.map in H. rewrite PM.gmapi in H. unfold option_map in H.
  destruct (PM.find s (tb_action bicep_tables)) as [row|]; [|discriminate]. inversion H. eauto.
Qed.

Lemma tok_ok_id E n v : tok_ok E n v -> term_id n <> 1%positive.
Proof.
  intros (acc & t & Ht & Hn & Hig & _). pose proof term_ids_ok as H. rewrite forallb_forall in H.
  specialize (H t Ht). cbv beta in H. rewrite Hn, Hig in H. cbn [orb] in H.
  apply negb_true_iff, Pos.eqb_neq in H. exact H.
Qed.

Section Run.
  Variable E : pyenv.

  Lemma run_sound fuel : forall st xs s line, stk st xs -> top_state st <> final ->
    List.length s < fuel ->
    match run E fuel st s line with
    | Ok c => wfn start_sym c /\ exists ts, leaves c = st_leaves st ++ ts /\ reads E ts s line
    | Err e => e = EUnexpectedCharacters \/ e = EUnexpectedToken
    end.
  Proof.
    induction fuel as [|fuel IH]; intros st xs s line Hst Hfin Hlen; [lia|].
    cbn [run]. unfold lex_next. destruct (lexer_of_form (top_state st)) as [acc Hacc].
    rewrite Hacc. pose proof (next_token_spec E _ (make_lexer_ok acc) (Datatypes.S (List.length s)) s line (Nat.lt_succ_diag_r _)) as Hlex.
    destruct (next_token E (Datatypes.S (List.length s)) (make_lexer acc) s line) as [n t rest line'|line'|rest line'|].
    - destruct Hlex as (ig & n0 & r & Hig & Hs & Hl1 & Hl2 & Hl3 & Hne & Hty & Hin & Hni & Hn & Hla & _).
      assert (Htok : tok_ok E n (tval t)) by (rewrite Hn; eapply lexed_tok_ok; eassumption).
      pose proof (feed_shift_sound (feed_fuel st) st xs _ n t Hst eq_refl (tok_ok_id _ _ _ Htok) Hfin (measure_feed_fuel _ _ Hst)) as [(st' & xs' & Hf & Hst' & Hfin')|Hf]; rewrite Hf; [|auto].
      assert (Hlen' : List.length rest < fuel).
      { rewrite Hs in Hlen. rewrite !app_length in Hlen. destruct (tval t); [contradiction|]. cbn [List.length] in Hlen. lia. }
      specialize (IH st' xs' rest line' Hst' Hfin' Hlen').
      destruct (run E fuel st' rest line') as [c|e]; [|exact IH].
      destruct IH as (Hwf & ts & Hlv & Hr). split; [exact Hwf|].
      exists ((n, t) :: ts). rewrite Hlv, (feed_leaves _ _ _ _ _ Hf), <- app_assoc. split; [reflexivity|].
      rewrite Hs. subst line'. constructor; auto. eapply ignored_text_blank; eassumption.
    - destruct Hlex as [Hig _]. rewrite g_end_1.
      pose proof (feed_end_sound (feed_fuel st) st xs Hst Hfin (measure_feed_fuel _ _ Hst)) as [(v & Hf & Hwf)|Hf]; rewrite Hf; [|auto].
      split; [exact Hwf|]. exists []. rewrite app_nil_r. split; [exact (feed_end_leaves _ _ _ _ Hst Hf)|].
      constructor. eapply ignored_text_blank; eassumption.
    - pose proof (scan_spec E root_lexer rest (make_lexer_ok _)) as Hsc.
      destruct (scan E root_lexer rest) as [[x|]|]; [auto|auto|contradiction].
    - contradiction.
  Qed.

  Theorem parse_cst_sound text :
    match parse_cst E text with
    | Ok c => wfn start_sym c /\ reads E (leaves c) text 1
    | Err e => e = EUnexpectedCharacters \/ e = EUnexpectedToken
    end.
  Proof.
    unfold parse_cst. pose proof (run_sound (Datatypes.S (List.length text)) [] [] text 1 stk_nil) as H.
    assert (Hf : top_state [] <> final) by (apply Pos.eqb_neq; exact init_not_final).
    specialize (H Hf (Nat.lt_succ_diag_r _)).
    destruct (run E (Datatypes.S (List.length text)) [] text 1); [|exact H].
    destruct H as (Hwf & ts & Hl & Hr). split; [exact Hwf|]. rewrite Hl. exact Hr.
  Qed.
End Run.
