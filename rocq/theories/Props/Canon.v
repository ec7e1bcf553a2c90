(** C37: plain values, written canonically, are read back as they are. *)
From Coq Require Import List Arith NArith ZArith Bool String Lia.
From Verif Require Import Py.Str Py.Val Lark.Tree Lark.Shape Lark.Terminals Lark.Driver
  Pycep.Utils Pycep.Transformer Pycep.Main Pycep.Bicep
  Spec.Json Spec.Schema Spec.Outcomes Spec.Calls Spec.Text Spec.Trees Spec.Lexemes Spec.Program Spec.Reports Spec.Parts Spec.Layout Spec.Numbering Spec.Declarations Spec.Types Spec.Sentences Spec.Spelling Spec.Syntax Spec.Meaning Spec.Canon
  Proofs.Base Proofs.Lexer Proofs.TokenForms Proofs.TreeGrammar Proofs.Transform Proofs.State Proofs.Quiet Proofs.Elements Proofs.EndToEnd Proofs.Documents Proofs.Parts
  Proofs.EraseDocuments Proofs.Generate Proofs.SyntaxInd Proofs.Derive Proofs.DerivePrograms Proofs.Write Proofs.SpellCheck Proofs.Meaning Proofs.MeaningPrograms Proofs.Canon
  Props.Calls Props.Documents Props.Values Props.Layout Props.Numbering Props.Syntax.
Import ListNotations.
Local Open Scope string_scope.

Lemma canon_child : forall v, has_child (tree (expr_of v)) = false.
Proof.
  apply value_induction; try reflexivity.
  - intros b. destruct b; reflexivity.
  - intros l H. cbn [expr_of tree]. destruct l as [|x l]; [reflexivity|]. cbn [map flat_map]. rewrite app_nil_r. cbn [has_child existsb orb]. inversion H as [|? ? Hx Hl]; subst.
    rewrite Hx. cbn [orb]. rewrite map_map. clear -Hl. induction Hl as [|y l Hy Hl IH]; [reflexivity|]. cbn [map existsb]. rewrite Hy. exact IH.
  - intros l H. cbn [expr_of tree]. destruct l as [|[k x] l]; [reflexivity|]. cbn [map flat_map fst snd]. rewrite app_nil_r. cbn [has_child existsb orb item_trees]. inversion H as [|? ? Hx Hl]; subst. cbn [snd] in *.
    rewrite Hx. cbn [orb has_child existsb key_tree leaf]. rewrite !map_map. clear -Hl. induction Hl as [|[k y] l Hy Hl IH]; [reflexivity|]. cbn [map existsb fst snd has_child key_tree leaf orb] in *. rewrite Hy. exact IH.
Qed.

Lemma laid_single E g line l mz kids t : laid_out E g line [TNode l mz kids] t -> exists a b, mz = Some (a, b) /\ (line <= a <= b)%N /\ (b <= line + count_nl t)%N.
Proof.
  intros H. inversion H as [|? b0 x0 rest0 l0 kids0 cs0 ts0 Hg Hpc Hnt Hlo]; subst. do 2 eexists. split; [reflexivity|]. rewrite !count_nl_app. lia.
Qed.
(** A variable with a value without child resources, with or without line numbers. *)
Lemma variable_numbered E fs ln n e r text fp t : value_ok e = true -> report E e = Ok r -> has_child (tree e) = false -> source fs text fp t ->
  spells E None ([Kw "var"; Name n; Sym "="] ++ tokens e) t -> balanced t ->
  exists a b, (1 <= a <= b)%N /\ (b <= 1 + count_nl t)%N /\
  bicep_parse E fs ln text fp = Ok (document [default_scope ln; ent "variables" n ([(u "decorators", PList []); (u "value", r)] ++ lines ln (Some (a, b)))%list]).
Proof.
  intros W R Hch S Wr (c & B & B'). pose (p := [Declared (DVar [] n None e) None]).
  assert (Hp : program_tokens p = ([Kw "var"; Name n; Sym "="] ++ tokens e)%list) by (cbn; rewrite !app_nil_r; reflexivity).
  assert (Hw : program_wf false p = true). { unfold value_ok in W. apply andb_true_iff in W as [W1 W2]. cbn [p program_wf decl_wf forallb andb]. rewrite W1, W2. reflexivity. }
  rewrite <- Hp in Wr. destruct (Write.written E p t Hw Wr) as (x & P & T & _). destruct (lark_start E t x P) as (m & cs & ->).
  assert (Q : program E t cs) by (exists m; exact P). pose proof (program_ok E t cs Q) as Hok.
  inversion T as [| |? ? ? ? ? HF]; subst. cbn [p flat_map line_trees app decl_tree] in HF.
  pose proof (C35_text E t cs Q) as Hl.
  inversion HF as [|z ? zs ? Hz Hzs]; subst. inversion Hzs; subst. inversion Hz as [| |l mz ? kids ? Hk]; subst.
  destruct (laid_single _ _ _ _ _ _ _ Hl) as (a & b & -> & Hab & Hb). exists a, b. split; [exact Hab|]. split; [exact Hb|].
  inversion Hk as [|k1 ? ks1 ? K1 Hk1]; subst. inversion Hk1 as [|k2 ? ks2 ? K2 Hk2]; subst. inversion Hk2 as [|k3 ? ks3 ? K3 Hk3]; subst.
  inversion Hk3 as [|k4 ? ks4 ? K4 Hk4]; subst. inversion Hk4; subst. pose proof (Like.same_like _ _ K4) as K4'. apply Like.same_like in K1, K2, K3. apply same_none_inv in K1, K3. apply same_leaf_inv in K2 as (k & -> & Htk & Hvk). subst k1 k3.
  set (mz := Some (a, b)) in *.
  assert (Hpart : part_of E t (TNode L_var mz [TNone; TTok k; TNone; k4])).
  { apply (part_child E _ L_start m [TNode L_var mz [TNone; TTok k; TNone; k4]]); [|left; reflexivity]. exists (TNode L_start m [TNode L_var mz [TNone; TTok k; TNone; k4]]). split; [exact P|constructor]. }
  assert (Hr : transform E ln k4 = Ok r).
  { rewrite <- R. apply (expr_meaning E ln t e k4); [|exact K4']. split; [apply (part_child E _ _ _ _ k4 Hpart); cbn [In]; tauto|].
    intros _. rewrite (proj1 (same_child _ _ K4)). exact Hch. }
  assert (Hv : exists v, transform E ln (TNode L_var mz [TNone; TTok k; TNone; k4]) = Ok v).
  { part Hpart. cbn [all_ok]. rewrite !transform_tok. rewrite Hr. destruct ln; eexists; reflexivity. }
  destruct Hv as (v & Hv). destruct (bicep_parse E fs ln text fp) as [d|x] eqn:Hd.
  - destruct (parse_outline E fs ln text fp t d S Hd) as (cs & own & imps & ch & Q' & Ha & ->). f_equal.
    rewrite (program_unique E t cs _ Q' Q) in Ha. inversion Ha as [|c0 cs0 o1 i1 c1 o2 i2 c2 Ho Ho']; subst. inversion Ho'; subst. rewrite !app_nil_r.
    destruct Ho as [Ho|? ? ? ? ? Hbad]; [|discriminate Hbad]. inversion Ho as [| | | | | |m0 d0 n0 t0 x0 vd vt v0 Hvd Hvt Hv0| | | | |]; subst.
    unfold decorators_of in Hvd. cbn in Hvd. subst vd. rewrite Hr in Hv0. injection Hv0 as <-. cbn in Hvk. rewrite Hvk. reflexivity.
  - exfalso. apply (C10_first_failure E fs ln text fp t _ c S B B' Q x) in Hd as (l1 & y & l2 & He & _ & Hy).
    destruct l1 as [|? [|? ?]]; try discriminate. injection He as <- _. congruence.
Qed.

(** No three quotes follow each other in what is written for a plain value. *)
Definition canonical_text (n : str) (v : value) : str := (u "var " ++ n ++ u " = " ++ print v)%list.
Lemma canon_spells E n v : ident E n -> plain E v -> spells E None ([Kw "var"; Name n; Sym "="] ++ tokens (expr_of v)) (canonical_text n v).
Proof.
  intros Hn Hv. unfold canonical_text. change (u "var ") with (u "var" ++ [32%N])%list. change (u " = ") with ([32%N] ++ u "=" ++ [32%N])%list. rewrite <- !app_assoc.
  apply (tok E None (Kw "var")); [repeat split; cbn; tauto|]. cbn [app]. apply blank. apply (tok E _ (Name n)); [split; [exact Hn|split; [reflexivity|intros _; reflexivity]]|].
  apply blank. apply sym; [cbn; tauto|reflexivity|]. cbn [app]. apply blank. rewrite <- (app_nil_r (tokens (expr_of v))), <- (app_nil_r (print v)).
  apply value_spells; [exact Hv|left; reflexivity|exact I|constructor|]. intros q. apply spells_end. constructor.
Qed.
Lemma canon_calm E n v : ident E n -> plain E v -> calm (canonical_text n v).
Proof.
  intros Hn Hv. unfold canonical_text. apply char_calm; [intros H; cbn in H; repeat destruct H as [H|H]; try discriminate; exact H|]. apply (ident_calm E); [exact Hn|].
  apply char_calm; [intros H; cbn in H; repeat destruct H as [H|H]; try discriminate; exact H|]. rewrite <- (app_nil_r (print v)). apply (value_calm E v Hv); [exact I|constructor].
Qed.
Lemma calm_balanced t : calm t -> balanced t.
Proof.
  intros H. exists 0. split; [|exists 0; reflexivity]. pose proof (calm_triple t H) as Ht. clear H. induction t as [|x t IH]; [constructor|]. constructor.
  - intros s' He. exact (Ht [] s' He).
  - apply IH. intros a b He. apply (Ht (x :: a) b). cbn [app]. f_equal. exact He.
Qed.
Lemma plain_no_lf c : plain_text c -> count_nl (quote c) = 0%N.
Proof.
  intros H. unfold quote. rewrite !count_nl_app. enough (count_nl c = 0)%N as -> by reflexivity. induction H as [|x c [_ Hx] Hc IH]; [reflexivity|].
  change (x :: c) with ([x] ++ c)%list. rewrite count_nl_app, IH. unfold count_nl. cbn. destruct (x =? 10)%N eqn:He; [apply N.eqb_eq in He; congruence|reflexivity].
Qed.
Lemma word_no_lf E v : Forall (fun x => word E x = true) v -> count_nl v = 0%N.
Proof.
  induction 1 as [|x v Hx Hv IH]; [reflexivity|]. change (x :: v) with ([x] ++ v)%list. rewrite count_nl_app, IH. unfold count_nl. cbn.
  destruct (x =? 10)%N eqn:He; [apply N.eqb_eq in He; subst; discriminate|reflexivity].
Qed.
Lemma ident_no_lf E v : ident E v -> count_nl v = 0%N.
Proof. intros (c & v' & -> & Hc & Hv). apply (word_no_lf E). constructor; [exact (letter_word E c Hc)|exact Hv]. Qed.
Lemma sep_no_lf l : Forall (fun s => count_nl s = 0%N) l -> count_nl (sep l) = 0%N.
Proof.
  intros H. destruct H as [|x l Hx Hl]; [reflexivity|]. rewrite join_cons, count_nl_app, Hx. cbn. induction Hl as [|y l Hy Hl IH]; [reflexivity|]. cbn [flat_map]. rewrite !count_nl_app, Hy, IH. reflexivity.
Qed.
Lemma digits_no_lf v : digits v -> count_nl v = 0%N.
Proof.
  intros [_ H]. induction H as [|x v Hx Hv IH]; [reflexivity|]. change (x :: v) with ([x] ++ v)%list. rewrite count_nl_app, IH. unfold count_nl. cbn.
  destruct (x =? 10)%N eqn:He; [apply N.eqb_eq in He; subst; discriminate|reflexivity].
Qed.
Lemma print_no_lf E : forall v, plain E v -> count_nl (print v) = 0%N.
Proof.
  apply (value_induction (fun v => plain E v -> count_nl (print v) = 0%N)); intros; match goal with H : plain _ _ |- _ => inversion H; subst; clear H end; try reflexivity.
  - destruct b; reflexivity.
  - apply digits_no_lf, dec_digits.
  - apply plain_no_lf. assumption.
  - apply (ident_no_lf E). assumption.
  - cbn [print]. rewrite !count_nl_app. rewrite sep_no_lf; [reflexivity|]. apply Forall_forall. intros s Hs. apply in_map_iff in Hs as (v & <- & Hv). rewrite Forall_forall in *. auto.
  - cbn [print]. rewrite !count_nl_app. rewrite sep_no_lf; [reflexivity|]. apply Forall_forall. intros s Hs. apply in_map_iff in Hs as ([k v] & <- & Hv). rewrite Forall_forall in *.
    cbn [fst snd]. rewrite !count_nl_app. match goal with H1 : forall x, _ -> plain_key E _ /\ _, H2 : forall x, In x l -> plain E _ -> _ |- _ => destruct (H1 _ Hv) as [Hk Hp]; pose proof (H2 _ Hv) as Hx end. cbn [fst snd] in *. rewrite (Hx Hp).
    destruct k; cbn [name_text plain_key] in *; [rewrite (ident_no_lf E _ Hk)|rewrite (plain_no_lf _ Hk)]; reflexivity.
Qed.

(** ** C37 *)
Theorem C37_round_trip : forall E fs ln n v text fp, ident E n -> plain E v -> source fs text fp (canonical_text n v) ->
  bicep_parse E fs ln text fp = Ok (document [default_scope ln;
    ent "variables" n ([(u "decorators", PList []); (u "value", denote v)] ++ lines ln (Some (1, 1)%N))%list]).
Proof.
  intros E fs ln n v text fp Hn Hv S.
  destruct (variable_numbered E fs ln n (expr_of v) (denote v) text fp (canonical_text n v)) as (a & b & Hab & Hb & H).
  - unfold value_ok. rewrite (proj1 (expr_simple v)), expr_wf. reflexivity.
  - apply expr_report. exact Hv.
  - apply canon_child.
  - exact S.
  - apply canon_spells; assumption.
  - apply calm_balanced. apply (canon_calm E); assumption.
  - assert (Hz : count_nl (canonical_text n v) = 0%N). { unfold canonical_text. rewrite !count_nl_app, (ident_no_lf E n Hn), (print_no_lf E v Hv). reflexivity. }
    rewrite Hz in Hb. assert (a = 1%N) by lia. assert (b = 1%N) by lia. subst. exact H.
Qed.

(** What is reported determines the value. *)
Lemma name_text_inj E k k' : plain_key E k -> plain_key E k' -> name_text k = name_text k' -> k = k'.
Proof.
  destruct k as [v|c], k' as [v'|c']; cbn [plain_key name_text]; intros H H' He; subst.
  - reflexivity.
  - destruct (ident_not_quote E c' H).
  - destruct (ident_not_quote E c H').
  - apply quote_inj in He. congruence.
Qed.
Lemma denote_inj E : forall v w, plain E v -> plain E w -> denote v = denote w -> v = w.
Proof.
  apply (value_induction (fun v => forall w, plain E v -> plain E w -> denote v = denote w -> v = w)).
  - intros w _ _ He. destruct w; try discriminate. reflexivity.
  - intros b w _ _ He. destruct w; try discriminate. cbn [denote] in He. congruence.
  - intros n w _ _ He. destruct w; try discriminate. cbn [denote] in He. injection He as He. apply N2Z.inj in He. congruence.
  - intros c w _ _ He. destruct w; try discriminate. cbn [denote] in He. congruence.
  - intros v w _ _ He. destruct w; try discriminate. cbn [denote] in He. congruence.
  - intros l IH w Pv Pw He. destruct w as [| | | | |l'|]; try discriminate. cbn [denote] in He. injection He as He. f_equal. inversion Pv as [| | | | |? Hl|]; subst. inversion Pw as [| | | | |? Hl'|]; subst. clear Pv Pw.
    revert l' He Hl'. induction IH as [|x l Hx IHl IH]; intros [|y l'] He Hl'; try discriminate; [reflexivity|]. cbn [map] in He. injection He as He1 He2.
    inversion Hl as [|? ? Px Pl]; subst. inversion Hl' as [|? ? Py Pl']; subst. f_equal; [exact (Hx y Px Py He1)|exact (IH Pl l' He2 Pl')].
  - intros l IH w Pv Pw He. destruct w as [| | | | | |l']; try discriminate. cbn [denote] in He. injection He as He. f_equal. inversion Pv as [| | | | | |? Hl _]; subst. inversion Pw as [| | | | | |? Hl' _]; subst. clear Pv Pw.
    revert l' He Hl'. induction IH as [|[k x] l Hx IHl IH]; intros [|[k' y] l'] He Hl'; try discriminate; [reflexivity|]. cbn [map fst snd] in *. injection He as He0 He1 He2.
    inversion Hl as [|? ? [Pk Px] Pl]; subst. inversion Hl' as [|? ? [Pk' Py] Pl']; subst. cbn [fst snd] in *. f_equal; [|exact (IH Pl l' He2 Pl')].
    f_equal; [exact (name_text_inj E k k' Pk Pk' He0)|exact (Hx y Px Py He1)].
Qed.
Lemma variable_lookup s n a : lookup (u "variables") n (document [s; ent "variables" n a]) = Some (PDict a).
Proof. apply C10_last_wins. exists [s], (ent "variables" n a), []. repeat split. intros e' []. Qed.
Theorem C37_injective : forall E fs ln n v w text fp text' fp', ident E n -> plain E v -> plain E w ->
  source fs text fp (canonical_text n v) -> source fs text' fp' (canonical_text n w) ->
  bicep_parse E fs ln text fp = bicep_parse E fs ln text' fp' -> v = w.
Proof.
  intros E fs ln n v w text fp text' fp' Hn Hv Hw Sv Sw H. rewrite (C37_round_trip E fs ln n v text fp Hn Hv Sv), (C37_round_trip E fs ln n w text' fp' Hn Hw Sw) in H.
  apply (denote_inj E v w Hv Hw). apply (f_equal (fun r => match r with Ok d => lookup (u "variables") n d | Err _ => None end)) in H.
  rewrite !variable_lookup in H. injection H as H. exact H.
Qed.

(** A case. *)
Definition canon0 : value := VMap [(Bare (u "resource"), VList [VNum 0; VNum 4711; VText []; VNull]); (InQuotes (u "a b"), VMap []); (Bare (u "null"), VName (u "x_1")); (Bare (u "c"), VList [VList []; VBool true])].
Example C37_ex : ident env0 (u "var") /\ plain env0 canon0 /\
  canonical_text (u "var") canon0 = u "var var = {resource: [0, 4711, '', null], 'a b': {}, null: x_1, c: [[], true]}".
Proof.
  assert (I : forall v, ident_ok env0 v = true -> ident env0 v) by (intros v; apply ident_ok_sound).
  assert (T : forall c, forallb (fun x => negb (is_char "'\$" x) && negb (x =? 10)%N) c = true -> plain_text c).
  { intros c H. apply Forall_forall. intros x Hx. rewrite forallb_forall in H. specialize (H x Hx). apply andb_true_iff in H as [H1 H2]. apply negb_true_iff in H1, H2. split; [exact H1|]. apply N.eqb_neq. exact H2. }
  assert (L : forall n, Nat.leb (List.length (dec n)) Spec.Values.digit_limit = true -> plain env0 (VNum n)) by (intros n H; constructor; apply Nat.leb_le; exact H).
  split; [apply I; reflexivity|]. split; [|reflexivity]. unfold canon0. constructor.
  - repeat (first [apply L; reflexivity | apply I; reflexivity | apply T; reflexivity | constructor]).
    intros H. cbn in H. repeat destruct H as [H|H]; try discriminate; exact H.
  - cbn [map fst name_text]. repeat constructor; intros H; cbn in H; repeat destruct H as [H|H]; try discriminate; exact H.
Qed.
(** The conditions are needed: [for] begins a loop, and a backslash takes the
    quote behind it. *)
Theorem C37_for_refuted : exists e, bicep_parse env0 ex_fs false (Some (canonical_text (u "x") (VList [VName (u "for")]))) None = Err e.
Proof. eexists. vm_compute. reflexivity. Qed.
Theorem C37_backslash_refuted : exists e, bicep_parse env0 ex_fs false (Some (canonical_text (u "x") (VList [VText [92%N]; VText (u "a")]))) None = Err e.
Proof. eexists. vm_compute. reflexivity. Qed.

(** All theorems of this file at once (the walk over the proofs is slow). *)
Definition canon_theorems := (@C37_round_trip,
  @C37_injective,
  @C37_for_refuted,
  @C37_backslash_refuted).
Print Assumptions canon_theorems.
