(** C17, C36: marks and layout leave no trace. *)
From Coq Require Import List Arith NArith ZArith Bool String Lia.
From Verif Require Import Py.Str Py.Val Lark.Tree Lark.Shape Lark.Terminals
  Pycep.Utils Pycep.Transformer Pycep.Main Pycep.Bicep
  Spec.Json Spec.Schema Spec.Outcomes Spec.Calls Spec.Text Spec.Trees Spec.Lexemes Spec.Program Spec.Reports Spec.Numbering Spec.Declarations Spec.Types Spec.Sentences Spec.Spelling Spec.Syntax Spec.Plain
  Proofs.Base Proofs.TokenForms Proofs.TreeGrammar Proofs.Transform Proofs.State Proofs.EndToEnd Proofs.Documents
  Proofs.EraseDocuments Proofs.Generate Proofs.SyntaxInd Proofs.Derive Proofs.DerivePrograms Proofs.Write Proofs.Plain Proofs.SpellCheck Props.Calls Props.Documents Props.Numbering.
Import ListNotations.
Local Open Scope string_scope.

Lemma same_sym : forall a b, same_tree a b -> same_tree b a.
Proof.
  apply (ptree_all (fun a => forall b, same_tree a b -> same_tree b a)).
  - intros t b H. inversion H; subst. constructor; auto.
  - intros b H. inversion H. constructor.
  - intros l m cs IH b H. inversion H as [| |? ? ? ? cs' HF]; subst. constructor. clear H.
    induction HF as [|x y cs cs' Hx HF IHF]; [constructor|]. inversion IH; subst. constructor; auto.
Qed.
Lemma same_trans : forall b a c, same_tree a b -> same_tree b c -> same_tree a c.
Proof.
  apply (ptree_all (fun b => forall a c, same_tree a b -> same_tree b c -> same_tree a c)).
  - intros t a c H1 H2. inversion H1; subst. inversion H2; subst. constructor; congruence.
  - intros a c H1 H2. inversion H1; subst. exact H2.
  - intros l m cs IH a c H1 H2. inversion H1 as [| |? ? ? as_ ? H1']; subst. inversion H2 as [| |? ? ? ? cs' H2']; subst. constructor. clear H1 H2.
    revert cs' H2'. induction H1' as [|x y xs ys Hx HF IHF]; intros zs H2'; inversion H2'; subst; [constructor|]. inversion IH; subst. constructor; eauto.
Qed.
Lemma same_pretty : forall a b, same_tree a b -> forall n, pretty_at n a = pretty_at n b.
Proof.
  apply (ptree_all (fun a => forall b, same_tree a b -> forall n, pretty_at n a = pretty_at n b)).
  - intros t b H n. inversion H; subst. cbn. congruence.
  - intros b H n. inversion H. reflexivity.
  - intros l m cs IH b H n. inversion H as [| |? ? ? ? cs' HF]; subst. clear H.
    assert (Hm : map (pretty_at (Datatypes.S n)) cs = map (pretty_at (Datatypes.S n)) cs').
    { clear -IH HF. induction HF as [|x y xs ys Hx HF IHF]; [reflexivity|]. inversion IH; subst. cbn [map]. f_equal; auto. }
    cbn [pretty_at]. destruct HF as [|x y xs ys Hx HF]; [reflexivity|]. destruct HF as [|x' y' xs ys Hx' HF].
    + inversion Hx; subst; cbn [leaf_text]; congruence.
    + rewrite Hm. destruct x, y; reflexivity.
Qed.
Lemma same_child : forall a b, same_tree a b -> has_child a = has_child b /\ child_as_text a = child_as_text b.
Proof.
  apply (ptree_all (fun a => forall b, same_tree a b -> has_child a = has_child b /\ child_as_text a = child_as_text b)).
  - intros t b H. inversion H; subst. split; reflexivity.
  - intros b H. inversion H. split; reflexivity.
  - intros l m cs IH b H. inversion H as [| |? ? ? ? cs' HF]; subst. clear H. cbn [has_child child_as_text].
    assert (H1 : existsb has_child cs = existsb has_child cs' /\ existsb child_as_text cs = existsb child_as_text cs' /\ existsb has_child (removelast cs) = existsb has_child (removelast cs')).
    { induction HF as [|x y xs ys Hx HF IHF]; [repeat split; reflexivity|]. inversion IH as [|? ? H1 H2]; subst. destruct (H1 _ Hx) as [E1 E2]. destruct (IHF H2) as (E3 & E4 & E5).
      cbn [existsb removelast]. rewrite E1, E2, E3, E4. repeat split; auto. destruct HF; [reflexivity|]. cbn [existsb] in *. rewrite E1. cbn [removelast existsb] in E5 |- *. rewrite E5. reflexivity. }
    destruct H1 as (E1 & E2 & E3). rewrite E1, E2. split; [reflexivity|]. destruct l; rewrite ?E3; reflexivity.
Qed.

(** The identifier pycep reserves for child resources is not used. *)
Definition unreserved (p : list line) : Prop := ~ In Schema.reserved_key (map text (program_tokens p)).

Lemma both_written E p q t1 t2 : program_wf false p = true -> program_wf false q = true -> plain_program p = plain_program q -> writes E p t1 -> writes E q t2 ->
  exists m1 m2 cs1 cs2, lark_parse E t1 = Ok (TNode L_start m1 cs1) /\ lark_parse E t2 = Ok (TNode L_start m2 cs2) /\ Forall2 same_tree cs1 cs2 /\
    (unreserved p -> forallb clean cs1 = true) /\ (unreserved q -> forallb clean cs2 = true).
Proof.
  intros W1 W2 Hpl S1 S2. destruct (written E p t1 W1 S1) as (x & P1 & T1 & C1). destruct (written E q t2 W2 S2) as (y & P2 & T2 & C2).
  rewrite program_plain in T1, T2. rewrite <- Hpl in T2. apply same_sym in T2. pose proof (same_trans _ _ _ T1 T2) as T.
  destruct (lark_start E t1 x P1) as (m1 & cs1 & ->). destruct (lark_start E t2 y P2) as (m2 & cs2 & ->). inversion T; subst.
  exists m1, m2, cs1, cs2. split; [exact P1|]. split; [exact P2|]. split; [assumption|]. split; [exact C1|exact C2].
Qed.

(** ** C17 *)
(** Programs that differ in marks and layout only are reported alike. *)
Theorem C17_no_trace : forall E fs p q text1 fp1 t1 text2 fp2 t2,
  program_wf false p = true -> program_wf false q = true -> plain_program p = plain_program q -> unreserved p -> unreserved q ->
  source fs text1 fp1 t1 -> source fs text2 fp2 t2 -> writes E p t1 -> writes E q t2 -> balanced t1 -> balanced t2 ->
  bicep_parse E fs false text1 fp1 = bicep_parse E fs false text2 fp2.
Proof.
  intros E fs p q text1 fp1 t1 text2 fp2 t2 W1 W2 Hpl U1 U2 S1 S2 Wr1 Wr2 (n1 & B1 & B1') (n2 & B2 & B2').
  destruct (both_written E p q t1 t2 W1 W2 Hpl Wr1 Wr2) as (m1 & m2 & cs1 & cs2 & P1 & P2 & HF & C1 & C2).
  assert (Q1 : program E t1 cs1) by (exists m1; exact P1). assert (Q2 : program E t2 cs2) by (exists m2; exact P2).
  destruct (parse_program E fs false text1 fp1 t1 cs1 n1 S1 B1 B1' Q1) as (m1' & ->).
  destruct (parse_program E fs false text2 fp2 t2 cs2 n2 S2 B2 B2' Q2) as (m2' & ->).
  apply start_same; auto; [exact (program_ok E t1 cs1 Q1)|exact (program_ok E t2 cs2 Q2)].
Qed.
(** So are the trees, whatever identifiers are used. *)
Theorem C17_same_tree : forall E fs p q text1 fp1 t1 text2 fp2 t2,
  program_wf false p = true -> program_wf false q = true -> plain_program p = plain_program q ->
  source fs text1 fp1 t1 -> source fs text2 fp2 t2 -> writes E p t1 -> writes E q t2 -> balanced t1 -> balanced t2 ->
  exists s, bicep_create_tree E fs text1 fp1 = Ok s /\ bicep_create_tree E fs text2 fp2 = Ok s.
Proof.
  intros E fs p q text1 fp1 t1 text2 fp2 t2 W1 W2 Hpl S1 S2 Wr1 Wr2 (n1 & B1 & B1') (n2 & B2 & B2').
  destruct (both_written E p q t1 t2 W1 W2 Hpl Wr1 Wr2) as (m1 & m2 & cs1 & cs2 & P1 & P2 & HF & _ & _).
  rewrite (tree_source E fs _ _ _ S1), (tree_source E fs _ _ _ S2), (is_valid_occurs _ _ B1), (is_valid_occurs _ _ B2).
  apply Nat.even_spec in B1', B2'. rewrite B1', B2', P1, P2. cbn [bind]. eexists. split; [reflexivity|]. f_equal. symmetry. apply same_pretty. constructor. exact HF.
Qed.

(** ** C36 *)
(** Two ways to write a program are reported alike ... *)
Theorem C36_layout : forall E fs p text1 fp1 t1 text2 fp2 t2, program_wf false p = true -> unreserved p ->
  source fs text1 fp1 t1 -> source fs text2 fp2 t2 -> writes E p t1 -> writes E p t2 -> balanced t1 -> balanced t2 ->
  bicep_parse E fs false text1 fp1 = bicep_parse E fs false text2 fp2.
Proof. intros. eapply (C17_no_trace E fs p p); eauto. Qed.
(** ... with line numbers too, up to the line numbers themselves. *)
Theorem C36_numbered : forall E fs p text1 fp1 t1 text2 fp2 t2 v1, program_wf false p = true ->
  source fs text1 fp1 t1 -> source fs text2 fp2 t2 -> writes E p t1 -> writes E p t2 -> balanced t1 -> balanced t2 ->
  ~ contains Schema.reserved_key t1 -> ~ contains Schema.reserved_key t2 -> (forall cs, program E t1 cs -> existsb child_as_text cs = false) ->
  bicep_parse E fs true text1 fp1 = Ok v1 ->
  exists v2, bicep_parse E fs true text2 fp2 = Ok v2 /\ document_unnumbered v1 = document_unnumbered v2.
Proof.
  intros E fs p text1 fp1 t1 text2 fp2 t2 v1 W S1 S2 Wr1 Wr2 B1 B2 N1 N2 Hc Hv.
  destruct (both_written E p p t1 t2 W W eq_refl Wr1 Wr2) as (m1 & m2 & cs1 & cs2 & P1 & P2 & HF & _ & _).
  assert (Q1 : program E t1 cs1) by (exists m1; exact P1). assert (Q2 : program E t2 cs2) by (exists m2; exact P2).
  assert (He : bicep_parse E fs false text1 fp1 = bicep_parse E fs false text2 fp2).
  { destruct B1 as (n1 & B1 & B1'), B2 as (n2 & B2 & B2').
    destruct (parse_program E fs false text1 fp1 t1 cs1 n1 S1 B1 B1' Q1) as (m1' & ->).
    destruct (parse_program E fs false text2 fp2 t2 cs2 n2 S2 B2 B2' Q2) as (m2' & ->).
    apply start_same; auto; [exact (program_ok E t1 cs1 Q1)|exact (program_ok E t2 cs2 Q2)|exact (program_clean E t1 cs1 Q1 N1)|exact (program_clean E t2 cs2 Q2 N2)]. }
  assert (Hc2 : forall cs, program E t2 cs -> existsb child_as_text cs = false).
  { intros cs Hp. rewrite (program_unique _ _ _ _ Hp Q2), <- (Hc _ Q1).
    clear -HF. induction HF as [|x y xs ys Hx HF IH]; [reflexivity|]. cbn [existsb]. rewrite IH, (proj2 (same_child _ _ Hx)). reflexivity. }
  pose proof (C14_line_numbers_additive E fs text1 fp1 t1 S1 N1 Hc) as H1. rewrite Hv in H1.
  pose proof (C14_line_numbers_additive E fs text2 fp2 t2 S2 N2 Hc2) as H2.
  destruct (bicep_parse E fs true text2 fp2) as [v2|e]; [|congruence]. exists v2. split; [reflexivity|]. congruence.
Qed.

(** A program with marks, and one without; the first in two layouts. *)
Definition nlt : str := [10%N].
Definition marked_program : list line :=
  [Declared (DParam [{| d_name := u "secure"; d_lead := None; d_arg := None; d_trail := None; d_after := [nlt] |}] (u "p") (ArrayOf (Named (u "string"))) true None) (Some nlt);
   Declared (DVar [] (u "v") (Some (Named (u "object"), true))
     (EObject [nlt] [(Pairs (KName (u "a")) (EDot true (ERef (u "p")) (EBang (ERef (u "x")))) false [], [nlt]);
                     (Pairs (Spec.Syntax.KQuoted (u "b")) (EParen (EBin Add (EInt (u "1")) (EParen (EInt (u "2"))))) true [], [nlt])])) None].
Definition unmarked_program : list line :=
  [Declared (DParam [{| d_name := u "secure"; d_lead := None; d_arg := None; d_trail := None; d_after := [nlt] |}] (u "p") (ArrayOf (Named (u "string"))) false None) (Some nlt);
   Blank nlt;
   Declared (DVar [] (u "v") (Some (Named (u "object"), false))
     (EObject [] [(Pairs (KName (u "a")) (EDot false (ERef (u "p")) (ERef (u "x"))) false [(Spec.Syntax.KQuoted (u "b"), EBin Add (EInt (u "1")) (EInt (u "2")), false)], [])])) (Some nlt)].
Definition marked_layout : list (list filler * tokn) :=
  [([], Sym "@"); ([], Deco (u "secure")); ([], Sym "("); ([], Sym ")"); ([Hash " a comment"], Break nlt);
   ([], Kw "param"); ([Blanks 1], Name (u "p")); ([Blanks 2; Tab], Name (u "string")); ([Remark " an array "], Sym "["); ([], Sym "]"); ([], Sym "?"); ([], Break nlt);
   ([], Kw "var"); ([Blanks 1], Name (u "v")); ([Blanks 1], Name (u "object")); ([], Sym "?"); ([Blanks 1], Sym "="); ([Remark ""], Sym "{"); ([], Break nlt);
   ([Blanks 2], Key (u "a")); ([], Sym ":"); ([Blanks 1], Ref (u "p")); ([], Sym "."); ([], Sym "?"); ([], Ref (u "x")); ([], Sym "!"); ([], Break nlt);
   ([Blanks 2], Quoted (u "b")); ([], Sym ":"); ([Blanks 1], Sym "("); ([], Num (u "1")); ([Blanks 1], Sym "+"); ([Blanks 1], Sym "("); ([], Num (u "2")); ([], Sym ")"); ([], Sym ")"); ([Blanks 1], Sym "?"); ([], Break nlt);
   ([Blanks 1], Sym "}")].
Definition marked_text1 : str := spaced marked_layout [Remark "the end"; Blanks 3].
Definition marked_text2 : str := canonical (program_tokens marked_program).
Definition unmarked_text : str := u ("@secure()" ++ nl ++ "param p string[]" ++ nl ++ "  " ++ nl ++ "var v object = {a: p.x, 'b': 1 + 2}" ++ nl).

Lemma marked_wf : program_wf false marked_program = true /\ unreserved marked_program.
Proof. split; [reflexivity|]. intros H. vm_compute in H. repeat destruct H as [H|H]; try discriminate; exact H. Qed.
Lemma unmarked_wf : program_wf false unmarked_program = true /\ unreserved unmarked_program.
Proof. split; [reflexivity|]. intros H. vm_compute in H. repeat destruct H as [H|H]; try discriminate; exact H. Qed.
Lemma marked_writes1 : writes env0 marked_program marked_text1.
Proof. exact (spaced_spells env0 marked_layout [Remark "the end"; Blanks 3] None eq_refl). Qed.
Lemma marked_writes2 : writes env0 marked_program marked_text2.
Proof. apply spell_check_sound. vm_compute. reflexivity. Qed.
Lemma unmarked_writes : writes env0 unmarked_program unmarked_text.
Proof. apply spell_check_sound. vm_compute. reflexivity. Qed.
Lemma balanced_valid t : is_valid t = true -> balanced t.
Proof. intros H. destruct (occurs_total triple t ltac:(discriminate)) as [n Hn]. exists n. split; [exact Hn|]. rewrite (is_valid_occurs _ _ Hn) in H. apply Nat.even_spec. exact H. Qed.
Example C17_ex : bicep_parse env0 ex_fs false (Some marked_text1) None = bicep_parse env0 ex_fs false (Some unmarked_text) None /\
  exists d, bicep_parse env0 ex_fs false (Some unmarked_text) None = Ok (PDict d).
Proof.
  split.
  - apply (C17_no_trace env0 ex_fs marked_program unmarked_program _ _ marked_text1 _ _ unmarked_text).
    + exact (proj1 marked_wf).
    + exact (proj1 unmarked_wf).
    + reflexivity.
    + exact (proj2 marked_wf).
    + exact (proj2 unmarked_wf).
    + apply ex_source. do 2 eexists. reflexivity.
    + apply ex_source. do 2 eexists. reflexivity.
    + exact marked_writes1.
    + exact unmarked_writes.
    + apply balanced_valid. reflexivity.
    + apply balanced_valid. reflexivity.
  - eexists. vm_compute. reflexivity.
Qed.
Example C36_ex : marked_text1 <> marked_text2 /\ bicep_parse env0 ex_fs false (Some marked_text1) None = bicep_parse env0 ex_fs false (Some marked_text2) None.
Proof.
  split; [intros H; apply (f_equal (@List.length N)) in H; vm_compute in H; discriminate|].
  apply (C36_layout env0 ex_fs marked_program _ _ marked_text1 _ _ marked_text2);
    [exact (proj1 marked_wf)|exact (proj2 marked_wf)|apply ex_source; do 2 eexists; reflexivity|apply ex_source; do 2 eexists; reflexivity
    |exact marked_writes1|exact marked_writes2|apply balanced_valid; reflexivity|apply balanced_valid; reflexivity].
Qed.

(** What does not hold: two pairs of parentheses are not one ... *)
Theorem C17_two_pairs_refuted : exists a b v e, a = u "var v = (1 + x)" /\ b = u "var v = ((1 + x))" /\
  bicep_parse env0 ex_fs false (Some a) None = Ok v /\ bicep_parse env0 ex_fs false (Some b) None = Err e.
Proof. do 4 eexists. split; [reflexivity|]. split; [reflexivity|]. split; vm_compute; reflexivity. Qed.
(** ... a blank between two tokens may change what they are ... *)
Theorem C36_blank_refuted : exists a b v e, a = u "var v = r.listKeys('x')" /\ b = u "var v = r.listKeys ('x')" /\
  bicep_parse env0 ex_fs false (Some a) None = Ok v /\ bicep_parse env0 ex_fs false (Some b) None = Err e.
Proof. do 4 eexists. split; [reflexivity|]. split; [reflexivity|]. split; vm_compute; reflexivity. Qed.
(** ... and so may a comment. *)
Theorem C36_comment_refuted : exists a b v w, a = u ("var v = 4 /" ++ " 2" ++ nl) /\ b = u ("var v = 4 /" ++ "/* */ 2" ++ nl) /\
  bicep_parse env0 ex_fs false (Some a) None = Ok v /\ bicep_parse env0 ex_fs false (Some b) None = Ok w /\ v <> w.
Proof. do 4 eexists. split; [reflexivity|]. split; [reflexivity|]. split; [vm_compute; reflexivity|]. split; [vm_compute; reflexivity|]. discriminate. Qed.

(** All theorems of this file at once (the walk over the proofs is slow). *)
Definition syntax_theorems := (@C17_no_trace,
  @C17_same_tree,
  @C36_layout,
  @C36_numbered,
  @C17_two_pairs_refuted,
  @C36_blank_refuted,
  @C36_comment_refuted).
Print Assumptions syntax_theorems.
