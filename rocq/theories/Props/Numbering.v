(** C11, C14: declarations in another order; with and without line numbers. *)
From Coq Require Import List Arith NArith ZArith Bool String Lia Permutation.
From Verif Require Import Py.Str Py.Val Lark.Tree Lark.Shape Lark.Terminals
  Pycep.Utils Pycep.Transformer Pycep.Main Pycep.Bicep
  Spec.Json Spec.Schema Spec.Outcomes Spec.Calls Spec.Text Spec.Trees Spec.Lexemes Spec.Program Spec.Reports Spec.Children Spec.Declarations Spec.Numbering
  Proofs.Base Proofs.Grammar Proofs.TokenForms Proofs.TreeGrammar Proofs.Transform Proofs.EndToEnd Proofs.Quiet Proofs.Program Proofs.Children Proofs.Elements Proofs.Documents
  Proofs.EraseDocuments Proofs.Permute Props.Calls Props.Documents.
Import ListNotations.
Local Open Scope string_scope.

(** ** C14 *)
Theorem C14_line_numbers_additive : forall E fs text fp t, source fs text fp t -> ~ contains reserved_key t ->
  (forall cs, program E t cs -> existsb child_as_text cs = false) ->
  match bicep_parse E fs true text fp with
  | Ok v => bicep_parse E fs false text fp = Ok (document_unnumbered v)
  | Err e => bicep_parse E fs false text fp = Err e
  end.
Proof.
  intros E fs text fp t Hs Hno Ht. rewrite !(parse_source E fs _ _ _ _ Hs). destruct (is_valid t); [|reflexivity].
  destruct (lark_parse E t) as [tree|e] eqn:Hp; cbn [bind]; [|reflexivity].
  destruct (lark_start E t tree Hp) as (m & cs & ->). assert (Hprog : program E t cs) by (exists m; exact Hp).
  apply start_numbering; [exact (program_ok E t cs Hprog)|exact (program_clean E t cs Hprog Hno)|exact (Ht cs Hprog)].
Qed.
(** Wrong arguments and unreadable files. *)
Theorem C14_no_source : forall E fs text fp, (forall t, ~ source fs text fp t) ->
  exists e, bicep_parse E fs true text fp = Err e /\ bicep_parse E fs false text fp = Err e.
Proof.
  intros E fs text fp Hs. unfold bicep_parse, parse. destruct (raw_cases fs text fp) as [[H1 H2]|[[H1 H2]|[(t & Ht)|(p & e & H1 & -> & H2 & H3)]]].
  - rewrite (raw_both E fs _ _ H1 H2). cbn [bind]. eauto.
  - rewrite (raw_none E fs _ _ H1 H2). cbn [bind]. eauto.
  - destruct (Hs t Ht).
  - rewrite (raw_read_error E fs _ _ _ H1 H2 H3). cbn [bind]. eauto.
Qed.
(** The third hypothesis is needed: where a value is turned into text, the line
    numbers of a child resource in it become part of the text. *)
Definition texty : str := u ("type t = 'a' | {" ++ nl ++ "  resource c 'x' = {}" ++ nl ++ "}").
Theorem C14_any_text_refuted : exists text v w, bicep_parse env0 ex_fs true (Some text) None = Ok v /\
  bicep_parse env0 ex_fs false (Some text) None = Ok w /\ w <> document_unnumbered v.
Proof.
  exists texty. eexists _, _. split; [vm_compute; reflexivity|]. split; [vm_compute; reflexivity|]. intros H. vm_compute in H. discriminate H.
Qed.
(** So is the second: line keys the program itself writes below the reserved key
    are taken for line numbers. *)
Definition forged_lines : str := u ("resource a 'T@1' = {" ++ nl ++ "  __child_resource__: {" ++ nl
  ++ "    __name__: 'b'" ++ nl ++ "    __attrs__: {" ++ nl ++ "      type: 'c'" ++ nl ++ "      config: {}" ++ nl ++ "      __start_line__: 7" ++ nl
  ++ "    }" ++ nl ++ "  }" ++ nl ++ "}").
Theorem C14_reserved_key_refuted : exists text v w, bicep_parse env0 ex_fs true (Some text) None = Ok v /\
  bicep_parse env0 ex_fs false (Some text) None = Ok w /\ w <> document_unnumbered v.
Proof.
  exists forged_lines. eexists _, _. split; [vm_compute; reflexivity|]. split; [vm_compute; reflexivity|]. intros H. vm_compute in H. discriminate H.
Qed.

Lemma not_contains k t : forallb (fun n => negb (starts_with k (skipn n t))) (seq 0 (Datatypes.S (List.length t))) = true -> ~ contains k t.
Proof.
  intros Hall (a & b & H). assert (Hl : List.length a <= List.length t) by (rewrite H, !app_length; lia).
  rewrite forallb_forall in Hall. specialize (Hall (List.length a) ltac:(apply in_seq; lia)). apply negb_true_iff in Hall.
  rewrite H, skipn_app, skipn_all, Nat.sub_diag in Hall. cbn [skipn app] in Hall.
  assert (Ht : starts_with k (k ++ b)%list = true) by (apply starts_with_app; eauto). congruence.
Qed.
Definition numbered_text : str := u ("var k = [" ++ nl ++ "  {" ++ nl ++ "    resource c 'U' = {}" ++ nl ++ "    __start_line__: 3" ++ nl ++ "  }" ++ nl ++ "]" ++ nl
  ++ "resource r 'T@1' = {" ++ nl ++ "  resource c 'U' = {" ++ nl ++ "  }" ++ nl ++ "}" ++ nl ++ "import 'az'" ++ nl).
Example C14_ex : source ex_fs (Some numbered_text) None numbered_text /\ ~ contains reserved_key numbered_text /\
  (forall cs, program env0 numbered_text cs -> existsb child_as_text cs = false) /\
  exists v, bicep_parse env0 ex_fs true (Some numbered_text) None = Ok v /\ document_unnumbered v <> v.
Proof.
  split; [apply ex_source; do 2 eexists; reflexivity|]. split; [apply not_contains; vm_compute; reflexivity|]. split.
  - assert (Hp : exists cs, program env0 numbered_text cs /\ existsb child_as_text cs = false).
    { eexists. split; [eexists; vm_compute; reflexivity|vm_compute; reflexivity]. }
    destruct Hp as (cs0 & Hp & Hc). intros cs H. rewrite (program_unique _ _ _ _ H Hp). exact Hc.
  - eexists. split; [vm_compute; reflexivity|]. intros H. vm_compute in H. discriminate H.
Qed.

(** ** C11 *)
Lemma perm_transform E ln t1 t2 cs1 cs cs2 v1 : program E t1 cs1 -> program E t2 cs2 -> Permutation cs1 cs -> Forall2 same_tree cs cs2 ->
  NoDup (declared cs1) -> ~ contains reserved_key t1 -> ~ contains reserved_key t2 ->
  (ln = true -> cs = cs2) ->
  forall m1 m2, transform E ln (TNode L_start m1 cs1) = Ok v1 ->
  exists v2, transform E ln (TNode L_start m2 cs2) = Ok v2 /\ same_document v1 v2.
Proof.
  intros P1 P2 HP HF Hnd N1 N2 Hln m1 m2 Hv.
  pose proof (program_ok E t1 cs1 P1) as K1. pose proof (program_ok E t2 cs2 P2) as K2.
  pose proof (program_clean E t1 cs1 P1 N1) as L1. pose proof (program_clean E t2 cs2 P2 N2) as L2.
  pose proof (start_perm E ln m1 m2 cs1 cs K1 L1 HP Hnd) as H. rewrite Hv in H. destruct H as (v2 & H1 & H2). exists v2. split; [|exact H2].
  destruct ln; [rewrite <- (Hln eq_refl); exact H1|].
  rewrite <- (start_same E m2 cs m2 cs2); auto; [exact (oks_perm E _ _ _ HP K1)|exact (forallb_perm _ _ _ HP L1)].
Qed.
(** Two texts whose declarations are the same up to order and positions. *)
Definition reordered (E : pyenv) (t1 t2 : str) : Prop :=
  exists cs1 cs cs2, program E t1 cs1 /\ program E t2 cs2 /\ Permutation cs1 cs /\ Forall2 same_tree cs cs2 /\ NoDup (declared cs1).
Definition balanced (t : str) : Prop := exists n, occurs triple t n /\ Nat.Even n.
Theorem C11_order : forall E fs text1 fp1 t1 text2 fp2 t2 v1,
  source fs text1 fp1 t1 -> source fs text2 fp2 t2 -> ~ contains reserved_key t1 -> ~ contains reserved_key t2 ->
  reordered E t1 t2 -> balanced t2 ->
  bicep_parse E fs false text1 fp1 = Ok v1 ->
  exists v2, bicep_parse E fs false text2 fp2 = Ok v2 /\ same_document v1 v2.
Proof.
  intros E fs text1 fp1 t1 text2 fp2 t2 v1 S1 S2 N1 N2 (cs1 & cs & cs2 & P1 & P2 & HP & HF & Hnd) (n & B1 & B2) Hv.
  destruct (parse_program E fs false text2 fp2 t2 cs2 n S2 B1 B2 P2) as (m2 & ->).
  destruct (parse_ok E fs false text1 fp1 t1 v1 S1 Hv) as (m1 & cs1' & Hp & Ht).
  assert (cs1' = cs1) as -> by (apply (program_unique E t1); [exists m1; exact Hp|exact P1]).
  apply (perm_transform E false t1 t2 cs1 cs cs2 v1 P1 P2 HP HF Hnd N1 N2 ltac:(discriminate) m1 m2 Ht).
Qed.
(** With line numbers: the same entries, line numbers aside. *)
Theorem C11_order_numbered : forall E fs text1 fp1 t1 text2 fp2 t2 v1,
  source fs text1 fp1 t1 -> source fs text2 fp2 t2 -> ~ contains reserved_key t1 -> ~ contains reserved_key t2 ->
  (forall t cs, t = t1 \/ t = t2 -> program E t cs -> existsb child_as_text cs = false) ->
  reordered E t1 t2 -> balanced t2 ->
  bicep_parse E fs true text1 fp1 = Ok v1 ->
  exists v2, bicep_parse E fs true text2 fp2 = Ok v2 /\ same_document (document_unnumbered v1) (document_unnumbered v2).
Proof.
  intros E fs text1 fp1 t1 text2 fp2 t2 v1 S1 S2 N1 N2 Hc HR HB Hv.
  pose proof (C14_line_numbers_additive E fs text1 fp1 t1 S1 N1 (fun cs => Hc t1 cs (or_introl eq_refl))) as H1. rewrite Hv in H1.
  destruct (C11_order E fs text1 fp1 t1 text2 fp2 t2 _ S1 S2 N1 N2 HR HB H1) as (w2 & H2 & H3).
  pose proof (C14_line_numbers_additive E fs text2 fp2 t2 S2 N2 (fun cs => Hc t2 cs (or_intror eq_refl))) as H4.
  destruct (bicep_parse E fs true text2 fp2) as [v2|e]; [|congruence]. exists v2. split; [reflexivity|]. congruence.
Qed.
(** A text that fails fails in every order (the errors may differ: the first
    declaration that cannot be reported decides). *)
Theorem C11_failure : forall E fs text1 fp1 t1 text2 fp2 t2 e1,
  source fs text1 fp1 t1 -> source fs text2 fp2 t2 -> ~ contains reserved_key t1 -> ~ contains reserved_key t2 ->
  reordered E t1 t2 -> balanced t1 ->
  bicep_parse E fs false text1 fp1 = Err e1 ->
  exists e2, bicep_parse E fs false text2 fp2 = Err e2.
Proof.
  intros E fs text1 fp1 t1 text2 fp2 t2 e1 S1 S2 N1 N2 (cs1 & cs & cs2 & P1 & P2 & HP & HF & Hnd) (n & B1 & B2) Hv.
  destruct (bicep_parse E fs false text2 fp2) as [v2|e2] eqn:H2; [|eauto]. exfalso.
  destruct (parse_program E fs false text1 fp1 t1 cs1 n S1 B1 B2 P1) as (m1 & H1). rewrite H1 in Hv.
  destruct (parse_ok E fs false text2 fp2 t2 v2 S2 H2) as (m2 & cs2' & Hp & Ht).
  assert (cs2' = cs2) as -> by (apply (program_unique E t2); [exists m2; exact Hp|exact P2]).
  pose proof (program_ok E t1 cs1 P1) as K1. pose proof (program_ok E t2 cs2 P2) as K2.
  pose proof (program_clean E t1 cs1 P1 N1) as L1. pose proof (program_clean E t2 cs2 P2 N2) as L2.
  pose proof (start_perm E false m1 m2 cs1 cs K1 L1 HP Hnd) as H. rewrite Hv in H. destruct H as (e & H).
  rewrite (start_same E m2 cs m2 cs2) in H; auto; [congruence|exact (oks_perm E _ _ _ HP K1)|exact (forallb_perm _ _ _ HP L1)].
Qed.
Definition order1 : str := u ("param p string" ++ nl ++ "targetScope = 'tenant'" ++ nl ++ "var v = { a: p }" ++ nl
  ++ "resource r 'T@1' = {" ++ nl ++ "  resource c 'U' = {}" ++ nl ++ "}" ++ nl ++ "import 'az'" ++ nl).
Definition order2 : str := u ("import 'az'" ++ nl ++ nl ++ "resource r 'T@1' = {" ++ nl ++ nl ++ "  resource c 'U' = {}" ++ nl ++ "}" ++ nl
  ++ "param p string" ++ nl ++ "var v = { a: p }" ++ nl ++ "targetScope =   'tenant'" ++ nl).
Lemma perm5 {A} (a b c d e : A) : Permutation [a; b; c; d; e] [e; d; a; c; b].
Proof.
  apply Permutation_sym. change [a; b; c; d; e] with ([a; b; c; d] ++ [e])%list. apply Permutation_cons_app. rewrite app_nil_r.
  change [a; b; c; d] with ([a; b; c] ++ [d])%list. apply Permutation_cons_app. rewrite app_nil_r. constructor. constructor.
Qed.
Ltac same := repeat (constructor; try reflexivity).
Example C11_ex : exists v1, source ex_fs (Some order1) None order1 /\ source ex_fs (Some order2) None order2 /\
  ~ contains reserved_key order1 /\ ~ contains reserved_key order2 /\ reordered env0 order1 order2 /\ balanced order2 /\
  bicep_parse env0 ex_fs false (Some order1) None = Ok v1.
Proof.
  eexists. split; [apply ex_source; do 2 eexists; reflexivity|]. split; [apply ex_source; do 2 eexists; reflexivity|].
  split; [apply not_contains; vm_compute; reflexivity|]. split; [apply not_contains; vm_compute; reflexivity|]. split; [|split].
  - do 3 eexists. split; [eexists; vm_compute; reflexivity|]. split; [eexists; vm_compute; reflexivity|]. split; [apply perm5|]. split; [same|].
    vm_compute. repeat (constructor; [cbn [In]; intuition discriminate|]). constructor.
  - exists 0. split; [|exists 0; reflexivity]. vm_compute. repeat (apply occ_skip; [intros s H; discriminate H|]). apply occ_nil.
  - vm_compute. reflexivity.
Qed.

(** All theorems of this file at once (the walk over the proofs is slow). *)
Definition numbering_theorems := (@C14_line_numbers_additive,
  @C14_no_source,
  @C14_any_text_refuted,
  @C14_reserved_key_refuted,
  @C11_order,
  @C11_order_numbered,
  @C11_failure).
Print Assumptions numbering_theorems.
