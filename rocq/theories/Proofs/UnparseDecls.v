(** From a derivation back to abstract syntax, part 5: declarations. *)
From Coq Require Import List Arith NArith PArith Bool String Lia.
From Verif Require Import Py.Str Py.Val Lark.Tree Lark.Shape Lark.Terminals Lark.Ebnf
     Lark.Lalr Lark.BicepGrammar Lark.BicepTables Lark.Driver
     Spec.Lexemes Proofs.Follow Proofs.Generate Proofs.Derive Proofs.DerivePrograms Proofs.TreeGrammar Proofs.Like
     Spec.Types Spec.Spelling Spec.Syntax Spec.Reading Proofs.Unparse Proofs.UnparseTactics.
Import ListNotations.
Local Open Scope string_scope.
Local Open Scope list_scope.

Section Productions.
  Variable E : pyenv.
Lemma prod_1 : prod_sound E 1.
Proof. start.
  intros x1 w1 H1.
  destruct H1 as (p1 & W1 & L1 & S1).
  sel.
  exists p1.
  fin_KStart. Qed.
Lemma prod_2 : prod_sound E 2.
Proof. start.
  sel.
  exists [].
  fin_KStart. Qed.
Lemma prod_3 : prod_sound E 3.
Proof. start.
  intros x3 w3 H3 x2 w2 H2 x1 w1 H1.
  destruct H1 as (W1 & L1 & N1).
  destruct H2 as (W2 & N2).
  destruct H3 as (c3 & W3 & L3).
  sel.
  exists (DScope c3).
  fin_KDecl. Qed.
Lemma prod_4 : prod_sound E 4.
Proof. start.
  intros x2 w2 H2 x1 w1 H1.
  destruct H1 as (W1 & L1 & N1).
  destruct H2 as (d2 & ts2 & cs2 & W2 & L2 & A2 & C2 & S2).
  sel.
  exists d2.
  split; [eapply words_eq; [wsplit|rewrite A2; same_list]|]; split; [apply like_put; rewrite C2; apply like_node; lks|exact S2]. Qed.
Lemma prod_5 : prod_sound E 5.
Proof. start.
  intros x6 w6 H6 x5 w5 H5 x4 w4 H4 x3 w3 H3 x2 w2 H2 x1 w1 H1.
  destruct H1 as (W1 & L1 & N1).
  destruct H2 as (v2 & W2 & L2).
  destruct H3 as (W3 & L3 & N3).
  destruct H4 as (e4 & W4 & L4 & S4 & A4).
  destruct H5 as (W5 & L5 & N5).
  destruct H6 as (v6 & W6 & L6).
  sel.
  destruct e4; try discriminate A4.
  exists (DExtension v2 (Some (EObject lead rows)) (Some v6)).
  fin_KDecl. Qed.
Lemma prod_6 : prod_sound E 6.
Proof. start.
  intros x4 w4 H4 x3 w3 H3 x2 w2 H2 x1 w1 H1.
  destruct H1 as (W1 & L1 & N1).
  destruct H2 as (v2 & W2 & L2).
  destruct H3 as (W3 & L3 & N3).
  destruct H4 as (e4 & W4 & L4 & S4 & A4).
  sel.
  destruct e4; try discriminate A4.
  exists (DExtension v2 (Some (EObject lead rows)) None).
  fin_KDecl. Qed.
Lemma prod_7 : prod_sound E 7.
Proof. start.
  intros x4 w4 H4 x3 w3 H3 x2 w2 H2 x1 w1 H1.
  destruct H1 as (W1 & L1 & N1).
  destruct H2 as (v2 & W2 & L2).
  destruct H3 as (W3 & L3 & N3).
  destruct H4 as (v4 & W4 & L4).
  sel.
  exists (DExtension v2 None (Some v4)).
  fin_KDecl. Qed.
Lemma prod_8 : prod_sound E 8.
Proof. start.
  intros x2 w2 H2 x1 w1 H1.
  destruct H1 as (W1 & L1 & N1).
  destruct H2 as (v2 & W2 & L2).
  sel.
  exists (DExtension v2 None None).
  fin_KDecl. Qed.
Lemma prod_9 : prod_sound E 9.
Proof. start.
  intros x4 w4 H4 x3 w3 H3 x2 w2 H2 x1 w1 H1.
  destruct H1 as (W1 & L1 & N1).
  destruct H2 as (v2 & W2 & L2).
  destruct H3 as (W3 & N3).
  destruct H4 as (c4 & W4 & L4).
  sel.
  exists (DMetadata v2 c4).
  fin_KDecl. Qed.
Lemma prod_10 : prod_sound E 10.
Proof. start.
  intros x7 w7 H7 x6 w6 H6 x5 w5 H5 x4 w4 H4 x3 w3 H3 x2 w2 H2 x1 w1 H1.
  destruct H1 as (ds1 & W1 & L1 & S1).
  destruct H2 as (W2 & L2 & N2).
  destruct H3 as (v3 & W3 & L3).
  destruct H4 as (t4 & W4 & L4 & S4).
  destruct H5 as (W5 & N5).
  destruct H6 as (W6 & N6).
  destruct H7 as (e7 & W7 & L7 & S7 & O7 & B7).
  sel.
  exists (DParam ds1 v3 t4 true (Some e7)).
  fin_KDecl. Qed.
Lemma prod_11 : prod_sound E 11.
Proof. start.
  intros x5 w5 H5 x4 w4 H4 x3 w3 H3 x2 w2 H2 x1 w1 H1.
  destruct H1 as (ds1 & W1 & L1 & S1).
  destruct H2 as (W2 & L2 & N2).
  destruct H3 as (v3 & W3 & L3).
  destruct H4 as (t4 & W4 & L4 & S4).
  destruct H5 as (W5 & N5).
  sel.
  exists (DParam ds1 v3 t4 true None).
  fin_KDecl. Qed.
Lemma prod_12 : prod_sound E 12.
Proof. start.
  intros x6 w6 H6 x5 w5 H5 x4 w4 H4 x3 w3 H3 x2 w2 H2 x1 w1 H1.
  destruct H1 as (ds1 & W1 & L1 & S1).
  destruct H2 as (W2 & L2 & N2).
  destruct H3 as (v3 & W3 & L3).
  destruct H4 as (t4 & W4 & L4 & S4).
  destruct H5 as (W5 & N5).
  destruct H6 as (e6 & W6 & L6 & S6 & O6 & B6).
  sel.
  exists (DParam ds1 v3 t4 false (Some e6)).
  fin_KDecl. Qed.
Lemma prod_13 : prod_sound E 13.
Proof. start.
  intros x4 w4 H4 x3 w3 H3 x2 w2 H2 x1 w1 H1.
  destruct H1 as (ds1 & W1 & L1 & S1).
  destruct H2 as (W2 & L2 & N2).
  destruct H3 as (v3 & W3 & L3).
  destruct H4 as (t4 & W4 & L4 & S4).
  sel.
  exists (DParam ds1 v3 t4 false None).
  fin_KDecl. Qed.
Lemma prod_14 : prod_sound E 14.
Proof. start.
  intros x6 w6 H6 x5 w5 H5 x4 w4 H4 x3 w3 H3 x2 w2 H2 x1 w1 H1.
  destruct H1 as (W1 & L1 & N1).
  destruct H2 as (v2 & W2 & L2).
  destruct H3 as (t3 & W3 & L3 & S3).
  destruct H4 as (W4 & N4).
  destruct H5 as (W5 & N5).
  destruct H6 as (e6 & W6 & L6 & S6 & O6 & B6).
  sel.
  exists (DParam [] v2 t3 true (Some e6)).
  fin_KDecl. Qed.
Lemma prod_15 : prod_sound E 15.
Proof. start.
  intros x4 w4 H4 x3 w3 H3 x2 w2 H2 x1 w1 H1.
  destruct H1 as (W1 & L1 & N1).
  destruct H2 as (v2 & W2 & L2).
  destruct H3 as (t3 & W3 & L3 & S3).
  destruct H4 as (W4 & N4).
  sel.
  exists (DParam [] v2 t3 true None).
  fin_KDecl. Qed.
Lemma prod_16 : prod_sound E 16.
Proof. start.
  intros x5 w5 H5 x4 w4 H4 x3 w3 H3 x2 w2 H2 x1 w1 H1.
  destruct H1 as (W1 & L1 & N1).
  destruct H2 as (v2 & W2 & L2).
  destruct H3 as (t3 & W3 & L3 & S3).
  destruct H4 as (W4 & N4).
  destruct H5 as (e5 & W5 & L5 & S5 & O5 & B5).
  sel.
  exists (DParam [] v2 t3 false (Some e5)).
  fin_KDecl. Qed.
Lemma prod_17 : prod_sound E 17.
Proof. start.
  intros x3 w3 H3 x2 w2 H2 x1 w1 H1.
  destruct H1 as (W1 & L1 & N1).
  destruct H2 as (v2 & W2 & L2).
  destruct H3 as (t3 & W3 & L3 & S3).
  sel.
  exists (DParam [] v2 t3 false None).
  fin_KDecl. Qed.
Lemma prod_18 : prod_sound E 18.
Proof. start.
  intros x7 w7 H7 x6 w6 H6 x5 w5 H5 x4 w4 H4 x3 w3 H3 x2 w2 H2 x1 w1 H1.
  destruct H1 as (ds1 & W1 & L1 & S1).
  destruct H2 as (W2 & L2 & N2).
  destruct H3 as (v3 & W3 & L3).
  destruct H4 as (t4 & W4 & L4 & S4).
  destruct H5 as (W5 & N5).
  destruct H6 as (W6 & N6).
  destruct H7 as (e7 & W7 & L7 & S7).
  sel.
  exists (DVar ds1 v3 (Some (t4, true)) e7).
  fin_KDecl. Qed.
Lemma prod_19 : prod_sound E 19.
Proof. start.
  intros x6 w6 H6 x5 w5 H5 x4 w4 H4 x3 w3 H3 x2 w2 H2 x1 w1 H1.
  destruct H1 as (ds1 & W1 & L1 & S1).
  destruct H2 as (W2 & L2 & N2).
  destruct H3 as (v3 & W3 & L3).
  destruct H4 as (t4 & W4 & L4 & S4).
  destruct H5 as (W5 & N5).
  destruct H6 as (e6 & W6 & L6 & S6).
  sel.
  exists (DVar ds1 v3 (Some (t4, false)) e6).
  fin_KDecl. Qed.
Lemma prod_20 : prod_sound E 20.
Proof. start.
  intros x5 w5 H5 x4 w4 H4 x3 w3 H3 x2 w2 H2 x1 w1 H1.
  destruct H1 as (ds1 & W1 & L1 & S1).
  destruct H2 as (W2 & L2 & N2).
  destruct H3 as (v3 & W3 & L3).
  destruct H4 as (W4 & N4).
  destruct H5 as (e5 & W5 & L5 & S5).
  sel.
  exists (DVar ds1 v3 None e5).
  fin_KDecl. Qed.
Lemma prod_21 : prod_sound E 21.
Proof. start.
  intros x6 w6 H6 x5 w5 H5 x4 w4 H4 x3 w3 H3 x2 w2 H2 x1 w1 H1.
  destruct H1 as (W1 & L1 & N1).
  destruct H2 as (v2 & W2 & L2).
  destruct H3 as (t3 & W3 & L3 & S3).
  destruct H4 as (W4 & N4).
  destruct H5 as (W5 & N5).
  destruct H6 as (e6 & W6 & L6 & S6).
  sel.
  exists (DVar [] v2 (Some (t3, true)) e6).
  fin_KDecl. Qed.
Lemma prod_22 : prod_sound E 22.
Proof. start.
  intros x5 w5 H5 x4 w4 H4 x3 w3 H3 x2 w2 H2 x1 w1 H1.
  destruct H1 as (W1 & L1 & N1).
  destruct H2 as (v2 & W2 & L2).
  destruct H3 as (t3 & W3 & L3 & S3).
  destruct H4 as (W4 & N4).
  destruct H5 as (e5 & W5 & L5 & S5).
  sel.
  exists (DVar [] v2 (Some (t3, false)) e5).
  fin_KDecl. Qed.
Lemma prod_23 : prod_sound E 23.
Proof. start.
  intros x4 w4 H4 x3 w3 H3 x2 w2 H2 x1 w1 H1.
  destruct H1 as (W1 & L1 & N1).
  destruct H2 as (v2 & W2 & L2).
  destruct H3 as (W3 & N3).
  destruct H4 as (e4 & W4 & L4 & S4).
  sel.
  exists (DVar [] v2 None e4).
  fin_KDecl. Qed.
Lemma prod_24 : prod_sound E 24.
Proof. start.
  intros x7 w7 H7 x6 w6 H6 x5 w5 H5 x4 w4 H4 x3 w3 H3 x2 w2 H2 x1 w1 H1.
  destruct H1 as (ds1 & W1 & L1 & S1).
  destruct H2 as (W2 & L2 & N2).
  destruct H3 as (v3 & W3 & L3).
  destruct H4 as (t4 & W4 & L4 & S4).
  destruct H5 as (W5 & N5).
  destruct H6 as (W6 & N6).
  destruct H7 as (e7 & W7 & L7 & S7).
  sel.
  exists (DOutput ds1 v3 t4 true e7).
  fin_KDecl. Qed.
Lemma prod_25 : prod_sound E 25.
Proof. start.
  intros x6 w6 H6 x5 w5 H5 x4 w4 H4 x3 w3 H3 x2 w2 H2 x1 w1 H1.
  destruct H1 as (ds1 & W1 & L1 & S1).
  destruct H2 as (W2 & L2 & N2).
  destruct H3 as (v3 & W3 & L3).
  destruct H4 as (t4 & W4 & L4 & S4).
  destruct H5 as (W5 & N5).
  destruct H6 as (e6 & W6 & L6 & S6).
  sel.
  exists (DOutput ds1 v3 t4 false e6).
  fin_KDecl. Qed.
Lemma prod_26 : prod_sound E 26.
Proof. start.
  intros x6 w6 H6 x5 w5 H5 x4 w4 H4 x3 w3 H3 x2 w2 H2 x1 w1 H1.
  destruct H1 as (W1 & L1 & N1).
  destruct H2 as (v2 & W2 & L2).
  destruct H3 as (t3 & W3 & L3 & S3).
  destruct H4 as (W4 & N4).
  destruct H5 as (W5 & N5).
  destruct H6 as (e6 & W6 & L6 & S6).
  sel.
  exists (DOutput [] v2 t3 true e6).
  fin_KDecl. Qed.
Lemma prod_27 : prod_sound E 27.
Proof. start.
  intros x5 w5 H5 x4 w4 H4 x3 w3 H3 x2 w2 H2 x1 w1 H1.
  destruct H1 as (W1 & L1 & N1).
  destruct H2 as (v2 & W2 & L2).
  destruct H3 as (t3 & W3 & L3 & S3).
  destruct H4 as (W4 & N4).
  destruct H5 as (e5 & W5 & L5 & S5).
  sel.
  exists (DOutput [] v2 t3 false e5).
  fin_KDecl. Qed.
Lemma prod_28 : prod_sound E 28.
Proof. start.
  intros x7 w7 H7 x6 w6 H6 x5 w5 H5 x4 w4 H4 x3 w3 H3 x2 w2 H2 x1 w1 H1.
  destruct H1 as (ds1 & W1 & L1 & S1).
  destruct H2 as (W2 & L2 & N2).
  destruct H3 as (v3 & W3 & L3).
  destruct H4 as (c4 & W4 & L4).
  destruct H5 as (W5 & L5).
  destruct H6 as (W6 & N6).
  destruct H7 as (e7 & W7 & L7 & S7).
  sel.
  exists (DResource ds1 v3 c4 true e7).
  fin_KDecl. Qed.
Lemma prod_29 : prod_sound E 29.
Proof. start.
  intros x6 w6 H6 x5 w5 H5 x4 w4 H4 x3 w3 H3 x2 w2 H2 x1 w1 H1.
  destruct H1 as (ds1 & W1 & L1 & S1).
  destruct H2 as (W2 & L2 & N2).
  destruct H3 as (v3 & W3 & L3).
  destruct H4 as (c4 & W4 & L4).
  destruct H5 as (W5 & N5).
  destruct H6 as (e6 & W6 & L6 & S6).
  sel.
  exists (DResource ds1 v3 c4 false e6).
  fin_KDecl. Qed.
Lemma prod_30 : prod_sound E 30.
Proof. start.
  intros x6 w6 H6 x5 w5 H5 x4 w4 H4 x3 w3 H3 x2 w2 H2 x1 w1 H1.
  destruct H1 as (W1 & L1 & N1).
  destruct H2 as (v2 & W2 & L2).
  destruct H3 as (c3 & W3 & L3).
  destruct H4 as (W4 & L4).
  destruct H5 as (W5 & N5).
  destruct H6 as (e6 & W6 & L6 & S6).
  sel.
  exists (DResource [] v2 c3 true e6).
  fin_KDecl. Qed.
Lemma prod_31 : prod_sound E 31.
Proof. start.
  intros x5 w5 H5 x4 w4 H4 x3 w3 H3 x2 w2 H2 x1 w1 H1.
  destruct H1 as (W1 & L1 & N1).
  destruct H2 as (v2 & W2 & L2).
  destruct H3 as (c3 & W3 & L3).
  destruct H4 as (W4 & N4).
  destruct H5 as (e5 & W5 & L5 & S5).
  sel.
  exists (DResource [] v2 c3 false e5).
  fin_KDecl. Qed.
Lemma prod_32 : prod_sound E 32.
Proof. start.
  intros x6 w6 H6 x5 w5 H5 x4 w4 H4 x3 w3 H3 x2 w2 H2 x1 w1 H1.
  destruct H1 as (ds1 & W1 & L1 & S1).
  destruct H2 as (W2 & L2 & N2).
  destruct H3 as (v3 & W3 & L3).
  destruct H4 as (c4 & W4 & L4).
  destruct H5 as (W5 & N5).
  destruct H6 as (e6 & W6 & L6 & S6).
  sel.
  exists (DModule ds1 v3 c4 e6).
  fin_KDecl. Qed.
Lemma prod_33 : prod_sound E 33.
Proof. start.
  intros x5 w5 H5 x4 w4 H4 x3 w3 H3 x2 w2 H2 x1 w1 H1.
  destruct H1 as (W1 & L1 & N1).
  destruct H2 as (v2 & W2 & L2).
  destruct H3 as (c3 & W3 & L3).
  destruct H4 as (W4 & N4).
  destruct H5 as (e5 & W5 & L5 & S5).
  sel.
  exists (DModule [] v2 c3 e5).
  fin_KDecl. Qed.
Lemma prod_34 : prod_sound E 34.
Proof. start.
  intros x5 w5 H5 x4 w4 H4 x3 w3 H3 x2 w2 H2 x1 w1 H1.
  destruct H1 as (ds1 & W1 & L1 & S1).
  destruct H2 as (W2 & L2 & N2).
  destruct H3 as (v3 & W3 & L3).
  destruct H4 as (W4 & N4).
  destruct H5 as (e5 & xs5 & W5 & L5 & S5).
  sel.
  exists (DType ds1 v3 e5 xs5).
  fin_KDecl. Qed.
Lemma prod_35 : prod_sound E 35.
Proof. start.
  intros x4 w4 H4 x3 w3 H3 x2 w2 H2 x1 w1 H1.
  destruct H1 as (W1 & L1 & N1).
  destruct H2 as (v2 & W2 & L2).
  destruct H3 as (W3 & N3).
  destruct H4 as (e4 & xs4 & W4 & L4 & S4).
  sel.
  exists (DType [] v2 e4 xs4).
  fin_KDecl. Qed.
Lemma prod_36 : prod_sound E 36.
Proof. start.
  intros x3 w3 H3 x2 w2 H2 x1 w1 H1.
  destruct H1 as (ds1 & W1 & L1 & S1).
  destruct H2 as (W2 & L2 & N2).
  destruct H3 as (n3 & ps3 & t3 & e3 & W3 & L3 & S3).
  sel.
  exists (DFunc ds1 n3 ps3 t3 e3).
  fin_KDecl. Qed.
Lemma prod_37 : prod_sound E 37.
Proof. start.
  intros x2 w2 H2 x1 w1 H1.
  destruct H1 as (W1 & L1 & N1).
  destruct H2 as (n2 & ps2 & t2 & e2 & W2 & L2 & S2).
  sel.
  exists (DFunc [] n2 ps2 t2 e2).
  fin_KDecl. Qed.
Lemma prod_61 : prod_sound E 61.
Proof. start.
  intros x6 w6 H6 x5 w5 H5 x4 w4 H4 x3 w3 H3 x2 w2 H2 x1 w1 H1.
  destruct H1 as (W1 & N1).
  destruct H2 as (s2 & W2 & L2).
  destruct H3 as (ss3 & W3 & L3).
  destruct H4 as (W4 & N4).
  destruct H5 as (W5 & L5 & N5).
  destruct H6 as (c6 & W6 & L6).
  sel.
  exists (DImports s2 ss3 c6).
  fin_KImportSt. Qed.
Lemma prod_62 : prod_sound E 62.
Proof. start.
  intros x5 w5 H5 x4 w4 H4 x3 w3 H3 x2 w2 H2 x1 w1 H1.
  destruct H1 as (W1 & N1).
  destruct H2 as (s2 & W2 & L2).
  destruct H3 as (W3 & N3).
  destruct H4 as (W4 & L4 & N4).
  destruct H5 as (c5 & W5 & L5).
  sel.
  exists (DImports s2 [] c5).
  fin_KImportSt. Qed.
Lemma prod_63 : prod_sound E 63.
Proof. start.
  intros x3 w3 H3 x2 w2 H2 x1 w1 H1.
  destruct H1 as (s1 & W1 & L1).
  destruct H2 as (W2 & L2 & N2).
  destruct H3 as (c3 & W3 & L3).
  sel.
  exists (DImport s1 c3).
  fin_KImportSt. Qed.
Lemma prod_64 : prod_sound E 64.
Proof. start.
  intros x1 w1 H1.
  destruct H1 as (c1 & W1 & L1).
  sel.
  exists (DNamespace c1).
  fin_KImportSt. Qed.
Lemma prod_65 : prod_sound E 65.
Proof. start.
  intros x9 w9 H9 x8 w8 H8 x7 w7 H7 x6 w6 H6 x5 w5 H5 x4 w4 H4 x3 w3 H3 x2 w2 H2 x1 w1 H1.
  destruct H1 as (v1 & W1 & L1).
  destruct H2 as (W2 & N2).
  destruct H3 as (v3 & W3 & L3).
  destruct H4 as (t4 & W4 & L4 & S4).
  destruct H5 as (ps5 & W5 & L5 & S5).
  destruct H6 as (W6 & N6).
  destruct H7 as (t7 & W7 & L7 & S7).
  destruct H8 as (W8 & N8).
  destruct H9 as (e9 & W9 & L9 & S9 & O9 & B9).
  sel.
  exists v1, ((v3, t4) :: ps5), t7, e9.
  fin_KFuncSt. Qed.
Lemma prod_66 : prod_sound E 66.
Proof. start.
  intros x8 w8 H8 x7 w7 H7 x6 w6 H6 x5 w5 H5 x4 w4 H4 x3 w3 H3 x2 w2 H2 x1 w1 H1.
  destruct H1 as (v1 & W1 & L1).
  destruct H2 as (W2 & N2).
  destruct H3 as (v3 & W3 & L3).
  destruct H4 as (t4 & W4 & L4 & S4).
  destruct H5 as (W5 & N5).
  destruct H6 as (t6 & W6 & L6 & S6).
  destruct H7 as (W7 & N7).
  destruct H8 as (e8 & W8 & L8 & S8 & O8 & B8).
  sel.
  exists v1, [(v3, t4)], t6, e8.
  fin_KFuncSt. Qed.
Lemma prod_67 : prod_sound E 67.
Proof. start.
  intros x6 w6 H6 x5 w5 H5 x4 w4 H4 x3 w3 H3 x2 w2 H2 x1 w1 H1.
  destruct H1 as (v1 & W1 & L1).
  destruct H2 as (W2 & N2).
  destruct H3 as (W3 & N3).
  destruct H4 as (t4 & W4 & L4 & S4).
  destruct H5 as (W5 & N5).
  destruct H6 as (e6 & W6 & L6 & S6 & O6 & B6).
  sel.
  exists v1, [], t4, e6.
  fin_KFuncSt. Qed.
Lemma prod_85 : prod_sound E 85.
Proof. start.
  intros x2 w2 H2 x1 w1 H1.
  destruct H1 as (e1 & W1 & L1 & S1 & O1 & B1).
  destruct H2 as (xs2 & W2 & L2 & S2 & M2).
  sel.
  destruct xs2 as [|x0 xs2]; [discriminate M2|]. cbn [map] in L2. inversion L2 as [|y0 z0 ys zs Hy Hys E1 E2]; subst. cbn [app built].
  exists e1, (x0 :: xs2).
  fin_KTypeVal. Qed.
Lemma prod_86 : prod_sound E 86.
Proof. start.
  intros x1 w1 H1.
  destruct H1 as (e1 & W1 & L1 & S1 & O1 & B1).
  sel.
  exists e1, [].
  fin_KTypeVal. Qed.
Lemma prod_87 : prod_sound E 87.
Proof. start.
  intros x2 w2 H2 x1 w1 H1.
  destruct H1 as (t1 & W1 & L1 & S1 & A1).
  destruct H2 as (n2 & W2 & L2).
  sel.
  exists (arrays n2 t1).
  fin_KType. Qed.
Lemma prod_88 : prod_sound E 88.
Proof. start.
  intros x1 w1 H1.
  destruct H1 as (t1 & W1 & L1 & S1 & A1).
  sel.
  exists (arrays 0 t1).
  fin_KType. Qed.
Lemma prod_89 : prod_sound E 89.
Proof. start.
  intros x1 w1 H1.
  destruct H1 as (v1 & W1 & L1).
  sel.
  exists (Named v1).
  fin_KBase. Qed.
Lemma prod_90 : prod_sound E 90.
Proof. start.
  intros x1 w1 H1.
  destruct H1 as (t1 & W1 & L1 & S1 & A1).
  sel.
  exists t1.
  fin_KBase. Qed.
Lemma prod_91 : prod_sound E 91.
Proof. start.
  intros x4 w4 H4 x3 w3 H3 x2 w2 H2 x1 w1 H1.
  destruct H1 as (W1 & N1).
  destruct H2 as (t2 & W2 & L2 & S2).
  destruct H3 as (ts3 & W3 & L3 & S3 & M3).
  destruct H4 as (W4 & N4).
  sel.
  destruct ts3 as [|t0 ts3]; [discriminate M3|].
  exists (Union (t2 :: t0 :: ts3)).
  fin_KUnion. Qed.
Lemma prod_92 : prod_sound E 92.
Proof. start.
  intros x2 w2 H2 x1 w1 H1.
  destruct H1 as (W1 & N1).
  destruct H2 as (W2 & N2).
  sel.
  fin_KSuf. Qed.
Lemma prod_95 : prod_sound E 95.
Proof. start.
  intros x3 w3 H3 x2 w2 H2 x1 w1 H1.
  destruct H1 as (v1 & W1 & L1).
  destruct H2 as (W2 & L2 & N2).
  destruct H3 as (v3 & W3 & L3).
  sel.
  exists (SName v1 (Some v3)).
  fin_KImp. Qed.
Lemma prod_96 : prod_sound E 96.
Proof. start.
  intros x1 w1 H1.
  destruct H1 as (v1 & W1 & L1).
  sel.
  exists (SName v1 None).
  fin_KImp. Qed.
Lemma prod_97 : prod_sound E 97.
Proof. start.
  intros x3 w3 H3 x2 w2 H2 x1 w1 H1.
  destruct H1 as (W1 & L1).
  destruct H2 as (W2 & L2 & N2).
  destruct H3 as (v3 & W3 & L3).
  sel.
  exists (SAll (Some v3)).
  fin_KImp. Qed.
Lemma prod_98 : prod_sound E 98.
Proof. start.
  intros x1 w1 H1.
  destruct H1 as (W1 & L1).
  sel.
  exists (SAll None).
  fin_KImp. Qed.
Lemma prod_224 : prod_sound E 224.
Proof. start.
  intros x1 w1 H1.
  destruct H1 as (ds1 & W1 & L1 & S1 & M1).
  sel.
  destruct ds1 as [|d0 ds1]; [discriminate M1|].
  exists (d0 :: ds1).
  fin_KDecos. Qed.
Lemma prod_293 : prod_sound E 293.
Proof. start.
  intros x2 w2 H2 x1 w1 H1.
  destruct H1 as (d1 & W1 & L1 & S1).
  destruct H2 as (b2 & W2).
  sel.
  exists [Declared d1 (Some b2)].
  fin_KLines. Qed.
Lemma prod_294 : prod_sound E 294.
Proof. start.
  intros x1 w1 H1.
  destruct H1 as (d1 & W1 & L1 & S1).
  sel.
  exists [Declared d1 None].
  fin_KLines. Qed.
Lemma prod_295 : prod_sound E 295.
Proof. start.
  intros x1 w1 H1.
  destruct H1 as (b1 & W1).
  sel.
  exists [Blank b1].
  fin_KLines. Qed.
Lemma prod_296 : prod_sound E 296.
Proof. start.
  intros x3 w3 H3 x2 w2 H2 x1 w1 H1.
  destruct H1 as (p1 & W1 & L1 & S1).
  destruct H2 as (d2 & W2 & L2 & S2).
  destruct H3 as (b3 & W3).
  sel.
  exists (p1 ++ [Declared d2 (Some b3)]).
  fin_KLines. Qed.
Lemma prod_297 : prod_sound E 297.
Proof. start.
  intros x2 w2 H2 x1 w1 H1.
  destruct H1 as (p1 & W1 & L1 & S1).
  destruct H2 as (d2 & W2 & L2 & S2).
  sel.
  exists (p1 ++ [Declared d2 None]).
  fin_KLines. Qed.
Lemma prod_298 : prod_sound E 298.
Proof. start.
  intros x2 w2 H2 x1 w1 H1.
  destruct H1 as (p1 & W1 & L1 & S1).
  destruct H2 as (b2 & W2).
  sel.
  exists (p1 ++ [Blank b2]).
  fin_KLines. Qed.
Lemma prod_299 : prod_sound E 299.
Proof. start.
  intros x2 w2 H2 x1 w1 H1.
  destruct H1 as (W1 & N1).
  destruct H2 as (s2 & W2 & L2).
  sel.
  exists [s2].
  fin_KImps. Qed.
Lemma prod_300 : prod_sound E 300.
Proof. start.
  intros x3 w3 H3 x2 w2 H2 x1 w1 H1.
  destruct H1 as (ss1 & W1 & L1).
  destruct H2 as (W2 & N2).
  destruct H3 as (s3 & W3 & L3).
  sel.
  exists (ss1 ++ [s3]).
  fin_KImps. Qed.
Lemma prod_301 : prod_sound E 301.
Proof. start.
  intros x3 w3 H3 x2 w2 H2 x1 w1 H1.
  destruct H1 as (W1 & N1).
  destruct H2 as (v2 & W2 & L2).
  destruct H3 as (t3 & W3 & L3 & S3).
  sel.
  exists [(v2, t3)].
  fin_KParams. Qed.
Lemma prod_302 : prod_sound E 302.
Proof. start.
  intros x4 w4 H4 x3 w3 H3 x2 w2 H2 x1 w1 H1.
  destruct H1 as (ps1 & W1 & L1 & S1).
  destruct H2 as (W2 & N2).
  destruct H3 as (v3 & W3 & L3).
  destruct H4 as (t4 & W4 & L4 & S4).
  sel.
  exists (ps1 ++ [(v3, t4)]).
  fin_KParams. Qed.
Lemma prod_305 : prod_sound E 305.
Proof. start.
  intros x2 w2 H2 x1 w1 H1.
  destruct H1 as (W1 & N1).
  destruct H2 as (e2 & W2 & L2 & S2 & O2 & B2).
  sel.
  exists [e2].
  fin_KBars. Qed.
Lemma prod_306 : prod_sound E 306.
Proof. start.
  intros x3 w3 H3 x2 w2 H2 x1 w1 H1.
  destruct H1 as (xs1 & W1 & L1 & S1 & M1).
  destruct H2 as (W2 & N2).
  destruct H3 as (e3 & W3 & L3 & S3 & O3 & B3).
  sel.
  exists (xs1 ++ [e3]).
  fin_KBars. Qed.
Lemma prod_307 : prod_sound E 307.
Proof. start.
  intros x1 w1 H1.
  destruct H1 as (W1 & L1).
  sel.
  exists 1.
  fin_KSufs. Qed.
Lemma prod_308 : prod_sound E 308.
Proof. start.
  intros x2 w2 H2 x1 w1 H1.
  destruct H1 as (n1 & W1 & L1).
  destruct H2 as (W2 & L2).
  sel.
  exists (Datatypes.S n1).
  fin_KSufs. Qed.
Lemma prod_309 : prod_sound E 309.
Proof. start.
  intros x2 w2 H2 x1 w1 H1.
  destruct H1 as (W1 & N1).
  destruct H2 as (t2 & W2 & L2 & S2).
  sel.
  exists [t2].
  fin_KBarTypes. Qed.
Lemma prod_310 : prod_sound E 310.
Proof. start.
  intros x3 w3 H3 x2 w2 H2 x1 w1 H1.
  destruct H1 as (ts1 & W1 & L1 & S1 & M1).
  destruct H2 as (W2 & N2).
  destruct H3 as (t3 & W3 & L3 & S3).
  sel.
  exists (ts1 ++ [t3]).
  fin_KBarTypes. Qed.
Lemma prod_335 : prod_sound E 335.
Proof. start.
  intros x1 w1 H1.
  destruct H1 as (d1 & W1 & L1 & S1).
  sel.
  exists [d1].
  fin_KDecoRep. Qed.
Lemma prod_336 : prod_sound E 336.
Proof. start.
  intros x2 w2 H2 x1 w1 H1.
  destruct H1 as (ds1 & W1 & L1 & S1 & M1).
  destruct H2 as (d2 & W2 & L2 & S2).
  sel.
  exists (ds1 ++ [d2]).
  fin_KDecoRep. Qed.
End Productions.
