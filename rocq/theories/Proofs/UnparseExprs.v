(** From a derivation back to abstract syntax, part 3: expressions. *)
From Coq Require Import List Arith NArith PArith Bool String Lia.
From Verif Require Import Py.Str Py.Val Lark.Tree Lark.Shape Lark.Terminals Lark.Ebnf
     Lark.Lalr Lark.BicepGrammar Lark.BicepTables Lark.Driver
     Spec.Lexemes Proofs.Follow Proofs.Generate Proofs.Derive Proofs.DerivePrograms Proofs.TreeGrammar Proofs.Like
     Spec.Types Spec.Spelling Spec.Syntax Spec.Reading Proofs.Unparse Proofs.UnparseTactics.
Import ListNotations.
Local Open Scope string_scope.
Local Open Scope list_scope.

Section Productions.
  Variable E : pyenv.
Lemma prod_38 : prod_sound E 38.
Proof. start.
  intros x2 w2 H2 x1 w1 H1.
  destruct H1 as (b1 & W1).
  destruct H2 as (W2 & L2 & N2).
  sel.
  exists (ENext b1 ENull).
  fin_KVal. Qed.
Lemma prod_39 : prod_sound E 39.
Proof. start.
  intros x1 w1 H1.
  destruct H1 as (W1 & L1 & N1).
  sel.
  exists ENull.
  fin_KVal. Qed.
Lemma prod_40 : prod_sound E 40.
Proof. start.
  intros x2 w2 H2 x1 w1 H1.
  destruct H1 as (b1 & W1).
  destruct H2 as (W2 & L2 & N2).
  sel.
  exists (ENext b1 (EBool true)).
  fin_KVal. Qed.
Lemma prod_41 : prod_sound E 41.
Proof. start.
  intros x1 w1 H1.
  destruct H1 as (W1 & L1 & N1).
  sel.
  exists (EBool true).
  fin_KVal. Qed.
Lemma prod_42 : prod_sound E 42.
Proof. start.
  intros x2 w2 H2 x1 w1 H1.
  destruct H1 as (b1 & W1).
  destruct H2 as (W2 & L2 & N2).
  sel.
  exists (ENext b1 (EBool false)).
  fin_KVal. Qed.
Lemma prod_43 : prod_sound E 43.
Proof. start.
  intros x1 w1 H1.
  destruct H1 as (W1 & L1 & N1).
  sel.
  exists (EBool false).
  fin_KVal. Qed.
Lemma prod_44 : prod_sound E 44.
Proof. start.
  intros x2 w2 H2 x1 w1 H1.
  destruct H1 as (b1 & W1).
  destruct H2 as (v2 & W2 & L2).
  sel.
  exists (ENext b1 (EInt v2)).
  fin_KVal. Qed.
Lemma prod_45 : prod_sound E 45.
Proof. start.
  intros x1 w1 H1.
  destruct H1 as (v1 & W1 & L1).
  sel.
  exists (EInt v1).
  fin_KVal. Qed.
Lemma prod_46 : prod_sound E 46.
Proof. start.
  intros x2 w2 H2 x1 w1 H1.
  destruct H1 as (b1 & W1).
  destruct H2 as (v2 & W2 & L2).
  sel.
  apply to_ref in W2.
  exists (ENext b1 (ERef v2)).
  fin_KVal. Qed.
Lemma prod_47 : prod_sound E 47.
Proof. start.
  intros x1 w1 H1.
  destruct H1 as (v1 & W1 & L1).
  sel.
  apply to_ref in W1.
  exists (ERef v1).
  fin_KVal. Qed.
Lemma prod_48 : prod_sound E 48.
Proof. start.
  intros x2 w2 H2 x1 w1 H1.
  destruct H1 as (b1 & W1).
  destruct H2 as (c2 & W2 & L2).
  sel.
  exists (ENext b1 (EStr c2)).
  fin_KVal. Qed.
Lemma prod_49 : prod_sound E 49.
Proof. start.
  intros x1 w1 H1.
  destruct H1 as (c1 & W1 & L1).
  sel.
  exists (EStr c1).
  fin_KVal. Qed.
Lemma prod_50 : prod_sound E 50.
Proof. start.
  intros x1 w1 H1.
  destruct H1 as (c1 & W1 & L1).
  sel.
  exists (EMulti c1).
  fin_KVal. Qed.
Lemma prod_51 : prod_sound E 51.
Proof. start.
  intros x1 w1 H1.
  destruct H1 as (e1 & W1 & L1 & S1 & A1 & O1 & B1).
  sel.
  exists e1.
  fin_KVal. Qed.
Lemma prod_52 : prod_sound E 52.
Proof. start.
  intros x1 w1 H1.
  destruct H1 as (e1 & W1 & L1 & S1 & A1).
  sel.
  destruct (object_facts e1 A1) as (F1 & F2 & F3 & F4).
  exists e1.
  fin_KVal. Qed.
Lemma prod_53 : prod_sound E 53.
Proof. start.
  intros x2 w2 H2 x1 w1 H1.
  destruct H1 as (b1 & W1).
  destruct H2 as (e2 & W2 & L2 & S2 & A2).
  sel.
  destruct (lone_facts e2 A2) as (F1 & F2 & F3).
  exists (ENext b1 e2).
  fin_KVal. Qed.
Lemma prod_54 : prod_sound E 54.
Proof. start.
  intros x1 w1 H1.
  destruct H1 as (e1 & W1 & L1 & S1 & A1).
  sel.
  destruct (lone_facts e1 A1) as (F1 & F2 & F3).
  exists e1.
  fin_KVal. Qed.
Lemma prod_55 : prod_sound E 55.
Proof. start.
  intros x1 w1 H1.
  destruct H1 as (e1 & W1 & L1 & S1 & A1 & O1 & B1).
  sel.
  exists e1.
  fin_KVal. Qed.
Lemma prod_56 : prod_sound E 56.
Proof. start.
  intros x1 w1 H1.
  destruct H1 as (e1 & W1 & L1 & S1 & A1 & O1 & B1).
  sel.
  exists e1.
  fin_KVal. Qed.
Lemma prod_57 : prod_sound E 57.
Proof. start.
  intros x2 w2 H2 x1 w1 H1.
  destruct H1 as (e1 & W1 & L1 & S1 & A1 & O1 & B1).
  destruct H2 as (W2 & N2).
  sel.
  rewrite N2 in B1; specialize (B1 eq_refl). assert (Hb : negb (open e1) || banged e1 = true) by (destruct (open e1); [exact (B1 eq_refl)|reflexivity]).
  exists (EBang e1).
  fin_KVb. Qed.
Lemma prod_58 : prod_sound E 58.
Proof. start.
  intros x1 w1 H1.
  destruct H1 as (e1 & W1 & L1 & S1 & A1 & O1 & B1).
  sel.
  exists e1.
  fin_KVb. Qed.
Lemma prod_59 : prod_sound E 59.
Proof. start.
  intros x4 w4 H4 x3 w3 H3 x2 w2 H2 x1 w1 H1.
  destruct H1 as (W1 & N1).
  destruct H2 as (e2 & W2 & L2 & S2 & A2 & O2 & B2).
  destruct H3 as (W3 & N3).
  destruct H4 as (W4 & N4).
  sel.
  exists (EBang (EParen e2)).
  fin_KVb. Qed.
Lemma prod_60 : prod_sound E 60.
Proof. start.
  intros x3 w3 H3 x2 w2 H2 x1 w1 H1.
  destruct H1 as (W1 & N1).
  destruct H2 as (e2 & W2 & L2 & S2 & A2 & O2 & B2).
  destruct H3 as (W3 & N3).
  sel.
  exists (EParen e2).
  fin_KVb. Qed.
Lemma prod_68 : prod_sound E 68.
Proof. start.
  intros x1 w1 H1.
  destruct H1 as (e1 & W1 & L1 & S1 & O1 & B1).
  sel.
  exists e1.
  fin_KVarVal. Qed.
Lemma prod_69 : prod_sound E 69.
Proof. start.
  intros x1 w1 H1.
  destruct H1 as (e1 & W1 & L1 & S1 & A1).
  sel.
  destruct (loop_facts e1 A1) as (F1 & F2 & F3).
  exists e1.
  fin_KVarVal. Qed.
Lemma prod_70 : prod_sound E 70.
Proof. start.
  intros x1 w1 H1.
  destruct H1 as (c1 & W1 & L1).
  sel.
  exists c1.
  fin_KMeta. Qed.
Lemma prod_71 : prod_sound E 71.
Proof. start.
  intros x1 w1 H1.
  destruct H1 as (e1 & W1 & L1 & S1 & O1 & B1).
  sel.
  exists e1.
  fin_KVarVal. Qed.
Lemma prod_72 : prod_sound E 72.
Proof. start.
  intros x1 w1 H1.
  destruct H1 as (e1 & W1 & L1 & S1 & A1).
  sel.
  destruct (loop_facts e1 A1) as (F1 & F2 & F3).
  exists e1.
  fin_KVarVal. Qed.
Lemma prod_73 : prod_sound E 73.
Proof. start.
  intros x1 w1 H1.
  destruct H1 as (e1 & W1 & L1 & S1 & A1).
  sel.
  destruct (object_facts e1 A1) as (F1 & F2 & F3 & F4).
  exists e1.
  fin_KBody. Qed.
Lemma prod_74 : prod_sound E 74.
Proof. start.
  intros x1 w1 H1.
  destruct H1 as (e1 & W1 & L1 & S1 & A1).
  sel.
  destruct (loop_facts e1 A1) as (F1 & F2 & F3).
  exists e1.
  fin_KBody. Qed.
Lemma prod_75 : prod_sound E 75.
Proof. start.
  intros x1 w1 H1.
  destruct H1 as (e1 & W1 & L1 & S1).
  sel.
  exists e1.
  fin_KBody. Qed.
Lemma prod_76 : prod_sound E 76.
Proof. start.
  intros x1 w1 H1.
  destruct H1 as (e1 & W1 & L1 & S1 & A1).
  sel.
  destruct (object_facts e1 A1) as (F1 & F2 & F3 & F4).
  exists e1.
  fin_KBody. Qed.
Lemma prod_77 : prod_sound E 77.
Proof. start.
  intros x1 w1 H1.
  destruct H1 as (e1 & W1 & L1 & S1 & A1).
  sel.
  destruct (loop_facts e1 A1) as (F1 & F2 & F3).
  exists e1.
  fin_KBody. Qed.
Lemma prod_78 : prod_sound E 78.
Proof. start.
  intros x1 w1 H1.
  destruct H1 as (e1 & W1 & L1 & S1).
  sel.
  exists e1.
  fin_KBody. Qed.
Lemma prod_79 : prod_sound E 79.
Proof. start.
  intros x7 w7 H7 x6 w6 H6 x5 w5 H5 x4 w4 H4 x3 w3 H3 x2 w2 H2 x1 w1 H1.
  destruct H1 as (W1 & L1 & N1).
  destruct H2 as (v2 & W2 & L2).
  destruct H3 as (c3 & W3 & L3).
  destruct H4 as (W4 & L4).
  destruct H5 as (W5 & N5).
  destruct H6 as (e6 & W6 & L6 & S6 & A6).
  destruct H7 as (bs7 & W7 & L7 & S7).
  sel.
  rewrite ?L7; cbn [app].
  destruct (object_facts e6 A6) as (F1 & F2 & F3 & F4).
  exists (Child v2 c3 true e6), bs7.
  fin_KChild. Qed.
Lemma prod_80 : prod_sound E 80.
Proof. start.
  intros x7 w7 H7 x6 w6 H6 x5 w5 H5 x4 w4 H4 x3 w3 H3 x2 w2 H2 x1 w1 H1.
  destruct H1 as (W1 & L1 & N1).
  destruct H2 as (v2 & W2 & L2).
  destruct H3 as (c3 & W3 & L3).
  destruct H4 as (W4 & L4).
  destruct H5 as (W5 & N5).
  destruct H6 as (e6 & W6 & L6 & S6 & A6).
  destruct H7 as (bs7 & W7 & L7 & S7).
  sel.
  rewrite ?L7; cbn [app].
  destruct (loop_facts e6 A6) as (F1 & F2 & F3).
  exists (Child v2 c3 true e6), bs7.
  fin_KChild. Qed.
Lemma prod_81 : prod_sound E 81.
Proof. start.
  intros x7 w7 H7 x6 w6 H6 x5 w5 H5 x4 w4 H4 x3 w3 H3 x2 w2 H2 x1 w1 H1.
  destruct H1 as (W1 & L1 & N1).
  destruct H2 as (v2 & W2 & L2).
  destruct H3 as (c3 & W3 & L3).
  destruct H4 as (W4 & L4).
  destruct H5 as (W5 & N5).
  destruct H6 as (e6 & W6 & L6 & S6).
  destruct H7 as (bs7 & W7 & L7 & S7).
  sel.
  rewrite ?L7; cbn [app].
  exists (Child v2 c3 true e6), bs7.
  fin_KChild. Qed.
Lemma prod_82 : prod_sound E 82.
Proof. start.
  intros x6 w6 H6 x5 w5 H5 x4 w4 H4 x3 w3 H3 x2 w2 H2 x1 w1 H1.
  destruct H1 as (W1 & L1 & N1).
  destruct H2 as (v2 & W2 & L2).
  destruct H3 as (c3 & W3 & L3).
  destruct H4 as (W4 & N4).
  destruct H5 as (e5 & W5 & L5 & S5 & A5).
  destruct H6 as (bs6 & W6 & L6 & S6).
  sel.
  rewrite ?L6; cbn [app].
  destruct (object_facts e5 A5) as (F1 & F2 & F3 & F4).
  exists (Child v2 c3 false e5), bs6.
  fin_KChild. Qed.
Lemma prod_83 : prod_sound E 83.
Proof. start.
  intros x6 w6 H6 x5 w5 H5 x4 w4 H4 x3 w3 H3 x2 w2 H2 x1 w1 H1.
  destruct H1 as (W1 & L1 & N1).
  destruct H2 as (v2 & W2 & L2).
  destruct H3 as (c3 & W3 & L3).
  destruct H4 as (W4 & N4).
  destruct H5 as (e5 & W5 & L5 & S5 & A5).
  destruct H6 as (bs6 & W6 & L6 & S6).
  sel.
  rewrite ?L6; cbn [app].
  destruct (loop_facts e5 A5) as (F1 & F2 & F3).
  exists (Child v2 c3 false e5), bs6.
  fin_KChild. Qed.
Lemma prod_84 : prod_sound E 84.
Proof. start.
  intros x6 w6 H6 x5 w5 H5 x4 w4 H4 x3 w3 H3 x2 w2 H2 x1 w1 H1.
  destruct H1 as (W1 & L1 & N1).
  destruct H2 as (v2 & W2 & L2).
  destruct H3 as (c3 & W3 & L3).
  destruct H4 as (W4 & N4).
  destruct H5 as (e5 & W5 & L5 & S5).
  destruct H6 as (bs6 & W6 & L6 & S6).
  sel.
  rewrite ?L6; cbn [app].
  exists (Child v2 c3 false e5), bs6.
  fin_KChild. Qed.
Lemma prod_93 : prod_sound E 93.
Proof. start.
  intros x1 w1 H1.
  destruct H1 as (c1 & W1 & L1).
  sel.
  exists c1.
  fin_KTap. Qed.
Lemma prod_94 : prod_sound E 94.
Proof. start.
  intros x1 w1 H1.
  destruct H1 as (c1 & W1 & L1).
  sel.
  exists c1.
  fin_KMp. Qed.
Lemma prod_99 : prod_sound E 99.
Proof. start.
  intros x9 w9 H9 x8 w8 H8 x7 w7 H7 x6 w6 H6 x5 w5 H5 x4 w4 H4 x3 w3 H3 x2 w2 H2 x1 w1 H1.
  destruct H1 as (W1 & N1).
  destruct H2 as (b2 & W2).
  destruct H3 as (W3 & L3 & N3).
  destruct H4 as (r4 & e4 & W4 & L4 & S4).
  destruct H5 as (W5 & N5).
  destruct H6 as (e6 & W6 & L6 & S6 & O6 & B6).
  destruct H7 as (e7 & W7 & L7 & S7 & O7 & B7).
  destruct H8 as (b8 & W8).
  destruct H9 as (W9 & N9).
  sel.
  exists (ELoop (Some b2) r4 e4 (Some e6) e7 (Some b8)).
  fin_KLoop. Qed.
Lemma prod_100 : prod_sound E 100.
Proof. start.
  intros x8 w8 H8 x7 w7 H7 x6 w6 H6 x5 w5 H5 x4 w4 H4 x3 w3 H3 x2 w2 H2 x1 w1 H1.
  destruct H1 as (W1 & N1).
  destruct H2 as (b2 & W2).
  destruct H3 as (W3 & L3 & N3).
  destruct H4 as (r4 & e4 & W4 & L4 & S4).
  destruct H5 as (W5 & N5).
  destruct H6 as (e6 & W6 & L6 & S6 & O6 & B6).
  destruct H7 as (e7 & W7 & L7 & S7 & O7 & B7).
  destruct H8 as (W8 & N8).
  sel.
  exists (ELoop (Some b2) r4 e4 (Some e6) e7 None).
  fin_KLoop. Qed.
Lemma prod_101 : prod_sound E 101.
Proof. start.
  intros x8 w8 H8 x7 w7 H7 x6 w6 H6 x5 w5 H5 x4 w4 H4 x3 w3 H3 x2 w2 H2 x1 w1 H1.
  destruct H1 as (W1 & N1).
  destruct H2 as (b2 & W2).
  destruct H3 as (W3 & L3 & N3).
  destruct H4 as (r4 & e4 & W4 & L4 & S4).
  destruct H5 as (W5 & N5).
  destruct H6 as (e6 & W6 & L6 & S6 & O6 & B6).
  destruct H7 as (b7 & W7).
  destruct H8 as (W8 & N8).
  sel.
  exists (ELoop (Some b2) r4 e4 None e6 (Some b7)).
  fin_KLoop. Qed.
Lemma prod_102 : prod_sound E 102.
Proof. start.
  intros x7 w7 H7 x6 w6 H6 x5 w5 H5 x4 w4 H4 x3 w3 H3 x2 w2 H2 x1 w1 H1.
  destruct H1 as (W1 & N1).
  destruct H2 as (b2 & W2).
  destruct H3 as (W3 & L3 & N3).
  destruct H4 as (r4 & e4 & W4 & L4 & S4).
  destruct H5 as (W5 & N5).
  destruct H6 as (e6 & W6 & L6 & S6 & O6 & B6).
  destruct H7 as (W7 & N7).
  sel.
  exists (ELoop (Some b2) r4 e4 None e6 None).
  fin_KLoop. Qed.
Lemma prod_103 : prod_sound E 103.
Proof. start.
  intros x9 w9 H9 x8 w8 H8 x7 w7 H7 x6 w6 H6 x5 w5 H5 x4 w4 H4 x3 w3 H3 x2 w2 H2 x1 w1 H1.
  destruct H1 as (W1 & N1).
  destruct H2 as (b2 & W2).
  destruct H3 as (W3 & L3 & N3).
  destruct H4 as (r4 & e4 & W4 & L4 & S4).
  destruct H5 as (W5 & N5).
  destruct H6 as (e6 & W6 & L6 & S6 & O6 & B6).
  destruct H7 as (e7 & W7 & L7 & S7 & O7 & B7).
  destruct H8 as (b8 & W8).
  destruct H9 as (W9 & N9).
  sel.
  exists (ELoop (Some b2) r4 e4 (Some e6) e7 (Some b8)).
  fin_KLoop. Qed.
Lemma prod_104 : prod_sound E 104.
Proof. start.
  intros x8 w8 H8 x7 w7 H7 x6 w6 H6 x5 w5 H5 x4 w4 H4 x3 w3 H3 x2 w2 H2 x1 w1 H1.
  destruct H1 as (W1 & N1).
  destruct H2 as (b2 & W2).
  destruct H3 as (W3 & L3 & N3).
  destruct H4 as (r4 & e4 & W4 & L4 & S4).
  destruct H5 as (W5 & N5).
  destruct H6 as (e6 & W6 & L6 & S6 & O6 & B6).
  destruct H7 as (e7 & W7 & L7 & S7 & O7 & B7).
  destruct H8 as (W8 & N8).
  sel.
  exists (ELoop (Some b2) r4 e4 (Some e6) e7 None).
  fin_KLoop. Qed.
Lemma prod_105 : prod_sound E 105.
Proof. start.
  intros x8 w8 H8 x7 w7 H7 x6 w6 H6 x5 w5 H5 x4 w4 H4 x3 w3 H3 x2 w2 H2 x1 w1 H1.
  destruct H1 as (W1 & N1).
  destruct H2 as (b2 & W2).
  destruct H3 as (W3 & L3 & N3).
  destruct H4 as (r4 & e4 & W4 & L4 & S4).
  destruct H5 as (W5 & N5).
  destruct H6 as (e6 & W6 & L6 & S6 & O6 & B6).
  destruct H7 as (b7 & W7).
  destruct H8 as (W8 & N8).
  sel.
  exists (ELoop (Some b2) r4 e4 None e6 (Some b7)).
  fin_KLoop. Qed.
Lemma prod_106 : prod_sound E 106.
Proof. start.
  intros x7 w7 H7 x6 w6 H6 x5 w5 H5 x4 w4 H4 x3 w3 H3 x2 w2 H2 x1 w1 H1.
  destruct H1 as (W1 & N1).
  destruct H2 as (b2 & W2).
  destruct H3 as (W3 & L3 & N3).
  destruct H4 as (r4 & e4 & W4 & L4 & S4).
  destruct H5 as (W5 & N5).
  destruct H6 as (e6 & W6 & L6 & S6 & O6 & B6).
  destruct H7 as (W7 & N7).
  sel.
  exists (ELoop (Some b2) r4 e4 None e6 None).
  fin_KLoop. Qed.
Lemma prod_107 : prod_sound E 107.
Proof. start.
  intros x9 w9 H9 x8 w8 H8 x7 w7 H7 x6 w6 H6 x5 w5 H5 x4 w4 H4 x3 w3 H3 x2 w2 H2 x1 w1 H1.
  destruct H1 as (W1 & N1).
  destruct H2 as (b2 & W2).
  destruct H3 as (W3 & L3 & N3).
  destruct H4 as (r4 & e4 & W4 & L4 & S4).
  destruct H5 as (W5 & N5).
  destruct H6 as (e6 & W6 & L6 & S6 & O6 & B6).
  destruct H7 as (e7 & W7 & L7 & S7 & O7 & B7).
  destruct H8 as (b8 & W8).
  destruct H9 as (W9 & N9).
  sel.
  exists (ELoop (Some b2) r4 e4 (Some e6) e7 (Some b8)).
  fin_KLoop. Qed.
Lemma prod_108 : prod_sound E 108.
Proof. start.
  intros x8 w8 H8 x7 w7 H7 x6 w6 H6 x5 w5 H5 x4 w4 H4 x3 w3 H3 x2 w2 H2 x1 w1 H1.
  destruct H1 as (W1 & N1).
  destruct H2 as (b2 & W2).
  destruct H3 as (W3 & L3 & N3).
  destruct H4 as (r4 & e4 & W4 & L4 & S4).
  destruct H5 as (W5 & N5).
  destruct H6 as (e6 & W6 & L6 & S6 & O6 & B6).
  destruct H7 as (e7 & W7 & L7 & S7 & O7 & B7).
  destruct H8 as (W8 & N8).
  sel.
  exists (ELoop (Some b2) r4 e4 (Some e6) e7 None).
  fin_KLoop. Qed.
Lemma prod_109 : prod_sound E 109.
Proof. start.
  intros x8 w8 H8 x7 w7 H7 x6 w6 H6 x5 w5 H5 x4 w4 H4 x3 w3 H3 x2 w2 H2 x1 w1 H1.
  destruct H1 as (W1 & N1).
  destruct H2 as (b2 & W2).
  destruct H3 as (W3 & L3 & N3).
  destruct H4 as (r4 & e4 & W4 & L4 & S4).
  destruct H5 as (W5 & N5).
  destruct H6 as (e6 & W6 & L6 & S6 & O6 & B6).
  destruct H7 as (b7 & W7).
  destruct H8 as (W8 & N8).
  sel.
  exists (ELoop (Some b2) r4 e4 None e6 (Some b7)).
  fin_KLoop. Qed.
Lemma prod_110 : prod_sound E 110.
Proof. start.
  intros x7 w7 H7 x6 w6 H6 x5 w5 H5 x4 w4 H4 x3 w3 H3 x2 w2 H2 x1 w1 H1.
  destruct H1 as (W1 & N1).
  destruct H2 as (b2 & W2).
  destruct H3 as (W3 & L3 & N3).
  destruct H4 as (r4 & e4 & W4 & L4 & S4).
  destruct H5 as (W5 & N5).
  destruct H6 as (e6 & W6 & L6 & S6 & O6 & B6).
  destruct H7 as (W7 & N7).
  sel.
  exists (ELoop (Some b2) r4 e4 None e6 None).
  fin_KLoop. Qed.
Lemma prod_111 : prod_sound E 111.
Proof. start.
  intros x8 w8 H8 x7 w7 H7 x6 w6 H6 x5 w5 H5 x4 w4 H4 x3 w3 H3 x2 w2 H2 x1 w1 H1.
  destruct H1 as (W1 & N1).
  destruct H2 as (W2 & L2 & N2).
  destruct H3 as (r3 & e3 & W3 & L3 & S3).
  destruct H4 as (W4 & N4).
  destruct H5 as (e5 & W5 & L5 & S5 & O5 & B5).
  destruct H6 as (e6 & W6 & L6 & S6 & O6 & B6).
  destruct H7 as (b7 & W7).
  destruct H8 as (W8 & N8).
  sel.
  exists (ELoop None r3 e3 (Some e5) e6 (Some b7)).
  fin_KLoop. Qed.
Lemma prod_112 : prod_sound E 112.
Proof. start.
  intros x7 w7 H7 x6 w6 H6 x5 w5 H5 x4 w4 H4 x3 w3 H3 x2 w2 H2 x1 w1 H1.
  destruct H1 as (W1 & N1).
  destruct H2 as (W2 & L2 & N2).
  destruct H3 as (r3 & e3 & W3 & L3 & S3).
  destruct H4 as (W4 & N4).
  destruct H5 as (e5 & W5 & L5 & S5 & O5 & B5).
  destruct H6 as (e6 & W6 & L6 & S6 & O6 & B6).
  destruct H7 as (W7 & N7).
  sel.
  exists (ELoop None r3 e3 (Some e5) e6 None).
  fin_KLoop. Qed.
Lemma prod_113 : prod_sound E 113.
Proof. start.
  intros x7 w7 H7 x6 w6 H6 x5 w5 H5 x4 w4 H4 x3 w3 H3 x2 w2 H2 x1 w1 H1.
  destruct H1 as (W1 & N1).
  destruct H2 as (W2 & L2 & N2).
  destruct H3 as (r3 & e3 & W3 & L3 & S3).
  destruct H4 as (W4 & N4).
  destruct H5 as (e5 & W5 & L5 & S5 & O5 & B5).
  destruct H6 as (b6 & W6).
  destruct H7 as (W7 & N7).
  sel.
  exists (ELoop None r3 e3 None e5 (Some b6)).
  fin_KLoop. Qed.
Lemma prod_114 : prod_sound E 114.
Proof. start.
  intros x6 w6 H6 x5 w5 H5 x4 w4 H4 x3 w3 H3 x2 w2 H2 x1 w1 H1.
  destruct H1 as (W1 & N1).
  destruct H2 as (W2 & L2 & N2).
  destruct H3 as (r3 & e3 & W3 & L3 & S3).
  destruct H4 as (W4 & N4).
  destruct H5 as (e5 & W5 & L5 & S5 & O5 & B5).
  destruct H6 as (W6 & N6).
  sel.
  exists (ELoop None r3 e3 None e5 None).
  fin_KLoop. Qed.
Lemma prod_115 : prod_sound E 115.
Proof. start.
  intros x8 w8 H8 x7 w7 H7 x6 w6 H6 x5 w5 H5 x4 w4 H4 x3 w3 H3 x2 w2 H2 x1 w1 H1.
  destruct H1 as (W1 & N1).
  destruct H2 as (W2 & L2 & N2).
  destruct H3 as (r3 & e3 & W3 & L3 & S3).
  destruct H4 as (W4 & N4).
  destruct H5 as (e5 & W5 & L5 & S5 & O5 & B5).
  destruct H6 as (e6 & W6 & L6 & S6 & O6 & B6).
  destruct H7 as (b7 & W7).
  destruct H8 as (W8 & N8).
  sel.
  exists (ELoop None r3 e3 (Some e5) e6 (Some b7)).
  fin_KLoop. Qed.
Lemma prod_116 : prod_sound E 116.
Proof. start.
  intros x7 w7 H7 x6 w6 H6 x5 w5 H5 x4 w4 H4 x3 w3 H3 x2 w2 H2 x1 w1 H1.
  destruct H1 as (W1 & N1).
  destruct H2 as (W2 & L2 & N2).
  destruct H3 as (r3 & e3 & W3 & L3 & S3).
  destruct H4 as (W4 & N4).
  destruct H5 as (e5 & W5 & L5 & S5 & O5 & B5).
  destruct H6 as (e6 & W6 & L6 & S6 & O6 & B6).
  destruct H7 as (W7 & N7).
  sel.
  exists (ELoop None r3 e3 (Some e5) e6 None).
  fin_KLoop. Qed.
Lemma prod_117 : prod_sound E 117.
Proof. start.
  intros x7 w7 H7 x6 w6 H6 x5 w5 H5 x4 w4 H4 x3 w3 H3 x2 w2 H2 x1 w1 H1.
  destruct H1 as (W1 & N1).
  destruct H2 as (W2 & L2 & N2).
  destruct H3 as (r3 & e3 & W3 & L3 & S3).
  destruct H4 as (W4 & N4).
  destruct H5 as (e5 & W5 & L5 & S5 & O5 & B5).
  destruct H6 as (b6 & W6).
  destruct H7 as (W7 & N7).
  sel.
  exists (ELoop None r3 e3 None e5 (Some b6)).
  fin_KLoop. Qed.
Lemma prod_118 : prod_sound E 118.
Proof. start.
  intros x6 w6 H6 x5 w5 H5 x4 w4 H4 x3 w3 H3 x2 w2 H2 x1 w1 H1.
  destruct H1 as (W1 & N1).
  destruct H2 as (W2 & L2 & N2).
  destruct H3 as (r3 & e3 & W3 & L3 & S3).
  destruct H4 as (W4 & N4).
  destruct H5 as (e5 & W5 & L5 & S5 & O5 & B5).
  destruct H6 as (W6 & N6).
  sel.
  exists (ELoop None r3 e3 None e5 None).
  fin_KLoop. Qed.
Lemma prod_119 : prod_sound E 119.
Proof. start.
  intros x8 w8 H8 x7 w7 H7 x6 w6 H6 x5 w5 H5 x4 w4 H4 x3 w3 H3 x2 w2 H2 x1 w1 H1.
  destruct H1 as (W1 & N1).
  destruct H2 as (W2 & L2 & N2).
  destruct H3 as (r3 & e3 & W3 & L3 & S3).
  destruct H4 as (W4 & N4).
  destruct H5 as (e5 & W5 & L5 & S5 & O5 & B5).
  destruct H6 as (e6 & W6 & L6 & S6 & O6 & B6).
  destruct H7 as (b7 & W7).
  destruct H8 as (W8 & N8).
  sel.
  exists (ELoop None r3 e3 (Some e5) e6 (Some b7)).
  fin_KLoop. Qed.
Lemma prod_120 : prod_sound E 120.
Proof. start.
  intros x7 w7 H7 x6 w6 H6 x5 w5 H5 x4 w4 H4 x3 w3 H3 x2 w2 H2 x1 w1 H1.
  destruct H1 as (W1 & N1).
  destruct H2 as (W2 & L2 & N2).
  destruct H3 as (r3 & e3 & W3 & L3 & S3).
  destruct H4 as (W4 & N4).
  destruct H5 as (e5 & W5 & L5 & S5 & O5 & B5).
  destruct H6 as (e6 & W6 & L6 & S6 & O6 & B6).
  destruct H7 as (W7 & N7).
  sel.
  exists (ELoop None r3 e3 (Some e5) e6 None).
  fin_KLoop. Qed.
Lemma prod_121 : prod_sound E 121.
Proof. start.
  intros x7 w7 H7 x6 w6 H6 x5 w5 H5 x4 w4 H4 x3 w3 H3 x2 w2 H2 x1 w1 H1.
  destruct H1 as (W1 & N1).
  destruct H2 as (W2 & L2 & N2).
  destruct H3 as (r3 & e3 & W3 & L3 & S3).
  destruct H4 as (W4 & N4).
  destruct H5 as (e5 & W5 & L5 & S5 & O5 & B5).
  destruct H6 as (b6 & W6).
  destruct H7 as (W7 & N7).
  sel.
  exists (ELoop None r3 e3 None e5 (Some b6)).
  fin_KLoop. Qed.
Lemma prod_122 : prod_sound E 122.
Proof. start.
  intros x6 w6 H6 x5 w5 H5 x4 w4 H4 x3 w3 H3 x2 w2 H2 x1 w1 H1.
  destruct H1 as (W1 & N1).
  destruct H2 as (W2 & L2 & N2).
  destruct H3 as (r3 & e3 & W3 & L3 & S3).
  destruct H4 as (W4 & N4).
  destruct H5 as (e5 & W5 & L5 & S5 & O5 & B5).
  destruct H6 as (W6 & N6).
  sel.
  exists (ELoop None r3 e3 None e5 None).
  fin_KLoop. Qed.
Lemma prod_123 : prod_sound E 123.
Proof. start.
  intros x3 w3 H3 x2 w2 H2 x1 w1 H1.
  destruct H1 as (v1 & W1 & L1).
  destruct H2 as (W2 & L2 & N2).
  destruct H3 as (e3 & W3 & L3 & S3 & O3 & B3).
  sel.
  exists (OverItems v1), e3.
  fin_KRange. Qed.
Lemma prod_124 : prod_sound E 124.
Proof. start.
  intros x7 w7 H7 x6 w6 H6 x5 w5 H5 x4 w4 H4 x3 w3 H3 x2 w2 H2 x1 w1 H1.
  destruct H1 as (W1 & N1).
  destruct H2 as (v2 & W2 & L2).
  destruct H3 as (W3 & N3).
  destruct H4 as (v4 & W4 & L4).
  destruct H5 as (W5 & N5).
  destruct H6 as (W6 & L6 & N6).
  destruct H7 as (e7 & W7 & L7 & S7 & O7 & B7).
  sel.
  exists (OverIndexed v2 v4), e7.
  fin_KRange. Qed.
Lemma prod_125 : prod_sound E 125.
Proof. start.
  intros x6 w6 H6 x5 w5 H5 x4 w4 H4 x3 w3 H3 x2 w2 H2 x1 w1 H1.
  destruct H1 as (v1 & W1 & L1).
  destruct H2 as (W2 & L2 & N2).
  destruct H3 as (W3 & L3 & N3).
  destruct H4 as (W4 & N4).
  destruct H5 as (e5 & W5 & L5 & S5 & O5 & B5).
  destruct H6 as (W6 & N6).
  sel.
  exists (OverEntries v1), e5.
  fin_KRange. Qed.
Lemma prod_126 : prod_sound E 126.
Proof. start.
  intros x6 w6 H6 x5 w5 H5 x4 w4 H4 x3 w3 H3 x2 w2 H2 x1 w1 H1.
  destruct H1 as (b1 & W1).
  destruct H2 as (W2 & L2 & N2).
  destruct H3 as (W3 & N3).
  destruct H4 as (e4 & W4 & L4 & S4 & O4 & B4).
  destruct H5 as (W5 & N5).
  destruct H6 as (e6 & W6 & L6 & S6 & O6 & B6).
  sel.
  exists (EIf (Some b1) e4 e6).
  fin_KBody. Qed.
Lemma prod_127 : prod_sound E 127.
Proof. start.
  intros x5 w5 H5 x4 w4 H4 x3 w3 H3 x2 w2 H2 x1 w1 H1.
  destruct H1 as (W1 & L1 & N1).
  destruct H2 as (W2 & N2).
  destruct H3 as (e3 & W3 & L3 & S3 & O3 & B3).
  destruct H4 as (W4 & N4).
  destruct H5 as (e5 & W5 & L5 & S5 & O5 & B5).
  sel.
  exists (EIf None e3 e5).
  fin_KBody. Qed.
Lemma prod_128 : prod_sound E 128.
Proof. start.
  intros x1 w1 H1.
  destruct H1 as (v1 & W1 & L1).
  sel.
  apply to_key in W1.
  exists (Spec.Syntax.KName v1).
  fin_KQS. Qed.
Lemma prod_129 : prod_sound E 129.
Proof. start.
  intros x1 w1 H1.
  destruct H1 as (c1 & W1 & L1).
  sel.
  exists (Spec.Syntax.KQuoted c1).
  fin_KQS. Qed.
Lemma prod_130 : prod_sound E 130.
Proof. start.
  intros x1 w1 H1.
  destruct H1 as (c1 & W1 & L1).
  sel.
  exists (Spec.Syntax.KQuoted c1).
  fin_KQS. Qed.
Lemma prod_131 : prod_sound E 131.
Proof. start.
  intros x4 w4 H4 x3 w3 H3 x2 w2 H2 x1 w1 H1.
  destruct H1 as (W1 & N1).
  destruct H2 as (bs2 & W2 & L2 & S2).
  destruct H3 as (rs3 & W3 & L3 & S3).
  destruct H4 as (W4 & N4).
  sel.
  rewrite ?L2; cbn [app].
  exists (EArray bs2 rs3).
  fin_KVal. Qed.
Lemma prod_132 : prod_sound E 132.
Proof. start.
  intros x3 w3 H3 x2 w2 H2 x1 w1 H1.
  destruct H1 as (W1 & N1).
  destruct H2 as (bs2 & W2 & L2 & S2).
  destruct H3 as (W3 & N3).
  sel.
  rewrite ?L2; cbn [app].
  exists (EArray bs2 []).
  fin_KVal. Qed.
Lemma prod_133 : prod_sound E 133.
Proof. start.
  intros x3 w3 H3 x2 w2 H2 x1 w1 H1.
  destruct H1 as (W1 & N1).
  destruct H2 as (rs2 & W2 & L2 & S2).
  destruct H3 as (W3 & N3).
  sel.
  exists (EArray [] rs2).
  fin_KVal. Qed.
Lemma prod_134 : prod_sound E 134.
Proof. start.
  intros x2 w2 H2 x1 w1 H1.
  destruct H1 as (W1 & N1).
  destruct H2 as (W2 & N2).
  sel.
  exists (EArray [] []).
  fin_KVal. Qed.
Lemma prod_135 : prod_sound E 135.
Proof. start.
  intros x4 w4 H4 x3 w3 H3 x2 w2 H2 x1 w1 H1.
  destruct H1 as (W1 & N1).
  destruct H2 as (bs2 & W2 & L2 & S2).
  destruct H3 as (rs3 & W3 & L3 & S3).
  destruct H4 as (W4 & N4).
  sel.
  rewrite ?L2; cbn [app].
  exists (EObject bs2 rs3).
  fin_KObj. Qed.
Lemma prod_136 : prod_sound E 136.
Proof. start.
  intros x3 w3 H3 x2 w2 H2 x1 w1 H1.
  destruct H1 as (W1 & N1).
  destruct H2 as (bs2 & W2 & L2 & S2).
  destruct H3 as (W3 & N3).
  sel.
  rewrite ?L2; cbn [app].
  exists (EObject bs2 []).
  fin_KObj. Qed.
Lemma prod_137 : prod_sound E 137.
Proof. start.
  intros x3 w3 H3 x2 w2 H2 x1 w1 H1.
  destruct H1 as (W1 & N1).
  destruct H2 as (rs2 & W2 & L2 & S2).
  destruct H3 as (W3 & N3).
  sel.
  exists (EObject [] rs2).
  fin_KObj. Qed.
Lemma prod_138 : prod_sound E 138.
Proof. start.
  intros x2 w2 H2 x1 w1 H1.
  destruct H1 as (W1 & N1).
  destruct H2 as (W2 & N2).
  sel.
  exists (EObject [] []).
  fin_KObj. Qed.
Lemma prod_139 : prod_sound E 139.
Proof. start.
  intros x4 w4 H4 x3 w3 H3 x2 w2 H2 x1 w1 H1.
  destruct H1 as (k1 & W1 & L1).
  destruct H2 as (W2 & N2).
  destruct H3 as (e3 & W3 & L3 & S3 & O3 & B3).
  destruct H4 as (W4 & N4).
  sel.
  closed e3 O3 N4.
  exists (k1, e3, true).
  fin_KPair. Qed.
Lemma prod_140 : prod_sound E 140.
Proof. start.
  intros x3 w3 H3 x2 w2 H2 x1 w1 H1.
  destruct H1 as (k1 & W1 & L1).
  destruct H2 as (W2 & N2).
  destruct H3 as (e3 & W3 & L3 & S3 & O3 & B3).
  sel.
  exists (k1, e3, false).
  fin_KPair. Qed.
Lemma prod_141 : prod_sound E 141.
Proof. start.
  intros x4 w4 H4 x3 w3 H3 x2 w2 H2 x1 w1 H1.
  destruct H1 as (k1 & W1 & L1).
  destruct H2 as (W2 & N2).
  destruct H3 as (e3 & W3 & L3 & S3 & A3).
  destruct H4 as (W4 & N4).
  sel.
  destruct (loop_facts e3 A3) as (F1 & F2 & F3).
  exists (k1, e3, true).
  fin_KPair. Qed.
Lemma prod_142 : prod_sound E 142.
Proof. start.
  intros x3 w3 H3 x2 w2 H2 x1 w1 H1.
  destruct H1 as (k1 & W1 & L1).
  destruct H2 as (W2 & N2).
  destruct H3 as (e3 & W3 & L3 & S3 & A3).
  sel.
  destruct (loop_facts e3 A3) as (F1 & F2 & F3).
  exists (k1, e3, false).
  fin_KPair. Qed.
Lemma prod_143 : prod_sound E 143.
Proof. start.
  intros x1 w1 H1.
  destruct H1 as (W1 & L1 & N1).
  sel.
  exists KResource.
  fin_KKey. Qed.
Lemma prod_144 : prod_sound E 144.
Proof. start.
  intros x1 w1 H1.
  destruct H1 as (k1 & W1 & L1).
  sel.
  exists k1.
  fin_KKey. Qed.
Lemma prod_145 : prod_sound E 145.
Proof. start.
  intros x3 w3 H3 x2 w2 H2 x1 w1 H1.
  destruct H1 as (e1 & W1 & L1 & S1 & O1 & B1).
  destruct H2 as (W2 & N2).
  destruct H3 as (e3 & W3 & L3 & S3 & O3 & B3).
  sel.
  closed e1 O1 N2.
  exists (ELambda e1 e3).
  fin_KVal. Qed.
Lemma prod_146 : prod_sound E 146.
Proof. start.
  intros x8 w8 H8 x7 w7 H7 x6 w6 H6 x5 w5 H5 x4 w4 H4 x3 w3 H3 x2 w2 H2 x1 w1 H1.
  destruct H1 as (W1 & N1).
  destruct H2 as (e2 & W2 & L2 & S2 & O2 & B2).
  destruct H3 as (W3 & N3).
  destruct H4 as (e4 & W4 & L4 & S4 & O4 & B4).
  destruct H5 as (xs5 & W5 & L5 & S5 & M5).
  destruct H6 as (W6 & N6).
  destruct H7 as (W7 & N7).
  destruct H8 as (e8 & W8 & L8 & S8 & O8 & B8).
  sel.
  exists (ELambdas e2 e4 xs5 e8).
  fin_KVal. Qed.
Lemma prod_225 : prod_sound E 225.
Proof. start.
  intros x6 w6 H6 x5 w5 H5 x4 w4 H4 x3 w3 H3 x2 w2 H2 x1 w1 H1.
  destruct H1 as (v1 & W1 & L1).
  destruct H2 as (b2 & W2).
  destruct H3 as (e3 & W3 & L3 & S3 & O3 & B3).
  destruct H4 as (xs4 & W4 & L4 & S4 & M4).
  destruct H5 as (b5 & W5).
  destruct H6 as (W6 & N6).
  sel.
  exists (ECall v1 (Some b2) (Some e3) xs4 (Some b5)).
  fin_KCall. Qed.
Lemma prod_226 : prod_sound E 226.
Proof. start.
  intros x5 w5 H5 x4 w4 H4 x3 w3 H3 x2 w2 H2 x1 w1 H1.
  destruct H1 as (v1 & W1 & L1).
  destruct H2 as (b2 & W2).
  destruct H3 as (e3 & W3 & L3 & S3 & O3 & B3).
  destruct H4 as (xs4 & W4 & L4 & S4 & M4).
  destruct H5 as (W5 & N5).
  sel.
  exists (ECall v1 (Some b2) (Some e3) xs4 None).
  fin_KCall. Qed.
Lemma prod_227 : prod_sound E 227.
Proof. start.
  intros x5 w5 H5 x4 w4 H4 x3 w3 H3 x2 w2 H2 x1 w1 H1.
  destruct H1 as (v1 & W1 & L1).
  destruct H2 as (b2 & W2).
  destruct H3 as (e3 & W3 & L3 & S3 & O3 & B3).
  destruct H4 as (b4 & W4).
  destruct H5 as (W5 & N5).
  sel.
  exists (ECall v1 (Some b2) (Some e3) [] (Some b4)).
  fin_KCall. Qed.
Lemma prod_228 : prod_sound E 228.
Proof. start.
  intros x4 w4 H4 x3 w3 H3 x2 w2 H2 x1 w1 H1.
  destruct H1 as (v1 & W1 & L1).
  destruct H2 as (b2 & W2).
  destruct H3 as (e3 & W3 & L3 & S3 & O3 & B3).
  destruct H4 as (W4 & N4).
  sel.
  exists (ECall v1 (Some b2) (Some e3) [] None).
  fin_KCall. Qed.
Lemma prod_229 : prod_sound E 229.
Proof. start.
  intros x5 w5 H5 x4 w4 H4 x3 w3 H3 x2 w2 H2 x1 w1 H1.
  destruct H1 as (v1 & W1 & L1).
  destruct H2 as (b2 & W2).
  destruct H3 as (xs3 & W3 & L3 & S3 & M3).
  destruct H4 as (b4 & W4).
  destruct H5 as (W5 & N5).
  sel.
  exists (ECall v1 (Some b2) None xs3 (Some b4)).
  fin_KCall. Qed.
Lemma prod_230 : prod_sound E 230.
Proof. start.
  intros x4 w4 H4 x3 w3 H3 x2 w2 H2 x1 w1 H1.
  destruct H1 as (v1 & W1 & L1).
  destruct H2 as (b2 & W2).
  destruct H3 as (xs3 & W3 & L3 & S3 & M3).
  destruct H4 as (W4 & N4).
  sel.
  exists (ECall v1 (Some b2) None xs3 None).
  fin_KCall. Qed.
Lemma prod_231 : prod_sound E 231.
Proof. start.
  intros x4 w4 H4 x3 w3 H3 x2 w2 H2 x1 w1 H1.
  destruct H1 as (v1 & W1 & L1).
  destruct H2 as (b2 & W2).
  destruct H3 as (b3 & W3).
  destruct H4 as (W4 & N4).
  sel.
  exists (ECall v1 (Some b2) None [] (Some b3)).
  fin_KCall. Qed.
Lemma prod_232 : prod_sound E 232.
Proof. start.
  intros x3 w3 H3 x2 w2 H2 x1 w1 H1.
  destruct H1 as (v1 & W1 & L1).
  destruct H2 as (b2 & W2).
  destruct H3 as (W3 & N3).
  sel.
  exists (ECall v1 None None [] (Some b2)).
  fin_KCall. Qed.
Lemma prod_233 : prod_sound E 233.
Proof. start.
  intros x5 w5 H5 x4 w4 H4 x3 w3 H3 x2 w2 H2 x1 w1 H1.
  destruct H1 as (v1 & W1 & L1).
  destruct H2 as (e2 & W2 & L2 & S2 & O2 & B2).
  destruct H3 as (xs3 & W3 & L3 & S3 & M3).
  destruct H4 as (b4 & W4).
  destruct H5 as (W5 & N5).
  sel.
  exists (ECall v1 None (Some e2) xs3 (Some b4)).
  fin_KCall. Qed.
Lemma prod_234 : prod_sound E 234.
Proof. start.
  intros x4 w4 H4 x3 w3 H3 x2 w2 H2 x1 w1 H1.
  destruct H1 as (v1 & W1 & L1).
  destruct H2 as (e2 & W2 & L2 & S2 & O2 & B2).
  destruct H3 as (xs3 & W3 & L3 & S3 & M3).
  destruct H4 as (W4 & N4).
  sel.
  exists (ECall v1 None (Some e2) xs3 None).
  fin_KCall. Qed.
Lemma prod_235 : prod_sound E 235.
Proof. start.
  intros x4 w4 H4 x3 w3 H3 x2 w2 H2 x1 w1 H1.
  destruct H1 as (v1 & W1 & L1).
  destruct H2 as (e2 & W2 & L2 & S2 & O2 & B2).
  destruct H3 as (b3 & W3).
  destruct H4 as (W4 & N4).
  sel.
  exists (ECall v1 None (Some e2) [] (Some b3)).
  fin_KCall. Qed.
Lemma prod_236 : prod_sound E 236.
Proof. start.
  intros x3 w3 H3 x2 w2 H2 x1 w1 H1.
  destruct H1 as (v1 & W1 & L1).
  destruct H2 as (e2 & W2 & L2 & S2 & O2 & B2).
  destruct H3 as (W3 & N3).
  sel.
  exists (ECall v1 None (Some e2) [] None).
  fin_KCall. Qed.
Lemma prod_237 : prod_sound E 237.
Proof. start.
  intros x4 w4 H4 x3 w3 H3 x2 w2 H2 x1 w1 H1.
  destruct H1 as (v1 & W1 & L1).
  destruct H2 as (xs2 & W2 & L2 & S2 & M2).
  destruct H3 as (b3 & W3).
  destruct H4 as (W4 & N4).
  sel.
  exists (ECall v1 None None xs2 (Some b3)).
  fin_KCall. Qed.
Lemma prod_238 : prod_sound E 238.
Proof. start.
  intros x3 w3 H3 x2 w2 H2 x1 w1 H1.
  destruct H1 as (v1 & W1 & L1).
  destruct H2 as (xs2 & W2 & L2 & S2 & M2).
  destruct H3 as (W3 & N3).
  sel.
  exists (ECall v1 None None xs2 None).
  fin_KCall. Qed.
Lemma prod_239 : prod_sound E 239.
Proof. start.
  intros x2 w2 H2 x1 w1 H1.
  destruct H1 as (v1 & W1 & L1).
  destruct H2 as (W2 & N2).
  sel.
  exists (ECall v1 None None [] None).
  fin_KCall. Qed.
Lemma prod_240 : prod_sound E 240.
Proof. start.
  intros x1 w1 H1.
  destruct H1 as (e1 & W1 & L1 & S1 & A1 & O1 & B1).
  sel.
  exists e1.
  fin_KVal. Qed.
Lemma prod_241 : prod_sound E 241.
Proof. start.
  intros x1 w1 H1.
  destruct H1 as (e1 & W1 & L1 & S1 & A1 & O1 & B1).
  sel.
  exists e1.
  fin_KVal. Qed.
Lemma prod_242 : prod_sound E 242.
Proof. start.
  intros x1 w1 H1.
  destruct H1 as (e1 & W1 & L1 & S1 & A1 & O1 & B1).
  sel.
  exists e1.
  fin_KVal. Qed.
Lemma prod_243 : prod_sound E 243.
Proof. start.
  intros x1 w1 H1.
  destruct H1 as (e1 & W1 & L1 & S1 & A1 & O1 & B1).
  sel.
  exists e1.
  fin_KVal. Qed.
Lemma prod_244 : prod_sound E 244.
Proof. start.
  intros x1 w1 H1.
  destruct H1 as (e1 & W1 & L1 & S1 & A1 & O1 & B1).
  sel.
  exists e1.
  fin_KOp. Qed.
Lemma prod_245 : prod_sound E 245.
Proof. start.
  intros x1 w1 H1.
  destruct H1 as (e1 & W1 & L1 & S1 & A1 & O1 & B1).
  sel.
  exists e1.
  fin_KOp. Qed.
Lemma prod_246 : prod_sound E 246.
Proof. start.
  intros x1 w1 H1.
  destruct H1 as (e1 & W1 & L1 & S1 & A1 & O1 & B1).
  sel.
  exists e1.
  fin_KOp. Qed.
Lemma prod_247 : prod_sound E 247.
Proof. start.
  intros x1 w1 H1.
  destruct H1 as (e1 & W1 & L1 & S1 & A1 & O1 & B1).
  sel.
  exists e1.
  fin_KOp. Qed.
Lemma prod_248 : prod_sound E 248.
Proof. start.
  intros x1 w1 H1.
  destruct H1 as (e1 & W1 & L1 & S1 & A1 & O1 & B1).
  sel.
  exists e1.
  fin_KOp. Qed.
Lemma prod_249 : prod_sound E 249.
Proof. start.
  intros x1 w1 H1.
  destruct H1 as (e1 & W1 & L1 & S1 & A1 & O1 & B1).
  sel.
  exists e1.
  fin_KOp. Qed.
Lemma prod_250 : prod_sound E 250.
Proof. start.
  intros x1 w1 H1.
  destruct H1 as (e1 & W1 & L1 & S1 & A1 & O1 & B1).
  sel.
  exists e1.
  fin_KOp. Qed.
Lemma prod_251 : prod_sound E 251.
Proof. start.
  intros x1 w1 H1.
  destruct H1 as (e1 & W1 & L1 & S1 & A1 & O1 & B1).
  sel.
  exists e1.
  fin_KOp. Qed.
Lemma prod_252 : prod_sound E 252.
Proof. start.
  intros x3 w3 H3 x2 w2 H2 x1 w1 H1.
  destruct H1 as (e1 & W1 & L1 & S1 & O1 & B1).
  destruct H2 as (W2 & N2).
  destruct H3 as (e3 & W3 & L3 & S3 & O3 & B3).
  sel.
  closed e1 O1 N2.
  exists (EBin Ge e1 e3).
  fin_KOp. Qed.
Lemma prod_253 : prod_sound E 253.
Proof. start.
  intros x3 w3 H3 x2 w2 H2 x1 w1 H1.
  destruct H1 as (e1 & W1 & L1 & S1 & O1 & B1).
  destruct H2 as (W2 & N2).
  destruct H3 as (e3 & W3 & L3 & S3 & O3 & B3).
  sel.
  closed e1 O1 N2.
  exists (EBin Gt e1 e3).
  fin_KOp. Qed.
Lemma prod_254 : prod_sound E 254.
Proof. start.
  intros x3 w3 H3 x2 w2 H2 x1 w1 H1.
  destruct H1 as (e1 & W1 & L1 & S1 & O1 & B1).
  destruct H2 as (W2 & N2).
  destruct H3 as (e3 & W3 & L3 & S3 & O3 & B3).
  sel.
  closed e1 O1 N2.
  exists (EBin Le e1 e3).
  fin_KOp. Qed.
Lemma prod_255 : prod_sound E 255.
Proof. start.
  intros x3 w3 H3 x2 w2 H2 x1 w1 H1.
  destruct H1 as (e1 & W1 & L1 & S1 & O1 & B1).
  destruct H2 as (W2 & N2).
  destruct H3 as (e3 & W3 & L3 & S3 & O3 & B3).
  sel.
  closed e1 O1 N2.
  exists (EBin Lt e1 e3).
  fin_KOp. Qed.
Lemma prod_256 : prod_sound E 256.
Proof. start.
  intros x3 w3 H3 x2 w2 H2 x1 w1 H1.
  destruct H1 as (e1 & W1 & L1 & S1 & O1 & B1).
  destruct H2 as (W2 & N2).
  destruct H3 as (e3 & W3 & L3 & S3 & O3 & B3).
  sel.
  closed e1 O1 N2.
  exists (EBin Eq e1 e3).
  fin_KOp. Qed.
Lemma prod_257 : prod_sound E 257.
Proof. start.
  intros x3 w3 H3 x2 w2 H2 x1 w1 H1.
  destruct H1 as (e1 & W1 & L1 & S1 & O1 & B1).
  destruct H2 as (W2 & N2).
  destruct H3 as (e3 & W3 & L3 & S3 & O3 & B3).
  sel.
  closed e1 O1 N2.
  exists (EBin Ne e1 e3).
  fin_KOp. Qed.
Lemma prod_258 : prod_sound E 258.
Proof. start.
  intros x3 w3 H3 x2 w2 H2 x1 w1 H1.
  destruct H1 as (e1 & W1 & L1 & S1 & O1 & B1).
  destruct H2 as (W2 & N2).
  destruct H3 as (e3 & W3 & L3 & S3 & O3 & B3).
  sel.
  closed e1 O1 N2.
  exists (EBin EqI e1 e3).
  fin_KOp. Qed.
Lemma prod_259 : prod_sound E 259.
Proof. start.
  intros x3 w3 H3 x2 w2 H2 x1 w1 H1.
  destruct H1 as (e1 & W1 & L1 & S1 & O1 & B1).
  destruct H2 as (W2 & N2).
  destruct H3 as (e3 & W3 & L3 & S3 & O3 & B3).
  sel.
  closed e1 O1 N2.
  exists (EBin NeI e1 e3).
  fin_KOp. Qed.
Lemma prod_260 : prod_sound E 260.
Proof. start.
  intros x1 w1 H1.
  destruct H1 as (e1 & W1 & L1 & S1 & A1 & O1 & B1).
  sel.
  exists e1.
  fin_KOp. Qed.
Lemma prod_261 : prod_sound E 261.
Proof. start.
  intros x1 w1 H1.
  destruct H1 as (e1 & W1 & L1 & S1 & A1 & O1 & B1).
  sel.
  exists e1.
  fin_KOp. Qed.
Lemma prod_262 : prod_sound E 262.
Proof. start.
  intros x1 w1 H1.
  destruct H1 as (e1 & W1 & L1 & S1 & A1 & O1 & B1).
  sel.
  exists e1.
  fin_KOp. Qed.
Lemma prod_263 : prod_sound E 263.
Proof. start.
  intros x1 w1 H1.
  destruct H1 as (e1 & W1 & L1 & S1 & A1 & O1 & B1).
  sel.
  exists e1.
  fin_KOp. Qed.
Lemma prod_264 : prod_sound E 264.
Proof. start.
  intros x1 w1 H1.
  destruct H1 as (e1 & W1 & L1 & S1 & A1 & O1 & B1).
  sel.
  exists e1.
  fin_KOp. Qed.
Lemma prod_265 : prod_sound E 265.
Proof. start.
  intros x3 w3 H3 x2 w2 H2 x1 w1 H1.
  destruct H1 as (e1 & W1 & L1 & S1 & O1 & B1).
  destruct H2 as (W2 & N2).
  destruct H3 as (e3 & W3 & L3 & S3 & O3 & B3).
  sel.
  closed e1 O1 N2.
  exists (EBin And e1 e3).
  fin_KOp. Qed.
Lemma prod_266 : prod_sound E 266.
Proof. start.
  intros x3 w3 H3 x2 w2 H2 x1 w1 H1.
  destruct H1 as (e1 & W1 & L1 & S1 & O1 & B1).
  destruct H2 as (W2 & N2).
  destruct H3 as (e3 & W3 & L3 & S3 & O3 & B3).
  sel.
  closed e1 O1 N2.
  exists (EBin Or e1 e3).
  fin_KOp. Qed.
Lemma prod_267 : prod_sound E 267.
Proof. start.
  intros x2 w2 H2 x1 w1 H1.
  destruct H1 as (W1 & N1).
  destruct H2 as (e2 & W2 & L2 & S2 & O2 & B2).
  sel.
  exists (ENot e2).
  fin_KOp. Qed.
Lemma prod_268 : prod_sound E 268.
Proof. start.
  intros x3 w3 H3 x2 w2 H2 x1 w1 H1.
  destruct H1 as (e1 & W1 & L1 & S1 & O1 & B1).
  destruct H2 as (W2 & N2).
  destruct H3 as (e3 & W3 & L3 & S3 & O3 & B3).
  sel.
  closed e1 O1 N2.
  exists (EBin Coalesce e1 e3).
  fin_KOp. Qed.
Lemma prod_269 : prod_sound E 269.
Proof. start.
  intros x5 w5 H5 x4 w4 H4 x3 w3 H3 x2 w2 H2 x1 w1 H1.
  destruct H1 as (e1 & W1 & L1 & S1 & O1 & B1).
  destruct H2 as (W2 & N2).
  destruct H3 as (e3 & W3 & L3 & S3 & O3 & B3).
  destruct H4 as (W4 & N4).
  destruct H5 as (e5 & W5 & L5 & S5 & O5 & B5).
  sel.
  closed e1 O1 N2.
  exists (ECond e1 e3 e5).
  fin_KOp. Qed.
Lemma prod_270 : prod_sound E 270.
Proof. start.
  intros x1 w1 H1.
  destruct H1 as (e1 & W1 & L1 & S1 & A1 & O1 & B1).
  sel.
  exists e1.
  fin_KOp. Qed.
Lemma prod_271 : prod_sound E 271.
Proof. start.
  intros x1 w1 H1.
  destruct H1 as (e1 & W1 & L1 & S1 & A1 & O1 & B1).
  sel.
  exists e1.
  fin_KOp. Qed.
Lemma prod_272 : prod_sound E 272.
Proof. start.
  intros x1 w1 H1.
  destruct H1 as (e1 & W1 & L1 & S1 & A1 & O1 & B1).
  sel.
  exists e1.
  fin_KOp. Qed.
Lemma prod_273 : prod_sound E 273.
Proof. start.
  intros x1 w1 H1.
  destruct H1 as (e1 & W1 & L1 & S1 & A1 & O1 & B1).
  sel.
  exists e1.
  fin_KOp. Qed.
Lemma prod_274 : prod_sound E 274.
Proof. start.
  intros x1 w1 H1.
  destruct H1 as (e1 & W1 & L1 & S1 & A1 & O1 & B1).
  sel.
  exists e1.
  fin_KOp. Qed.
Lemma prod_275 : prod_sound E 275.
Proof. start.
  intros x1 w1 H1.
  destruct H1 as (e1 & W1 & L1 & S1 & A1 & O1 & B1).
  sel.
  exists e1.
  fin_KOp. Qed.
Lemma prod_276 : prod_sound E 276.
Proof. start.
  intros x3 w3 H3 x2 w2 H2 x1 w1 H1.
  destruct H1 as (e1 & W1 & L1 & S1 & O1 & B1).
  destruct H2 as (W2 & N2).
  destruct H3 as (e3 & W3 & L3 & S3 & O3 & B3).
  sel.
  closed e1 O1 N2.
  exists (EBin Add e1 e3).
  fin_KOp. Qed.
Lemma prod_277 : prod_sound E 277.
Proof. start.
  intros x3 w3 H3 x2 w2 H2 x1 w1 H1.
  destruct H1 as (e1 & W1 & L1 & S1 & O1 & B1).
  destruct H2 as (W2 & N2).
  destruct H3 as (e3 & W3 & L3 & S3 & O3 & B3).
  sel.
  closed e1 O1 N2.
  exists (EBin Div e1 e3).
  fin_KOp. Qed.
Lemma prod_278 : prod_sound E 278.
Proof. start.
  intros x2 w2 H2 x1 w1 H1.
  destruct H1 as (W1 & N1).
  destruct H2 as (e2 & W2 & L2 & S2 & O2 & B2).
  sel.
  exists (EMinus e2).
  fin_KOp. Qed.
Lemma prod_279 : prod_sound E 279.
Proof. start.
  intros x3 w3 H3 x2 w2 H2 x1 w1 H1.
  destruct H1 as (e1 & W1 & L1 & S1 & O1 & B1).
  destruct H2 as (W2 & N2).
  destruct H3 as (e3 & W3 & L3 & S3 & O3 & B3).
  sel.
  closed e1 O1 N2.
  exists (EBin Mod e1 e3).
  fin_KOp. Qed.
Lemma prod_280 : prod_sound E 280.
Proof. start.
  intros x3 w3 H3 x2 w2 H2 x1 w1 H1.
  destruct H1 as (e1 & W1 & L1 & S1 & O1 & B1).
  destruct H2 as (W2 & N2).
  destruct H3 as (e3 & W3 & L3 & S3 & O3 & B3).
  sel.
  closed e1 O1 N2.
  exists (EBin Mul e1 e3).
  fin_KOp. Qed.
Lemma prod_281 : prod_sound E 281.
Proof. start.
  intros x3 w3 H3 x2 w2 H2 x1 w1 H1.
  destruct H1 as (e1 & W1 & L1 & S1 & O1 & B1).
  destruct H2 as (W2 & N2).
  destruct H3 as (e3 & W3 & L3 & S3 & O3 & B3).
  sel.
  closed e1 O1 N2.
  exists (EBin Sub e1 e3).
  fin_KOp. Qed.
Lemma prod_282 : prod_sound E 282.
Proof. start.
  intros x1 w1 H1.
  destruct H1 as (e1 & W1 & L1 & S1 & A1 & O1 & B1).
  sel.
  exists e1.
  fin_KOp. Qed.
Lemma prod_283 : prod_sound E 283.
Proof. start.
  intros x1 w1 H1.
  destruct H1 as (e1 & W1 & L1 & S1 & A1 & O1 & B1).
  sel.
  exists e1.
  fin_KOp. Qed.
Lemma prod_284 : prod_sound E 284.
Proof. start.
  intros x1 w1 H1.
  destruct H1 as (e1 & W1 & L1 & S1 & A1 & O1 & B1).
  sel.
  exists e1.
  fin_KOp. Qed.
Lemma prod_285 : prod_sound E 285.
Proof. start.
  intros x1 w1 H1.
  destruct H1 as (e1 & W1 & L1 & S1 & A1 & O1 & B1).
  sel.
  exists e1.
  fin_KOp. Qed.
Lemma prod_286 : prod_sound E 286.
Proof. start.
  intros x5 w5 H5 x4 w4 H4 x3 w3 H3 x2 w2 H2 x1 w1 H1.
  destruct H1 as (e1 & W1 & L1 & S1 & O1 & B1).
  destruct H2 as (W2 & N2).
  destruct H3 as (W3 & N3).
  destruct H4 as (e4 & W4 & L4 & S4 & O4 & B4).
  destruct H5 as (W5 & N5).
  sel.
  closed e1 O1 N2.
  exists (EIndex true e1 e4).
  fin_KOp. Qed.
Lemma prod_287 : prod_sound E 287.
Proof. start.
  intros x4 w4 H4 x3 w3 H3 x2 w2 H2 x1 w1 H1.
  destruct H1 as (e1 & W1 & L1 & S1 & O1 & B1).
  destruct H2 as (W2 & N2).
  destruct H3 as (e3 & W3 & L3 & S3 & O3 & B3).
  destruct H4 as (W4 & N4).
  sel.
  closed e1 O1 N2.
  exists (EIndex false e1 e3).
  fin_KOp. Qed.
Lemma prod_288 : prod_sound E 288.
Proof. start.
  intros x7 w7 H7 x6 w6 H6 x5 w5 H5 x4 w4 H4 x3 w3 H3 x2 w2 H2 x1 w1 H1.
  destruct H1 as (e1 & W1 & L1 & S1 & O1 & B1).
  destruct H2 as (W2 & N2).
  destruct H3 as (v3 & W3 & L3).
  destruct H4 as (W4 & N4).
  destruct H5 as (e5 & W5 & L5 & S5 & O5 & B5).
  destruct H6 as (xs6 & W6 & L6 & S6 & M6).
  destruct H7 as (W7 & N7).
  sel.
  closed e1 O1 N2.
  exists (EMethod e1 v3 (Some e5) xs6).
  fin_KOp. Qed.
Lemma prod_289 : prod_sound E 289.
Proof. start.
  intros x6 w6 H6 x5 w5 H5 x4 w4 H4 x3 w3 H3 x2 w2 H2 x1 w1 H1.
  destruct H1 as (e1 & W1 & L1 & S1 & O1 & B1).
  destruct H2 as (W2 & N2).
  destruct H3 as (v3 & W3 & L3).
  destruct H4 as (W4 & N4).
  destruct H5 as (xs5 & W5 & L5 & S5 & M5).
  destruct H6 as (W6 & N6).
  sel.
  closed e1 O1 N2.
  exists (EMethod e1 v3 None xs5).
  fin_KOp. Qed.
Lemma prod_290 : prod_sound E 290.
Proof. start.
  intros x3 w3 H3 x2 w2 H2 x1 w1 H1.
  destruct H1 as (e1 & W1 & L1 & S1 & O1 & B1).
  destruct H2 as (W2 & N2).
  destruct H3 as (e3 & W3 & L3 & S3 & O3 & B3).
  sel.
  closed e1 O1 N2.
  exists (ENested e1 e3).
  fin_KOp. Qed.
Lemma prod_291 : prod_sound E 291.
Proof. start.
  intros x4 w4 H4 x3 w3 H3 x2 w2 H2 x1 w1 H1.
  destruct H1 as (e1 & W1 & L1 & S1 & O1 & B1).
  destruct H2 as (W2 & N2).
  destruct H3 as (W3 & N3).
  destruct H4 as (e4 & W4 & L4 & S4 & O4 & B4).
  sel.
  closed e1 O1 N2.
  exists (EDot true e1 e4).
  fin_KOp. Qed.
Lemma prod_292 : prod_sound E 292.
Proof. start.
  intros x3 w3 H3 x2 w2 H2 x1 w1 H1.
  destruct H1 as (e1 & W1 & L1 & S1 & O1 & B1).
  destruct H2 as (W2 & N2).
  destruct H3 as (e3 & W3 & L3 & S3 & O3 & B3).
  sel.
  closed e1 O1 N2.
  exists (EDot false e1 e3).
  fin_KOp. Qed.
Lemma prod_303 : prod_sound E 303.
Proof. start.
  intros x1 w1 H1.
  destruct H1 as (b1 & W1).
  sel.
  exists [b1].
  fin_KBreaks. Qed.
Lemma prod_304 : prod_sound E 304.
Proof. start.
  intros x2 w2 H2 x1 w1 H1.
  destruct H1 as (bs1 & W1 & L1 & S1).
  destruct H2 as (b2 & W2).
  sel.
  rewrite ?L1; cbn [app].
  exists (bs1 ++ [b2]).
  fin_KBreaks. Qed.
Lemma prod_311 : prod_sound E 311.
Proof. start.
  intros x2 w2 H2 x1 w1 H1.
  destruct H1 as (W1 & N1).
  destruct H2 as (e2 & W2 & L2 & S2 & O2 & B2).
  sel.
  exists [e2].
  fin_KCommas. Qed.
Lemma prod_312 : prod_sound E 312.
Proof. start.
  intros x3 w3 H3 x2 w2 H2 x1 w1 H1.
  destruct H1 as (xs1 & W1 & L1 & S1 & M1).
  destruct H2 as (W2 & N2).
  destruct H3 as (e3 & W3 & L3 & S3 & O3 & B3).
  sel.
  exists (xs1 ++ [e3]).
  fin_KCommas. Qed.
Lemma prod_313 : prod_sound E 313.
Proof. start.
  intros x3 w3 H3 x2 w2 H2 x1 w1 H1.
  destruct H1 as (e1 & W1 & L1 & S1 & O1 & B1).
  destruct H2 as (xs2 & W2 & L2 & S2 & M2).
  destruct H3 as (bs3 & W3 & L3 & S3).
  sel.
  rewrite ?L3; cbn [app].
  exists [(e1, xs2, bs3)].
  fin_KRows. Qed.
Lemma prod_314 : prod_sound E 314.
Proof. start.
  intros x2 w2 H2 x1 w1 H1.
  destruct H1 as (e1 & W1 & L1 & S1 & O1 & B1).
  destruct H2 as (xs2 & W2 & L2 & S2 & M2).
  sel.
  exists [(e1, xs2, [])].
  fin_KRows. Qed.
Lemma prod_315 : prod_sound E 315.
Proof. start.
  intros x2 w2 H2 x1 w1 H1.
  destruct H1 as (e1 & W1 & L1 & S1 & O1 & B1).
  destruct H2 as (bs2 & W2 & L2 & S2).
  sel.
  rewrite ?L2; cbn [app].
  exists [(e1, [], bs2)].
  fin_KRows. Qed.
Lemma prod_316 : prod_sound E 316.
Proof. start.
  intros x1 w1 H1.
  destruct H1 as (e1 & W1 & L1 & S1 & O1 & B1).
  sel.
  exists [(e1, [], [])].
  fin_KRows. Qed.
Lemma prod_317 : prod_sound E 317.
Proof. start.
  intros x4 w4 H4 x3 w3 H3 x2 w2 H2 x1 w1 H1.
  destruct H1 as (rs1 & W1 & L1 & S1).
  destruct H2 as (e2 & W2 & L2 & S2 & O2 & B2).
  destruct H3 as (xs3 & W3 & L3 & S3 & M3).
  destruct H4 as (bs4 & W4 & L4 & S4).
  sel.
  rewrite ?L4; cbn [app].
  exists (rs1 ++ [(e2, xs3, bs4)]).
  fin_KRows. Qed.
Lemma prod_318 : prod_sound E 318.
Proof. start.
  intros x3 w3 H3 x2 w2 H2 x1 w1 H1.
  destruct H1 as (rs1 & W1 & L1 & S1).
  destruct H2 as (e2 & W2 & L2 & S2 & O2 & B2).
  destruct H3 as (xs3 & W3 & L3 & S3 & M3).
  sel.
  exists (rs1 ++ [(e2, xs3, [])]).
  fin_KRows. Qed.
Lemma prod_319 : prod_sound E 319.
Proof. start.
  intros x3 w3 H3 x2 w2 H2 x1 w1 H1.
  destruct H1 as (rs1 & W1 & L1 & S1).
  destruct H2 as (e2 & W2 & L2 & S2 & O2 & B2).
  destruct H3 as (bs3 & W3 & L3 & S3).
  sel.
  rewrite ?L3; cbn [app].
  exists (rs1 ++ [(e2, [], bs3)]).
  fin_KRows. Qed.
Lemma prod_320 : prod_sound E 320.
Proof. start.
  intros x2 w2 H2 x1 w1 H1.
  destruct H1 as (rs1 & W1 & L1 & S1).
  destruct H2 as (e2 & W2 & L2 & S2 & O2 & B2).
  sel.
  exists (rs1 ++ [(e2, [], [])]).
  fin_KRows. Qed.
Lemma prod_321 : prod_sound E 321.
Proof. start.
  intros x2 w2 H2 x1 w1 H1.
  destruct H1 as (W1 & N1).
  destruct H2 as (p2 & W2 & L2 & S2).
  sel.
  exists [p2].
  fin_KPairs. Qed.
Lemma prod_322 : prod_sound E 322.
Proof. start.
  intros x3 w3 H3 x2 w2 H2 x1 w1 H1.
  destruct H1 as (ps1 & W1 & L1 & S1).
  destruct H2 as (W2 & N2).
  destruct H3 as (p3 & W3 & L3 & S3).
  sel.
  exists (ps1 ++ [p3]).
  fin_KPairs. Qed.
Lemma prod_323 : prod_sound E 323.
Proof. start.
  intros x3 w3 H3 x2 w2 H2 x1 w1 H1.
  destruct H1 as (p1 & W1 & L1 & S1).
  destruct H2 as (ps2 & W2 & L2 & S2).
  destruct H3 as (bs3 & W3 & L3 & S3).
  sel.
  rewrite ?L3; cbn [app].
  destruct p1 as [[k1 u1] q1]; cbn [pair_shaped pair_tree pair_tokens] in *.
  rewrite comma_pairs in W2. rewrite pair_trees in L2.
  exists [(Pairs k1 u1 q1 ps2, bs3)].
  fin_KItems. Qed.
Lemma prod_324 : prod_sound E 324.
Proof. start.
  intros x2 w2 H2 x1 w1 H1.
  destruct H1 as (p1 & W1 & L1 & S1).
  destruct H2 as (ps2 & W2 & L2 & S2).
  sel.
  destruct p1 as [[k1 u1] q1]; cbn [pair_shaped pair_tree pair_tokens] in *.
  rewrite comma_pairs in W2. rewrite pair_trees in L2.
  exists [(Pairs k1 u1 q1 ps2, [])].
  fin_KItems. Qed.
Lemma prod_325 : prod_sound E 325.
Proof. start.
  intros x2 w2 H2 x1 w1 H1.
  destruct H1 as (p1 & W1 & L1 & S1).
  destruct H2 as (bs2 & W2 & L2 & S2).
  sel.
  rewrite ?L2; cbn [app].
  destruct p1 as [[k1 u1] q1]; cbn [pair_shaped pair_tree pair_tokens] in *.
  exists [(Pairs k1 u1 q1 [], bs2)].
  fin_KItems. Qed.
Lemma prod_326 : prod_sound E 326.
Proof. start.
  intros x1 w1 H1.
  destruct H1 as (p1 & W1 & L1 & S1).
  sel.
  destruct p1 as [[k1 u1] q1]; cbn [pair_shaped pair_tree pair_tokens] in *.
  exists [(Pairs k1 u1 q1 [], [])].
  fin_KItems. Qed.
Lemma prod_327 : prod_sound E 327.
Proof. start.
  intros x2 w2 H2 x1 w1 H1.
  destruct H1 as (i1 & bs1 & W1 & L1 & S1 & A1).
  destruct H2 as (bs2 & W2 & L2 & S2).
  sel.
  rewrite ?L2; cbn [app].
  apply (child_more i1 bs1 bs2) in S1.
  exists [(i1, bs1 ++ bs2)].
  fin_KItems. Qed.
Lemma prod_328 : prod_sound E 328.
Proof. start.
  intros x1 w1 H1.
  destruct H1 as (i1 & bs1 & W1 & L1 & S1 & A1).
  sel.
  apply (child_more i1 bs1 []) in S1.
  exists [(i1, bs1 ++ [])].
  fin_KItems. Qed.
Lemma prod_329 : prod_sound E 329.
Proof. start.
  intros x4 w4 H4 x3 w3 H3 x2 w2 H2 x1 w1 H1.
  destruct H1 as (rs1 & W1 & L1 & S1).
  destruct H2 as (p2 & W2 & L2 & S2).
  destruct H3 as (ps3 & W3 & L3 & S3).
  destruct H4 as (bs4 & W4 & L4 & S4).
  sel.
  rewrite ?L4; cbn [app].
  destruct p2 as [[k2 u2] q2]; cbn [pair_shaped pair_tree pair_tokens] in *.
  rewrite comma_pairs in W3. rewrite pair_trees in L3.
  exists (rs1 ++ [(Pairs k2 u2 q2 ps3, bs4)]).
  fin_KItems. Qed.
Lemma prod_330 : prod_sound E 330.
Proof. start.
  intros x3 w3 H3 x2 w2 H2 x1 w1 H1.
  destruct H1 as (rs1 & W1 & L1 & S1).
  destruct H2 as (p2 & W2 & L2 & S2).
  destruct H3 as (ps3 & W3 & L3 & S3).
  sel.
  destruct p2 as [[k2 u2] q2]; cbn [pair_shaped pair_tree pair_tokens] in *.
  rewrite comma_pairs in W3. rewrite pair_trees in L3.
  exists (rs1 ++ [(Pairs k2 u2 q2 ps3, [])]).
  fin_KItems. Qed.
Lemma prod_331 : prod_sound E 331.
Proof. start.
  intros x3 w3 H3 x2 w2 H2 x1 w1 H1.
  destruct H1 as (rs1 & W1 & L1 & S1).
  destruct H2 as (p2 & W2 & L2 & S2).
  destruct H3 as (bs3 & W3 & L3 & S3).
  sel.
  rewrite ?L3; cbn [app].
  destruct p2 as [[k2 u2] q2]; cbn [pair_shaped pair_tree pair_tokens] in *.
  exists (rs1 ++ [(Pairs k2 u2 q2 [], bs3)]).
  fin_KItems. Qed.
Lemma prod_332 : prod_sound E 332.
Proof. start.
  intros x2 w2 H2 x1 w1 H1.
  destruct H1 as (rs1 & W1 & L1 & S1).
  destruct H2 as (p2 & W2 & L2 & S2).
  sel.
  destruct p2 as [[k2 u2] q2]; cbn [pair_shaped pair_tree pair_tokens] in *.
  exists (rs1 ++ [(Pairs k2 u2 q2 [], [])]).
  fin_KItems. Qed.
Lemma prod_333 : prod_sound E 333.
Proof. start.
  intros x3 w3 H3 x2 w2 H2 x1 w1 H1.
  destruct H1 as (rs1 & W1 & L1 & S1).
  destruct H2 as (i2 & bs2 & W2 & L2 & S2 & A2).
  destruct H3 as (bs3 & W3 & L3 & S3).
  sel.
  rewrite ?L3; cbn [app].
  apply (child_more i2 bs2 bs3) in S2.
  exists (rs1 ++ [(i2, bs2 ++ bs3)]).
  fin_KItems. Qed.
Lemma prod_334 : prod_sound E 334.
Proof. start.
  intros x2 w2 H2 x1 w1 H1.
  destruct H1 as (rs1 & W1 & L1 & S1).
  destruct H2 as (i2 & bs2 & W2 & L2 & S2 & A2).
  sel.
  apply (child_more i2 bs2 []) in S2.
  exists (rs1 ++ [(i2, bs2 ++ [])]).
  fin_KItems. Qed.
Lemma prod_337 : prod_sound E 337.
Proof. start.
  intros x3 w3 H3 x2 w2 H2 x1 w1 H1.
  destruct H1 as (W1 & N1).
  destruct H2 as (b2 & W2).
  destruct H3 as (e3 & W3 & L3 & S3 & O3 & B3).
  sel.
  exists [((Some b2), e3)].
  fin_KArgs. Qed.
Lemma prod_338 : prod_sound E 338.
Proof. start.
  intros x2 w2 H2 x1 w1 H1.
  destruct H1 as (W1 & N1).
  destruct H2 as (e2 & W2 & L2 & S2 & O2 & B2).
  sel.
  exists [(None, e2)].
  fin_KArgs. Qed.
Lemma prod_339 : prod_sound E 339.
Proof. start.
  intros x4 w4 H4 x3 w3 H3 x2 w2 H2 x1 w1 H1.
  destruct H1 as (xs1 & W1 & L1 & S1 & M1).
  destruct H2 as (W2 & N2).
  destruct H3 as (b3 & W3).
  destruct H4 as (e4 & W4 & L4 & S4 & O4 & B4).
  sel.
  exists (xs1 ++ [((Some b3), e4)]).
  fin_KArgs. Qed.
Lemma prod_340 : prod_sound E 340.
Proof. start.
  intros x3 w3 H3 x2 w2 H2 x1 w1 H1.
  destruct H1 as (xs1 & W1 & L1 & S1 & M1).
  destruct H2 as (W2 & N2).
  destruct H3 as (e3 & W3 & L3 & S3 & O3 & B3).
  sel.
  exists (xs1 ++ [(None, e3)]).
  fin_KArgs. Qed.
Lemma prod_341 : prod_sound E 341.
Proof. start.
  intros x2 w2 H2 x1 w1 H1.
  destruct H1 as (W1 & N1).
  destruct H2 as (e2 & W2 & L2 & S2 & O2 & B2).
  sel.
  exists [e2].
  fin_KMArgs. Qed.
Lemma prod_342 : prod_sound E 342.
Proof. start.
  sel.
  assert (Ht : t = rparen) by (apply only_rparen; exact Hr).
  exists [].
  fin_KMArgs. Qed.
Lemma prod_343 : prod_sound E 343.
Proof. start.
  intros x3 w3 H3 x2 w2 H2 x1 w1 H1.
  destruct H1 as (xs1 & W1 & L1 & S1 & M1).
  destruct H2 as (W2 & N2).
  destruct H3 as (e3 & W3 & L3 & S3 & O3 & B3).
  sel.
  destruct xs1 as [|x0 xs1]; [rewrite N2 in M1; specialize (M1 eq_refl); discriminate M1|].
  exists (x0 :: xs1 ++ [e3]).
  fin_KMArgs. Qed.
Lemma prod_344 : prod_sound E 344.
Proof. intros m t Hr. vm_compute in Hr. discriminate Hr. Qed.
End Productions.
