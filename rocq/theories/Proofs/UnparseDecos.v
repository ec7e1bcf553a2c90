(** From a derivation back to abstract syntax, part 4: decorators. *)
From Coq Require Import List Arith NArith PArith Bool String Lia.
From Verif Require Import Py.Str Py.Val Lark.Tree Lark.Shape Lark.Terminals Lark.Ebnf
     Lark.Lalr Lark.BicepGrammar Lark.BicepTables Lark.Driver
     Spec.Lexemes Proofs.Follow Proofs.Generate Proofs.Derive Proofs.DerivePrograms Proofs.TreeGrammar Proofs.Like
     Spec.Types Spec.Spelling Spec.Syntax Spec.Reading Proofs.Unparse Proofs.UnparseTactics.
Import ListNotations.
Local Open Scope string_scope.
Local Open Scope list_scope.

Section Productions.
  Variable E : pyenv.
Lemma prod_147 : prod_sound E 147.
Proof. start.
  intros x7 w7 H7 x6 w6 H6 x5 w5 H5 x4 w4 H4 x3 w3 H3 x2 w2 H2 x1 w1 H1.
  destruct H1 as (W1 & N1).
  destruct H2 as (v2 & W2 & L2).
  destruct H3 as (W3 & N3).
  destruct H4 as (b4 & W4).
  destruct H5 as (e5 & W5 & L5 & S5 & O5 & B5).
  destruct H6 as (b6 & W6).
  destruct H7 as (W7 & N7).
  sel.
  exists {| d_name := v2; d_lead := (Some b4); d_arg := (Some e5); d_trail := (Some b6); d_after := [] |}.
  fin_KDeco. Qed.
Lemma prod_148 : prod_sound E 148.
Proof. start.
  intros x8 w8 H8 x7 w7 H7 x6 w6 H6 x5 w5 H5 x4 w4 H4 x3 w3 H3 x2 w2 H2 x1 w1 H1.
  destruct H1 as (W1 & N1).
  destruct H2 as (v2 & W2 & L2).
  destruct H3 as (W3 & N3).
  destruct H4 as (b4 & W4).
  destruct H5 as (e5 & W5 & L5 & S5 & O5 & B5).
  destruct H6 as (b6 & W6).
  destruct H7 as (W7 & N7).
  destruct H8 as (b8 & W8).
  sel.
  exists {| d_name := v2; d_lead := (Some b4); d_arg := (Some e5); d_trail := (Some b6); d_after := [b8] |}.
  fin_KDeco. Qed.
Lemma prod_149 : prod_sound E 149.
Proof. start.
  intros x9 w9 H9 x8 w8 H8 x7 w7 H7 x6 w6 H6 x5 w5 H5 x4 w4 H4 x3 w3 H3 x2 w2 H2 x1 w1 H1.
  destruct H1 as (W1 & N1).
  destruct H2 as (v2 & W2 & L2).
  destruct H3 as (W3 & N3).
  destruct H4 as (b4 & W4).
  destruct H5 as (e5 & W5 & L5 & S5 & O5 & B5).
  destruct H6 as (b6 & W6).
  destruct H7 as (W7 & N7).
  destruct H8 as (b8 & W8).
  destruct H9 as (b9 & W9).
  sel.
  exists {| d_name := v2; d_lead := (Some b4); d_arg := (Some e5); d_trail := (Some b6); d_after := [b8; b9] |}.
  fin_KDeco. Qed.
Lemma prod_150 : prod_sound E 150.
Proof. start.
  intros x10 w10 H10 x9 w9 H9 x8 w8 H8 x7 w7 H7 x6 w6 H6 x5 w5 H5 x4 w4 H4 x3 w3 H3 x2 w2 H2 x1 w1 H1.
  destruct H1 as (W1 & N1).
  destruct H2 as (v2 & W2 & L2).
  destruct H3 as (W3 & N3).
  destruct H4 as (b4 & W4).
  destruct H5 as (e5 & W5 & L5 & S5 & O5 & B5).
  destruct H6 as (b6 & W6).
  destruct H7 as (W7 & N7).
  destruct H8 as (b8 & W8).
  destruct H9 as (b9 & W9).
  destruct H10 as (b10 & W10).
  sel.
  exists {| d_name := v2; d_lead := (Some b4); d_arg := (Some e5); d_trail := (Some b6); d_after := [b8; b9; b10] |}.
  fin_KDeco. Qed.
Lemma prod_151 : prod_sound E 151.
Proof. start.
  intros x11 w11 H11 x10 w10 H10 x9 w9 H9 x8 w8 H8 x7 w7 H7 x6 w6 H6 x5 w5 H5 x4 w4 H4 x3 w3 H3 x2 w2 H2 x1 w1 H1.
  destruct H1 as (W1 & N1).
  destruct H2 as (v2 & W2 & L2).
  destruct H3 as (W3 & N3).
  destruct H4 as (b4 & W4).
  destruct H5 as (e5 & W5 & L5 & S5 & O5 & B5).
  destruct H6 as (b6 & W6).
  destruct H7 as (W7 & N7).
  destruct H8 as (b8 & W8).
  destruct H9 as (b9 & W9).
  destruct H10 as (b10 & W10).
  destruct H11 as (b11 & W11).
  sel.
  exists {| d_name := v2; d_lead := (Some b4); d_arg := (Some e5); d_trail := (Some b6); d_after := [b8; b9; b10; b11] |}.
  fin_KDeco. Qed.
Lemma prod_152 : prod_sound E 152.
Proof. start.
  intros x12 w12 H12 x11 w11 H11 x10 w10 H10 x9 w9 H9 x8 w8 H8 x7 w7 H7 x6 w6 H6 x5 w5 H5 x4 w4 H4 x3 w3 H3 x2 w2 H2 x1 w1 H1.
  destruct H1 as (W1 & N1).
  destruct H2 as (v2 & W2 & L2).
  destruct H3 as (W3 & N3).
  destruct H4 as (b4 & W4).
  destruct H5 as (e5 & W5 & L5 & S5 & O5 & B5).
  destruct H6 as (b6 & W6).
  destruct H7 as (W7 & N7).
  destruct H8 as (b8 & W8).
  destruct H9 as (b9 & W9).
  destruct H10 as (b10 & W10).
  destruct H11 as (b11 & W11).
  destruct H12 as (b12 & W12).
  sel.
  exists {| d_name := v2; d_lead := (Some b4); d_arg := (Some e5); d_trail := (Some b6); d_after := [b8; b9; b10; b11; b12] |}.
  fin_KDeco. Qed.
Lemma prod_153 : prod_sound E 153.
Proof. start.
  intros x13 w13 H13 x12 w12 H12 x11 w11 H11 x10 w10 H10 x9 w9 H9 x8 w8 H8 x7 w7 H7 x6 w6 H6 x5 w5 H5 x4 w4 H4 x3 w3 H3 x2 w2 H2 x1 w1 H1.
  destruct H1 as (W1 & N1).
  destruct H2 as (v2 & W2 & L2).
  destruct H3 as (W3 & N3).
  destruct H4 as (b4 & W4).
  destruct H5 as (e5 & W5 & L5 & S5 & O5 & B5).
  destruct H6 as (b6 & W6).
  destruct H7 as (W7 & N7).
  destruct H8 as (b8 & W8).
  destruct H9 as (b9 & W9).
  destruct H10 as (b10 & W10).
  destruct H11 as (b11 & W11).
  destruct H12 as (b12 & W12).
  destruct H13 as (b13 & W13).
  sel.
  exists {| d_name := v2; d_lead := (Some b4); d_arg := (Some e5); d_trail := (Some b6); d_after := [b8; b9; b10; b11; b12; b13] |}.
  fin_KDeco. Qed.
Lemma prod_154 : prod_sound E 154.
Proof. start.
  intros x14 w14 H14 x13 w13 H13 x12 w12 H12 x11 w11 H11 x10 w10 H10 x9 w9 H9 x8 w8 H8 x7 w7 H7 x6 w6 H6 x5 w5 H5 x4 w4 H4 x3 w3 H3 x2 w2 H2 x1 w1 H1.
  destruct H1 as (W1 & N1).
  destruct H2 as (v2 & W2 & L2).
  destruct H3 as (W3 & N3).
  destruct H4 as (b4 & W4).
  destruct H5 as (e5 & W5 & L5 & S5 & O5 & B5).
  destruct H6 as (b6 & W6).
  destruct H7 as (W7 & N7).
  destruct H8 as (b8 & W8).
  destruct H9 as (b9 & W9).
  destruct H10 as (b10 & W10).
  destruct H11 as (b11 & W11).
  destruct H12 as (b12 & W12).
  destruct H13 as (b13 & W13).
  destruct H14 as (b14 & W14).
  sel.
  exists {| d_name := v2; d_lead := (Some b4); d_arg := (Some e5); d_trail := (Some b6); d_after := [b8; b9; b10; b11; b12; b13; b14] |}.
  fin_KDeco. Qed.
Lemma prod_155 : prod_sound E 155.
Proof. start.
  intros x15 w15 H15 x14 w14 H14 x13 w13 H13 x12 w12 H12 x11 w11 H11 x10 w10 H10 x9 w9 H9 x8 w8 H8 x7 w7 H7 x6 w6 H6 x5 w5 H5 x4 w4 H4 x3 w3 H3 x2 w2 H2 x1 w1 H1.
  destruct H1 as (W1 & N1).
  destruct H2 as (v2 & W2 & L2).
  destruct H3 as (W3 & N3).
  destruct H4 as (b4 & W4).
  destruct H5 as (e5 & W5 & L5 & S5 & O5 & B5).
  destruct H6 as (b6 & W6).
  destruct H7 as (W7 & N7).
  destruct H8 as (b8 & W8).
  destruct H9 as (b9 & W9).
  destruct H10 as (b10 & W10).
  destruct H11 as (b11 & W11).
  destruct H12 as (b12 & W12).
  destruct H13 as (b13 & W13).
  destruct H14 as (b14 & W14).
  destruct H15 as (b15 & W15).
  sel.
  exists {| d_name := v2; d_lead := (Some b4); d_arg := (Some e5); d_trail := (Some b6); d_after := [b8; b9; b10; b11; b12; b13; b14; b15] |}.
  fin_KDeco. Qed.
Lemma prod_156 : prod_sound E 156.
Proof. start.
  intros x16 w16 H16 x15 w15 H15 x14 w14 H14 x13 w13 H13 x12 w12 H12 x11 w11 H11 x10 w10 H10 x9 w9 H9 x8 w8 H8 x7 w7 H7 x6 w6 H6 x5 w5 H5 x4 w4 H4 x3 w3 H3 x2 w2 H2 x1 w1 H1.
  destruct H1 as (W1 & N1).
  destruct H2 as (v2 & W2 & L2).
  destruct H3 as (W3 & N3).
  destruct H4 as (b4 & W4).
  destruct H5 as (e5 & W5 & L5 & S5 & O5 & B5).
  destruct H6 as (b6 & W6).
  destruct H7 as (W7 & N7).
  destruct H8 as (b8 & W8).
  destruct H9 as (b9 & W9).
  destruct H10 as (b10 & W10).
  destruct H11 as (b11 & W11).
  destruct H12 as (b12 & W12).
  destruct H13 as (b13 & W13).
  destruct H14 as (b14 & W14).
  destruct H15 as (b15 & W15).
  destruct H16 as (b16 & W16).
  sel.
  exists {| d_name := v2; d_lead := (Some b4); d_arg := (Some e5); d_trail := (Some b6); d_after := [b8; b9; b10; b11; b12; b13; b14; b15; b16] |}.
  fin_KDeco. Qed.
Lemma prod_157 : prod_sound E 157.
Proof. start.
  intros x17 w17 H17 x16 w16 H16 x15 w15 H15 x14 w14 H14 x13 w13 H13 x12 w12 H12 x11 w11 H11 x10 w10 H10 x9 w9 H9 x8 w8 H8 x7 w7 H7 x6 w6 H6 x5 w5 H5 x4 w4 H4 x3 w3 H3 x2 w2 H2 x1 w1 H1.
  destruct H1 as (W1 & N1).
  destruct H2 as (v2 & W2 & L2).
  destruct H3 as (W3 & N3).
  destruct H4 as (b4 & W4).
  destruct H5 as (e5 & W5 & L5 & S5 & O5 & B5).
  destruct H6 as (b6 & W6).
  destruct H7 as (W7 & N7).
  destruct H8 as (b8 & W8).
  destruct H9 as (b9 & W9).
  destruct H10 as (b10 & W10).
  destruct H11 as (b11 & W11).
  destruct H12 as (b12 & W12).
  destruct H13 as (b13 & W13).
  destruct H14 as (b14 & W14).
  destruct H15 as (b15 & W15).
  destruct H16 as (b16 & W16).
  destruct H17 as (b17 & W17).
  sel.
  exists {| d_name := v2; d_lead := (Some b4); d_arg := (Some e5); d_trail := (Some b6); d_after := [b8; b9; b10; b11; b12; b13; b14; b15; b16; b17] |}.
  fin_KDeco. Qed.
Lemma prod_158 : prod_sound E 158.
Proof. start.
  intros x6 w6 H6 x5 w5 H5 x4 w4 H4 x3 w3 H3 x2 w2 H2 x1 w1 H1.
  destruct H1 as (W1 & N1).
  destruct H2 as (v2 & W2 & L2).
  destruct H3 as (W3 & N3).
  destruct H4 as (b4 & W4).
  destruct H5 as (e5 & W5 & L5 & S5 & O5 & B5).
  destruct H6 as (W6 & N6).
  sel.
  exists {| d_name := v2; d_lead := (Some b4); d_arg := (Some e5); d_trail := None; d_after := [] |}.
  fin_KDeco. Qed.
Lemma prod_159 : prod_sound E 159.
Proof. start.
  intros x7 w7 H7 x6 w6 H6 x5 w5 H5 x4 w4 H4 x3 w3 H3 x2 w2 H2 x1 w1 H1.
  destruct H1 as (W1 & N1).
  destruct H2 as (v2 & W2 & L2).
  destruct H3 as (W3 & N3).
  destruct H4 as (b4 & W4).
  destruct H5 as (e5 & W5 & L5 & S5 & O5 & B5).
  destruct H6 as (W6 & N6).
  destruct H7 as (b7 & W7).
  sel.
  exists {| d_name := v2; d_lead := (Some b4); d_arg := (Some e5); d_trail := None; d_after := [b7] |}.
  fin_KDeco. Qed.
Lemma prod_160 : prod_sound E 160.
Proof. start.
  intros x8 w8 H8 x7 w7 H7 x6 w6 H6 x5 w5 H5 x4 w4 H4 x3 w3 H3 x2 w2 H2 x1 w1 H1.
  destruct H1 as (W1 & N1).
  destruct H2 as (v2 & W2 & L2).
  destruct H3 as (W3 & N3).
  destruct H4 as (b4 & W4).
  destruct H5 as (e5 & W5 & L5 & S5 & O5 & B5).
  destruct H6 as (W6 & N6).
  destruct H7 as (b7 & W7).
  destruct H8 as (b8 & W8).
  sel.
  exists {| d_name := v2; d_lead := (Some b4); d_arg := (Some e5); d_trail := None; d_after := [b7; b8] |}.
  fin_KDeco. Qed.
Lemma prod_161 : prod_sound E 161.
Proof. start.
  intros x9 w9 H9 x8 w8 H8 x7 w7 H7 x6 w6 H6 x5 w5 H5 x4 w4 H4 x3 w3 H3 x2 w2 H2 x1 w1 H1.
  destruct H1 as (W1 & N1).
  destruct H2 as (v2 & W2 & L2).
  destruct H3 as (W3 & N3).
  destruct H4 as (b4 & W4).
  destruct H5 as (e5 & W5 & L5 & S5 & O5 & B5).
  destruct H6 as (W6 & N6).
  destruct H7 as (b7 & W7).
  destruct H8 as (b8 & W8).
  destruct H9 as (b9 & W9).
  sel.
  exists {| d_name := v2; d_lead := (Some b4); d_arg := (Some e5); d_trail := None; d_after := [b7; b8; b9] |}.
  fin_KDeco. Qed.
Lemma prod_162 : prod_sound E 162.
Proof. start.
  intros x10 w10 H10 x9 w9 H9 x8 w8 H8 x7 w7 H7 x6 w6 H6 x5 w5 H5 x4 w4 H4 x3 w3 H3 x2 w2 H2 x1 w1 H1.
  destruct H1 as (W1 & N1).
  destruct H2 as (v2 & W2 & L2).
  destruct H3 as (W3 & N3).
  destruct H4 as (b4 & W4).
  destruct H5 as (e5 & W5 & L5 & S5 & O5 & B5).
  destruct H6 as (W6 & N6).
  destruct H7 as (b7 & W7).
  destruct H8 as (b8 & W8).
  destruct H9 as (b9 & W9).
  destruct H10 as (b10 & W10).
  sel.
  exists {| d_name := v2; d_lead := (Some b4); d_arg := (Some e5); d_trail := None; d_after := [b7; b8; b9; b10] |}.
  fin_KDeco. Qed.
Lemma prod_163 : prod_sound E 163.
Proof. start.
  intros x11 w11 H11 x10 w10 H10 x9 w9 H9 x8 w8 H8 x7 w7 H7 x6 w6 H6 x5 w5 H5 x4 w4 H4 x3 w3 H3 x2 w2 H2 x1 w1 H1.
  destruct H1 as (W1 & N1).
  destruct H2 as (v2 & W2 & L2).
  destruct H3 as (W3 & N3).
  destruct H4 as (b4 & W4).
  destruct H5 as (e5 & W5 & L5 & S5 & O5 & B5).
  destruct H6 as (W6 & N6).
  destruct H7 as (b7 & W7).
  destruct H8 as (b8 & W8).
  destruct H9 as (b9 & W9).
  destruct H10 as (b10 & W10).
  destruct H11 as (b11 & W11).
  sel.
  exists {| d_name := v2; d_lead := (Some b4); d_arg := (Some e5); d_trail := None; d_after := [b7; b8; b9; b10; b11] |}.
  fin_KDeco. Qed.
Lemma prod_164 : prod_sound E 164.
Proof. start.
  intros x12 w12 H12 x11 w11 H11 x10 w10 H10 x9 w9 H9 x8 w8 H8 x7 w7 H7 x6 w6 H6 x5 w5 H5 x4 w4 H4 x3 w3 H3 x2 w2 H2 x1 w1 H1.
  destruct H1 as (W1 & N1).
  destruct H2 as (v2 & W2 & L2).
  destruct H3 as (W3 & N3).
  destruct H4 as (b4 & W4).
  destruct H5 as (e5 & W5 & L5 & S5 & O5 & B5).
  destruct H6 as (W6 & N6).
  destruct H7 as (b7 & W7).
  destruct H8 as (b8 & W8).
  destruct H9 as (b9 & W9).
  destruct H10 as (b10 & W10).
  destruct H11 as (b11 & W11).
  destruct H12 as (b12 & W12).
  sel.
  exists {| d_name := v2; d_lead := (Some b4); d_arg := (Some e5); d_trail := None; d_after := [b7; b8; b9; b10; b11; b12] |}.
  fin_KDeco. Qed.
Lemma prod_165 : prod_sound E 165.
Proof. start.
  intros x13 w13 H13 x12 w12 H12 x11 w11 H11 x10 w10 H10 x9 w9 H9 x8 w8 H8 x7 w7 H7 x6 w6 H6 x5 w5 H5 x4 w4 H4 x3 w3 H3 x2 w2 H2 x1 w1 H1.
  destruct H1 as (W1 & N1).
  destruct H2 as (v2 & W2 & L2).
  destruct H3 as (W3 & N3).
  destruct H4 as (b4 & W4).
  destruct H5 as (e5 & W5 & L5 & S5 & O5 & B5).
  destruct H6 as (W6 & N6).
  destruct H7 as (b7 & W7).
  destruct H8 as (b8 & W8).
  destruct H9 as (b9 & W9).
  destruct H10 as (b10 & W10).
  destruct H11 as (b11 & W11).
  destruct H12 as (b12 & W12).
  destruct H13 as (b13 & W13).
  sel.
  exists {| d_name := v2; d_lead := (Some b4); d_arg := (Some e5); d_trail := None; d_after := [b7; b8; b9; b10; b11; b12; b13] |}.
  fin_KDeco. Qed.
Lemma prod_166 : prod_sound E 166.
Proof. start.
  intros x14 w14 H14 x13 w13 H13 x12 w12 H12 x11 w11 H11 x10 w10 H10 x9 w9 H9 x8 w8 H8 x7 w7 H7 x6 w6 H6 x5 w5 H5 x4 w4 H4 x3 w3 H3 x2 w2 H2 x1 w1 H1.
  destruct H1 as (W1 & N1).
  destruct H2 as (v2 & W2 & L2).
  destruct H3 as (W3 & N3).
  destruct H4 as (b4 & W4).
  destruct H5 as (e5 & W5 & L5 & S5 & O5 & B5).
  destruct H6 as (W6 & N6).
  destruct H7 as (b7 & W7).
  destruct H8 as (b8 & W8).
  destruct H9 as (b9 & W9).
  destruct H10 as (b10 & W10).
  destruct H11 as (b11 & W11).
  destruct H12 as (b12 & W12).
  destruct H13 as (b13 & W13).
  destruct H14 as (b14 & W14).
  sel.
  exists {| d_name := v2; d_lead := (Some b4); d_arg := (Some e5); d_trail := None; d_after := [b7; b8; b9; b10; b11; b12; b13; b14] |}.
  fin_KDeco. Qed.
Lemma prod_167 : prod_sound E 167.
Proof. start.
  intros x15 w15 H15 x14 w14 H14 x13 w13 H13 x12 w12 H12 x11 w11 H11 x10 w10 H10 x9 w9 H9 x8 w8 H8 x7 w7 H7 x6 w6 H6 x5 w5 H5 x4 w4 H4 x3 w3 H3 x2 w2 H2 x1 w1 H1.
  destruct H1 as (W1 & N1).
  destruct H2 as (v2 & W2 & L2).
  destruct H3 as (W3 & N3).
  destruct H4 as (b4 & W4).
  destruct H5 as (e5 & W5 & L5 & S5 & O5 & B5).
  destruct H6 as (W6 & N6).
  destruct H7 as (b7 & W7).
  destruct H8 as (b8 & W8).
  destruct H9 as (b9 & W9).
  destruct H10 as (b10 & W10).
  destruct H11 as (b11 & W11).
  destruct H12 as (b12 & W12).
  destruct H13 as (b13 & W13).
  destruct H14 as (b14 & W14).
  destruct H15 as (b15 & W15).
  sel.
  exists {| d_name := v2; d_lead := (Some b4); d_arg := (Some e5); d_trail := None; d_after := [b7; b8; b9; b10; b11; b12; b13; b14; b15] |}.
  fin_KDeco. Qed.
Lemma prod_168 : prod_sound E 168.
Proof. start.
  intros x16 w16 H16 x15 w15 H15 x14 w14 H14 x13 w13 H13 x12 w12 H12 x11 w11 H11 x10 w10 H10 x9 w9 H9 x8 w8 H8 x7 w7 H7 x6 w6 H6 x5 w5 H5 x4 w4 H4 x3 w3 H3 x2 w2 H2 x1 w1 H1.
  destruct H1 as (W1 & N1).
  destruct H2 as (v2 & W2 & L2).
  destruct H3 as (W3 & N3).
  destruct H4 as (b4 & W4).
  destruct H5 as (e5 & W5 & L5 & S5 & O5 & B5).
  destruct H6 as (W6 & N6).
  destruct H7 as (b7 & W7).
  destruct H8 as (b8 & W8).
  destruct H9 as (b9 & W9).
  destruct H10 as (b10 & W10).
  destruct H11 as (b11 & W11).
  destruct H12 as (b12 & W12).
  destruct H13 as (b13 & W13).
  destruct H14 as (b14 & W14).
  destruct H15 as (b15 & W15).
  destruct H16 as (b16 & W16).
  sel.
  exists {| d_name := v2; d_lead := (Some b4); d_arg := (Some e5); d_trail := None; d_after := [b7; b8; b9; b10; b11; b12; b13; b14; b15; b16] |}.
  fin_KDeco. Qed.
Lemma prod_169 : prod_sound E 169.
Proof. start.
  intros x6 w6 H6 x5 w5 H5 x4 w4 H4 x3 w3 H3 x2 w2 H2 x1 w1 H1.
  destruct H1 as (W1 & N1).
  destruct H2 as (v2 & W2 & L2).
  destruct H3 as (W3 & N3).
  destruct H4 as (b4 & W4).
  destruct H5 as (b5 & W5).
  destruct H6 as (W6 & N6).
  sel.
  exists {| d_name := v2; d_lead := (Some b4); d_arg := None; d_trail := (Some b5); d_after := [] |}.
  fin_KDeco. Qed.
Lemma prod_170 : prod_sound E 170.
Proof. start.
  intros x7 w7 H7 x6 w6 H6 x5 w5 H5 x4 w4 H4 x3 w3 H3 x2 w2 H2 x1 w1 H1.
  destruct H1 as (W1 & N1).
  destruct H2 as (v2 & W2 & L2).
  destruct H3 as (W3 & N3).
  destruct H4 as (b4 & W4).
  destruct H5 as (b5 & W5).
  destruct H6 as (W6 & N6).
  destruct H7 as (b7 & W7).
  sel.
  exists {| d_name := v2; d_lead := (Some b4); d_arg := None; d_trail := (Some b5); d_after := [b7] |}.
  fin_KDeco. Qed.
Lemma prod_171 : prod_sound E 171.
Proof. start.
  intros x8 w8 H8 x7 w7 H7 x6 w6 H6 x5 w5 H5 x4 w4 H4 x3 w3 H3 x2 w2 H2 x1 w1 H1.
  destruct H1 as (W1 & N1).
  destruct H2 as (v2 & W2 & L2).
  destruct H3 as (W3 & N3).
  destruct H4 as (b4 & W4).
  destruct H5 as (b5 & W5).
  destruct H6 as (W6 & N6).
  destruct H7 as (b7 & W7).
  destruct H8 as (b8 & W8).
  sel.
  exists {| d_name := v2; d_lead := (Some b4); d_arg := None; d_trail := (Some b5); d_after := [b7; b8] |}.
  fin_KDeco. Qed.
Lemma prod_172 : prod_sound E 172.
Proof. start.
  intros x9 w9 H9 x8 w8 H8 x7 w7 H7 x6 w6 H6 x5 w5 H5 x4 w4 H4 x3 w3 H3 x2 w2 H2 x1 w1 H1.
  destruct H1 as (W1 & N1).
  destruct H2 as (v2 & W2 & L2).
  destruct H3 as (W3 & N3).
  destruct H4 as (b4 & W4).
  destruct H5 as (b5 & W5).
  destruct H6 as (W6 & N6).
  destruct H7 as (b7 & W7).
  destruct H8 as (b8 & W8).
  destruct H9 as (b9 & W9).
  sel.
  exists {| d_name := v2; d_lead := (Some b4); d_arg := None; d_trail := (Some b5); d_after := [b7; b8; b9] |}.
  fin_KDeco. Qed.
Lemma prod_173 : prod_sound E 173.
Proof. start.
  intros x10 w10 H10 x9 w9 H9 x8 w8 H8 x7 w7 H7 x6 w6 H6 x5 w5 H5 x4 w4 H4 x3 w3 H3 x2 w2 H2 x1 w1 H1.
  destruct H1 as (W1 & N1).
  destruct H2 as (v2 & W2 & L2).
  destruct H3 as (W3 & N3).
  destruct H4 as (b4 & W4).
  destruct H5 as (b5 & W5).
  destruct H6 as (W6 & N6).
  destruct H7 as (b7 & W7).
  destruct H8 as (b8 & W8).
  destruct H9 as (b9 & W9).
  destruct H10 as (b10 & W10).
  sel.
  exists {| d_name := v2; d_lead := (Some b4); d_arg := None; d_trail := (Some b5); d_after := [b7; b8; b9; b10] |}.
  fin_KDeco. Qed.
Lemma prod_174 : prod_sound E 174.
Proof. start.
  intros x11 w11 H11 x10 w10 H10 x9 w9 H9 x8 w8 H8 x7 w7 H7 x6 w6 H6 x5 w5 H5 x4 w4 H4 x3 w3 H3 x2 w2 H2 x1 w1 H1.
  destruct H1 as (W1 & N1).
  destruct H2 as (v2 & W2 & L2).
  destruct H3 as (W3 & N3).
  destruct H4 as (b4 & W4).
  destruct H5 as (b5 & W5).
  destruct H6 as (W6 & N6).
  destruct H7 as (b7 & W7).
  destruct H8 as (b8 & W8).
  destruct H9 as (b9 & W9).
  destruct H10 as (b10 & W10).
  destruct H11 as (b11 & W11).
  sel.
  exists {| d_name := v2; d_lead := (Some b4); d_arg := None; d_trail := (Some b5); d_after := [b7; b8; b9; b10; b11] |}.
  fin_KDeco. Qed.
Lemma prod_175 : prod_sound E 175.
Proof. start.
  intros x12 w12 H12 x11 w11 H11 x10 w10 H10 x9 w9 H9 x8 w8 H8 x7 w7 H7 x6 w6 H6 x5 w5 H5 x4 w4 H4 x3 w3 H3 x2 w2 H2 x1 w1 H1.
  destruct H1 as (W1 & N1).
  destruct H2 as (v2 & W2 & L2).
  destruct H3 as (W3 & N3).
  destruct H4 as (b4 & W4).
  destruct H5 as (b5 & W5).
  destruct H6 as (W6 & N6).
  destruct H7 as (b7 & W7).
  destruct H8 as (b8 & W8).
  destruct H9 as (b9 & W9).
  destruct H10 as (b10 & W10).
  destruct H11 as (b11 & W11).
  destruct H12 as (b12 & W12).
  sel.
  exists {| d_name := v2; d_lead := (Some b4); d_arg := None; d_trail := (Some b5); d_after := [b7; b8; b9; b10; b11; b12] |}.
  fin_KDeco. Qed.
Lemma prod_176 : prod_sound E 176.
Proof. start.
  intros x13 w13 H13 x12 w12 H12 x11 w11 H11 x10 w10 H10 x9 w9 H9 x8 w8 H8 x7 w7 H7 x6 w6 H6 x5 w5 H5 x4 w4 H4 x3 w3 H3 x2 w2 H2 x1 w1 H1.
  destruct H1 as (W1 & N1).
  destruct H2 as (v2 & W2 & L2).
  destruct H3 as (W3 & N3).
  destruct H4 as (b4 & W4).
  destruct H5 as (b5 & W5).
  destruct H6 as (W6 & N6).
  destruct H7 as (b7 & W7).
  destruct H8 as (b8 & W8).
  destruct H9 as (b9 & W9).
  destruct H10 as (b10 & W10).
  destruct H11 as (b11 & W11).
  destruct H12 as (b12 & W12).
  destruct H13 as (b13 & W13).
  sel.
  exists {| d_name := v2; d_lead := (Some b4); d_arg := None; d_trail := (Some b5); d_after := [b7; b8; b9; b10; b11; b12; b13] |}.
  fin_KDeco. Qed.
Lemma prod_177 : prod_sound E 177.
Proof. start.
  intros x14 w14 H14 x13 w13 H13 x12 w12 H12 x11 w11 H11 x10 w10 H10 x9 w9 H9 x8 w8 H8 x7 w7 H7 x6 w6 H6 x5 w5 H5 x4 w4 H4 x3 w3 H3 x2 w2 H2 x1 w1 H1.
  destruct H1 as (W1 & N1).
  destruct H2 as (v2 & W2 & L2).
  destruct H3 as (W3 & N3).
  destruct H4 as (b4 & W4).
  destruct H5 as (b5 & W5).
  destruct H6 as (W6 & N6).
  destruct H7 as (b7 & W7).
  destruct H8 as (b8 & W8).
  destruct H9 as (b9 & W9).
  destruct H10 as (b10 & W10).
  destruct H11 as (b11 & W11).
  destruct H12 as (b12 & W12).
  destruct H13 as (b13 & W13).
  destruct H14 as (b14 & W14).
  sel.
  exists {| d_name := v2; d_lead := (Some b4); d_arg := None; d_trail := (Some b5); d_after := [b7; b8; b9; b10; b11; b12; b13; b14] |}.
  fin_KDeco. Qed.
Lemma prod_178 : prod_sound E 178.
Proof. start.
  intros x15 w15 H15 x14 w14 H14 x13 w13 H13 x12 w12 H12 x11 w11 H11 x10 w10 H10 x9 w9 H9 x8 w8 H8 x7 w7 H7 x6 w6 H6 x5 w5 H5 x4 w4 H4 x3 w3 H3 x2 w2 H2 x1 w1 H1.
  destruct H1 as (W1 & N1).
  destruct H2 as (v2 & W2 & L2).
  destruct H3 as (W3 & N3).
  destruct H4 as (b4 & W4).
  destruct H5 as (b5 & W5).
  destruct H6 as (W6 & N6).
  destruct H7 as (b7 & W7).
  destruct H8 as (b8 & W8).
  destruct H9 as (b9 & W9).
  destruct H10 as (b10 & W10).
  destruct H11 as (b11 & W11).
  destruct H12 as (b12 & W12).
  destruct H13 as (b13 & W13).
  destruct H14 as (b14 & W14).
  destruct H15 as (b15 & W15).
  sel.
  exists {| d_name := v2; d_lead := (Some b4); d_arg := None; d_trail := (Some b5); d_after := [b7; b8; b9; b10; b11; b12; b13; b14; b15] |}.
  fin_KDeco. Qed.
Lemma prod_179 : prod_sound E 179.
Proof. start.
  intros x16 w16 H16 x15 w15 H15 x14 w14 H14 x13 w13 H13 x12 w12 H12 x11 w11 H11 x10 w10 H10 x9 w9 H9 x8 w8 H8 x7 w7 H7 x6 w6 H6 x5 w5 H5 x4 w4 H4 x3 w3 H3 x2 w2 H2 x1 w1 H1.
  destruct H1 as (W1 & N1).
  destruct H2 as (v2 & W2 & L2).
  destruct H3 as (W3 & N3).
  destruct H4 as (b4 & W4).
  destruct H5 as (b5 & W5).
  destruct H6 as (W6 & N6).
  destruct H7 as (b7 & W7).
  destruct H8 as (b8 & W8).
  destruct H9 as (b9 & W9).
  destruct H10 as (b10 & W10).
  destruct H11 as (b11 & W11).
  destruct H12 as (b12 & W12).
  destruct H13 as (b13 & W13).
  destruct H14 as (b14 & W14).
  destruct H15 as (b15 & W15).
  destruct H16 as (b16 & W16).
  sel.
  exists {| d_name := v2; d_lead := (Some b4); d_arg := None; d_trail := (Some b5); d_after := [b7; b8; b9; b10; b11; b12; b13; b14; b15; b16] |}.
  fin_KDeco. Qed.
Lemma prod_180 : prod_sound E 180.
Proof. start.
  intros x5 w5 H5 x4 w4 H4 x3 w3 H3 x2 w2 H2 x1 w1 H1.
  destruct H1 as (W1 & N1).
  destruct H2 as (v2 & W2 & L2).
  destruct H3 as (W3 & N3).
  destruct H4 as (b4 & W4).
  destruct H5 as (W5 & N5).
  sel.
  exists {| d_name := v2; d_lead := None; d_arg := None; d_trail := (Some b4); d_after := [] |}.
  fin_KDeco. Qed.
Lemma prod_181 : prod_sound E 181.
Proof. start.
  intros x6 w6 H6 x5 w5 H5 x4 w4 H4 x3 w3 H3 x2 w2 H2 x1 w1 H1.
  destruct H1 as (W1 & N1).
  destruct H2 as (v2 & W2 & L2).
  destruct H3 as (W3 & N3).
  destruct H4 as (b4 & W4).
  destruct H5 as (W5 & N5).
  destruct H6 as (b6 & W6).
  sel.
  exists {| d_name := v2; d_lead := None; d_arg := None; d_trail := (Some b4); d_after := [b6] |}.
  fin_KDeco. Qed.
Lemma prod_182 : prod_sound E 182.
Proof. start.
  intros x7 w7 H7 x6 w6 H6 x5 w5 H5 x4 w4 H4 x3 w3 H3 x2 w2 H2 x1 w1 H1.
  destruct H1 as (W1 & N1).
  destruct H2 as (v2 & W2 & L2).
  destruct H3 as (W3 & N3).
  destruct H4 as (b4 & W4).
  destruct H5 as (W5 & N5).
  destruct H6 as (b6 & W6).
  destruct H7 as (b7 & W7).
  sel.
  exists {| d_name := v2; d_lead := None; d_arg := None; d_trail := (Some b4); d_after := [b6; b7] |}.
  fin_KDeco. Qed.
Lemma prod_183 : prod_sound E 183.
Proof. start.
  intros x8 w8 H8 x7 w7 H7 x6 w6 H6 x5 w5 H5 x4 w4 H4 x3 w3 H3 x2 w2 H2 x1 w1 H1.
  destruct H1 as (W1 & N1).
  destruct H2 as (v2 & W2 & L2).
  destruct H3 as (W3 & N3).
  destruct H4 as (b4 & W4).
  destruct H5 as (W5 & N5).
  destruct H6 as (b6 & W6).
  destruct H7 as (b7 & W7).
  destruct H8 as (b8 & W8).
  sel.
  exists {| d_name := v2; d_lead := None; d_arg := None; d_trail := (Some b4); d_after := [b6; b7; b8] |}.
  fin_KDeco. Qed.
Lemma prod_184 : prod_sound E 184.
Proof. start.
  intros x9 w9 H9 x8 w8 H8 x7 w7 H7 x6 w6 H6 x5 w5 H5 x4 w4 H4 x3 w3 H3 x2 w2 H2 x1 w1 H1.
  destruct H1 as (W1 & N1).
  destruct H2 as (v2 & W2 & L2).
  destruct H3 as (W3 & N3).
  destruct H4 as (b4 & W4).
  destruct H5 as (W5 & N5).
  destruct H6 as (b6 & W6).
  destruct H7 as (b7 & W7).
  destruct H8 as (b8 & W8).
  destruct H9 as (b9 & W9).
  sel.
  exists {| d_name := v2; d_lead := None; d_arg := None; d_trail := (Some b4); d_after := [b6; b7; b8; b9] |}.
  fin_KDeco. Qed.
Lemma prod_185 : prod_sound E 185.
Proof. start.
  intros x10 w10 H10 x9 w9 H9 x8 w8 H8 x7 w7 H7 x6 w6 H6 x5 w5 H5 x4 w4 H4 x3 w3 H3 x2 w2 H2 x1 w1 H1.
  destruct H1 as (W1 & N1).
  destruct H2 as (v2 & W2 & L2).
  destruct H3 as (W3 & N3).
  destruct H4 as (b4 & W4).
  destruct H5 as (W5 & N5).
  destruct H6 as (b6 & W6).
  destruct H7 as (b7 & W7).
  destruct H8 as (b8 & W8).
  destruct H9 as (b9 & W9).
  destruct H10 as (b10 & W10).
  sel.
  exists {| d_name := v2; d_lead := None; d_arg := None; d_trail := (Some b4); d_after := [b6; b7; b8; b9; b10] |}.
  fin_KDeco. Qed.
Lemma prod_186 : prod_sound E 186.
Proof. start.
  intros x11 w11 H11 x10 w10 H10 x9 w9 H9 x8 w8 H8 x7 w7 H7 x6 w6 H6 x5 w5 H5 x4 w4 H4 x3 w3 H3 x2 w2 H2 x1 w1 H1.
  destruct H1 as (W1 & N1).
  destruct H2 as (v2 & W2 & L2).
  destruct H3 as (W3 & N3).
  destruct H4 as (b4 & W4).
  destruct H5 as (W5 & N5).
  destruct H6 as (b6 & W6).
  destruct H7 as (b7 & W7).
  destruct H8 as (b8 & W8).
  destruct H9 as (b9 & W9).
  destruct H10 as (b10 & W10).
  destruct H11 as (b11 & W11).
  sel.
  exists {| d_name := v2; d_lead := None; d_arg := None; d_trail := (Some b4); d_after := [b6; b7; b8; b9; b10; b11] |}.
  fin_KDeco. Qed.
Lemma prod_187 : prod_sound E 187.
Proof. start.
  intros x12 w12 H12 x11 w11 H11 x10 w10 H10 x9 w9 H9 x8 w8 H8 x7 w7 H7 x6 w6 H6 x5 w5 H5 x4 w4 H4 x3 w3 H3 x2 w2 H2 x1 w1 H1.
  destruct H1 as (W1 & N1).
  destruct H2 as (v2 & W2 & L2).
  destruct H3 as (W3 & N3).
  destruct H4 as (b4 & W4).
  destruct H5 as (W5 & N5).
  destruct H6 as (b6 & W6).
  destruct H7 as (b7 & W7).
  destruct H8 as (b8 & W8).
  destruct H9 as (b9 & W9).
  destruct H10 as (b10 & W10).
  destruct H11 as (b11 & W11).
  destruct H12 as (b12 & W12).
  sel.
  exists {| d_name := v2; d_lead := None; d_arg := None; d_trail := (Some b4); d_after := [b6; b7; b8; b9; b10; b11; b12] |}.
  fin_KDeco. Qed.
Lemma prod_188 : prod_sound E 188.
Proof. start.
  intros x13 w13 H13 x12 w12 H12 x11 w11 H11 x10 w10 H10 x9 w9 H9 x8 w8 H8 x7 w7 H7 x6 w6 H6 x5 w5 H5 x4 w4 H4 x3 w3 H3 x2 w2 H2 x1 w1 H1.
  destruct H1 as (W1 & N1).
  destruct H2 as (v2 & W2 & L2).
  destruct H3 as (W3 & N3).
  destruct H4 as (b4 & W4).
  destruct H5 as (W5 & N5).
  destruct H6 as (b6 & W6).
  destruct H7 as (b7 & W7).
  destruct H8 as (b8 & W8).
  destruct H9 as (b9 & W9).
  destruct H10 as (b10 & W10).
  destruct H11 as (b11 & W11).
  destruct H12 as (b12 & W12).
  destruct H13 as (b13 & W13).
  sel.
  exists {| d_name := v2; d_lead := None; d_arg := None; d_trail := (Some b4); d_after := [b6; b7; b8; b9; b10; b11; b12; b13] |}.
  fin_KDeco. Qed.
Lemma prod_189 : prod_sound E 189.
Proof. start.
  intros x14 w14 H14 x13 w13 H13 x12 w12 H12 x11 w11 H11 x10 w10 H10 x9 w9 H9 x8 w8 H8 x7 w7 H7 x6 w6 H6 x5 w5 H5 x4 w4 H4 x3 w3 H3 x2 w2 H2 x1 w1 H1.
  destruct H1 as (W1 & N1).
  destruct H2 as (v2 & W2 & L2).
  destruct H3 as (W3 & N3).
  destruct H4 as (b4 & W4).
  destruct H5 as (W5 & N5).
  destruct H6 as (b6 & W6).
  destruct H7 as (b7 & W7).
  destruct H8 as (b8 & W8).
  destruct H9 as (b9 & W9).
  destruct H10 as (b10 & W10).
  destruct H11 as (b11 & W11).
  destruct H12 as (b12 & W12).
  destruct H13 as (b13 & W13).
  destruct H14 as (b14 & W14).
  sel.
  exists {| d_name := v2; d_lead := None; d_arg := None; d_trail := (Some b4); d_after := [b6; b7; b8; b9; b10; b11; b12; b13; b14] |}.
  fin_KDeco. Qed.
Lemma prod_190 : prod_sound E 190.
Proof. start.
  intros x15 w15 H15 x14 w14 H14 x13 w13 H13 x12 w12 H12 x11 w11 H11 x10 w10 H10 x9 w9 H9 x8 w8 H8 x7 w7 H7 x6 w6 H6 x5 w5 H5 x4 w4 H4 x3 w3 H3 x2 w2 H2 x1 w1 H1.
  destruct H1 as (W1 & N1).
  destruct H2 as (v2 & W2 & L2).
  destruct H3 as (W3 & N3).
  destruct H4 as (b4 & W4).
  destruct H5 as (W5 & N5).
  destruct H6 as (b6 & W6).
  destruct H7 as (b7 & W7).
  destruct H8 as (b8 & W8).
  destruct H9 as (b9 & W9).
  destruct H10 as (b10 & W10).
  destruct H11 as (b11 & W11).
  destruct H12 as (b12 & W12).
  destruct H13 as (b13 & W13).
  destruct H14 as (b14 & W14).
  destruct H15 as (b15 & W15).
  sel.
  exists {| d_name := v2; d_lead := None; d_arg := None; d_trail := (Some b4); d_after := [b6; b7; b8; b9; b10; b11; b12; b13; b14; b15] |}.
  fin_KDeco. Qed.
Lemma prod_191 : prod_sound E 191.
Proof. start.
  intros x6 w6 H6 x5 w5 H5 x4 w4 H4 x3 w3 H3 x2 w2 H2 x1 w1 H1.
  destruct H1 as (W1 & N1).
  destruct H2 as (v2 & W2 & L2).
  destruct H3 as (W3 & N3).
  destruct H4 as (e4 & W4 & L4 & S4 & O4 & B4).
  destruct H5 as (b5 & W5).
  destruct H6 as (W6 & N6).
  sel.
  exists {| d_name := v2; d_lead := None; d_arg := (Some e4); d_trail := (Some b5); d_after := [] |}.
  fin_KDeco. Qed.
Lemma prod_192 : prod_sound E 192.
Proof. start.
  intros x7 w7 H7 x6 w6 H6 x5 w5 H5 x4 w4 H4 x3 w3 H3 x2 w2 H2 x1 w1 H1.
  destruct H1 as (W1 & N1).
  destruct H2 as (v2 & W2 & L2).
  destruct H3 as (W3 & N3).
  destruct H4 as (e4 & W4 & L4 & S4 & O4 & B4).
  destruct H5 as (b5 & W5).
  destruct H6 as (W6 & N6).
  destruct H7 as (b7 & W7).
  sel.
  exists {| d_name := v2; d_lead := None; d_arg := (Some e4); d_trail := (Some b5); d_after := [b7] |}.
  fin_KDeco. Qed.
Lemma prod_193 : prod_sound E 193.
Proof. start.
  intros x8 w8 H8 x7 w7 H7 x6 w6 H6 x5 w5 H5 x4 w4 H4 x3 w3 H3 x2 w2 H2 x1 w1 H1.
  destruct H1 as (W1 & N1).
  destruct H2 as (v2 & W2 & L2).
  destruct H3 as (W3 & N3).
  destruct H4 as (e4 & W4 & L4 & S4 & O4 & B4).
  destruct H5 as (b5 & W5).
  destruct H6 as (W6 & N6).
  destruct H7 as (b7 & W7).
  destruct H8 as (b8 & W8).
  sel.
  exists {| d_name := v2; d_lead := None; d_arg := (Some e4); d_trail := (Some b5); d_after := [b7; b8] |}.
  fin_KDeco. Qed.
Lemma prod_194 : prod_sound E 194.
Proof. start.
  intros x9 w9 H9 x8 w8 H8 x7 w7 H7 x6 w6 H6 x5 w5 H5 x4 w4 H4 x3 w3 H3 x2 w2 H2 x1 w1 H1.
  destruct H1 as (W1 & N1).
  destruct H2 as (v2 & W2 & L2).
  destruct H3 as (W3 & N3).
  destruct H4 as (e4 & W4 & L4 & S4 & O4 & B4).
  destruct H5 as (b5 & W5).
  destruct H6 as (W6 & N6).
  destruct H7 as (b7 & W7).
  destruct H8 as (b8 & W8).
  destruct H9 as (b9 & W9).
  sel.
  exists {| d_name := v2; d_lead := None; d_arg := (Some e4); d_trail := (Some b5); d_after := [b7; b8; b9] |}.
  fin_KDeco. Qed.
Lemma prod_195 : prod_sound E 195.
Proof. start.
  intros x10 w10 H10 x9 w9 H9 x8 w8 H8 x7 w7 H7 x6 w6 H6 x5 w5 H5 x4 w4 H4 x3 w3 H3 x2 w2 H2 x1 w1 H1.
  destruct H1 as (W1 & N1).
  destruct H2 as (v2 & W2 & L2).
  destruct H3 as (W3 & N3).
  destruct H4 as (e4 & W4 & L4 & S4 & O4 & B4).
  destruct H5 as (b5 & W5).
  destruct H6 as (W6 & N6).
  destruct H7 as (b7 & W7).
  destruct H8 as (b8 & W8).
  destruct H9 as (b9 & W9).
  destruct H10 as (b10 & W10).
  sel.
  exists {| d_name := v2; d_lead := None; d_arg := (Some e4); d_trail := (Some b5); d_after := [b7; b8; b9; b10] |}.
  fin_KDeco. Qed.
Lemma prod_196 : prod_sound E 196.
Proof. start.
  intros x11 w11 H11 x10 w10 H10 x9 w9 H9 x8 w8 H8 x7 w7 H7 x6 w6 H6 x5 w5 H5 x4 w4 H4 x3 w3 H3 x2 w2 H2 x1 w1 H1.
  destruct H1 as (W1 & N1).
  destruct H2 as (v2 & W2 & L2).
  destruct H3 as (W3 & N3).
  destruct H4 as (e4 & W4 & L4 & S4 & O4 & B4).
  destruct H5 as (b5 & W5).
  destruct H6 as (W6 & N6).
  destruct H7 as (b7 & W7).
  destruct H8 as (b8 & W8).
  destruct H9 as (b9 & W9).
  destruct H10 as (b10 & W10).
  destruct H11 as (b11 & W11).
  sel.
  exists {| d_name := v2; d_lead := None; d_arg := (Some e4); d_trail := (Some b5); d_after := [b7; b8; b9; b10; b11] |}.
  fin_KDeco. Qed.
Lemma prod_197 : prod_sound E 197.
Proof. start.
  intros x12 w12 H12 x11 w11 H11 x10 w10 H10 x9 w9 H9 x8 w8 H8 x7 w7 H7 x6 w6 H6 x5 w5 H5 x4 w4 H4 x3 w3 H3 x2 w2 H2 x1 w1 H1.
  destruct H1 as (W1 & N1).
  destruct H2 as (v2 & W2 & L2).
  destruct H3 as (W3 & N3).
  destruct H4 as (e4 & W4 & L4 & S4 & O4 & B4).
  destruct H5 as (b5 & W5).
  destruct H6 as (W6 & N6).
  destruct H7 as (b7 & W7).
  destruct H8 as (b8 & W8).
  destruct H9 as (b9 & W9).
  destruct H10 as (b10 & W10).
  destruct H11 as (b11 & W11).
  destruct H12 as (b12 & W12).
  sel.
  exists {| d_name := v2; d_lead := None; d_arg := (Some e4); d_trail := (Some b5); d_after := [b7; b8; b9; b10; b11; b12] |}.
  fin_KDeco. Qed.
Lemma prod_198 : prod_sound E 198.
Proof. start.
  intros x13 w13 H13 x12 w12 H12 x11 w11 H11 x10 w10 H10 x9 w9 H9 x8 w8 H8 x7 w7 H7 x6 w6 H6 x5 w5 H5 x4 w4 H4 x3 w3 H3 x2 w2 H2 x1 w1 H1.
  destruct H1 as (W1 & N1).
  destruct H2 as (v2 & W2 & L2).
  destruct H3 as (W3 & N3).
  destruct H4 as (e4 & W4 & L4 & S4 & O4 & B4).
  destruct H5 as (b5 & W5).
  destruct H6 as (W6 & N6).
  destruct H7 as (b7 & W7).
  destruct H8 as (b8 & W8).
  destruct H9 as (b9 & W9).
  destruct H10 as (b10 & W10).
  destruct H11 as (b11 & W11).
  destruct H12 as (b12 & W12).
  destruct H13 as (b13 & W13).
  sel.
  exists {| d_name := v2; d_lead := None; d_arg := (Some e4); d_trail := (Some b5); d_after := [b7; b8; b9; b10; b11; b12; b13] |}.
  fin_KDeco. Qed.
Lemma prod_199 : prod_sound E 199.
Proof. start.
  intros x14 w14 H14 x13 w13 H13 x12 w12 H12 x11 w11 H11 x10 w10 H10 x9 w9 H9 x8 w8 H8 x7 w7 H7 x6 w6 H6 x5 w5 H5 x4 w4 H4 x3 w3 H3 x2 w2 H2 x1 w1 H1.
  destruct H1 as (W1 & N1).
  destruct H2 as (v2 & W2 & L2).
  destruct H3 as (W3 & N3).
  destruct H4 as (e4 & W4 & L4 & S4 & O4 & B4).
  destruct H5 as (b5 & W5).
  destruct H6 as (W6 & N6).
  destruct H7 as (b7 & W7).
  destruct H8 as (b8 & W8).
  destruct H9 as (b9 & W9).
  destruct H10 as (b10 & W10).
  destruct H11 as (b11 & W11).
  destruct H12 as (b12 & W12).
  destruct H13 as (b13 & W13).
  destruct H14 as (b14 & W14).
  sel.
  exists {| d_name := v2; d_lead := None; d_arg := (Some e4); d_trail := (Some b5); d_after := [b7; b8; b9; b10; b11; b12; b13; b14] |}.
  fin_KDeco. Qed.
Lemma prod_200 : prod_sound E 200.
Proof. start.
  intros x15 w15 H15 x14 w14 H14 x13 w13 H13 x12 w12 H12 x11 w11 H11 x10 w10 H10 x9 w9 H9 x8 w8 H8 x7 w7 H7 x6 w6 H6 x5 w5 H5 x4 w4 H4 x3 w3 H3 x2 w2 H2 x1 w1 H1.
  destruct H1 as (W1 & N1).
  destruct H2 as (v2 & W2 & L2).
  destruct H3 as (W3 & N3).
  destruct H4 as (e4 & W4 & L4 & S4 & O4 & B4).
  destruct H5 as (b5 & W5).
  destruct H6 as (W6 & N6).
  destruct H7 as (b7 & W7).
  destruct H8 as (b8 & W8).
  destruct H9 as (b9 & W9).
  destruct H10 as (b10 & W10).
  destruct H11 as (b11 & W11).
  destruct H12 as (b12 & W12).
  destruct H13 as (b13 & W13).
  destruct H14 as (b14 & W14).
  destruct H15 as (b15 & W15).
  sel.
  exists {| d_name := v2; d_lead := None; d_arg := (Some e4); d_trail := (Some b5); d_after := [b7; b8; b9; b10; b11; b12; b13; b14; b15] |}.
  fin_KDeco. Qed.
Lemma prod_201 : prod_sound E 201.
Proof. start.
  intros x16 w16 H16 x15 w15 H15 x14 w14 H14 x13 w13 H13 x12 w12 H12 x11 w11 H11 x10 w10 H10 x9 w9 H9 x8 w8 H8 x7 w7 H7 x6 w6 H6 x5 w5 H5 x4 w4 H4 x3 w3 H3 x2 w2 H2 x1 w1 H1.
  destruct H1 as (W1 & N1).
  destruct H2 as (v2 & W2 & L2).
  destruct H3 as (W3 & N3).
  destruct H4 as (e4 & W4 & L4 & S4 & O4 & B4).
  destruct H5 as (b5 & W5).
  destruct H6 as (W6 & N6).
  destruct H7 as (b7 & W7).
  destruct H8 as (b8 & W8).
  destruct H9 as (b9 & W9).
  destruct H10 as (b10 & W10).
  destruct H11 as (b11 & W11).
  destruct H12 as (b12 & W12).
  destruct H13 as (b13 & W13).
  destruct H14 as (b14 & W14).
  destruct H15 as (b15 & W15).
  destruct H16 as (b16 & W16).
  sel.
  exists {| d_name := v2; d_lead := None; d_arg := (Some e4); d_trail := (Some b5); d_after := [b7; b8; b9; b10; b11; b12; b13; b14; b15; b16] |}.
  fin_KDeco. Qed.
Lemma prod_202 : prod_sound E 202.
Proof. start.
  intros x5 w5 H5 x4 w4 H4 x3 w3 H3 x2 w2 H2 x1 w1 H1.
  destruct H1 as (W1 & N1).
  destruct H2 as (v2 & W2 & L2).
  destruct H3 as (W3 & N3).
  destruct H4 as (e4 & W4 & L4 & S4 & O4 & B4).
  destruct H5 as (W5 & N5).
  sel.
  exists {| d_name := v2; d_lead := None; d_arg := (Some e4); d_trail := None; d_after := [] |}.
  fin_KDeco. Qed.
Lemma prod_203 : prod_sound E 203.
Proof. start.
  intros x6 w6 H6 x5 w5 H5 x4 w4 H4 x3 w3 H3 x2 w2 H2 x1 w1 H1.
  destruct H1 as (W1 & N1).
  destruct H2 as (v2 & W2 & L2).
  destruct H3 as (W3 & N3).
  destruct H4 as (e4 & W4 & L4 & S4 & O4 & B4).
  destruct H5 as (W5 & N5).
  destruct H6 as (b6 & W6).
  sel.
  exists {| d_name := v2; d_lead := None; d_arg := (Some e4); d_trail := None; d_after := [b6] |}.
  fin_KDeco. Qed.
Lemma prod_204 : prod_sound E 204.
Proof. start.
  intros x7 w7 H7 x6 w6 H6 x5 w5 H5 x4 w4 H4 x3 w3 H3 x2 w2 H2 x1 w1 H1.
  destruct H1 as (W1 & N1).
  destruct H2 as (v2 & W2 & L2).
  destruct H3 as (W3 & N3).
  destruct H4 as (e4 & W4 & L4 & S4 & O4 & B4).
  destruct H5 as (W5 & N5).
  destruct H6 as (b6 & W6).
  destruct H7 as (b7 & W7).
  sel.
  exists {| d_name := v2; d_lead := None; d_arg := (Some e4); d_trail := None; d_after := [b6; b7] |}.
  fin_KDeco. Qed.
Lemma prod_205 : prod_sound E 205.
Proof. start.
  intros x8 w8 H8 x7 w7 H7 x6 w6 H6 x5 w5 H5 x4 w4 H4 x3 w3 H3 x2 w2 H2 x1 w1 H1.
  destruct H1 as (W1 & N1).
  destruct H2 as (v2 & W2 & L2).
  destruct H3 as (W3 & N3).
  destruct H4 as (e4 & W4 & L4 & S4 & O4 & B4).
  destruct H5 as (W5 & N5).
  destruct H6 as (b6 & W6).
  destruct H7 as (b7 & W7).
  destruct H8 as (b8 & W8).
  sel.
  exists {| d_name := v2; d_lead := None; d_arg := (Some e4); d_trail := None; d_after := [b6; b7; b8] |}.
  fin_KDeco. Qed.
Lemma prod_206 : prod_sound E 206.
Proof. start.
  intros x9 w9 H9 x8 w8 H8 x7 w7 H7 x6 w6 H6 x5 w5 H5 x4 w4 H4 x3 w3 H3 x2 w2 H2 x1 w1 H1.
  destruct H1 as (W1 & N1).
  destruct H2 as (v2 & W2 & L2).
  destruct H3 as (W3 & N3).
  destruct H4 as (e4 & W4 & L4 & S4 & O4 & B4).
  destruct H5 as (W5 & N5).
  destruct H6 as (b6 & W6).
  destruct H7 as (b7 & W7).
  destruct H8 as (b8 & W8).
  destruct H9 as (b9 & W9).
  sel.
  exists {| d_name := v2; d_lead := None; d_arg := (Some e4); d_trail := None; d_after := [b6; b7; b8; b9] |}.
  fin_KDeco. Qed.
Lemma prod_207 : prod_sound E 207.
Proof. start.
  intros x10 w10 H10 x9 w9 H9 x8 w8 H8 x7 w7 H7 x6 w6 H6 x5 w5 H5 x4 w4 H4 x3 w3 H3 x2 w2 H2 x1 w1 H1.
  destruct H1 as (W1 & N1).
  destruct H2 as (v2 & W2 & L2).
  destruct H3 as (W3 & N3).
  destruct H4 as (e4 & W4 & L4 & S4 & O4 & B4).
  destruct H5 as (W5 & N5).
  destruct H6 as (b6 & W6).
  destruct H7 as (b7 & W7).
  destruct H8 as (b8 & W8).
  destruct H9 as (b9 & W9).
  destruct H10 as (b10 & W10).
  sel.
  exists {| d_name := v2; d_lead := None; d_arg := (Some e4); d_trail := None; d_after := [b6; b7; b8; b9; b10] |}.
  fin_KDeco. Qed.
Lemma prod_208 : prod_sound E 208.
Proof. start.
  intros x11 w11 H11 x10 w10 H10 x9 w9 H9 x8 w8 H8 x7 w7 H7 x6 w6 H6 x5 w5 H5 x4 w4 H4 x3 w3 H3 x2 w2 H2 x1 w1 H1.
  destruct H1 as (W1 & N1).
  destruct H2 as (v2 & W2 & L2).
  destruct H3 as (W3 & N3).
  destruct H4 as (e4 & W4 & L4 & S4 & O4 & B4).
  destruct H5 as (W5 & N5).
  destruct H6 as (b6 & W6).
  destruct H7 as (b7 & W7).
  destruct H8 as (b8 & W8).
  destruct H9 as (b9 & W9).
  destruct H10 as (b10 & W10).
  destruct H11 as (b11 & W11).
  sel.
  exists {| d_name := v2; d_lead := None; d_arg := (Some e4); d_trail := None; d_after := [b6; b7; b8; b9; b10; b11] |}.
  fin_KDeco. Qed.
Lemma prod_209 : prod_sound E 209.
Proof. start.
  intros x12 w12 H12 x11 w11 H11 x10 w10 H10 x9 w9 H9 x8 w8 H8 x7 w7 H7 x6 w6 H6 x5 w5 H5 x4 w4 H4 x3 w3 H3 x2 w2 H2 x1 w1 H1.
  destruct H1 as (W1 & N1).
  destruct H2 as (v2 & W2 & L2).
  destruct H3 as (W3 & N3).
  destruct H4 as (e4 & W4 & L4 & S4 & O4 & B4).
  destruct H5 as (W5 & N5).
  destruct H6 as (b6 & W6).
  destruct H7 as (b7 & W7).
  destruct H8 as (b8 & W8).
  destruct H9 as (b9 & W9).
  destruct H10 as (b10 & W10).
  destruct H11 as (b11 & W11).
  destruct H12 as (b12 & W12).
  sel.
  exists {| d_name := v2; d_lead := None; d_arg := (Some e4); d_trail := None; d_after := [b6; b7; b8; b9; b10; b11; b12] |}.
  fin_KDeco. Qed.
Lemma prod_210 : prod_sound E 210.
Proof. start.
  intros x13 w13 H13 x12 w12 H12 x11 w11 H11 x10 w10 H10 x9 w9 H9 x8 w8 H8 x7 w7 H7 x6 w6 H6 x5 w5 H5 x4 w4 H4 x3 w3 H3 x2 w2 H2 x1 w1 H1.
  destruct H1 as (W1 & N1).
  destruct H2 as (v2 & W2 & L2).
  destruct H3 as (W3 & N3).
  destruct H4 as (e4 & W4 & L4 & S4 & O4 & B4).
  destruct H5 as (W5 & N5).
  destruct H6 as (b6 & W6).
  destruct H7 as (b7 & W7).
  destruct H8 as (b8 & W8).
  destruct H9 as (b9 & W9).
  destruct H10 as (b10 & W10).
  destruct H11 as (b11 & W11).
  destruct H12 as (b12 & W12).
  destruct H13 as (b13 & W13).
  sel.
  exists {| d_name := v2; d_lead := None; d_arg := (Some e4); d_trail := None; d_after := [b6; b7; b8; b9; b10; b11; b12; b13] |}.
  fin_KDeco. Qed.
Lemma prod_211 : prod_sound E 211.
Proof. start.
  intros x14 w14 H14 x13 w13 H13 x12 w12 H12 x11 w11 H11 x10 w10 H10 x9 w9 H9 x8 w8 H8 x7 w7 H7 x6 w6 H6 x5 w5 H5 x4 w4 H4 x3 w3 H3 x2 w2 H2 x1 w1 H1.
  destruct H1 as (W1 & N1).
  destruct H2 as (v2 & W2 & L2).
  destruct H3 as (W3 & N3).
  destruct H4 as (e4 & W4 & L4 & S4 & O4 & B4).
  destruct H5 as (W5 & N5).
  destruct H6 as (b6 & W6).
  destruct H7 as (b7 & W7).
  destruct H8 as (b8 & W8).
  destruct H9 as (b9 & W9).
  destruct H10 as (b10 & W10).
  destruct H11 as (b11 & W11).
  destruct H12 as (b12 & W12).
  destruct H13 as (b13 & W13).
  destruct H14 as (b14 & W14).
  sel.
  exists {| d_name := v2; d_lead := None; d_arg := (Some e4); d_trail := None; d_after := [b6; b7; b8; b9; b10; b11; b12; b13; b14] |}.
  fin_KDeco. Qed.
Lemma prod_212 : prod_sound E 212.
Proof. start.
  intros x15 w15 H15 x14 w14 H14 x13 w13 H13 x12 w12 H12 x11 w11 H11 x10 w10 H10 x9 w9 H9 x8 w8 H8 x7 w7 H7 x6 w6 H6 x5 w5 H5 x4 w4 H4 x3 w3 H3 x2 w2 H2 x1 w1 H1.
  destruct H1 as (W1 & N1).
  destruct H2 as (v2 & W2 & L2).
  destruct H3 as (W3 & N3).
  destruct H4 as (e4 & W4 & L4 & S4 & O4 & B4).
  destruct H5 as (W5 & N5).
  destruct H6 as (b6 & W6).
  destruct H7 as (b7 & W7).
  destruct H8 as (b8 & W8).
  destruct H9 as (b9 & W9).
  destruct H10 as (b10 & W10).
  destruct H11 as (b11 & W11).
  destruct H12 as (b12 & W12).
  destruct H13 as (b13 & W13).
  destruct H14 as (b14 & W14).
  destruct H15 as (b15 & W15).
  sel.
  exists {| d_name := v2; d_lead := None; d_arg := (Some e4); d_trail := None; d_after := [b6; b7; b8; b9; b10; b11; b12; b13; b14; b15] |}.
  fin_KDeco. Qed.
Lemma prod_213 : prod_sound E 213.
Proof. start.
  intros x4 w4 H4 x3 w3 H3 x2 w2 H2 x1 w1 H1.
  destruct H1 as (W1 & N1).
  destruct H2 as (v2 & W2 & L2).
  destruct H3 as (W3 & N3).
  destruct H4 as (W4 & N4).
  sel.
  exists {| d_name := v2; d_lead := None; d_arg := None; d_trail := None; d_after := [] |}.
  fin_KDeco. Qed.
Lemma prod_214 : prod_sound E 214.
Proof. start.
  intros x5 w5 H5 x4 w4 H4 x3 w3 H3 x2 w2 H2 x1 w1 H1.
  destruct H1 as (W1 & N1).
  destruct H2 as (v2 & W2 & L2).
  destruct H3 as (W3 & N3).
  destruct H4 as (W4 & N4).
  destruct H5 as (b5 & W5).
  sel.
  exists {| d_name := v2; d_lead := None; d_arg := None; d_trail := None; d_after := [b5] |}.
  fin_KDeco. Qed.
Lemma prod_215 : prod_sound E 215.
Proof. start.
  intros x6 w6 H6 x5 w5 H5 x4 w4 H4 x3 w3 H3 x2 w2 H2 x1 w1 H1.
  destruct H1 as (W1 & N1).
  destruct H2 as (v2 & W2 & L2).
  destruct H3 as (W3 & N3).
  destruct H4 as (W4 & N4).
  destruct H5 as (b5 & W5).
  destruct H6 as (b6 & W6).
  sel.
  exists {| d_name := v2; d_lead := None; d_arg := None; d_trail := None; d_after := [b5; b6] |}.
  fin_KDeco. Qed.
Lemma prod_216 : prod_sound E 216.
Proof. start.
  intros x7 w7 H7 x6 w6 H6 x5 w5 H5 x4 w4 H4 x3 w3 H3 x2 w2 H2 x1 w1 H1.
  destruct H1 as (W1 & N1).
  destruct H2 as (v2 & W2 & L2).
  destruct H3 as (W3 & N3).
  destruct H4 as (W4 & N4).
  destruct H5 as (b5 & W5).
  destruct H6 as (b6 & W6).
  destruct H7 as (b7 & W7).
  sel.
  exists {| d_name := v2; d_lead := None; d_arg := None; d_trail := None; d_after := [b5; b6; b7] |}.
  fin_KDeco. Qed.
Lemma prod_217 : prod_sound E 217.
Proof. start.
  intros x8 w8 H8 x7 w7 H7 x6 w6 H6 x5 w5 H5 x4 w4 H4 x3 w3 H3 x2 w2 H2 x1 w1 H1.
  destruct H1 as (W1 & N1).
  destruct H2 as (v2 & W2 & L2).
  destruct H3 as (W3 & N3).
  destruct H4 as (W4 & N4).
  destruct H5 as (b5 & W5).
  destruct H6 as (b6 & W6).
  destruct H7 as (b7 & W7).
  destruct H8 as (b8 & W8).
  sel.
  exists {| d_name := v2; d_lead := None; d_arg := None; d_trail := None; d_after := [b5; b6; b7; b8] |}.
  fin_KDeco. Qed.
Lemma prod_218 : prod_sound E 218.
Proof. start.
  intros x9 w9 H9 x8 w8 H8 x7 w7 H7 x6 w6 H6 x5 w5 H5 x4 w4 H4 x3 w3 H3 x2 w2 H2 x1 w1 H1.
  destruct H1 as (W1 & N1).
  destruct H2 as (v2 & W2 & L2).
  destruct H3 as (W3 & N3).
  destruct H4 as (W4 & N4).
  destruct H5 as (b5 & W5).
  destruct H6 as (b6 & W6).
  destruct H7 as (b7 & W7).
  destruct H8 as (b8 & W8).
  destruct H9 as (b9 & W9).
  sel.
  exists {| d_name := v2; d_lead := None; d_arg := None; d_trail := None; d_after := [b5; b6; b7; b8; b9] |}.
  fin_KDeco. Qed.
Lemma prod_219 : prod_sound E 219.
Proof. start.
  intros x10 w10 H10 x9 w9 H9 x8 w8 H8 x7 w7 H7 x6 w6 H6 x5 w5 H5 x4 w4 H4 x3 w3 H3 x2 w2 H2 x1 w1 H1.
  destruct H1 as (W1 & N1).
  destruct H2 as (v2 & W2 & L2).
  destruct H3 as (W3 & N3).
  destruct H4 as (W4 & N4).
  destruct H5 as (b5 & W5).
  destruct H6 as (b6 & W6).
  destruct H7 as (b7 & W7).
  destruct H8 as (b8 & W8).
  destruct H9 as (b9 & W9).
  destruct H10 as (b10 & W10).
  sel.
  exists {| d_name := v2; d_lead := None; d_arg := None; d_trail := None; d_after := [b5; b6; b7; b8; b9; b10] |}.
  fin_KDeco. Qed.
Lemma prod_220 : prod_sound E 220.
Proof. start.
  intros x11 w11 H11 x10 w10 H10 x9 w9 H9 x8 w8 H8 x7 w7 H7 x6 w6 H6 x5 w5 H5 x4 w4 H4 x3 w3 H3 x2 w2 H2 x1 w1 H1.
  destruct H1 as (W1 & N1).
  destruct H2 as (v2 & W2 & L2).
  destruct H3 as (W3 & N3).
  destruct H4 as (W4 & N4).
  destruct H5 as (b5 & W5).
  destruct H6 as (b6 & W6).
  destruct H7 as (b7 & W7).
  destruct H8 as (b8 & W8).
  destruct H9 as (b9 & W9).
  destruct H10 as (b10 & W10).
  destruct H11 as (b11 & W11).
  sel.
  exists {| d_name := v2; d_lead := None; d_arg := None; d_trail := None; d_after := [b5; b6; b7; b8; b9; b10; b11] |}.
  fin_KDeco. Qed.
Lemma prod_221 : prod_sound E 221.
Proof. start.
  intros x12 w12 H12 x11 w11 H11 x10 w10 H10 x9 w9 H9 x8 w8 H8 x7 w7 H7 x6 w6 H6 x5 w5 H5 x4 w4 H4 x3 w3 H3 x2 w2 H2 x1 w1 H1.
  destruct H1 as (W1 & N1).
  destruct H2 as (v2 & W2 & L2).
  destruct H3 as (W3 & N3).
  destruct H4 as (W4 & N4).
  destruct H5 as (b5 & W5).
  destruct H6 as (b6 & W6).
  destruct H7 as (b7 & W7).
  destruct H8 as (b8 & W8).
  destruct H9 as (b9 & W9).
  destruct H10 as (b10 & W10).
  destruct H11 as (b11 & W11).
  destruct H12 as (b12 & W12).
  sel.
  exists {| d_name := v2; d_lead := None; d_arg := None; d_trail := None; d_after := [b5; b6; b7; b8; b9; b10; b11; b12] |}.
  fin_KDeco. Qed.
Lemma prod_222 : prod_sound E 222.
Proof. start.
  intros x13 w13 H13 x12 w12 H12 x11 w11 H11 x10 w10 H10 x9 w9 H9 x8 w8 H8 x7 w7 H7 x6 w6 H6 x5 w5 H5 x4 w4 H4 x3 w3 H3 x2 w2 H2 x1 w1 H1.
  destruct H1 as (W1 & N1).
  destruct H2 as (v2 & W2 & L2).
  destruct H3 as (W3 & N3).
  destruct H4 as (W4 & N4).
  destruct H5 as (b5 & W5).
  destruct H6 as (b6 & W6).
  destruct H7 as (b7 & W7).
  destruct H8 as (b8 & W8).
  destruct H9 as (b9 & W9).
  destruct H10 as (b10 & W10).
  destruct H11 as (b11 & W11).
  destruct H12 as (b12 & W12).
  destruct H13 as (b13 & W13).
  sel.
  exists {| d_name := v2; d_lead := None; d_arg := None; d_trail := None; d_after := [b5; b6; b7; b8; b9; b10; b11; b12; b13] |}.
  fin_KDeco. Qed.
Lemma prod_223 : prod_sound E 223.
Proof. start.
  intros x14 w14 H14 x13 w13 H13 x12 w12 H12 x11 w11 H11 x10 w10 H10 x9 w9 H9 x8 w8 H8 x7 w7 H7 x6 w6 H6 x5 w5 H5 x4 w4 H4 x3 w3 H3 x2 w2 H2 x1 w1 H1.
  destruct H1 as (W1 & N1).
  destruct H2 as (v2 & W2 & L2).
  destruct H3 as (W3 & N3).
  destruct H4 as (W4 & N4).
  destruct H5 as (b5 & W5).
  destruct H6 as (b6 & W6).
  destruct H7 as (b7 & W7).
  destruct H8 as (b8 & W8).
  destruct H9 as (b9 & W9).
  destruct H10 as (b10 & W10).
  destruct H11 as (b11 & W11).
  destruct H12 as (b12 & W12).
  destruct H13 as (b13 & W13).
  destruct H14 as (b14 & W14).
  sel.
  exists {| d_name := v2; d_lead := None; d_arg := None; d_trail := None; d_after := [b5; b6; b7; b8; b9; b10; b11; b12; b13; b14] |}.
  fin_KDeco. Qed.
End Productions.
