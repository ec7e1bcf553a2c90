(** C45: a text is a way to write one program only. *)
From Coq Require Import List Arith NArith ZArith Bool String Lia.
From Verif Require Import Py.Str Py.Val Lark.Tree Lark.Shape Lark.Terminals
  Pycep.Utils Pycep.Transformer Pycep.Main Pycep.Bicep
  Spec.Calls Spec.Text Spec.Lexemes Spec.Numbering Spec.Types Spec.Sentences Spec.Spelling Spec.Syntax Spec.Plain Spec.Reading Spec.Outline
  Proofs.Base Proofs.Published Proofs.EndToEnd Proofs.Derive Proofs.DerivePrograms Proofs.Outline Proofs.Like Proofs.UnparseText Proofs.SpellCheck Proofs.Write Proofs.Decode
  Props.Calls Props.Documents Props.Syntax.
Import ListNotations.
Local Open Scope string_scope.

(** ** C45 *)
(** Two programs written by the same text differ in marks and layout only. *)
Theorem C45_one_program : forall E p q t, program_wf false p = true -> program_wf false q = true -> writes E p t -> writes E q t ->
  plain_program p = plain_program q.
Proof.
  intros E p q t W1 W2 S1 S2. destruct (written E p t W1 S1) as (x & P1 & T1 & _). destruct (written E q t W2 S2) as (y & P2 & T2 & _).
  rewrite P1 in P2. apply Ok_inj in P2 as <-. apply (like_plain x); apply same_like; assumption.
Qed.
(** The program found in an accepted text is the only one written by it. *)
Theorem C45_accepted : forall E fs text fp t o, source fs text fp t -> bicep_create_tree E fs text fp = Ok o ->
  exists p, program_shaped p = true /\ reads_as E (program_tokens p) t /\ o = outline_text (program_outline p) /\
    forall q, program_wf false q = true -> writes E q t -> plain_program q = plain_program p.
Proof.
  intros E fs text fp t o S H. rewrite (tree_source E fs _ _ _ S) in H.
  destruct (is_valid t); [|discriminate]. destruct (lark_parse E t) as [x|e] eqn:P; cbn [bind] in *; [|discriminate]. injection H as <-.
  destruct (accepted_program E t x P) as (p & Sh & R & L). exists p. split; [exact Sh|]. split; [exact R|]. split.
  - rewrite <- pretty_program. unfold pretty. rewrite (like_pretty _ _ L). reflexivity.
  - intros q W Wr. destruct (written E q t W Wr) as (y & P2 & T2 & _). rewrite P in P2. apply Ok_inj in P2 as <-. apply (like_plain x); [|exact L]. apply same_like. exact T2.
Qed.
(** [1 - 2 - 3] has the tokens of two values, and is one of them. *)
Definition minus_of (a b c : expr) (left : bool) : list line :=
  [Declared (DVar [] (u "x") None (if left then EBin Sub (EBin Sub a b) c else EBin Sub a (EBin Sub b c))) None].
Definition minus_text : str := u "var x = 1 - 2 - 3".
Example C45_ex : let p := minus_of (EInt (u "1")) (EInt (u "2")) (EInt (u "3")) in
  program_tokens (p true) = program_tokens (p false) /\ plain_program (p true) <> plain_program (p false) /\
  program_wf false (p false) = true /\ writes env0 (p false) minus_text /\ program_wf false (p true) = false /\
  (forall q, program_wf false q = true -> writes env0 q minus_text -> plain_program q = plain_program (p false)).
Proof.
  cbv zeta. assert (Hw : writes env0 (minus_of (EInt (u "1")) (EInt (u "2")) (EInt (u "3")) false) minus_text) by (apply spell_check_sound; vm_compute; reflexivity).
  split; [reflexivity|]. split; [vm_compute; discriminate|]. split; [reflexivity|]. split; [exact Hw|]. split; [reflexivity|].
  intros q W Wr. refine (C45_one_program env0 q _ minus_text W _ Wr Hw). reflexivity.
Qed.
Definition C45_all := (C45_one_program, C45_accepted, C45_ex).
Print Assumptions C45_all.
