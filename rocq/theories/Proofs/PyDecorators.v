(** pycep/rules/decorators.py: running its text is calling the model's functions. *)
From Coq Require Import List NArith ZArith Bool String Lia.
From Verif Require Import Py.Str Py.Val Python.Syntax Python.Eval Python.Program Proofs.Base Proofs.PyHeap Proofs.PyRun.
From Verif Require Import Pycep.Decorators.
Import ListNotations.
Local Open Scope string_scope.

Lemma text_deco_allowed E rt : fun_like E rt "deco_allowed" deco_allowed.
Proof. by_args 1. Qed.
Lemma text_deco_batch E rt : fun_like E rt "deco_batch" deco_batch.
Proof. by_args 1. Qed.
Lemma text_deco_description E rt : fun_like E rt "deco_description" deco_description.
Proof. by_args 1. Qed.
Lemma text_deco_min_len E rt : fun_like E rt "deco_min_len" deco_min_len.
Proof. by_args 1. Qed.
Lemma text_deco_max_len E rt : fun_like E rt "deco_max_len" deco_max_len.
Proof. by_args 1. Qed.
Lemma text_deco_metadata E rt : fun_like E rt "deco_metadata" deco_metadata.
Proof. by_args 1. Qed.
Lemma text_deco_export E rt : fun_like E rt "deco_export" deco_export.
Proof. by_args 0. Qed.
Lemma text_deco_sealed E rt : fun_like E rt "deco_sealed" deco_sealed.
Proof. by_args 0. Qed.
Lemma text_deco_secure E rt : fun_like E rt "deco_secure" deco_secure.
Proof. by_args 0. Qed.
Lemma text_unknown_deco E rt : fun_like E rt "unknown_deco" unknown_deco.
Proof. by_args 1. Qed.
Lemma text_deco_max_val E rt : fun_like E rt "deco_max_val" (deco_max_val E).
Proof. by_args 1. Qed.
Lemma times_m1 z : (z * -1)%Z = (- z)%Z. Proof. lia. Qed.
Lemma text_deco_min_val E rt : fun_like E rt "deco_min_val" deco_min_val.
Proof.
  intros n h l vs ps F name Hl R O; assert (Ll := own_head _ _ _ O); enter; split_args 1 vs; [finish|].
  run; rewrite ?times_m1; dicts; done_tac.
Qed.
