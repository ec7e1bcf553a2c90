(** pycep/transformer.py: running its text is calling the model's callbacks.
    Part 8: elements with Meta (continued) and loops. *)
From Coq Require Import List NArith ZArith Bool String Lia.
From Verif Require Import Py.Str Py.Val Python.Syntax Python.Eval Python.Program Proofs.Base Proofs.PyHeap Proofs.PyRun Proofs.PyLoops Proofs.PyMethods.
From Verif Require Import Pycep.Utils Lark.Tree.
From Verif Require Pycep.Transformer.
Import ListNotations.
Local Open Scope string_scope.
Section C.
  Variable E : pyenv.
  Variable rt : Pycep.Main.path -> result str.
  Lemma text_extension : mcb_like E rt "extension" (fun ln => Transformer.cb_extension E ln).
  Proof. mcb 4. Qed.
  Lemma text_var : mcb_like E rt "var" (fun ln => Transformer.cb_var E ln).
  Proof. mcb 5. Qed.
  Lemma text_scope : mcb_like E rt "scope" (fun ln => Transformer.cb_scope E ln).
  Proof. mcb 1. Qed.
  Lemma text_module : mcb_like E rt "module" (fun ln => Transformer.cb_module E ln).
  Proof. mcb0; args 5; try (now finish); val_cases v1; two_keys "type" "detail"; run; dicts; done_tac. Qed.
  Lemma text_loop : cb_like E rt "loop" Transformer.cb_loop.
  Proof. cb 4. Qed.
End C.
