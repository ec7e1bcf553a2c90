(** pycep/transformer.py: running its text is calling the model's callbacks.
    Part 2: elements with Meta. *)
From Coq Require Import List NArith ZArith Bool String Lia.
From Verif Require Import Py.Str Py.Val Python.Syntax Python.Eval Python.Program Proofs.Base Proofs.PyHeap Proofs.PyRun Proofs.PyLoops Proofs.PyMethods.
From Verif Require Import Pycep.Utils Lark.Tree.
From Verif Require Pycep.Transformer.
Import ListNotations.
Local Open Scope string_scope.
Section C.
  Variable E : pyenv.
  Variable rt : Pycep.Main.path -> result str.
  Lemma text_metadata : mcb_like E rt "metadata" (fun ln => Transformer.cb_metadata E ln).
  Proof. mcb 3. Qed.
  Lemma text_param : mcb_like E rt "param" (fun ln => Transformer.cb_param E ln).
  Proof. mcb 5. Qed.
  Lemma text_output : mcb_like E rt "output" (fun ln => Transformer.cb_output E ln).
  Proof. mcb 5. Qed.
  Lemma text_child_resource : mcb_like E rt "child_resource" (fun ln => Transformer.cb_child_resource E ln).
  Proof. mcb 5. Qed.
  Lemma text_custom_type : mcb_like E rt "custom_type" (fun ln => Transformer.cb_custom_type E ln).
  Proof. mcb 4. Qed.
End C.
