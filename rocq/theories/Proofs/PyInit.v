(** pycep/transformer.py, __init__: a new object with two empty lists. *)
From Coq Require Import List Arith NArith ZArith Bool String Lia.
From Verif Require Import Py.Str Py.Val Python.Syntax Python.Eval Python.Program Proofs.Base Proofs.PyHeap Proofs.PyRun Proofs.PyLoops Proofs.PyMethods Proofs.PyChildren Proofs.PyChildren2 Proofs.PyImports.
From Verif Require Import Pycep.Utils.
Import ListNotations.
Local Open Scope string_scope.

Section I.
  Variable E : pyenv.
  Variable rt : Pycep.Main.path -> result str.
  Lemma text_init n h ln : exists h' li lc, pcall E rt (S (S n)) "BicepToJson" [] [("add_line_numbers", VBool ln)] h = Got (VRef (next h), h') /\
    self_is h' (next h) ln li lc /\ get h' li = Some (OList []) /\ get h' lc = Some (OList []) /\ ext h h' /\ own h' [next h; li; lc].
  Proof.
    eassert (Hi : forall h0, h0 = push h (OInst "BicepToJson" []) -> pcall E rt (S n) "BicepToJson.__init__" [VRef (next h)] [("add_line_numbers", VBool ln)] h0 = _).
    { intros h0 ->. assert (G := get_push_new h (OInst "BicepToJson" [])). enter. run3. reflexivity. }
    specialize (Hi _ eq_refl).
    eexists _, _, _. split.
    { change (pcall E rt (S (S n)) "BicepToJson" [] [("add_line_numbers", VBool ln)] h) with
        (let! (_, h1) := pcall E rt (S n) "BicepToJson.__init__" [VRef (next h)] [("add_line_numbers", VBool ln)] (push h (OInst "BicepToJson" [])) in Got (VRef (next h), h1)).
      rewrite Hi. reflexivity. }
    clear Hi. unfold self_is. repeat rewrite ?next_set, ?next_push.
    split; [rewrite get_set_same; reflexivity|].
    split; [unfold get, set, push; cbn -[Nat.eqb]; repeat match goal with |- context [Nat.eqb ?a ?b] => destruct (Nat.eqb_spec a b); try lia; cbn -[Nat.eqb] end; reflexivity|].
    split; [unfold get, set, push; cbn -[Nat.eqb]; repeat match goal with |- context [Nat.eqb ?a ?b] => destruct (Nat.eqb_spec a b); try lia; cbn -[Nat.eqb] end; reflexivity|]. split.
    - split; [repeat rewrite ?next_set, ?next_push; lia|]. intros k Hk. unfold get, set, push; cbn -[Nat.eqb]. repeat match goal with |- context [Nat.eqb ?a ?b] => destruct (Nat.eqb_spec a b); try lia; cbn -[Nat.eqb] end; reflexivity.
    - intros k. repeat rewrite ?next_set, ?next_push. cbn [cnt]. repeat match goal with |- context [Nat.eqb ?a ?b] => destruct (Nat.eqb_spec a b) end; destruct (Nat.ltb_spec k (S (S (S (next h))))); lia.
  Qed.
End I.
