(** pycep/rules/functions.py: running its text is calling the model's functions (any number of arguments). *)
From Coq Require Import List NArith ZArith Bool String Lia.
From Verif Require Import Py.Str Py.Val Python.Syntax Python.Eval Python.Program Proofs.Base Proofs.PyHeap Proofs.PyRun.
From Verif Require Import Pycep.Functions.
Import ListNotations.
Local Open Scope string_scope.


Ltac numbered_args d pre k st i :=
  let vs := fresh "vs" in
  intros n h l vs ps F name Hl R O; enter; split_args d vs;
  [..|let key := eval cbv -[dec_Z app Z.add] in (fun z : Z => (u pre ++ dec_Z (k z))%list) in
      let pre' := eval cbv in (u pre) in
      run; [comp_step key; run; rewrite ?merge_nil; num_model;
            match goal with Q : reps _ _ _ _ |- _ => num_have Q key pre' i st end; done_tac]];
  finish.
Lemma text_concat E rt : fun_like E rt "concat" f_concat.
Proof. numbered_args 1 "arg_" (fun z => (z + 2)%Z) 2%N 0%Z. Qed.
Lemma text_intersection E rt : fun_like E rt "intersection" f_intersection.
Proof. numbered_args 2 "arg_" (fun z => (z + 3)%Z) 3%N 0%Z. Qed.
Lemma text_max_func E rt : fun_like E rt "max_func" f_max_func.
Proof. numbered_args 1 "arg_" (fun z => (z + 2)%Z) 2%N 0%Z. Qed.
Lemma text_min_func E rt : fun_like E rt "min_func" f_min_func.
Proof. numbered_args 1 "arg_" (fun z => (z + 2)%Z) 2%N 0%Z. Qed.
Lemma text_union E rt : fun_like E rt "union" f_union.
Proof. numbered_args 2 "arg_" (fun z => (z + 3)%Z) 3%N 0%Z. Qed.
Lemma text_format_func E rt : fun_like E rt "format_func" f_format_func.
Proof. numbered_args 1 "arg_" (fun z => (z + 1)%Z) 1%N 0%Z. Qed.
Lemma text_guid E rt : fun_like E rt "guid" f_guid.
Proof. numbered_args 1 "extra_string_" (fun z => (z + 1)%Z) 1%N 0%Z. Qed.
Lemma text_unique_string E rt : fun_like E rt "unique_string" f_unique_string.
Proof. numbered_args 1 "extra_string_" (fun z => (z + 1)%Z) 1%N 0%Z. Qed.
Lemma text_unknown_func E rt : fun_like E rt "unknown_func" f_unknown_func.
Proof. numbered_args 0 "arg_" (fun z => (z + 1)%Z) 1%N 0%Z. Qed.
Lemma text_resource_id E rt : fun_like E rt "resource_id" f_resource_id.
Proof.
  intros n h l vs ps F name Hl R O; enter; split_args 5 vs; [finish..|].
  run. change 3%Z with (Z.of_nat 3). rewrite slice_from. cbn [skipn].
  comp_step (fun z : Z => ([114%N; 101%N; 115%N; 111%N; 117%N; 114%N; 99%N; 101%N; 95%N; 110%N; 97%N; 109%N; 101%N; 95%N] ++ dec_Z z)%list).
  run. rewrite ?merge_nil.
  assert (Q : reps h (v2 :: v3 :: vs) (p2 :: p3 :: qs) (G2 ++ G3 ++ H)) by rep_tac.
  match goal with |- context [dict_of ?d] => lazymatch d with ?x :: (numbered ?a ?b ?c ++ [?y; ?z])%list =>
    replace (dict_of d) with (aset (fst z) (snd z) (aset (fst y) (snd y) (merge [x] (numbered a b c))))
      by (symmetry; exact (dict_of_app (x :: numbered a b c) [y; z])) end end.
  cbn [fst snd].
  num_have Q (fun z : Z => ([114%N; 101%N; 115%N; 111%N; 117%N; 114%N; 99%N; 101%N; 95%N; 110%N; 97%N; 109%N; 101%N; 95%N] ++ dec_Z z)%list)
    [114%N; 101%N; 115%N; 111%N; 117%N; 114%N; 99%N; 101%N; 95%N; 110%N; 97%N; 109%N; 101%N; 95%N] 1%Z 1%N.
  match type of M with repd _ ?d ?q _ =>
    lazymatch goal with |- context [aset ?kz ?vz (aset ?ky ?vy d)] => lazymatch goal with |- context [aset ky ?py q] =>
      destruct (repd_aset h ky vy py _ ltac:(eassumption) _ _ _ M) as (F1 & M1 & B1) end end end.
  match type of M1 with repd _ ?d ?q _ =>
    lazymatch goal with |- context [aset ?kz ?vz d] => lazymatch goal with |- context [aset kz ?pz q] =>
      destruct (repd_aset h kz vz pz _ ltac:(eassumption) _ _ _ M1) as (F2 & M2 & B2) end end end.
  done_tac.
Qed.
