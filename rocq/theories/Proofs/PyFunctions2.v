(** pycep/rules/functions.py: running its text is calling the model's functions (optional arguments). *)
From Coq Require Import List NArith ZArith Bool String Lia.
From Verif Require Import Py.Str Py.Val Python.Syntax Python.Eval Python.Program Proofs.Base Proofs.PyHeap Proofs.PyRun.
From Verif Require Import Pycep.Functions.
Import ListNotations.
Local Open Scope string_scope.

Lemma text_load_json_content E rt : fun_like E rt "load_json_content" f_load_json_content.
Proof. by_args 4. Qed.
Lemma text_load_yaml_content E rt : fun_like E rt "load_yaml_content" f_load_yaml_content.
Proof. by_args 4. Qed.
Lemma text_extension_resource_id E rt : fun_like E rt "extension_resource_id" f_extension_resource_id.
Proof. by_args 4. Qed.
Lemma text_management_group_resource_id E rt : fun_like E rt "management_group_resource_id" f_management_group_resource_id.
Proof. by_args 3. Qed.
Lemma text_pick_zones E rt : fun_like E rt "pick_zones" f_pick_zones.
Proof. by_args 6. Qed.
Lemma text_reference E rt : fun_like E rt "reference" f_reference.
Proof. by_args 4. Qed.
Lemma text_subscription_resource_id E rt : fun_like E rt "subscription_resource_id" f_subscription_resource_id.
Proof. by_args 5. Qed.
Lemma text_tenant_resource_id E rt : fun_like E rt "tenant_resource_id" f_tenant_resource_id.
Proof. by_args 3. Qed.
Lemma text_resource_group E rt : fun_like E rt "resource_group" f_resource_group.
Proof. by_args 3. Qed.
Lemma text_replace E rt : fun_like E rt "replace" f_replace.
Proof. by_args 4. Qed.
