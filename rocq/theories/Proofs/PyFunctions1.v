(** pycep/rules/functions.py: running its text is calling the model's functions (one and two arguments). *)
From Coq Require Import List NArith ZArith Bool String Lia.
From Verif Require Import Py.Str Py.Val Python.Syntax Python.Eval Python.Program Proofs.Base Proofs.PyHeap Proofs.PyRun.
From Verif Require Import Pycep.Functions.
Import ListNotations.
Local Open Scope string_scope.

Lemma text_any_func E rt : fun_like E rt "any_func" f_any_func.
Proof. by_args 1. Qed.
Lemma text_array_func E rt : fun_like E rt "array_func" f_array_func.
Proof. by_args 1. Qed.
Lemma text_contains E rt : fun_like E rt "contains" f_contains.
Proof. by_args 3. Qed.
Lemma text_empty E rt : fun_like E rt "empty" f_empty.
Proof. by_args 1. Qed.
Lemma text_first E rt : fun_like E rt "first" f_first.
Proof. by_args 1. Qed.
Lemma text_flatten E rt : fun_like E rt "flatten" f_flatten.
Proof. by_args 1. Qed.
Lemma text_last E rt : fun_like E rt "last" f_last.
Proof. by_args 1. Qed.
Lemma text_length E rt : fun_like E rt "length" f_length.
Proof. by_args 1. Qed.
Lemma text_range_func E rt : fun_like E rt "range_func" f_range_func.
Proof. by_args 3. Qed.
Lemma text_skip E rt : fun_like E rt "skip" f_skip.
Proof. by_args 3. Qed.
Lemma text_take E rt : fun_like E rt "take" f_take.
Proof. by_args 3. Qed.
Lemma text_date_time_add E rt : fun_like E rt "date_time_add" f_date_time_add.
Proof. by_args 3. Qed.
Lemma text_date_time_from_epoch E rt : fun_like E rt "date_time_from_epoch" f_date_time_from_epoch.
Proof. by_args 1. Qed.
Lemma text_date_time_to_epoch E rt : fun_like E rt "date_time_to_epoch" f_date_time_to_epoch.
Proof. by_args 1. Qed.
Lemma text_utc_now E rt : fun_like E rt "utc_now" f_utc_now.
Proof. by_args 1. Qed.
Lemma text_deployment E rt : fun_like E rt "deployment" f_deployment.
Proof. by_args 0. Qed.
Lemma text_environment E rt : fun_like E rt "environment" f_environment.
Proof. by_args 0. Qed.
Lemma text_load_text_content E rt : fun_like E rt "load_text_content" f_load_text_content.
Proof. by_args 2. Qed.
Lemma text_load_file_as_base64 E rt : fun_like E rt "load_file_as_base64" f_load_file_as_base64.
Proof. by_args 1. Qed.
Lemma text_filter_func E rt : fun_like E rt "filter_func" f_filter_func.
Proof. by_args 3. Qed.
Lemma text_bool_func E rt : fun_like E rt "bool_func" f_bool_func.
Proof. by_args 1. Qed.
Lemma text_int_func E rt : fun_like E rt "int_func" f_int_func.
Proof. by_args 1. Qed.
Lemma text_json_func E rt : fun_like E rt "json_func" f_json_func.
Proof. by_args 1. Qed.
Lemma text_list_func E rt : fun_like E rt "list_func" f_list_func.
Proof. by_args 3. Qed.
Lemma text_management_group E rt : fun_like E rt "management_group" f_management_group.
Proof. by_args 1. Qed.
Lemma text_subscription E rt : fun_like E rt "subscription" f_subscription.
Proof. by_args 1. Qed.
Lemma text_tenant E rt : fun_like E rt "tenant" f_tenant.
Proof. by_args 0. Qed.
Lemma text_base64_func E rt : fun_like E rt "base64_func" f_base64_func.
Proof. by_args 1. Qed.
Lemma text_base64_to_json E rt : fun_like E rt "base64_to_json" f_base64_to_json.
Proof. by_args 1. Qed.
Lemma text_base64_to_string E rt : fun_like E rt "base64_to_string" f_base64_to_string.
Proof. by_args 1. Qed.
Lemma text_data_uri E rt : fun_like E rt "data_uri" f_data_uri.
Proof. by_args 1. Qed.
Lemma text_data_uri_to_string E rt : fun_like E rt "data_uri_to_string" f_data_uri_to_string.
Proof. by_args 1. Qed.
Lemma text_ends_with E rt : fun_like E rt "ends_with" f_ends_with.
Proof. by_args 3. Qed.
Lemma text_index_of E rt : fun_like E rt "index_of" f_index_of.
Proof. by_args 3. Qed.
Lemma text_last_index_of E rt : fun_like E rt "last_index_of" f_last_index_of.
Proof. by_args 3. Qed.
Lemma text_new_guid E rt : fun_like E rt "new_guid" f_new_guid.
Proof. by_args 0. Qed.
Lemma text_pad_left E rt : fun_like E rt "pad_left" f_pad_left.
Proof. by_args 3. Qed.
Lemma text_split E rt : fun_like E rt "split" f_split.
Proof. by_args 3. Qed.
Lemma text_join E rt : fun_like E rt "join" f_join.
Proof. by_args 3. Qed.
Lemma text_starts_with E rt : fun_like E rt "starts_with" f_starts_with.
Proof. by_args 3. Qed.
Lemma text_string_func E rt : fun_like E rt "string_func" f_string_func.
Proof. by_args 1. Qed.
Lemma text_substring E rt : fun_like E rt "substring" f_substring.
Proof. by_args 3. Qed.
Lemma text_to_lower E rt : fun_like E rt "to_lower" f_to_lower.
Proof. by_args 1. Qed.
Lemma text_to_upper E rt : fun_like E rt "to_upper" f_to_upper.
Proof. by_args 1. Qed.
Lemma text_trim E rt : fun_like E rt "trim" f_trim.
Proof. by_args 1. Qed.
Lemma text_uri E rt : fun_like E rt "uri" f_uri.
Proof. by_args 3. Qed.
Lemma text_uri_component E rt : fun_like E rt "uri_component" f_uri_component.
Proof. by_args 1. Qed.
Lemma text_uri_component_to_string E rt : fun_like E rt "uri_component_to_string" f_uri_component_to_string.
Proof. by_args 1. Qed.
