(** pycep/transformer.py: running its text is calling the model's callbacks.
    Part 4: functions and decorators by name. *)
From Coq Require Import List NArith ZArith Bool String Lia.
From Verif Require Import Py.Str Py.Val Python.Syntax Python.Eval Python.Program Proofs.Base Proofs.PyHeap Proofs.PyRun Proofs.PyLoops Proofs.PyMethods.
From Verif Require Import Proofs.PyDecorators Proofs.PyFunctions1 Proofs.PyFunctions2 Proofs.PyFunctions3.
From Verif Require Import Pycep.Utils Pycep.Functions Pycep.Decorators Lark.Tree.
From Verif Require Pycep.Transformer.
Import ListNotations.
Local Open Scope string_scope.

(** The entries of a constant dict of functions. *)
Definition table (x : string) : list (str * val) :=
  match entry_of pycep x with
  | Some (Constant (EDict l)) => flat_map (fun ke => match ke with (Some (EStr k), EName f) => [(u k, VFun f)] | _ => [] end) l
  | _ => []
  end.
Definition functions_table : list (str * val) := Eval vm_compute in table "FUNCTIONS".
Definition decorators_table : list (str * val) := Eval vm_compute in table "DECORATORS".
Section C.
  Variable E : pyenv.
  Variable rt : Pycep.Main.path -> result str.
  Lemma run_functions n h : pcall E rt (S n) "FUNCTIONS" [] [] h = Got (VRef (next h), push h (ODict functions_table)).
  Proof. vm_cast_no_check (@eq_refl _ (Got (VRef (next h), push h (ODict functions_table)))). Qed.
  Lemma run_decorators n h : pcall E rt (S n) "DECORATORS" [] [] h = Got (VRef (next h), push h (ODict decorators_table)).
  Proof. vm_cast_no_check (@eq_refl _ (Got (VRef (next h), push h (ODict decorators_table)))). Qed.
  Definition same_entry (a : str * val) (b : str * (str -> list pyval -> result pyval)) : Prop :=
    fst a = fst b /\ exists f, snd a = VFun f /\ fun_like E rt f (snd b).
  Lemma same_aget k : forall a b, Forall2 same_entry a b ->
    match aget k b with
    | Some m => exists f, aget k a = Some (VFun f) /\ fun_like E rt f m /\ In (VFun f) (map snd a)
    | None => aget k a = None
    end.
  Proof.
    induction 1 as [|[k1 v] [k2 m] a b (A & f & B & C) _ IH]; cbn [aget]; [reflexivity|]. cbn [fst snd] in *. subst.
    destruct (str_eqb k k2); [exists f; repeat split; [exact C|left; reflexivity]|]. destruct (aget k b) as [m'|]; [|exact IH].
    destruct IH as (g & I1 & I2 & I3). exists g. repeat split; [exact I1|exact I2|now right].
  Qed.
  Ltac by_name f := lazymatch eval compute in f with
    | "any_func" => exact (text_any_func E rt)
    | "array_func" => exact (text_array_func E rt)
    | "contains" => exact (text_contains E rt)
    | "empty" => exact (text_empty E rt)
    | "first" => exact (text_first E rt)
    | "flatten" => exact (text_flatten E rt)
    | "last" => exact (text_last E rt)
    | "length" => exact (text_length E rt)
    | "range_func" => exact (text_range_func E rt)
    | "skip" => exact (text_skip E rt)
    | "take" => exact (text_take E rt)
    | "date_time_add" => exact (text_date_time_add E rt)
    | "date_time_from_epoch" => exact (text_date_time_from_epoch E rt)
    | "date_time_to_epoch" => exact (text_date_time_to_epoch E rt)
    | "utc_now" => exact (text_utc_now E rt)
    | "deployment" => exact (text_deployment E rt)
    | "environment" => exact (text_environment E rt)
    | "load_text_content" => exact (text_load_text_content E rt)
    | "load_file_as_base64" => exact (text_load_file_as_base64 E rt)
    | "filter_func" => exact (text_filter_func E rt)
    | "bool_func" => exact (text_bool_func E rt)
    | "int_func" => exact (text_int_func E rt)
    | "json_func" => exact (text_json_func E rt)
    | "list_func" => exact (text_list_func E rt)
    | "management_group" => exact (text_management_group E rt)
    | "subscription" => exact (text_subscription E rt)
    | "tenant" => exact (text_tenant E rt)
    | "base64_func" => exact (text_base64_func E rt)
    | "base64_to_json" => exact (text_base64_to_json E rt)
    | "base64_to_string" => exact (text_base64_to_string E rt)
    | "data_uri" => exact (text_data_uri E rt)
    | "data_uri_to_string" => exact (text_data_uri_to_string E rt)
    | "ends_with" => exact (text_ends_with E rt)
    | "index_of" => exact (text_index_of E rt)
    | "last_index_of" => exact (text_last_index_of E rt)
    | "new_guid" => exact (text_new_guid E rt)
    | "pad_left" => exact (text_pad_left E rt)
    | "split" => exact (text_split E rt)
    | "join" => exact (text_join E rt)
    | "starts_with" => exact (text_starts_with E rt)
    | "string_func" => exact (text_string_func E rt)
    | "substring" => exact (text_substring E rt)
    | "to_lower" => exact (text_to_lower E rt)
    | "to_upper" => exact (text_to_upper E rt)
    | "trim" => exact (text_trim E rt)
    | "uri" => exact (text_uri E rt)
    | "uri_component" => exact (text_uri_component E rt)
    | "uri_component_to_string" => exact (text_uri_component_to_string E rt)
    | "load_json_content" => exact (text_load_json_content E rt)
    | "load_yaml_content" => exact (text_load_yaml_content E rt)
    | "extension_resource_id" => exact (text_extension_resource_id E rt)
    | "management_group_resource_id" => exact (text_management_group_resource_id E rt)
    | "pick_zones" => exact (text_pick_zones E rt)
    | "reference" => exact (text_reference E rt)
    | "subscription_resource_id" => exact (text_subscription_resource_id E rt)
    | "tenant_resource_id" => exact (text_tenant_resource_id E rt)
    | "resource_group" => exact (text_resource_group E rt)
    | "replace" => exact (text_replace E rt)
    | "concat" => exact (text_concat E rt)
    | "intersection" => exact (text_intersection E rt)
    | "max_func" => exact (text_max_func E rt)
    | "min_func" => exact (text_min_func E rt)
    | "union" => exact (text_union E rt)
    | "format_func" => exact (text_format_func E rt)
    | "guid" => exact (text_guid E rt)
    | "unique_string" => exact (text_unique_string E rt)
    | "unknown_func" => exact (text_unknown_func E rt)
    | "resource_id" => exact (text_resource_id E rt)
    end.
  Ltac pick := first [lazymatch goal with |- fun_like _ _ ?f _ => by_name f end | first [exact (text_deco_allowed E rt) | exact (text_deco_batch E rt) | exact (text_deco_description E rt) | exact (text_deco_min_len E rt) | exact (text_deco_max_len E rt) | exact (text_deco_metadata E rt) | exact (text_deco_export E rt) | exact (text_deco_sealed E rt) | exact (text_deco_secure E rt) | exact (text_unknown_deco E rt) | exact (text_deco_max_val E rt) | exact (text_deco_min_val E rt)]].
  Ltac entry := split; [reflexivity|eexists; split; [reflexivity|cbn [snd]; pick]].
  Lemma functions_same : Forall2 same_entry functions_table FUNCTIONS.
  Proof. unfold functions_table, FUNCTIONS. repeat (apply Forall2_cons; [entry|]). apply Forall2_nil. Qed.
  Lemma decorators_same : Forall2 same_entry decorators_table (DECORATORS E).
  Proof. unfold decorators_table, DECORATORS. repeat (apply Forall2_cons; [entry|]). apply Forall2_nil. Qed.
  (** The names in the tables are those of functions of the program. *)
  Definition calls (T : list (str * val)) : Prop :=
    forall f n pos kw h, In (VFun f) (map snd T) -> pvalue E rt n (VFun f) pos kw h = pcall E rt n f pos kw h.
  Definition callable (v : val) : bool :=
    match v with
    | VFun f => negb (String.eqb f "BicepElement") && match entry_of pycep f with Some _ => true | None => false end
    | _ => false
    end.
  Lemma calls_of T : forallb callable (map snd T) = true -> calls T.
  Proof.
    intros H f n pos kw h Hi. rewrite forallb_forall in H. specialize (H _ Hi). apply andb_true_iff in H as [H1 H2].
    apply negb_true_iff, String.eqb_neq in H1. unfold pvalue, call_value.
    destruct (entry_of pycep f) eqn:Ef; [|discriminate]. 
    repeat match goal with |- context [match ?s with EmptyString => _ | String _ _ => _ end] => is_var s; destruct s end; try reflexivity.
    all: repeat match goal with |- context [match ?a with Ascii.Ascii _ _ _ _ _ _ _ _ => _ end] => is_var a; destruct a end.
    all: repeat match goal with |- context [if ?b then _ else _] => is_var b; destruct b end; try reflexivity. 
    all: try (exfalso; apply H1; reflexivity).
    all: fail.
  Qed.
End C.
