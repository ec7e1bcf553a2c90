(** Calling the method of a tree by running the text, for the methods that leave [self] alone. *)
From Coq Require Import List Arith NArith ZArith Bool String Lia.
From Verif Require Import Py.Str Py.Val Python.Syntax Python.Eval Python.Program Proofs.Base Proofs.PyHeap Proofs.PyRun Proofs.PyMethods.
From Verif Require Import Proofs.PyCallbacks1 Proofs.PyCallbacks2 Proofs.PyCallbacks3 Proofs.PyCallbacks5 Proofs.PyCallbacks6 Proofs.PyCallbacks7 Proofs.PyCallbacks8.
From Verif Require Import Pycep.Utils Lark.Tree.
From Verif Require Pycep.Transformer.
Import ListNotations.
Local Open Scope string_scope.

Definition label_text (l : label) : string := string_of_list_ascii (map Ascii.ascii_of_N (label_name l)).
(** The methods decorated with v_args(meta=True). *)
Definition takes_meta (l : label) : bool :=
  match l with
  | L_scope | L_custom_import | L_extension | L_metadata | L_param | L_var | L_output | L_resource | L_child_resource | L_module | L_custom_type | L_custom_func => true
  | _ => false
  end.
Lemma entry_kind l : l <> L_nocallback -> match entry_of pycep (method_name "BicepToJson" l) with Some (Function b _ _) => b = takes_meta l | _ => False end.
Proof. intros H. destruct l; try (vm_compute; reflexivity). now apply H. Qed.

Section U.
  Variable E : pyenv.
  Variable rt : Pycep.Main.path -> result str.
  Definition puserfunc (k : nat) (ls : nat) := userfunc pycep (pcall E rt k) "BicepToJson" (VRef ls).
  Lemma gives_wrap h F l m r : gives h F m r -> gives h F (Transformer.wrap l m) (wrapped l r).
  Proof. destruct m as [p|e]; cbn [gives Transformer.wrap]; [intros (v & h' & F' & -> & R); exists v, h', F'; auto|now intros ->]. Qed.
  (** The list of arguments. *)
  Lemma push_args h vs ps F : reps h vs ps F -> own h F -> get (push h (OList vs)) (next h) = Some (OList vs) /\
    reps (push h (OList vs)) vs ps F /\ own (push h (OList vs)) (next h :: F) /\ fits h (push h (OList vs)) F (next h :: F).
  Proof.
    intros R O. split; [apply get_push_new|]. split; [exact (reps_ext _ _ _ _ _ (own_below _ _ O) (ext_push h _) R)|].
    assert (B := own_below _ _ O). split.
    - intros j. specialize (O j). specialize (B j). cbn [cnt]. rewrite next_push. repeat match goal with |- context [Nat.eqb ?a ?b] => destruct (Nat.eqb_spec a b) end; destruct (Nat.ltb_spec j (next h)), (Nat.ltb_spec j (S (next h))); lia.
    - intros j. specialize (O j). specialize (B j). cbn [cnt]. rewrite next_push. repeat match goal with |- context [Nat.eqb ?a ?b] => destruct (Nat.eqb_spec a b) end; destruct (Nat.ltb_spec j (next h)), (Nat.ltb_spec j (S (next h))); lia.
  Qed.
  Lemma plain_call l m n ls mt h vs ps F : l <> L_nocallback -> takes_meta l = false -> 
    cb_like E rt (label_text l) m ->
    reps h vs ps F -> own h F -> gives h F (Transformer.wrap l (m ps)) (puserfunc (S (S (S (S n)))) ls l mt vs h).
  Proof.
    intros Hn Hl H R O. unfold puserfunc, userfunc. assert (K := entry_kind l Hn). destruct (entry_of pycep (method_name "BicepToJson" l)) as [[?|b ? ?|]|]; try contradiction.
    subst b. rewrite Hl. destruct (push_args h vs ps F R O) as (A & B & C & D). refine (gives_trans _ _ _ _ _ _ (ext_push h _) D _). apply gives_wrap. exact (H n _ ls _ _ _ _ A B C).
  Qed.
  Lemma meta_call l m n ln ls mt h vs ps F : takes_meta l = true -> mcb_like E rt (label_text l) m -> self_at h ls ln ->
    reps h vs ps F -> own h F -> gives h F (Transformer.wrap l (m ln mt ps)) (puserfunc (S (S (S (S n)))) ls l mt vs h).
  Proof.
    intros Hl H Hs R O. unfold puserfunc, userfunc. assert (Hn : l <> L_nocallback) by (intros ->; discriminate). assert (K := entry_kind l Hn).
    destruct (entry_of pycep (method_name "BicepToJson" l)) as [[?|b ? ?|]|]; try contradiction.
    subst b. rewrite Hl. destruct (push_args h vs ps F R O) as (A & B & C & D). refine (gives_trans _ _ _ _ _ _ (ext_push h _) D _). apply gives_wrap. refine (H n _ ln ls mt _ _ _ _ _ A B C).
    destruct Hs as (attrs & G & L). exists attrs. rewrite next_push, get_push_old by exact L. split; [exact G|lia].
  Qed.

  (** What the model's callback returns, for the callbacks that neither read nor write the state. *)
  Definition stateless (l : label) : bool := match l with L_start | L_custom_import | L_resource | L_nocallback => false | _ => true end.
  Lemma wrap_pure l st r : Transformer.wrap l (Transformer.pure st r) = (let* v := Transformer.wrap l r in Ok (v, st)).
  Proof. destruct r; reflexivity. Qed.
  Lemma of_plain l m n ls mt h vs ps F st : stateless l = true -> takes_meta l = false -> cb_like E rt (label_text l) m -> reps h vs ps F -> own h F ->
    exists r, Transformer.wrap l (Transformer.pure st (m ps)) = (let* v := r in Ok (v, st)) /\ gives h F r (puserfunc (S (S (S (S n)))) ls l mt vs h).
  Proof.
    intros Hn Hl H R O. exists (Transformer.wrap l (m ps)). split; [apply wrap_pure|]. apply plain_call; try assumption. intros ->. discriminate.
  Qed.
  Lemma of_meta l m n ln ls mt h vs ps F st : takes_meta l = true -> mcb_like E rt (label_text l) m -> self_at h ls ln -> reps h vs ps F -> own h F ->
    exists r, Transformer.wrap l (Transformer.pure st (m ln mt ps)) = (let* v := r in Ok (v, st)) /\ gives h F r (puserfunc (S (S (S (S n)))) ls l mt vs h).
  Proof. intros Hl H Hs R O. exists (Transformer.wrap l (m ln mt ps)). split; [apply wrap_pure|]. now apply meta_call. Qed.
  Lemma of_object n ls mt h vs ps F st qs : Transformer.tuple_pairs ps = Ok qs -> reps h vs ps F -> own h F ->
    exists r, Transformer.wrap L_object (Transformer.pure st (Transformer.cb_object ps)) = (let* v := r in Ok (v, st)) /\ gives h F r (puserfunc (S (S (S (S n)))) ls L_object mt vs h).
  Proof.
    intros Hq R O. exists (Transformer.wrap L_object (Transformer.cb_object ps)). split; [apply wrap_pure|].
    unfold puserfunc, userfunc. assert (K := entry_kind L_object ltac:(discriminate)). destruct (entry_of pycep (method_name "BicepToJson" L_object)) as [[?|b ? ?|]|]; try contradiction.
    subst b. destruct (push_args h vs ps F R O) as (A & B & C & D). refine (gives_trans _ _ _ _ _ _ (ext_push h _) D _). apply gives_wrap. exact (text_object E rt n _ ls _ _ _ _ _ A B C Hq).
  Qed.
  Lemma callback l n ln ls mt h vs ps F st : stateless l = true -> (l = L_object -> exists qs, Transformer.tuple_pairs ps = Ok qs) -> self_at h ls ln ->
    reps h vs ps F -> own h F -> exists r, Transformer.wrap l (Transformer.call E ln l mt ps st) = (let* v := r in Ok (v, st)) /\
      gives h F r (puserfunc (S (S (S (S n)))) ls l mt vs h).
  Proof.
    intros Hl Ho Hs R O. destruct l; try discriminate Hl; cbn [Transformer.call].
    - exact (of_meta L_scope (fun ln => Transformer.cb_scope E ln) n ln ls mt h vs ps F st eq_refl (text_scope E rt) Hs R O).
    - exact (of_meta L_extension (fun ln => Transformer.cb_extension E ln) n ln ls mt h vs ps F st eq_refl (text_extension E rt) Hs R O).
    - exact (of_meta L_metadata (fun ln => Transformer.cb_metadata E ln) n ln ls mt h vs ps F st eq_refl (text_metadata E rt) Hs R O).
    - exact (of_meta L_param (fun ln => Transformer.cb_param E ln) n ln ls mt h vs ps F st eq_refl (text_param E rt) Hs R O).
    - exact (of_meta L_var (fun ln => Transformer.cb_var E ln) n ln ls mt h vs ps F st eq_refl (text_var E rt) Hs R O).
    - exact (of_meta L_output (fun ln => Transformer.cb_output E ln) n ln ls mt h vs ps F st eq_refl (text_output E rt) Hs R O).
    - exact (of_meta L_module (fun ln => Transformer.cb_module E ln) n ln ls mt h vs ps F st eq_refl (text_module E rt) Hs R O).
    - exact (of_meta L_custom_type (fun ln => Transformer.cb_custom_type E ln) n ln ls mt h vs ps F st eq_refl (text_custom_type E rt) Hs R O).
    - exact (of_meta L_custom_func (fun ln => Transformer.cb_custom_func E ln) n ln ls mt h vs ps F st eq_refl (text_custom_func E rt) Hs R O).
    - exact (of_plain L_null (fun _ => Ok PNone) n ls mt h vs ps F st eq_refl eq_refl (text_null E rt) R O).
    - exact (of_plain L_true (fun _ => Ok (PBool true)) n ls mt h vs ps F st eq_refl eq_refl (text_true E rt) R O).
    - exact (of_plain L_false (fun _ => Ok (PBool false)) n ls mt h vs ps F st eq_refl eq_refl (text_false E rt) R O).
    - exact (of_plain L_int_type (Transformer.cb_int_type E) n ls mt h vs ps F st eq_refl eq_refl (text_int_type E rt) R O).
    - exact (of_plain L_string Transformer.cb_string n ls mt h vs ps F st eq_refl eq_refl (text_string E rt) R O).
    - exact (of_plain L_multi_line_string (Transformer.cb_multi_line_string E) n ls mt h vs ps F st eq_refl eq_refl (text_multi_line_string E rt) R O).
    - exact (of_meta L_child_resource (fun ln => Transformer.cb_child_resource E ln) n ln ls mt h vs ps F st eq_refl (text_child_resource E rt) Hs R O).
    - exact (of_plain L_type_value (Transformer.cb_type_value E) n ls mt h vs ps F st eq_refl eq_refl (text_type_value E rt) R O).
    - exact (of_plain L_data_type Transformer.cb_data_type n ls mt h vs ps F st eq_refl eq_refl (text_data_type E rt) R O).
    - exact (of_plain L_base_type Transformer.cb_base_type n ls mt h vs ps F st eq_refl eq_refl (text_base_type E rt) R O).
    - exact (of_plain L_union_type Transformer.cb_union_type n ls mt h vs ps F st eq_refl eq_refl (text_union_type E rt) R O).
    - exact (of_plain L_array_suffix (fun _ => Ok PNone) n ls mt h vs ps F st eq_refl eq_refl (text_array_suffix E rt) R O).
    - exact (of_plain L_type_api_pair (Transformer.cb_type_api_pair E) n ls mt h vs ps F st eq_refl eq_refl (text_type_api_pair E rt) R O).
    - exact (of_plain L_module_path (Transformer.cb_module_path E) n ls mt h vs ps F st eq_refl eq_refl (text_module_path E rt) R O).
    - exact (of_plain L_import_alias (Transformer.cb_import_alias E) n ls mt h vs ps F st eq_refl eq_refl (text_import_alias E rt) R O).
    - exact (of_plain L_loop Transformer.cb_loop n ls mt h vs ps F st eq_refl eq_refl (text_loop E rt) R O).
    - exact (of_plain L_loop_array (Transformer.cb_loop_array E) n ls mt h vs ps F st eq_refl eq_refl (text_loop_array E rt) R O).
    - exact (of_plain L_loop_array_index (Transformer.cb_loop_array_index E) n ls mt h vs ps F st eq_refl eq_refl (text_loop_array_index E rt) R O).
    - exact (of_plain L_loop_object (Transformer.cb_loop_object E) n ls mt h vs ps F st eq_refl eq_refl (text_loop_object E rt) R O).
    - exact (of_plain L_deploy_condition Transformer.cb_deploy_condition n ls mt h vs ps F st eq_refl eq_refl (text_deploy_condition E rt) R O).
    - exact (of_plain L_array Transformer.cb_array n ls mt h vs ps F st eq_refl eq_refl (text_array E rt) R O).
    - destruct (Ho eq_refl) as (qs & Hq). exact (of_object n ls mt h vs ps F st qs Hq R O).
    - exact (of_plain L_pair Transformer.cb_pair n ls mt h vs ps F st eq_refl eq_refl (text_pair E rt) R O).
    - exact (of_plain L_key (Transformer.cb_key E) n ls mt h vs ps F st eq_refl eq_refl (text_key E rt) R O).
    - exact (of_plain L_lambda_expression (Transformer.cb_lambda_expression E) n ls mt h vs ps F st eq_refl eq_refl (text_lambda_expression E rt) R O).
    - exact (of_plain L_decorator (Transformer.cb_decorator E) n ls mt h vs ps F st eq_refl eq_refl (text_decorator E rt) R O).
    - exact (of_plain L_decorators (fun args => Ok (PList args)) n ls mt h vs ps F st eq_refl eq_refl (text_decorators E rt) R O).
    - exact (of_plain L_function (Transformer.cb_function E) n ls mt h vs ps F st eq_refl eq_refl (text_function E rt) R O).
    - exact (of_plain L_operator Transformer.cb_operator n ls mt h vs ps F st eq_refl eq_refl (text_operator E rt) R O).
    - exact (of_plain L_greater_than_or_equals (Transformer.cb_binary "greater_than_or_equals") n ls mt h vs ps F st eq_refl eq_refl (text_greater_than_or_equals E rt) R O).
    - exact (of_plain L_greater_than (Transformer.cb_binary "greater_than") n ls mt h vs ps F st eq_refl eq_refl (text_greater_than E rt) R O).
    - exact (of_plain L_less_than_or_equals (Transformer.cb_binary "less_than_or_equals") n ls mt h vs ps F st eq_refl eq_refl (text_less_than_or_equals E rt) R O).
    - exact (of_plain L_less_than (Transformer.cb_binary "less_than") n ls mt h vs ps F st eq_refl eq_refl (text_less_than E rt) R O).
    - exact (of_plain L_equals (Transformer.cb_binary "equals") n ls mt h vs ps F st eq_refl eq_refl (text_equals E rt) R O).
    - exact (of_plain L_not_equals (Transformer.cb_binary "not_equals") n ls mt h vs ps F st eq_refl eq_refl (text_not_equals E rt) R O).
    - exact (of_plain L_equals_case_insens (Transformer.cb_binary "equals_case_insensitive") n ls mt h vs ps F st eq_refl eq_refl (text_equals_case_insens E rt) R O).
    - exact (of_plain L_not_equals_case_insens (Transformer.cb_binary "not_equals_case_insensitive") n ls mt h vs ps F st eq_refl eq_refl (text_not_equals_case_insens E rt) R O).
    - exact (of_plain L_and_op (Transformer.cb_nary "and") n ls mt h vs ps F st eq_refl eq_refl (text_and_op E rt) R O).
    - exact (of_plain L_or_op (Transformer.cb_nary "or") n ls mt h vs ps F st eq_refl eq_refl (text_or_op E rt) R O).
    - exact (of_plain L_not_op Transformer.cb_not_op n ls mt h vs ps F st eq_refl eq_refl (text_not_op E rt) R O).
    - exact (of_plain L_coalesce (Transformer.cb_nary "coalesce") n ls mt h vs ps F st eq_refl eq_refl (text_coalesce E rt) R O).
    - exact (of_plain L_conditional Transformer.cb_conditional n ls mt h vs ps F st eq_refl eq_refl (text_conditional E rt) R O).
    - exact (of_plain L_add (Transformer.cb_binary "add") n ls mt h vs ps F st eq_refl eq_refl (text_add E rt) R O).
    - exact (of_plain L_divide (Transformer.cb_binary "divide") n ls mt h vs ps F st eq_refl eq_refl (text_divide E rt) R O).
    - exact (of_plain L_minus Transformer.cb_minus n ls mt h vs ps F st eq_refl eq_refl (text_minus E rt) R O).
    - exact (of_plain L_modulo (Transformer.cb_binary "modulo") n ls mt h vs ps F st eq_refl eq_refl (text_modulo E rt) R O).
    - exact (of_plain L_multiply (Transformer.cb_binary "multiply") n ls mt h vs ps F st eq_refl eq_refl (text_multiply E rt) R O).
    - exact (of_plain L_substract (Transformer.cb_binary "substract") n ls mt h vs ps F st eq_refl eq_refl (text_substract E rt) R O).
    - exact (of_plain L_index_accessor (Transformer.cb_binary "index_accessor") n ls mt h vs ps F st eq_refl eq_refl (text_index_accessor E rt) R O).
    - exact (of_plain L_function_accessor (Transformer.cb_function_accessor E) n ls mt h vs ps F st eq_refl eq_refl (text_function_accessor E rt) R O).
    - exact (of_plain L_nested_resource_accessor (Transformer.cb_binary "nested_resource_accessor") n ls mt h vs ps F st eq_refl eq_refl (text_nested_resource_accessor E rt) R O).
    - exact (of_plain L_property_accessor (Transformer.cb_binary "property_accessor") n ls mt h vs ps F st eq_refl eq_refl (text_property_accessor E rt) R O).
  Qed.
End U.
