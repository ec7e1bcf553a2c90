(** The callbacks commute with forgetting positions and lines. *)
From Coq Require Import List Arith NArith ZArith Bool String Lia.
From Verif Require Import Py.Str Py.Val Pycep.Utils Pycep.Decorators Pycep.Functions Pycep.Transformer Lark.Tree
  Spec.Json Spec.Schema Spec.Trees Spec.Program Spec.Reports Spec.Numbering
  Proofs.Base Proofs.JsonLemmas Proofs.TreeGrammar Proofs.Transform Proofs.State Proofs.Quiet Proofs.Children Proofs.Erase.
Import ListNotations.
Local Open Scope string_scope.

Section Calls.
  Variable E : pyenv.
  Variable p : token -> token.
  Hypothesis p_type : forall t, ttype (p t) = ttype t.
  Hypothesis p_val : forall t, tval (p t) = tval t.
  Variable q : meta -> meta.
  Variable b : bool.
  Notation er := (er p b).
  Notation emap := (emap p b).
  Notation tr := (tr p q).

  Ltac entries := cbn [rmap]; rewrite ?er_dict; rewrite ?emap_app; repeat (rewrite emap_cons by reflexivity);
    rewrite ?er_dict; rewrite ?emap_app; repeat (rewrite emap_cons by reflexivity);
    rewrite ?er_dict; rewrite ?emap_app; repeat (rewrite emap_cons by reflexivity).

  Lemma decorators_er : Forall (fun nf => forall n args, snd nf n (map er args) = rmap er (snd nf n args)) (DECORATORS E).
  Proof.
    unfold DECORATORS. repeat (apply Forall_cons; [cbn [snd]; intros n args|]); try apply Forall_nil;
      match goal with |- ?f _ _ = _ => first [unfold f | match f with ?g _ => unfold g end] end;
      unfold deco_arg0, deco_flag; rewrite ?arg_at_er; try (entries; reflexivity);
      destruct (arg_at 0 args) as [a|e]; cbn [rmap bind]; try reflexivity; try (entries; reflexivity).
    1-2: assert (Ha : (match er a with PDict _ => let* operator := py_get (er a) (u "operator") (PDict []) in
          let* ty := py_get operator (u "type") PNone in
          if eq_lit ty (u "minus") then let* operands := py_getitem operator (u "operands") in
            let* v := py_getitem operands (u "integer_value") in py_times_minus_one v else Ok (er a) | _ => Ok (er a) end) =
        rmap er (match a with PDict _ => let* operator := py_get a (u "operator") (PDict []) in
          let* ty := py_get operator (u "type") PNone in
          if eq_lit ty (u "minus") then let* operands := py_getitem operator (u "operands") in
            let* v := py_getitem operands (u "integer_value") in py_times_minus_one v else Ok a | _ => Ok a end)).
    1,3: (destruct a; try reflexivity; [destruct l as [|x [|y [|]]]; reflexivity|];
        match goal with |- context [py_get (PDict ?d)] =>
        change (er (PDict d)) with (PDict (emap d)); change (PDict (emap d)) with (er (PDict d));
        change (PDict []) with (er (PDict [])) at 1; rewrite get_er by reflexivity;
        rewrite bind_rmap, rmap_bind; apply bind_ext; intros op _;
        change PNone with (er PNone) at 1; rewrite get_er by reflexivity; rewrite bind_rmap, rmap_bind; apply bind_ext; intros ty _;
        rewrite (eq_lit_er p p_val); destruct (eq_lit ty (u "minus")); [|reflexivity];
        rewrite getitem_er, bind_rmap, rmap_bind; apply bind_ext; intros x _; rewrite ev_other by reflexivity;
        rewrite getitem_er, bind_rmap, rmap_bind; apply bind_ext; intros y _; rewrite ev_other by reflexivity;
        destruct y; try reflexivity; destruct l as [|? [|? [|]]]; reflexivity end).
    1-2: rewrite Ha; match goal with |- bind (rmap _ ?m) _ = _ => destruct m end; cbn [rmap bind]; [entries; reflexivity|reflexivity].
    all: rewrite (py_int_er E p p_val); destruct (py_int E a); cbn [rmap bind]; [entries; reflexivity|reflexivity].
  Qed.
  Lemma unknown_deco_er n args : unknown_deco n (map er args) = rmap er (unknown_deco n args).
  Proof. destruct args; cbn [map unknown_deco]; entries; reflexivity. Qed.

  (** The values a callback turns into text. *)
  Definition sites (l : label) (vs : list pyval) : list pyval :=
    match l with
    | L_type_value | L_loop_object | L_import_alias => vs
    | L_lambda_expression => removelast vs
    | L_function | L_decorator | L_key | L_multi_line_string | L_type_api_pair | L_module_path | L_loop_array => firstn 1 vs
    | L_loop_array_index | L_child_resource => firstn 2 vs
    | L_function_accessor => firstn 1 (tl vs)
    | _ => []
    end.
  Definition pstr (v : pyval) : Prop := py_str E (er v) = py_str E v.
  Definition below (l : label) : bool :=
    match l with
    | L_start | L_scope | L_custom_import | L_extension | L_metadata | L_param | L_var
    | L_output | L_resource | L_module | L_custom_type | L_custom_func => false
    | _ => true
    end.
  Lemma op_dict_er ty ps : op_dict ty (emap ps) = er (op_dict ty ps).
  Proof. unfold op_dict. entries. rewrite dict_of_emap. reflexivity. Qed.
  Lemma pure_v (r : result pyval) : (let* (v, _) := pure tstate0 r in Ok v) = r.
  Proof. destruct r; reflexivity. Qed.
  Lemma py_str'_er v : py_str' E v = er (py_str' E v).
  Proof. reflexivity. Qed.
  Lemma py_str'_pstr v : pstr v -> py_str' E (er v) = py_str' E v.
  Proof. unfold py_str', pstr. congruence. Qed.
  Lemma filter_truthy d : filter (fun kv => truthy (snd kv)) (emap d) = emap (filter (fun kv => truthy (snd kv)) d) \/
    exists x, In (reserved_key, x) d.
  Proof.
    induction d as [|[k v] d IH]; [left; reflexivity|]. destruct (str_eqb_spec k reserved_key) as [->|Hk]; [right; exists v; left; reflexivity|].
    destruct IH as [IH|(x & Hx)]; [|right; exists x; right; exact Hx]. left. apply str_eqb_neq in Hk. rewrite emap_cons by exact Hk. cbn [filter snd].
    rewrite (truthy_er p p_val), IH. destruct (truthy v); [rewrite emap_cons by exact Hk|]; reflexivity.
  Qed.
  Lemma tuple_pairs_er args : tuple_pairs (map er args) = rmap emap (tuple_pairs args).
  Proof.
    induction args as [|a args IH]; [reflexivity|]. cbn [map]. destruct a; try reflexivity. cbn [tuple_pairs].
    destruct l as [|k [|v [|]]]; try reflexivity. cbn [Erase.er]. rewrite (str_text_er p p_val). destruct (str_text k) as [s|]; [|reflexivity].
    rewrite IH. destruct (tuple_pairs args); reflexivity.
  Qed.
  Lemma numbered_free pre n l x : free pre -> ~ In (reserved_key, x) (numbered pre n l).
  Proof.
    intros Hp. revert n. induction l as [|v l IH]; intros n; [intros []|]. cbn [numbered]. intros [H|H]; [|exact (IH _ H)].
    injection H as H _. specialize (Hp (dec n)). rewrite H, str_eqb_refl in Hp. discriminate.
  Qed.
  Lemma cb_loop_er args : cb_loop (map er args) = rmap er (cb_loop args).
  Proof.
    destruct args as [|a [|c [|d [|e args]]]]; try reflexivity. cbn [map cb_loop].
    match goal with |- bind ?x _ = rmap _ (bind ?y _) => assert (Hc : x = rmap er y) end.
    { destruct c; try reflexivity; [destruct l as [|x [|y [|]]]; reflexivity|].
      change (er (PDict d0)) with (PDict (emap d0)). cbv iota. change (PDict (emap d0)) with (er (PDict d0)).
      change (PDict []) with (er (PDict [])) at 1. rewrite get_er by reflexivity.
      rewrite bind_rmap, rmap_bind. apply bind_ext. intros func _.
      change PNone with (er PNone) at 1. rewrite get_er by reflexivity. rewrite bind_rmap, rmap_bind. apply bind_ext. intros ty _.
      rewrite (eq_lit_er p p_val). destruct (eq_lit ty (u "if")); [|reflexivity].
      rewrite getitem_er, bind_rmap, rmap_bind. apply bind_ext. intros x _. rewrite ev_other by reflexivity. rewrite getitem_er.
      destruct (py_getitem x (u "arg_1")); cbn [rmap]; [rewrite ev_other by reflexivity|]; reflexivity. }
    rewrite Hc, bind_rmap, rmap_bind. apply bind_ext. intros x _. entries. reflexivity.
  Qed.
  Lemma aget_forall {A} (P : str * A -> Prop) k d v : Forall P d -> aget k d = Some v -> P (k, v).
  Proof. intros H Hg. apply aget_In in Hg. rewrite Forall_forall in H. exact (H _ Hg). Qed.
  Lemma data_type_er sufs base : fold_left (fun r _ => array_of r) (map er sufs) (er base) = er (fold_left (fun r _ => array_of r) sufs base).
  Proof.
    revert base. induction sufs as [|s sufs IH]; intros base; [reflexivity|]. cbn [map fold_left]. rewrite <- IH. f_equal. unfold array_of. entries. reflexivity.
  Qed.
  Lemma module_path_str args : (forall a, In a (firstn 1 args) -> pstr a) -> cb_module_path E (map er args) = cb_module_path E args.
  Proof.
    destruct args as [|a args]; [reflexivity|]. intros H. unfold cb_module_path. cbn [map arg_at nth_error bind].
    rewrite (H a (or_introl eq_refl) : py_str E (er a) = _). reflexivity.
  Qed.
  Lemma module_path_er args : rmap er (cb_module_path E args) = cb_module_path E args.
  Proof.
    unfold cb_module_path. rewrite rmap_bind. apply bind_ext. intros a _. unfold path_result.
    repeat match goal with
    | |- context [if ?x then _ else _] => destruct x
    | |- context [match re_match ?x ?y with _ => _ end] => destruct (re_match x y) as [[|? [|? [|? [|? [|? ?]]]]]|]
    end; cbn [rmap]; rewrite ?er_dict; try reflexivity; entries; reflexivity.
  Qed.
  Ltac sites H := cbn [firstn tl] in H; repeat match type of H with
    | Forall _ (_ :: _) => let H1 := fresh "Hs" in inversion H as [|? ? H1 ?]; subst; clear H;
        match goal with H2 : Forall _ _ |- _ => rename H2 into H end
    end.

  Lemma callv_er l m vs : below l = true -> (b = true -> m <> None) -> Forall pstr (sites l vs) ->
    (b = true -> l = L_pair -> forall k v, vs = [k; v] -> str_text k <> Some reserved_key) ->
    callv E false l (q m) (map er vs) = rmap er (callv E b l m vs).
  Proof.
    intros Hb Hm Hs Hp. unfold callv. destruct l; try discriminate; unfold call; rewrite ?pure_v; cbn [sites] in Hs; try reflexivity.
    all: try (match goal with |- cb_binary _ _ = _ => idtac end; destruct vs as [|x [|y [|]]]; cbn [map cb_binary rmap]; try reflexivity; rewrite <- op_dict_er; entries; reflexivity).
    all: try (match goal with |- cb_nary _ _ = _ => idtac end; destruct vs as [|x [|y vs]]; cbn [map cb_nary rmap]; try reflexivity; rewrite <- op_dict_er; entries;
      rewrite numbered_er by exact free_operand; reflexivity).
    all: try (match goal with |- cb_not_op _ = _ => idtac | |- cb_minus _ = _ => idtac end; unfold cb_not_op, cb_minus; rewrite arg_at_er, bind_rmap, rmap_bind; apply bind_ext; intros x _; cbn [rmap]; rewrite <- op_dict_er; entries; reflexivity).
    - (* int *) unfold cb_int_type. rewrite arg_at_er, bind_rmap, rmap_bind. apply bind_ext. intros a _. rewrite (py_int_er E p p_val).
      destruct (py_int E a); reflexivity.
    - (* string *) unfold cb_string. rewrite arg_at_er, bind_rmap, rmap_bind. apply bind_ext. intros a _. apply (tst_er p p_type p_val).
    - (* multi-line string *) destruct vs as [|a vs]; [reflexivity|]. sites Hs. unfold cb_multi_line_string. cbn [map arg_at nth_error bind].
      rewrite (Hs0 : py_str E (er a) = _). reflexivity.
    - (* child resource *) destruct vs as [|n [|t [|x [|c [|]]]]]; try reflexivity. cbn [firstn] in Hs. sites Hs.
      unfold cb_child_resource. cbn [map]. unfold with_lines_child at 1. cbn [bind].
      rewrite (Hs1 : py_str E (er t) = _), (py_str'_pstr n Hs0), (truthy_er p p_val).
      destruct b eqn:Eb.
      + specialize (Hm eq_refl). unfold with_lines_child. destruct m as [[a e]|]; [|congruence]. cbn [bind rmap].
        reflexivity.
      + cbn [with_lines_child bind rmap]. reflexivity.
    - (* type_value *) unfold cb_type_value. cbn [rmap Erase.er]. do 3 f_equal. rewrite map_map. apply map_ext_in. intros a Ha. rewrite Forall_forall in Hs. exact (Hs a Ha).
    - (* data_type *) destruct vs as [|a vs]; [reflexivity|]. unfold cb_data_type. cbn [map rmap]. rewrite data_type_er. reflexivity.
    - (* base_type *) unfold cb_base_type. rewrite arg_at_er, bind_rmap, rmap_bind. apply bind_ext. intros a _. cbn [rmap]. f_equal. apply (untoken_er p p_val).
    - (* union *) unfold cb_union_type. entries. reflexivity.
    - (* type_api_pair *) destruct vs as [|a vs]; [reflexivity|]. sites Hs. unfold cb_type_api_pair. cbn [map arg_at nth_error bind].
      rewrite (Hs0 : py_str E (er a) = _). destruct (split_char 64 _) as [|? [|? [|]]]; try reflexivity. entries. reflexivity.
    - (* module_path *) rewrite module_path_er. apply module_path_str. rewrite Forall_forall in Hs. exact Hs.
    - (* import_alias *) destruct vs as [|n [|a [|]]]; try reflexivity. sites Hs. unfold cb_import_alias. cbn [map]. rewrite (py_str'_pstr n Hs0), (py_str'_pstr a Hs1), (truthy_er p p_val).
      destruct (truthy a); entries; reflexivity.
    - apply cb_loop_er.
    - destruct vs as [|n [|a [|]]]; try reflexivity. cbn [firstn] in Hs. sites Hs. unfold cb_loop_array. cbn [map]. rewrite (py_str'_pstr n Hs0). entries. reflexivity.
    - destruct vs as [|n [|i [|a [|]]]]; try reflexivity. cbn [firstn] in Hs. sites Hs. unfold cb_loop_array_index. cbn [map].
      rewrite (py_str'_pstr n Hs0), (py_str'_pstr i Hs1). entries. reflexivity.
    - destruct vs as [|n [|a [|]]]; try reflexivity. sites Hs. unfold cb_loop_object. cbn [map]. rewrite (py_str'_pstr n Hs0), (py_str'_pstr a Hs1). entries. reflexivity.
    - destruct vs as [|n [|a [|]]]; try reflexivity. unfold cb_deploy_condition. cbn [map]. entries. reflexivity.
    - unfold cb_array. cbn [rmap Erase.er]. rewrite !map_map. do 2 f_equal. apply map_ext. intros a. apply (untoken_er p p_val).
    - unfold cb_object. rewrite tuple_pairs_er, bind_rmap, rmap_bind. apply bind_ext. intros ps _. rewrite dict_of_emap. reflexivity.
    - destruct vs as [|k [|v [|]]]; try reflexivity. cbn [map cb_pair rmap Erase.er]. rewrite (untoken_er p p_val).
      destruct (str_text k) as [s|] eqn:Hk; [|reflexivity]. destruct b eqn:Eb; [|reflexivity].
      rewrite ev_other; [reflexivity|]. apply str_eqb_neq. intros ->. exact (Hp eq_refl eq_refl k v eq_refl Hk).
    - destruct vs as [|a vs]; [reflexivity|]. sites Hs. unfold cb_key. cbn [map arg_at nth_error bind]. rewrite (py_str'_pstr a Hs0). reflexivity.
    - (* lambda *) destruct vs as [|a [|c vs]]; try reflexivity. unfold cb_lambda_expression. cbn [map tl].
      assert (Ha : pstr a) by (inversion Hs; assumption).
      assert (Hr : Forall pstr (removelast (c :: vs))) by (inversion Hs; assumption).
      rewrite (py_str'_pstr a Ha). change (er c :: map er vs) with (map er (c :: vs)). change PNone with (er PNone) at 1. rewrite last_er, removelast_map.
      assert (Hn : map (py_str' E) (map er (removelast (c :: vs))) = map er (map (py_str' E) (removelast (c :: vs)))).
      { rewrite !map_map. apply map_ext_in. intros x Hx. rewrite Forall_forall in Hr. rewrite (py_str'_pstr x (Hr x Hx)). reflexivity. }
      rewrite Hn, numbered_er by exact free_var. cbn [rmap]. rewrite er_dict, !emap_cons, er_dict by reflexivity. rewrite <- dict_of_emap, emap_cons, emap_app, emap_cons by reflexivity. reflexivity.
    - (* decorator *) destruct vs as [|n vs]; [reflexivity|]. sites Hs. unfold cb_decorator. cbn [map]. rewrite (Hs0 : py_str E (er n) = _).
      destruct (aget (py_str E n) (DECORATORS E)) as [f|] eqn:Hf; [|apply unknown_deco_er]. exact (aget_forall _ _ _ _ decorators_er Hf _ _).
    - (* function *) destruct vs as [|n vs]; [reflexivity|]. sites Hs. unfold cb_function. cbn [map]. rewrite (Hs0 : py_str E (er n) = _).
      assert (Hf : (match aget (remove_suffix (u "(") (py_str E n)) FUNCTIONS with Some f => f (remove_suffix (u "(") (py_str E n)) (map er vs)
          | None => f_unknown_func (remove_suffix (u "(") (py_str E n)) (map er vs) end) =
        rmap er (match aget (remove_suffix (u "(") (py_str E n)) FUNCTIONS with Some f => f (remove_suffix (u "(") (py_str E n)) vs
          | None => f_unknown_func (remove_suffix (u "(") (py_str E n)) vs end)).
      { destruct (aget (remove_suffix (u "(") (py_str E n)) FUNCTIONS) as [f|] eqn:Hf; [|apply unknown_er].
        exact (aget_forall _ _ _ _ (functions_er p p_val b) Hf _ _). }
      rewrite Hf, bind_rmap, rmap_bind. apply bind_ext. intros x _. entries. reflexivity.
    - unfold cb_operator. rewrite arg_at_er, bind_rmap, rmap_bind. apply bind_ext. intros x _. entries. reflexivity.
    - destruct vs as [|x [|y [|z [|]]]]; cbn [map cb_conditional rmap]; try reflexivity. rewrite <- op_dict_er. entries. reflexivity.
    - destruct vs as [|x [|f vs]]; try reflexivity. cbn [tl firstn] in Hs. sites Hs. unfold cb_function_accessor. cbn [map rmap].
      rewrite <- op_dict_er, (py_str'_pstr f Hs0). entries. rewrite numbered_er by exact free_operand.
      destruct (filter_truthy (numbered (u "operand_") 2 vs)) as [->|(w & Hw)]; [reflexivity|].
      exfalso. exact (numbered_free _ _ _ _ free_operand Hw).
  Qed.
End Calls.
