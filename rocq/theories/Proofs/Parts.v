(** The parts of a program are well-formed: what the children of each kind of
    node look like. *)
From Coq Require Import List Arith NArith ZArith Bool String Lia.
From Verif Require Import Py.Str Py.Val Pycep.Utils Pycep.Transformer Lark.Tree Lark.Shape
  Spec.Json Spec.Lexemes Spec.Reports Spec.Parts Spec.Program Spec.Declarations
  Proofs.Base Proofs.TreeGrammar Proofs.TokenForms Proofs.Transform Proofs.Typing Proofs.State Proofs.Quiet Proofs.Children Proofs.Elements.
Import ListNotations.
Local Open Scope string_scope.

Section Parts.
  Variable E : pyenv.
  Variable ln : bool.
  Notation tk' n k := (tk E n k).

  Definition node_shape (l : label) (cs : list ptree) : Prop :=
    match l with
    | L_scope => exists k, cs = [TTok k] /\ tk' "QUOTED_INTERPOLATION" k
    | L_null | L_true | L_false | L_array_suffix => cs = []
    | L_int_type => exists k, cs = [TTok k] /\ tk' "INT" k
    | L_string => exists k, cs = [TTok k] /\ (tk' "STRING" k \/ tk' "QUOTED_INTERPOLATION" k)
    | L_multi_line_string => exists k, cs = [TTok k] /\ tk' "MULTI_LINE_STRING" k
    | L_array => oks E sVal cs
    | L_object => oks E sEnt cs
    | L_pair => exists k v, cs = [k; v] /\ ok E sKey k /\ ok E sVarVal v
    | L_key => exists k, cs = [TTok k] /\ (tk' "resource" k \/ tk' "STRING" k \/ tk' "QUOTED_STRING" k \/ tk' "QUOTED_INTERPOLATION" k)
    | L_function => exists k vs, cs = TTok k :: vs /\ tk' "FUNCTION" k /\ oks E sVal vs
    | L_operator => exists a, cs = [a] /\ ok E sOp a
    | L_lambda_expression => exists a b vs, cs = a :: b :: vs /\ ok E sVal a /\ ok E sVal b /\ oks E sVal vs
    | L_type_value => exists a b vs, cs = a :: b :: vs /\ ok E sVal a /\ ok E sVal b /\ oks E sVal vs
    | L_data_type => exists a ss, cs = a :: ss /\ ok E sBase a /\ oks E sSuf ss
    | L_base_type => exists a, cs = [a] /\ (ok E (sTok "STRING") a \/ ok E sUnion a)
    | L_union_type => exists a b ts, cs = a :: b :: ts /\ ok E sType a /\ ok E sType b /\ oks E sType ts
    | L_type_api_pair | L_module_path => exists k, cs = [TTok k] /\ tk' "QUOTED_INTERPOLATION" k
    | L_loop => exists a c v, cs = [a; c; v] /\ ok E sLoopTy a /\ ok E (sOpt sVal) c /\ ok E sVal v
    | L_loop_array | L_loop_object => exists k v, cs = [TTok k; v] /\ tk' "STRING" k /\ ok E sVal v
    | L_loop_array_index => exists k i v, cs = [TTok k; TTok i; v] /\ tk' "STRING" k /\ tk' "STRING" i /\ ok E sVal v
    | L_deploy_condition => exists c v, cs = [c; v] /\ ok E sVal c /\ ok E sVal v
    | L_decorator => exists k vs, cs = TTok k :: vs /\ tk' "DECO_NAME" k /\ oks E sVal vs /\ List.length vs <= 1
    | L_decorators => oks E sDeco cs /\ cs <> []
    | L_not_op | L_minus => exists a, cs = [a] /\ ok E sVal a
    | L_conditional => exists a b c, cs = [a; b; c] /\ ok E sVal a /\ ok E sVal b /\ ok E sVal c
    | L_function_accessor => exists a k vs, cs = a :: TTok k :: vs /\ vs <> [] /\ ok E sVal a /\ tk' "LIST_FUNC_NAME" k /\ oks E (sOpt sVal) vs
    | L_greater_than_or_equals | L_greater_than | L_less_than_or_equals | L_less_than
    | L_equals | L_not_equals | L_equals_case_insens | L_not_equals_case_insens
    | L_and_op | L_or_op | L_coalesce | L_add | L_divide | L_modulo | L_multiply | L_substract
    | L_index_accessor | L_nested_resource_accessor | L_property_accessor =>
        exists a b, cs = [a; b] /\ ok E sVal a /\ ok E sVal b
    | L_nocallback => False
    | _ => True
    end.
  Definition shaped_node (t : ptree) : Prop := match t with TNode l _ cs => node_shape l cs | _ => True end.

  Ltac toks := repeat match goal with H : ok E (sTok _) ?a |- _ => is_var a; apply tok_inv in H as (? & -> & H) end.
  Lemma ok_shape s t : ok E s t -> shaped_node t.
  Proof.
    intros H; induction H;
      cbn [shaped_node node_shape]; try exact I; try assumption; try reflexivity; toks;
      try (destruct l; try discriminate; cbn [node_shape]);
      repeat match goal with |- exists _, _ => eexists end; repeat match goal with |- _ /\ _ => split end;
      try reflexivity; try eassumption; eauto; try discriminate; cbn; lia || (try (repeat constructor; assumption)).
    { left. constructor. assumption. }
    { constructor; [assumption|constructor]. }
    { constructor; assumption. }
  Qed.
  Lemma ok_kids s t : ok E s t -> match t with TNode _ _ cs => Forall (fun c => exists s', ok E s' c) cs | _ => True end.
  Proof.
    assert (Hoks : forall s cs, oks E s cs -> Forall (fun c => exists s', ok E s' c) cs).
    { intros s' cs Hcs. apply TreeGrammar.oks_Forall in Hcs. eapply Forall_impl; [|exact Hcs]. eauto. }
    assert (Hokp : forall cs, okp E cs -> Forall (fun c => exists s', ok E s' c) cs) by (fix IH 2; intros cs [|a t' cs' Ha Ht Hcs]; [constructor|]; constructor; [eauto|]; constructor; [eauto|]; apply IH; exact Hcs).
    intros H. induction H; try exact I; try assumption; auto;
      repeat (apply Forall_cons; [eauto|]); try apply Forall_nil; eauto;
      try (apply Forall_app; split; [eauto|repeat (apply Forall_cons; [eauto|]); apply Forall_nil]).
  Qed.
  Lemma ok_within x t : within x t -> forall s, ok E s t -> exists s', ok E s' x.
  Proof.
    intros H. induction H as [|l m cs c Hin Hw IH]; intros s Hs; [eauto|].
    apply ok_kids in Hs. rewrite Forall_forall in Hs. destruct (Hs c Hin) as (s' & Hs'). exact (IH s' Hs').
  Qed.
  Lemma part_ok text x : part_of E text x -> exists s, ok E s x.
  Proof. intros (tree & Hp & Hw). apply lark_parse_ok in Hp. exact (ok_within x tree Hw sStart Hp). Qed.
  Lemma part_shape text l m cs : part_of E text (TNode l m cs) -> node_shape l cs.
  Proof. intros H. apply part_ok in H as (s & H). exact (ok_shape _ _ H). Qed.
  Lemma part_trans text x y : part_of E text y -> within x y -> part_of E text x.
  Proof.
    intros (tree & Hp & Hw) H. exists tree. split; [exact Hp|]. clear Hp. induction Hw as [|l m cs c Hin Hw IH]; [exact H|].
    apply within_child with c; [exact Hin|exact IH].
  Qed.
  Lemma part_child text l m cs c : part_of E text (TNode l m cs) -> In c cs -> part_of E text c.
  Proof. intros H Hin. apply (part_trans text c _ H). apply within_child with c; [exact Hin|constructor]. Qed.

  Lemma ok_kids_quiet s l m cs : ok E s (TNode l m cs) -> l <> L_start -> forallb quiet cs = true.
  Proof.
    intros H Hl. remember (TNode l m cs) as t eqn:Ht. revert l m cs Ht Hl.
    induction H; intros l' m' cs' Ht Hl; try discriminate Ht; try (injection Ht as <- <- <-); try congruence; eauto;
      cbn [forallb]; rewrite ?forallb_app; cbn [forallb];
      repeat match goal with
      | H : ok E ?s ?t |- _ => assert (quiet t = true) by (exact (quiet_ok E s t H eq_refl)); clear H
      | H : oks E ?s ?t |- _ => assert (forallb quiet t = true) by (exact (quiet_oks E s t H eq_refl)); clear H
      | H : okp E ?t |- _ => assert (forallb quiet t = true) by (exact (quiet_okp E t H)); clear H
      end; repeat match goal with H : _ = true |- _ => rewrite H; clear H end; reflexivity.
  Qed.
  (** The report of a part: its callback on the reports of its children. *)
  Lemma part_node text l m cs : part_of E text (TNode l m cs) -> l <> L_start ->
    transform E ln (TNode l m cs) = let* vs := all_ok (transform E ln) cs in wrap l (callv E ln l m vs).
  Proof.
    intros H Hl. apply part_ok in H as (s & H). apply transform_node_quiet. exact (ok_kids_quiet s l m cs H Hl).
  Qed.
  Lemma part_node_quiet text l m cs : part_of E text (TNode l m cs) ->
    match l with L_start | L_custom_import | L_resource => false | _ => true end = true -> quiet (TNode l m cs) = true.
  Proof.
    intros H Hl. apply part_ok in H as (s & H). cbn [quiet]. rewrite Hl. apply (ok_kids_quiet s l m cs H).
    intros ->. discriminate.
  Qed.
  (** When the whole has a report, so have its parts. *)
  Lemma list_ok_in cs : forall st vs st', transform_list E ln cs st = Ok (vs, st') -> forall c, In c cs ->
    exists s v s', transform_tree E ln c s = Ok (v, s').
  Proof.
    induction cs as [|c cs IH]; intros st vs st' H x Hx; [contradiction|]. cbn [transform_list] in H.
    destruct (transform_tree E ln c st) as [[v s1]|e] eqn:Hc; [|discriminate]. cbn [bind] in H.
    destruct (transform_list E ln cs s1) as [[ws s2]|e] eqn:Hcs; [|discriminate]. destruct Hx as [<-|Hx]; [eauto|exact (IH _ _ _ Hcs x Hx)].
  Qed.
  Lemma within_ok x t : within x t -> forall st v st', transform_tree E ln t st = Ok (v, st') ->
    exists s w s', transform_tree E ln x s = Ok (w, s').
  Proof.
    induction 1 as [|l m cs c Hin Hw IH]; intros st v st' H; [eauto|]. rewrite transform_node in H.
    destruct (transform_list E ln cs st) as [[vs s1]|e] eqn:Hcs; [|discriminate].
    destruct (list_ok_in cs _ _ _ Hcs c Hin) as (s & w & s' & Hc). exact (IH _ _ _ Hc).
  Qed.
  Lemma within_reports x t v : within x t -> quiet x = true -> transform E ln t = Ok v -> exists w, transform E ln x = Ok w.
  Proof.
    intros Hw Hq Ht. unfold transform in Ht. destruct (transform_tree E ln t tstate0) as [[v' st]|e] eqn:H; [|discriminate].
    destruct (within_ok x t Hw _ _ _ H) as (s & w & s' & Hx). rewrite (transform_quiet E ln x Hq) in Hx.
    destruct (transform E ln x) as [r|e]; [eauto|discriminate].
  Qed.
End Parts.

(** Children of a part, by what is expected of them. *)
Section Reported.
  Variable E : pyenv.
  Variable ln : bool.
  Notation tf := (transform E ln).
  Lemma val_json t v : ok E sVal t -> tf t = Ok v -> json v.
  Proof. intros H Ht. exact (value_of E ln true sVal t v H eq_refl ltac:(discriminate) Ht). Qed.
  Lemma varval_json t v : ok E sVarVal t -> tf t = Ok v -> json v.
  Proof. intros H Ht. exact (value_of E ln true sVarVal t v H eq_refl ltac:(discriminate) Ht). Qed.
  Lemma vals_json cs vs : oks E sVal cs -> all_ok tf cs = Ok vs -> Forall json vs.
  Proof.
    intros H Hv. apply TreeGrammar.oks_Forall in H. apply all_ok_Forall2 in Hv.
    induction Hv as [|c v cs vs Hc Hcs IH]; [constructor|]. inversion H; subst. constructor; [exact (val_json c v ltac:(assumption) Hc)|auto].
  Qed.
  Lemma untoken_list vs : Forall json vs -> map untoken vs = vs.
  Proof. induction 1 as [|v vs Hv Hvs IH]; [reflexivity|]. cbn [map]. rewrite (json_untoken v Hv), IH. reflexivity. Qed.
  Lemma all_ok_length {A B} (f : A -> result B) cs vs : all_ok f cs = Ok vs -> List.length vs = List.length cs.
  Proof. intros H. apply all_ok_Forall2 in H. symmetry. induction H; cbn; congruence. Qed.
End Reported.

(** Finding parts, for the examples. *)
Fixpoint subtrees (t : ptree) : list ptree :=
  t :: match t with TNode _ _ cs => flat_map subtrees cs | _ => [] end.
Lemma subtrees_within x : forall t, In x (subtrees t) -> within x t.
Proof.
  apply (ptree_all (fun t => In x (subtrees t) -> within x t)); cbn [subtrees In].
  - intros k [<-|[]]. constructor.
  - intros [<-|[]]. constructor.
  - intros l m cs IH [<-|H]; [constructor|]. apply in_flat_map in H as (c & Hc & H). rewrite Forall_forall in IH.
    apply within_child with c; [exact Hc|exact (IH c Hc H)].
Qed.
Definition labelled (l : label) (t : ptree) : list ptree :=
  filter (fun x => match x with TNode l' _ _ => str_eqb (label_name l) (label_name l') | _ => false end) (subtrees t).
Definition nth_part (E : pyenv) (text : str) (l : label) (n : nat) : option ptree :=
  match lark_parse E text with Ok t => nth_error (labelled l t) n | Err _ => None end.
Lemma part_found E text l n x : nth_part E text l n = Some x -> part_of E text x.
Proof.
  unfold nth_part. destruct (lark_parse E text) as [t|e] eqn:Hp; [|discriminate]. intros H. exists t. split; [exact Hp|].
  apply nth_error_In, filter_In in H as [H _]. apply subtrees_within. exact H.
Qed.
