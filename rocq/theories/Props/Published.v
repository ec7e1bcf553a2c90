(** C44: reports have the types published for them. *)
From Coq Require Import List Arith NArith ZArith Bool String.
From Verif Require Import Py.Str Py.Val Lark.Tree Lark.Shape Lark.Terminals Pycep.Utils Pycep.Transformer Pycep.Main Pycep.Bicep Pycep.PublishedTypes
  Spec.Json Spec.Schema Spec.Text Spec.Calls Spec.Outcomes Spec.Reports Spec.Parts Spec.Published
  Proofs.Base Proofs.TreeGrammar Proofs.Parts Proofs.Published Props.Calls Props.Documents Props.Numbering.
Import ListNotations.
Local Open Scope string_scope.

(** Every callback of the transformer returns what it is annotated with, and
    every call and decorator the class that the tables give for its name; both
    after the corrections. *)
Theorem C44_callbacks : forall E ln text l m cs v, part_of E text (TNode l m cs) -> l <> L_start ->
  transform E ln (TNode l m cs) = Ok v -> report_typed corrected corrected_annotation (TNode l m cs) v.
Proof.
  intros E ln text l m cs v H Hl Hv. destruct (part_ok E text _ H) as (s & Hs). apply (tree_typed E ln _ s v Hs); [|exact Hv].
  destruct l; try exact I. congruence.
Qed.
(** The whole result is a [BicepJson]. *)
Theorem C44_result : forall E fs ln text fp t v, source fs text fp t -> ~ contains reserved_key t ->
  bicep_parse E fs ln text fp = Ok v -> has_type corrected (TyName "BicepJson") v.
Proof. intros E fs ln text fp t v Hs Hn Hv. apply (result_typed ln). exact (C07_schema E fs ln text fp t v Hs Hn Hv). Qed.
(** Not so for a program that writes the reserved name. *)
Theorem C44_result_any_text_refuted : exists text v,
  bicep_parse env0 ex_fs false (Some text) None = Ok v /\ ~ has_type corrected (TyName "BicepJson") v.
Proof. exists forged. eexists. split; [vm_compute; reflexivity|]. apply (check_refutes corrected 10). vm_compute. reflexivity. Qed.

(** ** No correction is superfluous *)
Definition odd_text : str := u (String.concat nl
  [ "metadata m = 'x'"; "@allowed(1)"; "@batchSize('a')"; "@description(1)"; "@minLength('a')"; "@maxLength('a')"; "@minValue('a')"; "@metadata(1)";
    "param p string"; "var a = null"; "var b = union(1, 2)"; "var c = foo([[1]])"; "var d = format(1)"; "var e = guid('a', 1)"; "var f = guid(1)";
    "var g = extensionResourceId(1, 2, 3)"; "var h = tenantResourceId(1, 2)"; "var i = subscriptionResourceId(1, 2)"; "var j = resourceId(1, 2)";
    "var k = !1"; "var l = map(x, (a, b, c, d) => 1)"; "resource r 'T@1' = [for x in y: z]"; "resource s 'T@1' = if (true) z";
    "var o = [[1]]"; "var q = {"; "  a: null"; "}" ]).
Definition misfit (T : table) (ann : label -> pytype) : Prop :=
  (exists l m cs v, part_of env0 odd_text (TNode l m cs) /\ l <> L_start /\ transform env0 false (TNode l m cs) = Ok v /\
     ~ report_typed T ann (TNode l m cs) v) \/
  (exists v, bicep_parse env0 ex_fs false (Some odd_text) None = Ok v /\ ~ has_type T (TyName "BicepJson") v).
Definition node_misfit (T : table) (ann : label -> pytype) (l : label) (i : nat) : bool :=
  match nth_part env0 odd_text l i with
  | Some (TNode l' m cs) =>
      match transform env0 false (TNode l' m cs) with
      | Ok v => negb (str_eqb (label_name l') (u "start")) &&
          (negb (check T 20 (ann l') v) ||
           match l', cs, v with
           | L_decorator, TTok k :: _, _ => negb (check T 20 (TyName (decorator_class (tval k))) v)
           | L_function, TTok k :: _, PDict [(_, d)] => str_eqb (tval k) (removelast (tval k) ++ u "(")%list &&
               negb (check T 20 (TyName (function_class (removelast (tval k)))) d)
           | _, _, _ => false
           end)
      | Err _ => false
      end
  | _ => false
  end.
Lemma misfit_node T ann l i : node_misfit T ann l i = true -> misfit T ann.
Proof.
  unfold node_misfit. destruct (nth_part env0 odd_text l i) as [[l' m cs| |]|] eqn:Hp; [|discriminate..].
  destruct (transform env0 false (TNode l' m cs)) as [v|e] eqn:Hv; [|discriminate]. intros H. apply andb_true_iff in H as [Hl H].
  left. exists l', m, cs, v. split; [exact (part_found _ _ _ _ _ Hp)|]. split; [intros ->; discriminate Hl|]. split; [exact Hv|]. intros Ht.
  apply orb_true_iff in H as [H|H]; apply negb_true_iff in H || idtac.
  - apply (check_refutes _ _ _ _ H). destruct l', cs as [|[]]; cbn [report_typed] in Ht; try exact Ht; apply Ht.
  - clear Hp Hv Hl. destruct l'; try discriminate H; destruct cs as [|[|k|] cs]; try discriminate H.
    + apply negb_true_iff in H. exact (check_refutes _ _ _ _ H (proj2 Ht)).
    + destruct v as [| | | | | | | |[|[k' d] [|]]]; try discriminate H. apply andb_true_iff in H as [Hk H]. apply negb_true_iff in H. apply str_eqb_eq in Hk.
      destruct Ht as [_ Ht]. destruct (Ht _ Hk) as (d' & Hd & Hf). injection Hd as _ <-. exact (check_refutes _ _ _ _ H Hf).
Qed.
(** Without any one of the corrections, some report is not of its type. *)
Theorem C44_corrections_needed : forall n, In n (map fst corrections) -> misfit (without n) corrected_annotation.
Proof.
  intros n H. cbn [map fst corrections In] in H.
  destruct H as [<-|H]; [apply (misfit_node _ _ L_var 0); vm_compute; reflexivity|].
  destruct H as [<-|H]; [right; eexists; split; [vm_compute; reflexivity|apply (check_refutes _ 10); vm_compute; reflexivity]|].
  do 8 (destruct H as [<-|H]; [first [apply (misfit_node _ _ L_function 0); vm_compute; reflexivity|apply (misfit_node _ _ L_function 1); vm_compute; reflexivity
    |apply (misfit_node _ _ L_function 2); vm_compute; reflexivity|apply (misfit_node _ _ L_function 3); vm_compute; reflexivity
    |apply (misfit_node _ _ L_function 5); vm_compute; reflexivity|apply (misfit_node _ _ L_function 6); vm_compute; reflexivity
    |apply (misfit_node _ _ L_function 7); vm_compute; reflexivity|apply (misfit_node _ _ L_function 8); vm_compute; reflexivity]|]).
  destruct H as [<-|H]; [apply (misfit_node _ _ L_not_op 0); vm_compute; reflexivity|].
  destruct H as [<-|H]; [apply (misfit_node _ _ L_lambda_expression 0); vm_compute; reflexivity|].
  destruct H as [<-|H]; [apply (misfit_node _ _ L_loop 0); vm_compute; reflexivity|].
  destruct H as [<-|H]; [apply (misfit_node _ _ L_deploy_condition 0); vm_compute; reflexivity|].
  destruct H as [<-|H]; [apply (misfit_node _ _ L_decorator 0); vm_compute; reflexivity|].
  destruct H as [<-|H]; [apply (misfit_node _ _ L_decorator 1); vm_compute; reflexivity|].
  destruct H as [<-|H]; [apply (misfit_node _ _ L_decorator 2); vm_compute; reflexivity|].
  destruct H as [<-|H]; [apply (misfit_node _ _ L_decorator 3); vm_compute; reflexivity|].
  destruct H as [<-|H]; [apply (misfit_node _ _ L_decorator 4); vm_compute; reflexivity|].
  destruct H as [<-|H]; [apply (misfit_node _ _ L_decorator 5); vm_compute; reflexivity|].
  destruct H as [<-|H]; [apply (misfit_node _ _ L_decorator 6); vm_compute; reflexivity|]. contradiction.
Qed.
(** The same for the two annotations: with the published one of either, some
    report is not of its type. *)
Theorem C44_annotations_needed : forall l, corrected_annotation l <> annotation l ->
  misfit corrected (fun l' => if str_eqb (label_name l') (label_name l) then annotation l' else corrected_annotation l').
Proof.
  intros l H. destruct l; try (exfalso; apply H; reflexivity).
  - apply (misfit_node _ _ L_array 0). vm_compute. reflexivity.
  - apply (misfit_node _ _ L_pair 0). vm_compute. reflexivity.
Qed.
(** The callbacks of that text are all covered by the theorem, and its result is
    a [BicepJson] after the corrections. *)
Example C44_ex : (exists m k cs v, part_of env0 odd_text (TNode L_function m (TTok k :: cs)) /\ tval k = u "format(" /\
    transform env0 false (TNode L_function m (TTok k :: cs)) = Ok v /\ function_class (u "format") = "Format") /\
  source ex_fs (Some odd_text) None odd_text /\ ~ contains reserved_key odd_text /\ exists v, bicep_parse env0 ex_fs false (Some odd_text) None = Ok v.
Proof.
  split.
  - do 4 eexists. split; [apply (part_found env0 odd_text L_function 2); vm_compute; reflexivity|]. repeat split; vm_compute; reflexivity.
  - split; [apply ex_source; do 2 eexists; reflexivity|]. split; [apply not_contains; vm_compute; reflexivity|]. eexists. vm_compute. reflexivity.
Qed.

Definition published_theorems := (@C44_callbacks, @C44_result, @C44_result_any_text_refuted, @C44_corrections_needed, @C44_annotations_needed).
Print Assumptions published_theorems.
