(** The function and decorator tables: values stay JSON, errors stay Python
    exceptions. *)
From Coq Require Import List Arith NArith ZArith Bool String Lia.
From Verif Require Import Py.Str Py.Val Spec.Json Spec.Schema Pycep.Functions Pycep.Decorators
  Spec.Outcomes Proofs.Base Proofs.JsonLemmas.
Import ListNotations.
Local Open Scope string_scope.

Definition fn_kinds : list exn_kind := [KValue; KIndex].
Notation fjson := (rjson fn_kinds).
Lemma fn_ve : fjson (Err ve).
Proof. kin. Qed.
Ltac idx := right; left; reflexivity.

Lemma fdict_json ty ps : vals_json ps -> fjson (fdict ty ps).
Proof.
  intros H. unfold fdict. cbn [rjson]. apply json_lit; [nodup_lit|].
  repeat constructor; cbn [snd]; try constructor. apply json_dict_of in H. apply json_dict_inv in H as [H1 H2]; assumption.
  apply json_dict_of in H. apply json_dict_inv in H as [H1 H2]; assumption.
Qed.
Lemma ftype_json ty : fjson (ftype ty).
Proof. cbn [rjson ftype]. apply json_lit; [nodup_lit|]. repeat constructor. Qed.
Lemma head_json l : Forall json l -> json (head_or_none l).
Proof. destruct 1; [constructor|assumption]. Qed.
Lemma f_index0_json ty p args : Forall json args -> fjson (f_index0 ty p args).
Proof.
  intros H. unfold f_index0. apply rjson_bind; [apply rjson_arg; [idx|exact H]|]. intros v Hv. apply fdict_json.
  repeat constructor. exact Hv.
Qed.
Lemma f_two_json ty p q args : Forall json args -> fjson (f_two ty p q args).
Proof.
  intros H. unfold f_two. destruct H as [|a l Ha H]; [exact fn_ve|]. destruct H as [|b l Hb H]; [exact fn_ve|].
  destruct H; [|exact fn_ve]. apply fdict_json. repeat constructor; assumption.
Qed.
Lemma vals_json_app a b : vals_json a -> vals_json b -> vals_json (a ++ b).
Proof. intros Ha Hb. apply Forall_app. split; assumption. Qed.
Lemma Forall_skipn' {A} (P : A -> Prop) n l : Forall P l -> Forall P (skipn n l).
Proof. revert l. induction n; intros l H; cbn [skipn]; [exact H|]. destruct H; auto. Qed.

Ltac vals := repeat first
  [ assumption | apply numbered_json | apply head_json | apply vals_json_app | apply Forall_skipn' | apply json_none
  | apply Forall_nil | apply Forall_cons; cbn [snd] | apply json_str ].
Ltac step := first
  [ exact fn_ve | apply ftype_json | apply f_index0_json; assumption | apply f_two_json; assumption
  | apply fdict_json; vals; fail
  | apply rjson_bind; [apply rjson_arg; [idx|assumption]|intros]
  | apply rjson_bind; [|intros]
  | match goal with |- fjson (if ?b then _ else _) => destruct b end
  | apply rjson_arg; [idx|assumption]
  | (cbn [rjson]; constructor; fail) ].
Ltac split_args := repeat match goal with
  | H : Forall json ?l |- context [match ?l with [] => _ | _ :: _ => _ end] => destruct H
  end.
Definition fn_ok (f : fn) : Prop := forall n args, Forall json args -> fjson (f n args).

Lemma f_resource_id_ok : fn_ok f_resource_id.
Proof.
  intros n args H. assert (Hd : fjson (
      let* sub := arg_at 0 args in let* grp := arg_at 1 args in let* ty := arg_at 2 args in
      fdict "resource_id" ((u "resource_type", ty) :: numbered (u "resource_name_") 1 (skipn 3 args)
         ++ [(u "resource_group_name", grp); (u "subscription_id", sub)]))).
  { repeat step. }
  unfold f_resource_id. destruct H as [|a l Ha H]; [exact Hd|]. destruct H as [|b l Hb H]; [exact Hd|].
  destruct H as [|c l Hc H]; [step|]. destruct H as [|e l He H]; [step|]. destruct H as [|g l Hg H]; [step|exact Hd].
Qed.
Lemma f_subscription_resource_id_ok : fn_ok f_subscription_resource_id.
Proof.
  intros n args H. unfold f_subscription_resource_id.
  assert (Hd : fjson (
      let* sub := arg_at 0 args in
      let* ty := arg_at 1 args in
      let* n1 := arg_at 2 args in
      let* n2 := arg_at 3 args in
      fdict "subscription_resource_id"
        [(u "resource_type", ty); (u "resource_name_1", n1); (u "resource_name_2", n2);
         (u "subscription_id", sub)])).
  { repeat step. }
  destruct H as [|a l Ha H]; [exact Hd|]. destruct H as [|b l Hb H]; [exact Hd|].
  destruct H as [|c l Hc H]; [step|]. destruct H as [|e l He H]; [step|exact Hd].
Qed.
Lemma f_resource_group_ok : fn_ok f_resource_group.
Proof.
  intros n args H. unfold f_resource_group.
  assert (Hp : forall a b, json a -> json b -> fjson (let '(name', sub') := if truthy a && truthy b then (b, a) else (a, b) in
     fdict "resource_group" [(u "resource_group_name", name'); (u "subscription_id", sub')])).
  { intros a b Ha Hb. destruct (truthy a && truthy b); step. }
  destruct H as [|a l Ha H]; [apply Hp; constructor|]. destruct H as [|b l Hb H]; [apply Hp; [assumption|constructor]|].
  destruct H; [apply Hp; assumption|apply Hp; constructor].
Qed.
Lemma f_unknown_ok : fn_ok f_unknown_func.
Proof.
  intros n args H. cbn [rjson f_unknown_func]. apply json_lit; [nodup_lit|].
  repeat constructor; cbn [snd]; try (apply dict_of_NoDup).
  apply dict_of_ind. apply numbered_json. exact H.
Qed.
Ltac rest3 := match goal with
  | H : Forall json ?l |- context [match ?l with [] => _ | _ :: _ => _ end] => destruct H
  end.

Lemma functions_ok : Forall (fun e => fn_ok (snd e)) FUNCTIONS.
Proof.
  unfold FUNCTIONS. repeat (apply Forall_cons; [cbn [snd]|]); try apply Forall_nil.
  all: try apply f_resource_id_ok; try apply f_subscription_resource_id_ok; try apply f_resource_group_ok.
  all: intros n args H.
  all: try (apply f_index0_json; exact H); try (apply f_two_json; exact H); try apply ftype_json.
  all: match goal with |- fjson (?f _ _) => unfold f end.
  all: try (repeat step; fail).
  all: try (destruct H as [|a l Ha H]; [exact fn_ve|]; try (step; fail); destruct H as [|b l' Hb H]; try step;
            try (destruct H as [|c l Hc H]; step); fail).
  all: try (repeat rest3; repeat step; fail).
Qed.

(** ** Decorators *)
Definition rdeco (r : result pyval) : Prop := match r with Ok v => deco_entry v | Err e => kind_in py_kinds e end.
Lemma int_of_str_err E s e : int_of_str E s = Err e -> kind_in [KValue] e.
Proof.
  unfold int_of_str.
  destruct (match strip E s with [] => _ | _ :: _ => _ end) as [neg body].
  destruct (int_digits E false 0 0 body) as [[v0 cnt]|]; [|intros H; inversion H; kin].
  destruct (max_str_digits <? cnt)%N; intros H; inversion H; kin.
Qed.
Lemma py_int_err E v e : py_int E v = Err e -> kind_in [KType; KValue] e.
Proof.
  assert (H : forall s, int_of_str E s = Err e -> kind_in [KType; KValue] e).
  { intros s Hs. eapply kind_in_incl; [|eapply int_of_str_err; exact Hs]. intros k [<-|[]]. right. left. reflexivity. }
  destruct v; cbn; intros Hv; try (inversion Hv; subst; kin); eapply H; eassumption.
Qed.
Definition deco_ok (f : deco_fun) : Prop := forall n args, Forall json args -> rdeco (f n args).
Lemma deco_arg0_ok ty args : Forall json args -> rdeco (deco_arg0 ty args).
Proof.
  intros H. unfold deco_arg0. pose proof (rjson_arg py_kinds 0 args ltac:(cbn; tauto) H) as Ha. destruct (arg_at 0 args); cbn in *; [|exact Ha].
  right. eauto.
Qed.
Lemma decorators_ok E : Forall (fun e => deco_ok (snd e)) (DECORATORS E).
Proof.
  unfold DECORATORS. repeat (apply Forall_cons; [cbn [snd]|]); try apply Forall_nil.
  all: intros n args H.
  all: try (apply deco_arg0_ok; exact H).
  all: try (left; eexists; reflexivity).
  - unfold deco_min_val. pose proof (rjson_arg py_kinds 0 args ltac:(cbn; tauto) H) as Ha. destruct (arg_at 0 args) as [a|]; cbn in *; [|exact Ha].
    match goal with |- rdeco (bind ?m ?k) => assert (Hm : rjson py_kinds m) end.
    { destruct a; try exact Ha. apply rjson_bind; [apply rjson_get; [cbn; tauto|exact Ha|repeat constructor]|].
      intros op Hop. apply rjson_bind; [apply rjson_get; [cbn; tauto|exact Hop|constructor]|]. intros ty Hty.
      destruct (eq_lit ty (u "minus")); [|exact Ha].
      apply rjson_bind; [apply rjson_getitem; [cbn; tauto|cbn; tauto|exact Hop]|]. intros ops Hops.
      apply rjson_bind; [apply rjson_getitem; [cbn; tauto|cbn; tauto|exact Hops]|]. intros v Hv.
      destruct Hv; cbn; try kin; try constructor. constructor. }
    match goal with |- rdeco (bind ?m ?k) => destruct m; cbn in *; [|exact Hm] end. right. eauto.
  - unfold deco_min_val. pose proof (rjson_arg py_kinds 0 args ltac:(cbn; tauto) H) as Ha. destruct (arg_at 0 args) as [a|]; cbn in *; [|exact Ha].
    match goal with |- rdeco (bind ?m ?k) => assert (Hm : rjson py_kinds m) end.
    { destruct a; try exact Ha. apply rjson_bind; [apply rjson_get; [cbn; tauto|exact Ha|repeat constructor]|].
      intros op Hop. apply rjson_bind; [apply rjson_get; [cbn; tauto|exact Hop|constructor]|]. intros ty Hty.
      destruct (eq_lit ty (u "minus")); [|exact Ha].
      apply rjson_bind; [apply rjson_getitem; [cbn; tauto|cbn; tauto|exact Hop]|]. intros ops Hops.
      apply rjson_bind; [apply rjson_getitem; [cbn; tauto|cbn; tauto|exact Hops]|]. intros v Hv.
      destruct Hv; cbn; try kin; try constructor. constructor. }
    match goal with |- rdeco (bind ?m ?k) => destruct m; cbn in *; [|exact Hm] end. right. eauto.
  - unfold deco_max_val. pose proof (rjson_arg py_kinds 0 args ltac:(cbn; tauto) H) as Ha. destruct (arg_at 0 args) as [a|]; cbn in *; [|exact Ha].
    destruct (py_int E a) eqn:He; cbn; [|eapply kind_in_incl; [|eapply py_int_err; eassumption]; intros k [<-|[<-|[]]]; cbn; tauto]. right. repeat eexists. constructor.
  - unfold deco_max_val. pose proof (rjson_arg py_kinds 0 args ltac:(cbn; tauto) H) as Ha. destruct (arg_at 0 args) as [a|]; cbn in *; [|exact Ha].
    destruct (py_int E a) eqn:He; cbn; [|eapply kind_in_incl; [|eapply py_int_err; eassumption]; intros k [<-|[<-|[]]]; cbn; tauto]. right. repeat eexists. constructor.
Qed.
Lemma unknown_deco_ok : deco_ok unknown_deco.
Proof. intros n args H. destruct H; [left; eexists; reflexivity|right; eauto]. Qed.
Lemma deco_entry_json v : deco_entry v -> json v.
Proof. intros [(ty & ->)|(ty & a & -> & Ha)]; (apply json_lit; [nodup_lit|]); repeat constructor. exact Ha. Qed.
Lemma aget_Forall {A} (P : str * A -> Prop) k d v : Forall P d -> aget k d = Some v -> P (k, v).
Proof. intros H Hg. apply aget_In in Hg. eapply Forall_forall in H; eassumption. Qed.
