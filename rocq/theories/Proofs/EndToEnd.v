(** From the text to the outcome. *)
From Coq Require Import List Arith NArith ZArith Bool String Lia.
From Verif Require Import Py.Str Py.Val Lark.Tree Lark.Shape Lark.Driver
  Pycep.Utils Pycep.Transformer Pycep.Main Pycep.Bicep Pycep.Session
  Spec.Json Spec.Schema Spec.Trees Spec.Outcomes Spec.Calls Spec.Text
  Proofs.Base Proofs.JsonLemmas Proofs.Parse Proofs.TreeGrammar Proofs.Transform Proofs.Typing Proofs.State Proofs.Tokens.
Import ListNotations.
Local Open Scope string_scope.

Lemma lark_parse_err E text e : lark_parse E text = Err e -> syntax_error e.
Proof.
  unfold lark_parse. intros H. pose proof (parse_cst_sound E text) as Hs.
  destruct (parse_cst E text) as [c|x]; cbn [bind] in H.
  - discriminate.
  - injection H as <-. unfold syntax_error. destruct Hs; auto.
Qed.

(** ** Outcomes *)
Lemma transform_outcome E ln mg t : ok E sStart t -> (mg = false -> clean t = true) ->
  match transform E ln t with
  | Ok v => document_ok mg ln v
  | Err e => exists r x, e = EVisitError r x /\ may_fail mg r x
  end.
Proof.
  intros Hok Hcl. destruct (typing E ln mg) as [H _]. specialize (H _ _ Hok Hcl tstate0).
  unfold transform. unfold outc in H. specialize (H (conj (Forall_nil _) (Forall_nil _))).
  destruct (transform_tree E ln t tstate0) as [[v st]|e]; cbn [bind].
  - apply H.
  - exact H.
Qed.
Lemma may_fail_python mg r x : may_fail mg r x -> python_error x.
Proof.
  intros (n & ks & _ & _ & k & Hk & _). unfold python_error.
  destruct x; cbn in Hk; try discriminate; eauto 10.
Qed.

Section Main.
  Variable E : pyenv.
  Variable fs : path -> result str.
  Lemma text_truthy_spec text : text_truthy text = true <-> given_text text.
  Proof.
    unfold given_text. destruct text as [[|c s]|]; cbn; split; intros H; try discriminate; eauto;
      destruct H as (c' & s' & H); discriminate.
  Qed.
  Lemma fp_truthy_spec fp : fp_truthy fp = true <-> given_path fp.
  Proof.
    unfold given_path. destruct fp as [p|]; cbn; split; intros H; try discriminate; eauto.
    - destruct H as (q & H & Hq). injection H as ->. exact Hq.
    - destruct H as (q & H & _). discriminate.
  Qed.
  Lemma not_true b (P : Prop) : (b = true <-> P) -> ~ P -> b = false.
  Proof. intros H Hn. destruct b; [|reflexivity]. exfalso. apply Hn, H. reflexivity. Qed.

  Lemma raw_both text fp : given_text text -> given_path fp ->
    create_tree_raw fs (lark_parse E) text fp = Err (ETypeError (u "Either 'text' or 'file_path' can be set")).
  Proof.
    intros H1 H2. apply text_truthy_spec in H1. apply fp_truthy_spec in H2. unfold create_tree_raw.
    rewrite H1, H2. reflexivity.
  Qed.
  Lemma raw_none text fp : ~ given_text text -> ~ given_path fp ->
    create_tree_raw fs (lark_parse E) text fp = Err (ETypeError (u "Either 'text' or 'file_path' has to be set")).
  Proof.
    intros H1 H2. apply (not_true _ _ (text_truthy_spec _)) in H1. apply (not_true _ _ (fp_truthy_spec _)) in H2.
    unfold create_tree_raw. rewrite H1, H2. reflexivity.
  Qed.
  Lemma raw_source text fp t : source fs text fp t ->
    create_tree_raw fs (lark_parse E) text fp =
    if is_valid t then lark_parse E t else Err (EValueError (invalid_message fp)).
  Proof.
    intros H. destruct H as [t fp Ht Hfp|text p t Ht Hp Hf].
    - apply text_truthy_spec in Ht. apply (not_true _ _ (fp_truthy_spec _)) in Hfp.
      unfold create_tree_raw. rewrite Ht, Hfp. cbn [andb bind].
      destruct (is_valid t); cbn [negb]; [reflexivity|].
      unfold invalid_message. destruct fp as [p|]; cbn in Hfp |- *; [rewrite Hfp|]; reflexivity.
    - apply (not_true _ _ (text_truthy_spec _)) in Ht. unfold create_tree_raw. rewrite Ht. cbn [andb fp_truthy].
      rewrite Hp, Hf. cbn [bind]. destruct (is_valid t); cbn [negb]; [reflexivity|].
      unfold invalid_message. rewrite Hp. reflexivity.
  Qed.
  Lemma raw_read_error text p e : ~ given_text text -> path_truthy p = true -> fs p = Err e ->
    create_tree_raw fs (lark_parse E) text (Some p) = Err e.
  Proof.
    intros Ht Hp Hf. apply (not_true _ _ (text_truthy_spec _)) in Ht. unfold create_tree_raw. rewrite Ht.
    cbn [andb fp_truthy]. rewrite Hp, Hf. reflexivity.
  Qed.
  (** The five ways a call can go. *)
  Lemma raw_cases text fp :
    (given_text text /\ given_path fp) \/ (~ given_text text /\ ~ given_path fp) \/
    (exists t, source fs text fp t) \/
    (exists p e, ~ given_text text /\ fp = Some p /\ path_truthy p = true /\ fs p = Err e).
  Proof.
    destruct (text_truthy text) eqn:H1, (fp_truthy fp) eqn:H2.
    - left. rewrite <- text_truthy_spec, <- fp_truthy_spec. auto.
    - right. right. left. pose proof H1 as H3. apply text_truthy_spec in H3. destruct H3 as (c & s & ->).
      exists (c :: s). constructor; [exists c, s; reflexivity|]. rewrite <- fp_truthy_spec, H2. discriminate.
    - right. right. pose proof H2 as H3. apply fp_truthy_spec in H3. destruct H3 as (p & -> & Hp).
      assert (Hn : ~ given_text text) by (rewrite <- text_truthy_spec, H1; discriminate).
      destruct (fs p) as [t|e] eqn:Hf; [left; exists t; constructor; assumption|right; exists p, e; auto].
    - right. left. rewrite <- text_truthy_spec, <- fp_truthy_spec, H1, H2. split; discriminate.
  Qed.
End Main.

(** ** Counting triple quotes *)
Lemma starts_with_app p : forall s, starts_with p s = true <-> exists s', s = (p ++ s')%list.
Proof.
  induction p as [|c p IH]; intros s; cbn.
  - split; eauto.
  - destruct s as [|d s]; [split; [discriminate|intros (s' & H); discriminate]|].
    rewrite andb_true_iff, N.eqb_eq, IH. split.
    + intros [-> (s' & ->)]. eauto.
    + intros (s' & H). injection H as -> ->. eauto.
Qed.
Lemma count_skip p k : forall s, k <= List.length s -> count_from p k s = count_from p 0 (skipn k s).
Proof.
  induction k as [|k IH]; intros [|c s] H; cbn [List.length] in H; try reflexivity; try lia.
  cbn [count_from skipn]. apply IH. lia.
Qed.
Lemma occurs_count p s n : p <> [] -> occurs p s n -> count p s = N.of_nat n.
Proof.
  intros Hp H. unfold count. induction H as [|s n H IH|c s n Hno H IH].
  - reflexivity.
  - destruct p as [|d p]; [congruence|]. cbn [app count_from].
    assert (Hs : starts_with (d :: p) (d :: p ++ s) = true) by (apply starts_with_app; exists s; reflexivity).
    rewrite Hs. cbn [List.length Nat.pred]. rewrite count_skip by (rewrite app_length; lia).
    rewrite skipn_app, skipn_all, Nat.sub_diag. cbn [app skipn]. rewrite IH. lia.
  - cbn [count_from]. destruct (starts_with p (c :: s)) eqn:Hs; [|exact IH].
    apply starts_with_app in Hs as (s' & Hs). exfalso. eapply Hno, Hs.
Qed.
Lemma occurs_total p s : p <> [] -> exists n, occurs p s n.
Proof.
  intros Hp. induction s as [s IH] using (induction_ltof1 _ (@List.length N)). unfold ltof in IH.
  destruct s as [|c s]; [exists 0; constructor|].
  destruct (starts_with p (c :: s)) eqn:Hs.
  - apply starts_with_app in Hs as (s' & Hs). rewrite Hs. destruct (IH s') as (n & Hn).
    { apply (f_equal (@List.length N)) in Hs. rewrite app_length in Hs. destruct p; [congruence|]. cbn [List.length] in *. lia. }
    exists (Datatypes.S n). constructor. exact Hn.
  - destruct (IH s) as (n & Hn); [cbn; lia|]. exists n. constructor; [|exact Hn].
    intros s' H. rewrite H in Hs. assert (starts_with p (p ++ s')%list = true) by (apply starts_with_app; eauto). congruence.
Qed.
Lemma is_valid_occurs t n : occurs triple t n -> is_valid t = Nat.even n.
Proof.
  intros H. apply occurs_count in H; [|discriminate]. unfold is_valid, multi_line_string_valid.
  change (u "'''") with triple. rewrite H. clear H.
  destruct (Nat.even n) eqn:He.
  - apply Nat.even_spec in He as (k & ->). apply N.eqb_eq.
    rewrite Nat2N.inj_mul, N.mul_comm. apply N.mod_mul. discriminate.
  - apply N.eqb_neq. intros H0.
    assert (Ho : Nat.odd n = true) by (unfold Nat.odd; rewrite He; reflexivity).
    apply Nat.odd_spec in Ho as (k & ->). rewrite Nat2N.inj_add, Nat2N.inj_mul in H0.
    rewrite (N.mul_comm (N.of_nat 2)), N.add_comm, N.mod_add in H0 by discriminate. discriminate.
Qed.

(** ** Whole calls *)
Section Calls.
  Variable E : pyenv.
  Variable fs : path -> result str.
  Lemma parse_source ln text fp t : source fs text fp t ->
    bicep_parse E fs ln text fp =
    if is_valid t then let* tree := lark_parse E t in transform E ln tree else Err (EValueError (invalid_message fp)).
  Proof. intros H. unfold bicep_parse, parse. rewrite (raw_source E fs _ _ _ H). destruct (is_valid t); reflexivity. Qed.
  Lemma tree_source text fp t : source fs text fp t ->
    bicep_create_tree E fs text fp =
    if is_valid t then let* tree := lark_parse E t in Ok (pretty tree) else Err (EValueError (invalid_message fp)).
  Proof. intros H. unfold bicep_create_tree, create_tree. rewrite (raw_source E fs _ _ _ H). destruct (is_valid t); reflexivity. Qed.

  (** Every way a parse can end. *)
  Lemma parse_text_outcome ln t mg : (mg = false -> ~ contains reserved_key t) ->
    match (let* tree := lark_parse E t in transform E ln tree) with
    | Ok v => document_ok mg ln v
    | Err e => syntax_error e \/ exists r x, e = EVisitError r x /\ may_fail mg r x
    end.
  Proof.
    intros Hm. destruct (lark_parse E t) as [tree|e] eqn:Hp; cbn [bind].
    - pose proof (lark_parse_ok E t tree Hp) as Hok.
      pose proof (transform_outcome E ln mg tree Hok (fun H => lark_parse_clean E t tree Hp (Hm H))) as H.
      destruct (transform E ln tree); auto.
    - left. exact (lark_parse_err _ _ _ Hp).
  Qed.
  Lemma source_text text fp t : source fs text fp t -> given_text text \/ given_path fp.
  Proof. destruct 1; [left; assumption|right]. exists p. auto. Qed.
End Calls.

(** ** Sessions *)
Lemma set_nth_length {A} n (x : A) l : List.length (set_nth n x l) = List.length l.
Proof. revert l. induction n as [|n IH]; intros [|y l]; cbn; auto. Qed.
Lemma run_app E debris : forall ops1 ops2 s, run E debris s (ops1 ++ ops2)%list =
  let '(s1, l1) := run E debris s ops1 in let '(s2, l2) := run E debris s1 ops2 in (s2, (l1 ++ l2)%list).
Proof.
  induction ops1 as [|o ops1 IH]; intros ops2 s; cbn [app run].
  - destruct (run E debris s ops2). reflexivity.
  - destruct (step E debris s o) as [s1 a]. rewrite IH. destruct (run E debris s1 ops1) as [s2 l1].
    destruct (run E debris s2 ops2). reflexivity.
Qed.
Lemma step_parsers E debris s o : parsers (fst (step E debris s o)) =
  (parsers s ++ match o with New ln => [ln] | _ => [] end)%list.
Proof.
  destruct o as [ln|i fs text fp|i fs text fp]; cbn [step].
  - reflexivity.
  - rewrite app_nil_r. destruct (nth_error (parsers s) i); [|reflexivity].
    destruct (create_tree_raw fs (lark_parse E) text fp); [|reflexivity].
    unfold new_transformer, run_transformer. cbn [transformers].
    destruct (nth_error _ _); [|reflexivity]. destruct (match transform_tree _ _ _ _ with Ok _ => _ | Err _ => _ end). reflexivity.
  - rewrite app_nil_r. destruct (nth_error (parsers s) i); reflexivity.
Qed.
Lemma run_parsers E debris ops : forall s, parsers (fst (run E debris s ops)) = (parsers s ++ created ops)%list.
Proof.
  induction ops as [|o ops IH]; intros s; cbn [run created].
  - rewrite app_nil_r. reflexivity.
  - pose proof (step_parsers E debris s o) as H. destruct (step E debris s o) as [s1 a]. cbn [fst] in H.
    specialize (IH s1). destruct (run E debris s1 ops) as [s2 l]. cbn [fst] in *. rewrite IH, H, <- app_assoc.
    destruct o; reflexivity.
Qed.
Lemma step_parse E debris s i ln fs text fp : nth_error (parsers s) i = Some ln ->
  snd (step E debris s (Parse i fs text fp)) = Json (bicep_parse E fs ln text fp).
Proof.
  intros H. cbn [step]. rewrite H. unfold bicep_parse, parse.
  destruct (create_tree_raw fs (lark_parse E) text fp) as [t|e]; [|reflexivity]. cbn [bind].
  unfold new_transformer, run_transformer. cbn [transformers parsers].
  rewrite nth_error_app2, Nat.sub_diag by lia. cbn [nth_error t_ln t_state]. unfold transform.
  destruct (transform_tree E ln t tstate0) as [[v st]|e]; reflexivity.
Qed.
Lemma step_tree E debris s i ln fs text fp : nth_error (parsers s) i = Some ln ->
  snd (step E debris s (CreateTree i fs text fp)) = TreeText (bicep_create_tree E fs text fp).
Proof. intros H. cbn [step]. rewrite H. reflexivity. Qed.
