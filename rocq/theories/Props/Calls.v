(** C01-C06: arguments, validation, files, sessions, outcomes. *)
From Coq Require Import List Arith NArith ZArith Bool String Lia.
From Verif Require Import Py.Str Py.Val Lark.Tree Lark.Shape Lark.Terminals
  Pycep.Utils Pycep.Transformer Pycep.Main Pycep.Bicep Pycep.Session
  Spec.Json Spec.Schema Spec.Outcomes Spec.Calls Spec.Text Spec.Trees
  Proofs.Base Proofs.EndToEnd.
Import ListNotations.
Local Open Scope string_scope.

(** Files for the examples. *)
Definition ex_path : path := {| path_str := u "main.bicep"; path_truthy := true |}.
Definition ex_fs (p : path) : result str :=
  if str_eqb (path_str p) (u "main.bicep") then Ok (u "var a = 1") else
  if str_eqb (path_str p) (u "empty.bicep") then Ok [] else
  if str_eqb (path_str p) (u "bad.bicep") then Ok (u "var a = '''x") else Err (EOSError (u "No such file")).

(** ** C01 *)
Theorem C01_both_given : forall E ln text fp, given_text text -> given_path fp ->
  forall fs,
    bicep_parse E fs ln text fp = Err (ETypeError (u "Either 'text' or 'file_path' can be set")) /\
    bicep_create_tree E fs text fp = Err (ETypeError (u "Either 'text' or 'file_path' can be set")).
Proof.
  intros E ln text fp Ht Hp fs. unfold bicep_parse, parse, bicep_create_tree, create_tree.
  rewrite (raw_both E fs _ _ Ht Hp). split; reflexivity.
Qed.
Example C01_both_given_ex : given_text (Some (u "x")) /\ given_path (Some ex_path).
Proof. split; [exists 120%N, []; reflexivity|exists ex_path; split; reflexivity]. Qed.

Theorem C01_none_given : forall E ln text fp, ~ given_text text -> ~ given_path fp ->
  forall fs,
    bicep_parse E fs ln text fp = Err (ETypeError (u "Either 'text' or 'file_path' has to be set")) /\
    bicep_create_tree E fs text fp = Err (ETypeError (u "Either 'text' or 'file_path' has to be set")).
Proof.
  intros E ln text fp Ht Hp fs. unfold bicep_parse, parse, bicep_create_tree, create_tree.
  rewrite (raw_none E fs _ _ Ht Hp). split; reflexivity.
Qed.
Example C01_none_given_ex : ~ given_text (Some []) /\ ~ given_path None.
Proof. split; [intros (c & s & H); discriminate|intros (p & H & _); discriminate]. Qed.

(** With exactly one argument there is never a TypeError (unless reading the
    file itself raises one). *)
Theorem C01_one_given : forall E fs ln text fp, ~ (given_text text <-> given_path fp) ->
  (forall p m, fs p <> Err (ETypeError m)) ->
  forall m, bicep_parse E fs ln text fp <> Err (ETypeError m) /\
            bicep_create_tree E fs text fp <> Err (ETypeError m).
Proof.
  intros E fs ln text fp Hone Hfs m. destruct (raw_cases fs text fp) as [[H1 H2]|[[H1 H2]|[(t & Hs)|(p & e & H1 & -> & H2 & H3)]]];
    [tauto|tauto| |].
  - rewrite (parse_source E fs ln _ _ _ Hs), (tree_source E fs _ _ _ Hs).
    destruct (is_valid t); [|split; discriminate]. split.
    + pose proof (parse_text_outcome E ln t true ltac:(discriminate)) as H. intros He. rewrite He in H.
      destruct H as [[H|H]|(r & x & H & _)]; discriminate.
    + destruct (lark_parse E t) as [tree|e] eqn:Hp; cbn [bind]; [discriminate|].
      apply lark_parse_err in Hp. intros He. injection He as ->. destruct Hp; discriminate.
  - unfold bicep_parse, parse, bicep_create_tree, create_tree. rewrite (raw_read_error E fs _ _ _ H1 H2 H3).
    cbn [bind]. split; intros He; injection He as ->; exact (Hfs _ _ H3).
Qed.
Example C01_one_given_ex : ~ (given_text (Some []) <-> given_path (Some ex_path)) /\
  (forall p m, ex_fs p <> Err (ETypeError m)) /\
  exists d, bicep_parse env0 ex_fs false (Some []) (Some ex_path) = Ok (PDict d).
Proof.
  split; [|split].
  - intros [_ H]. destruct H as (c & s & H); [exists ex_path; split; reflexivity|discriminate].
  - intros p m. unfold ex_fs. repeat match goal with |- (if ?b then _ else _) <> _ => destruct b end; discriminate.
  - eexists. vm_compute. reflexivity.
Qed.

(** ** C02 *)
Theorem C02_odd_rejected : forall E fs ln text fp t n, source fs text fp t -> occurs triple t n -> Nat.Odd n ->
  bicep_parse E fs ln text fp = Err (EValueError (invalid_message fp)) /\
  bicep_create_tree E fs text fp = Err (EValueError (invalid_message fp)).
Proof.
  intros E fs ln text fp t n Hs Hn Ho. rewrite (parse_source E fs ln _ _ _ Hs), (tree_source E fs _ _ _ Hs).
  rewrite (is_valid_occurs _ _ Hn). apply Nat.odd_spec in Ho. unfold Nat.odd in Ho. apply negb_true_iff in Ho.
  rewrite Ho. split; reflexivity.
Qed.
Theorem C02_even_goes_on : forall E fs ln text fp t n, source fs text fp t -> occurs triple t n -> Nat.Even n ->
  bicep_parse E fs ln text fp = (let* tree := lark_parse E t in transform E ln tree) /\
  bicep_create_tree E fs text fp = (let* tree := lark_parse E t in Ok (pretty tree)) /\
  (forall m, bicep_parse E fs ln text fp <> Err (EValueError m)) /\
  (forall m, bicep_create_tree E fs text fp <> Err (EValueError m)).
Proof.
  intros E fs ln text fp t n Hs Hn Ho. rewrite (parse_source E fs ln _ _ _ Hs), (tree_source E fs _ _ _ Hs).
  rewrite (is_valid_occurs _ _ Hn). apply Nat.even_spec in Ho. rewrite Ho.
  split; [reflexivity|]. split; [reflexivity|]. split; intros m.
  - pose proof (parse_text_outcome E ln t true ltac:(discriminate)) as H. intros He. rewrite He in H.
    destruct H as [[H|H]|(r & x & H & _)]; discriminate.
  - destruct (lark_parse E t) as [tree|e] eqn:Hp; cbn [bind]; [discriminate|].
    apply lark_parse_err in Hp. intros He. injection He as ->. destruct Hp; discriminate.
Qed.
(** The count is defined for every text. *)
Theorem C02_count_defined : forall t, exists n, occurs triple t n /\ forall m, occurs triple t m -> m = n.
Proof.
  intros t. destruct (occurs_total triple t ltac:(discriminate)) as (n & Hn). exists n. split; [exact Hn|].
  intros m Hm. apply occurs_count in Hn; [|discriminate]. apply occurs_count in Hm; [|discriminate]. lia.
Qed.
Example C02_odd_ex : source ex_fs None (Some {| path_str := u "bad.bicep"; path_truthy := true |}) (u "var a = '''x") /\
  occurs triple (u "var a = '''x") 1.
Proof.
  split.
  - constructor; [intros (c & s & H); discriminate|reflexivity|reflexivity].
  - unfold u. cbn. repeat (apply occ_skip; [discriminate|]). apply (occ_hit triple [120%N]).
    apply occ_skip; [discriminate|]. constructor.
Qed.
Example C02_even_ex : source ex_fs (Some (u "''''''")) None (u "''''''") /\ occurs triple (u "''''''") 2.
Proof.
  split.
  - constructor; [exists 39%N, (u "'''''"); reflexivity|intros (p & H & _); discriminate].
  - apply (occ_hit triple (u "'''")). apply (occ_hit triple []). constructor.
Qed.

(** ** C03 *)
Theorem C03_file_like_text : forall E fs fs' ln p t n, path_truthy p = true -> fs p = Ok t -> t <> [] ->
  occurs triple t n -> Nat.Even n ->
  bicep_parse E fs ln None (Some p) = bicep_parse E fs' ln (Some t) None /\
  bicep_create_tree E fs None (Some p) = bicep_create_tree E fs' (Some t) None.
Proof.
  intros E fs fs' ln p t n Hp Hf Ht Hn He.
  assert (H1 : source fs None (Some p) t) by (constructor; [intros (c & s & H); discriminate|assumption..]).
  assert (H2 : source fs' (Some t) None t).
  { constructor; [destruct t as [|c s]; [congruence|exists c, s; reflexivity]|intros (q & H & _); discriminate]. }
  destruct (C02_even_goes_on E fs ln _ _ _ _ H1 Hn He) as (A1 & A2 & _).
  destruct (C02_even_goes_on E fs' ln _ _ _ _ H2 Hn He) as (B1 & B2 & _). split; congruence.
Qed.
(** Unbalanced quotes: the two messages. *)
Theorem C03_invalid_file : forall E fs fs' ln p t n, path_truthy p = true -> fs p = Ok t -> t <> [] ->
  occurs triple t n -> Nat.Odd n ->
  bicep_parse E fs ln None (Some p) = Err (EValueError (path_str p ++ u " file content is invalid")%list) /\
  bicep_parse E fs' ln (Some t) None = Err (EValueError (u "Text is invalid")).
Proof.
  intros E fs fs' ln p t n Hp Hf Ht Hn He.
  assert (H1 : source fs None (Some p) t) by (constructor; [intros (c & s & H); discriminate|assumption..]).
  assert (H2 : source fs' (Some t) None t).
  { constructor; [destruct t as [|c s]; [congruence|exists c, s; reflexivity]|intros (q & H & _); discriminate]. }
  destruct (C02_odd_rejected E fs ln _ _ _ _ H1 Hn He) as (A1 & _).
  destruct (C02_odd_rejected E fs' ln _ _ _ _ H2 Hn He) as (B1 & _). rewrite A1, B1.
  unfold invalid_message. rewrite Hp. split; reflexivity.
Qed.
(** An empty file is fine, the empty text is not. *)
Theorem C03_empty_file : forall E fs ln p, path_truthy p = true -> fs p = Ok [] ->
  bicep_parse E fs ln None (Some p) =
    Ok (PDict [(u "globals", PDict [(u "scope", PDict (
          [(u "value", PStr (u "resourceGroup"))] ++
          (if ln then [(u "__start_line__", PInt 0); (u "__end_line__", PInt 0)] else []))%list)])]) /\
  forall fs', bicep_parse E fs' ln (Some []) None = Err (ETypeError (u "Either 'text' or 'file_path' has to be set")).
Proof.
  intros E fs ln p Hp Hf. split.
  - rewrite (parse_source E fs ln None (Some p) []) by (constructor; [intros (c & s & H); discriminate|assumption..]).
    destruct ln; vm_compute; reflexivity.
  - intros fs'. apply C01_none_given; [intros (c & s & H); discriminate|intros (q & H & _); discriminate].
Qed.
Theorem C03_read_error : forall E fs ln p e, path_truthy p = true -> fs p = Err e ->
  bicep_parse E fs ln None (Some p) = Err e /\ bicep_create_tree E fs None (Some p) = Err e.
Proof.
  intros E fs ln p e Hp Hf. unfold bicep_parse, parse, bicep_create_tree, create_tree.
  rewrite (raw_read_error E fs None p e); [split; reflexivity|intros (c & s & H); discriminate|assumption..].
Qed.
Example C03_ex : ex_fs ex_path = Ok (u "var a = 1") /\
  exists d, bicep_parse env0 ex_fs true None (Some ex_path) = Ok (PDict d) /\ aget (u "variables") d <> None.
Proof. split; [reflexivity|]. eexists. split; [vm_compute; reflexivity|]. vm_compute. discriminate. Qed.

(** ** C04 *)
Theorem C04_parse_independent : forall E debris ops i ln fs text fp,
  nth_error (created ops) i = Some ln ->
  let s := fst (run E debris session0 ops) in
  Some (snd (step E debris s (Parse i fs text fp))) = alone E debris ln (fun i => Parse i fs text fp) /\
  snd (step E debris s (Parse i fs text fp)) = Json (bicep_parse E fs ln text fp).
Proof.
  intros E debris ops i ln fs text fp Hi s.
  assert (Hp : nth_error (parsers s) i = Some ln) by (unfold s; rewrite run_parsers; exact Hi).
  rewrite (step_parse _ _ _ _ _ _ _ _ Hp). split; [|reflexivity].
  unfold alone. cbn [run]. set (s0 := fst (step E debris session0 (New ln))).
  change (step E debris session0 (New ln)) with (s0, Created 0). cbv iota.
  pose proof (step_parse E debris s0 0 ln fs text fp eq_refl) as H.
  destruct (step E debris s0 (Parse 0 fs text fp)) as [s' a]. cbn [snd nth_error] in *. congruence.
Qed.
Theorem C04_create_tree_independent : forall E debris ops i ln fs text fp,
  nth_error (created ops) i = Some ln ->
  let s := fst (run E debris session0 ops) in
  snd (step E debris s (CreateTree i fs text fp)) = TreeText (bicep_create_tree E fs text fp).
Proof.
  intros E debris ops i ln fs text fp Hi s.
  assert (Hp : nth_error (parsers s) i = Some ln) by (unfold s; rewrite run_parsers; exact Hi).
  exact (step_tree _ _ _ _ _ _ _ _ Hp).
Qed.
(** A history with a failing and a child-lifting call before the one looked at. *)
Example C04_ex : forall debris,
  let text s := Some (u s) in
  let ops := [New true; Parse 0 ex_fs (text "var a = ") None;
              Parse 0 ex_fs (text "import { b } from 'c'") None; New false; Parse 1 ex_fs None (Some ex_path)] in
  nth_error (created ops) 1 = Some false /\
  nth_error (snd (run env0 debris session0 ops)) 4 = Some (Json (bicep_parse env0 ex_fs false (text "var a = 1") None)).
Proof. intros debris. split; [reflexivity|]. vm_compute. reflexivity. Qed.

(** ** C05 *)
Theorem C05_outcomes : forall E fs ln text fp,
  match bicep_parse E fs ln text fp with
  | Ok v => exists d, v = PDict d
  | Err e =>
      ((given_text text <-> given_path fp) /\ exists m, e = ETypeError m) \/
      (exists t n, source fs text fp t /\ occurs triple t n /\ Nat.Odd n /\ e = EValueError (invalid_message fp)) \/
      (exists p, fp = Some p /\ fs p = Err e) \/
      syntax_error e \/
      (exists rule x, e = EVisitError rule x /\ may_fail true rule x)
  end.
Proof.
  intros E fs ln text fp. destruct (raw_cases fs text fp) as [[H1 H2]|[[H1 H2]|[(t & Hs)|(p & e & H1 & -> & H2 & H3)]]].
  - destruct (C01_both_given E ln text fp H1 H2 fs) as [-> _]. left. split; [tauto|eauto].
  - destruct (C01_none_given E ln text fp H1 H2 fs) as [-> _]. left. split; [tauto|eauto].
  - destruct (occurs_total triple t ltac:(discriminate)) as (n & Hn).
    destruct (Nat.Even_or_Odd n) as [He|Ho].
    + destruct (C02_even_goes_on E fs ln _ _ _ _ Hs Hn He) as (-> & _).
      pose proof (parse_text_outcome E ln t true ltac:(discriminate)) as H.
      destruct (bind _ _) as [v|e]; [|tauto]. destruct H as (d & -> & _). eauto.
    + destruct (C02_odd_rejected E fs ln _ _ _ _ Hs Hn Ho) as (-> & _). right. left. exists t, n. auto.
  - destruct (raw_cases fs text (Some p)); unfold bicep_parse, parse; rewrite (raw_read_error E fs text p e H1 H2 H3);
      right; right; left; exists p; auto.
Qed.
(** No internal error of the model or of Lark, and a VisitError wraps a plain
    Python exception. *)
Theorem C05_closed : forall E fs ln text fp e, (forall p e, fs p = Err e -> read_error e) ->
  bicep_parse E fs ln text fp = Err e ->
  (exists m, e = ETypeError m) \/ (exists m, e = EValueError m) \/ read_error e \/
  syntax_error e \/ visit_error e.
Proof.
  intros E fs ln text fp e Hfs He. pose proof (C05_outcomes E fs ln text fp) as H. rewrite He in H.
  destruct H as [[_ H]|[(t & n & _ & _ & _ & ->)|[(p & _ & H)|[H|(r & x & -> & H)]]]]; eauto 6.
  - apply may_fail_python in H. right. right. right. right. exists r, x. auto.
Qed.
(** The failing rules of a program that does not write the reserved key. *)
Theorem C05_failing_rules : forall E fs ln text fp t rule x, source fs text fp t -> ~ contains reserved_key t ->
  bicep_parse E fs ln text fp = Err (EVisitError rule x) -> may_fail false rule x.
Proof.
  intros E fs ln text fp t rule x Hs Hno He. rewrite (parse_source E fs ln _ _ _ Hs) in He.
  destruct (is_valid t); [|discriminate].
  pose proof (parse_text_outcome E ln t false (fun _ => Hno)) as H. rewrite He in H.
  destruct H as [[H|H]|(r & y & H & Hm)]; try discriminate. injection H as <- <-. exact Hm.
Qed.

(** Every rule of the table does fail on some text, with each listed exception
    kind (so the table cannot be shortened). *)
Definition fails_with (s : string) (rule : string) (k : exn_kind) : Prop :=
  exists x, bicep_parse env0 ex_fs false (Some (u s)) None = Err (EVisitError (u rule) x) /\ kind_of_exn x = Some k.
Ltac fails := eexists; split; [vm_compute; reflexivity|reflexivity].
Example C05_scope : fails_with "targetScope = 'nowhere'" "scope" KValue. Proof. fails. Qed.
Example C05_tap : fails_with "resource a 'x' = {}" "type_api_pair" KValue. Proof. fails. Qed.
Example C05_module : fails_with "module a 'br:x' = {}" "module_path" KValue. Proof. fails. Qed.
Example C05_fun_value : fails_with "var a = range(1)" "function" KValue. Proof. fails. Qed.
Example C05_fun_index : fails_with "var a = length()" "function" KIndex. Proof. fails. Qed.
Example C05_deco_index : fails_with "@description()
param a int" "decorator" KIndex. Proof. fails. Qed.
Example C05_deco_type : fails_with "@maxValue(-5)
param a int" "decorator" KType. Proof. fails. Qed.
Example C05_res_attr : fails_with "resource a 'x@1' = {
  resource b 'y' = {
    depends_on: 1
  }
}" "resource" KAttr. Proof. fails. Qed.
Example C05_res_type : fails_with "resource a 'x@1' = {
  __child_resource__: 1
}" "resource" KType. Proof. fails. Qed.
Example C05_loop_key : fails_with "var a = [for x in y: if() {}]" "loop" KKey. Proof. fails. Qed.
Example C05_loop_attr : fails_with "var a = [for x in y: {function: 'f'} {}]" "loop" KAttr. Proof. fails. Qed.

(** ** C06 *)
Theorem C06_tree_error_is_parse_error : forall E fs ln text fp e,
  bicep_create_tree E fs text fp = Err e -> bicep_parse E fs ln text fp = Err e.
Proof.
  intros E fs ln text fp e. unfold bicep_create_tree, create_tree, bicep_parse, parse.
  destruct (create_tree_raw fs (lark_parse E) text fp); cbn [bind]; congruence.
Qed.
Theorem C06_tree_then_parse : forall E fs ln text fp s,
  bicep_create_tree E fs text fp = Ok s ->
  match bicep_parse E fs ln text fp with
  | Ok v => exists d, v = PDict d
  | Err e => visit_error e
  end.
Proof.
  intros E fs ln text fp s H.
  destruct (raw_cases fs text fp) as [[H1 H2]|[[H1 H2]|[(t & Hs)|(p & e & H1 & -> & H2 & H3)]]].
  - destruct (C01_both_given E ln text fp H1 H2 fs) as [_ Hb]. congruence.
  - destruct (C01_none_given E ln text fp H1 H2 fs) as [_ Hb]. congruence.
  - rewrite (tree_source E fs _ _ _ Hs) in H. rewrite (parse_source E fs ln _ _ _ Hs).
    destruct (is_valid t); [|discriminate].
    destruct (lark_parse E t) as [tree|e] eqn:Hp; cbn [bind] in *; [|discriminate].
    pose proof (transform_outcome E ln true tree (TreeGrammar.lark_parse_ok E t tree Hp) ltac:(discriminate)) as Ho.
    destruct (transform E ln tree) as [v|e].
    + destruct Ho as (d & -> & _). eauto.
    + destruct Ho as (r & x & -> & Hm). exists r, x. split; [reflexivity|exact (may_fail_python _ _ _ Hm)].
  - unfold bicep_create_tree, create_tree in H. rewrite (raw_read_error E fs text p e H1 H2 H3) in H. discriminate.
Qed.
(** So a parse error that is not a VisitError is an error of create_tree too. *)
Theorem C06_same_errors : forall E fs ln text fp e, ~ visit_error e ->
  (bicep_parse E fs ln text fp = Err e <-> bicep_create_tree E fs text fp = Err e).
Proof.
  intros E fs ln text fp e Hv. split; [|apply C06_tree_error_is_parse_error]. intros H.
  destruct (bicep_create_tree E fs text fp) as [s|e'] eqn:Ht.
  - pose proof (C06_tree_then_parse E fs ln text fp s Ht) as H'. rewrite H in H'. contradiction.
  - apply (C06_tree_error_is_parse_error E fs ln) in Ht. congruence.
Qed.
Example C06_ex : (exists s, bicep_create_tree env0 ex_fs (Some (u "targetScope = 'nowhere'")) None = Ok s) /\
  (bicep_create_tree env0 ex_fs (Some (u "var = 1")) None = Err EUnexpectedToken) /\
  (~ visit_error EUnexpectedToken).
Proof.
  split; [eexists; vm_compute; reflexivity|]. split; [vm_compute; reflexivity|]. intros (r & x & H & _). discriminate.
Qed.

(** All theorems of this file at once (the walk over the proofs is slow). *)
Definition calls_theorems := (@C01_both_given,
  @C01_none_given,
  @C01_one_given,
  @C02_odd_rejected,
  @C02_even_goes_on,
  @C02_count_defined,
  @C03_file_like_text,
  @C03_invalid_file,
  @C03_empty_file,
  @C03_read_error,
  @C04_parse_independent,
  @C04_create_tree_independent,
  @C05_outcomes,
  @C05_closed,
  @C05_failing_rules,
  @C06_tree_error_is_parse_error,
  @C06_tree_then_parse,
  @C06_same_errors).
Print Assumptions calls_theorems.
