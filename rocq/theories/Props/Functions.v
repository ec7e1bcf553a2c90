(** C22-C25: calls of functions.  [call_report] (Spec/Functions.v) is the table. *)
From Coq Require Import List Arith NArith ZArith Bool String Lia.
From Verif Require Import Py.Str Py.Val Lark.Tree Lark.Shape Lark.Terminals
  Pycep.Utils Pycep.Functions Pycep.Transformer Pycep.Main Pycep.Bicep
  Spec.Json Spec.Schema Spec.Outcomes Spec.Calls Spec.Text Spec.Trees Spec.Lexemes Spec.Program Spec.Reports Spec.Children Spec.Declarations
  Spec.Parts Spec.Values Spec.Functions
  Proofs.Base Proofs.Grammar Proofs.JsonLemmas Proofs.TokenForms Proofs.TreeGrammar Proofs.Transform Proofs.State Proofs.Tokens Proofs.EndToEnd Proofs.Quiet Proofs.Program
  Proofs.Children Proofs.Elements Proofs.Documents Proofs.Parts Proofs.Values Proofs.Functions Props.Calls Props.Documents Props.Values.
Import ListNotations.
Local Open Scope string_scope.
Arguments u : simpl never.

Lemma remove_suffix_app s p : remove_suffix p (s ++ p)%list = s.
Proof.
  unfold remove_suffix, remove_prefix. rewrite rev_app_distr.
  assert (H : forall a b : str, starts_with a (a ++ b)%list = true) by (induction a as [|x a IH]; intros b; cbn; [reflexivity|rewrite N.eqb_refl; apply IH]).
  rewrite H. rewrite skipn_app, skipn_all, Nat.sub_diag. cbn [skipn app]. apply rev_involutive.
Qed.
(** ** C22: every call of every accepted text is reported by the table *)
Theorem C22_calls : forall E ln text m cs, part_of E text (TNode L_function m cs) ->
  exists k ns n vs, cs = TTok k :: vs /\ contains (tval k) text /\
    tval k = (ns ++ n ++ u "(")%list /\ plain_name n /\ (ns = [] \/ ns = u "sys." \/ ns = u "az.") /\
    forall args, all_ok (transform E ln) vs = Ok args ->
      transform E ln (TNode L_function m cs) = call_report (ns ++ n)%list args.
Proof.
  intros E ln text m cs H. pose proof (part_shape E text _ _ _ H) as Hs. cbn [node_shape] in Hs. destruct Hs as (k & vs & -> & [Ht Hk] & _).
  destruct (tok_function E _ Hk) as (ns & n & Hv & Hn & Hns). exists k, ns, n, vs. split; [reflexivity|].
  split; [exact (part_token E text _ k H (or_introl eq_refl))|]. do 3 (split; [assumption|]). intros args Ha.
  part H. cbn [all_ok]. rewrite transform_tok, Ha. cbn [bind]. unfold callv. cbn [call pure]. unfold cb_function. cbn [py_str].
  rewrite Hv, app_assoc, remove_suffix_app. unfold call_report. pose proof (function_called (ns ++ n)%list args) as Hf.
  destruct (known (ns ++ n)%list) as [b|].
  - destruct Hf as (f & -> & ->). destruct (parameters_of (b_sig b) args) as [ps|e]; reflexivity.
  - rewrite Hf, unknown_row. reflexivity.
Qed.
Lemma names_known : Forall (fun b => known (u (b_name b)) = Some b /\ known (u (b_space b) ++ u "." ++ u (b_name b))%list = Some b /\
  (b_space b = "sys" /\ known (u "az." ++ u (b_name b))%list = None \/ b_space b = "az" /\ known (u "sys." ++ u (b_name b))%list = None)) builtins.
Proof.
  unfold builtins. repeat (apply Forall_cons; [split; [vm_compute; reflexivity|split; [vm_compute; reflexivity|
    first [left; split; [reflexivity|vm_compute; reflexivity] | right; split; [reflexivity|vm_compute; reflexivity]]]]|]). constructor.
Qed.
(** A name belongs to a function of the table iff it is its name, plain or under its own namespace. *)
Theorem C22_names : forall name b, known name = Some b <->
  In b builtins /\ (name = u (b_name b) \/ name = (u (b_space b) ++ u "." ++ u (b_name b))%list).
Proof.
  intros name b. split.
  - intros H. apply find_some in H as [Hi H]. split; [exact Hi|]. apply orb_true_iff in H as [H|H]; apply str_eqb_eq in H; auto.
  - intros [Hi H]. pose proof names_known as Hk. rewrite Forall_forall in Hk. destruct (Hk b Hi) as (H1 & H2 & _).
    destruct H as [->| ->]; assumption.
Qed.
Theorem C22_namespaces : forall b, In b builtins ->
  (forall args, call_report (u (b_space b) ++ u "." ++ u (b_name b))%list args = call_report (u (b_name b)) args) /\
  (forall ns, (ns = "sys" \/ ns = "az") -> ns <> b_space b -> forall args,
     call_report (u ns ++ u "." ++ u (b_name b))%list args =
     Ok (PDict [(u "function", PDict [(u "type", PStr (u ns ++ u "." ++ u (b_name b))%list); (u "parameters", PDict (listed "arg_" 1 args))])])).
Proof.
  intros b Hi. pose proof names_known as Hk. rewrite Forall_forall in Hk. destruct (Hk b Hi) as (H1 & H2 & H3). split.
  - intros args. unfold call_report. rewrite H1, H2. reflexivity.
  - intros ns Hns Hne args. unfold call_report.
    assert (Hn : known (u ns ++ u "." ++ u (b_name b))%list = None).
    { destruct H3 as [[Hs H3]|[Hs H3]], Hns as [->| ->]; try congruence; exact H3. }
    rewrite Hn. reflexivity.
Qed.
Definition calls_text : str := u ("var a = concat(x, 1, 2)" ++ nl ++ "var b = az.concat(x)" ++ nl ++ "var c = resourceGroup(s, n)" ++ nl
  ++ "var d = myFunc([], '', f)" ++ nl ++ "var e = sys.padLeft(x, 1)" ++ nl ++ "var g = resourceId('s', 'g', 't', 'n1', 'n2', 'n3')").
Example C22_ex : exists m k vs args, part_of env0 calls_text (TNode L_function m (TTok k :: vs)) /\ tval k = u "az.concat(" /\
  all_ok (transform env0 false) vs = Ok args /\ args = [PElem (u "x")].
Proof. do 4 eexists. split; [found 1|]. repeat split; vm_compute; reflexivity. Qed.

(** ** C23 *)
(** [each_once args ps]: every argument exactly once, in order, under distinct keys. *)
Definition each_once (args : list pyval) (ps : list (str * pyval)) : Prop :=
  NoDup (map fst ps) /\ map snd ps = args.
Definition many (sg : signature) : bool := match sg with Many _ _ _ => true | _ => false end.
(** The functions meant. *)
Theorem C23_which : map b_name (filter (fun b => many (b_sig b)) builtins) =
  ["concat"; "intersection"; "max"; "min"; "union"; "format"; "guid"; "uniqueString"].
Proof. vm_compute. reflexivity. Qed.
Lemma many_distinct : Forall (fun b => match b_sig b with
  | Many req p s => NoDup (map u req) /\ forall k, In k (map u req) -> forall i, s <= i -> k <> nth_key p i
  | _ => True end) builtins.
Proof.
  unfold builtins. repeat (apply Forall_cons; [cbn [b_sig sys az one]; first [exact I | split; [distinct_keys|key_neq]]|]). constructor.
Qed.
Lemma named_keys req (args : list pyval) : List.length req <= List.length args -> map fst (named req args) = map u req.
Proof.
  unfold named. revert args. induction req as [|r req IH]; intros [|a args] H; cbn [List.length] in H; try lia; [reflexivity|reflexivity|].
  cbn [map combine fst]. f_equal. apply IH. lia.
Qed.
Lemma named_vals req (args : list pyval) : List.length req <= List.length args -> map snd (named req args) = firstn (List.length req) args.
Proof.
  unfold named. revert args. induction req as [|r req IH]; intros [|a args] H; cbn [List.length] in H; try lia; [reflexivity|reflexivity|].
  cbn [map combine snd firstn List.length]. f_equal. apply IH. lia.
Qed.
Theorem C23_variadic : forall name b args, known name = Some b -> many (b_sig b) = true ->
  (exists e, call_report name args = Err e) \/
  exists ps, each_once args ps /\
    call_report name args = Ok (PDict [(u "function", PDict [(u "type", PStr (u (b_type b))); (u "parameters", PDict ps)])]).
Proof.
  intros name b args Hk Hm. unfold call_report. rewrite Hk. pose proof many_distinct as Hd. rewrite Forall_forall in Hd.
  specialize (Hd b (proj1 (find_some _ _ Hk))). destruct (b_sig b) as [| | |req p s| | | | | |]; try discriminate.
  cbn [parameters_of]. destruct Hd as [Hd1 Hd2]. destruct (Nat.ltb_spec (List.length args) (List.length req)) as [Hl|Hl]; [left; eauto|right].
  eexists. split; [|reflexivity]. split.
  - rewrite <- (app_nil_r (listed _ _ _)). apply nodup_with_listed; rewrite app_nil_r, named_keys by exact Hl; assumption.
  - rewrite map_app, listed_vals, named_vals by exact Hl. apply firstn_skipn.
Qed.
Theorem C23_unknown : forall name args, known name = None -> exists ps, each_once args ps /\
  call_report name args = Ok (PDict [(u "function", PDict [(u "type", PStr name); (u "parameters", PDict ps)])]).
Proof.
  intros name args H. exists (listed "arg_" 1 args). split; [split; [apply listed_NoDup|apply listed_vals]|].
  unfold call_report. rewrite H. reflexivity.
Qed.
(** resourceId reports the subscription and the group last. *)
Theorem C23_resource_id : forall name s g t n1 n2 names, known name = Some (az "resourceId" "resource_id" ResourceId) ->
  exists ps, each_once (t :: n1 :: n2 :: names ++ [g; s])%list ps /\
  call_report name (s :: g :: t :: n1 :: n2 :: names) =
    Ok (PDict [(u "function", PDict [(u "type", PStr (u "resource_id")); (u "parameters", PDict ps)])]).
Proof.
  intros name s g t n1 n2 names H. unfold call_report. rewrite H. cbn [b_sig az parameters_of]. eexists. split; [|reflexivity]. split.
  - apply (nodup_with_listed [_]).
    + cbn [app map fst]. distinct_keys.
    + intros k Hk i _ He. cbn [app map fst In] in Hk. repeat destruct Hk as [Hk|Hk]; try contradiction; subst k; discriminate.
  - cbn [map snd]. rewrite map_app, listed_vals. reflexivity.
Qed.
(** The arguments can be read off the report. *)
Theorem C23_recoverable : forall name args args' v,
  (known name = None \/ (exists b, known name = Some b /\ many (b_sig b) = true) \/
   (known name = Some (az "resourceId" "resource_id" ResourceId) /\ 5 <= List.length args /\ 5 <= List.length args')) ->
  call_report name args = Ok v -> call_report name args' = Ok v -> args = args'.
Proof.
  intros name args args' v [Hk|[(b & Hk & Hm)|(Hk & Hl & Hl')]] H H'.
  - destruct (C23_unknown name args Hk) as (ps & [_ Hp] & Hc), (C23_unknown name args' Hk) as (ps' & [_ Hp'] & Hc').
    rewrite Hc in H. rewrite Hc' in H'. injection H as <-. injection H' as ->. congruence.
  - destruct (C23_variadic name b args Hk Hm) as [(e & He)|(ps & [_ Hp] & Hc)]; [congruence|].
    destruct (C23_variadic name b args' Hk Hm) as [(e & He)|(ps' & [_ Hp'] & Hc')]; [congruence|].
    rewrite Hc in H. rewrite Hc' in H'. injection H as <-. injection H' as ->. congruence.
  - destruct args as [|s [|g [|t [|n1 [|n2 names]]]]]; cbn [List.length] in Hl; try lia.
    destruct args' as [|s' [|g' [|t' [|n1' [|n2' names']]]]]; cbn [List.length] in Hl'; try lia.
    destruct (C23_resource_id name s g t n1 n2 names Hk) as (ps & [_ Hp] & Hc).
    destruct (C23_resource_id name s' g' t' n1' n2' names' Hk) as (ps' & [_ Hp'] & Hc').
    rewrite Hc in H. rewrite Hc' in H'. injection H as <-. injection H' as ->. rewrite Hp in Hp'.
    injection Hp' as -> -> -> Hn. change [g; s] with ([g] ++ [s])%list in Hn. change [g'; s'] with ([g'] ++ [s'])%list in Hn.
    rewrite !app_assoc in Hn. apply app_inj_tail in Hn as [Hn ->]. apply app_inj_tail in Hn as [-> ->]. reflexivity.
Qed.
Example C23_ex : exists m k vs args, part_of env0 calls_text (TNode L_function m (TTok k :: vs)) /\ tval k = u "resourceId(" /\
  all_ok (transform env0 false) vs = Ok args /\ List.length args = 6 /\ known (u "resourceId") = Some (az "resourceId" "resource_id" ResourceId).
Proof. do 4 eexists. split; [found 5|]. repeat split; vm_compute; reflexivity. Qed.

(** ** C24 *)
(** How many arguments a signature accepts. *)
Definition arity (sg : signature) : nat * option nat :=
  match sg with
  | Nothing | ResourceGroup => (0, None)
  | Takes _ req _ => (List.length req, None)
  | Exactly req => (List.length req, Some (List.length req))
  | Many req _ _ => (List.length req, None)
  | Either _ _ _ => (1, None)
  | PickZones => (3, None)
  | ListKeys => (2, Some 2)
  | ResourceId | SubscriptionResourceId => (2, None)
  end.
Definition accepts (sg : signature) (n : nat) : Prop :=
  fst (arity sg) <= n /\ match snd (arity sg) with Some max => n <= max | None => True end.
(** The table, name by name. *)
Theorem C24_table : map (fun b => (b_name b, arity (b_sig b))) builtins =
  let one := (1, @None nat) in let two := (2, Some 2) in let any := (0, @None nat) in let two_up := (2, @None nat) in
  [("any", one); ("array", one); ("concat", one); ("contains", two); ("empty", one); ("first", one); ("flatten", one);
   ("intersection", two_up); ("last", one); ("length", one); ("max", one); ("min", one); ("range", two); ("skip", two);
   ("take", two); ("union", two_up); ("dateTimeAdd", two_up); ("dateTimeFromEpoch", one); ("dateTimeToEpoch", one); ("utcNow", any);
   ("deployment", any); ("environment", any); ("loadFileAsBase64", one); ("loadJsonContent", one); ("loadTextContent", one);
   ("loadYamlContent", one); ("filter", two); ("bool", one); ("int", one); ("json", one); ("extensionResourceId", (3, None));
   ("listKeys", two); ("managementGroupResourceId", two_up); ("pickZones", (3, None)); ("reference", one); ("resourceId", two_up);
   ("subscriptionResourceId", two_up); ("tenantResourceId", two_up); ("managementGroup", any); ("resourceGroup", any);
   ("subscription", any); ("tenant", any); ("base64", one); ("base64ToJson", one); ("base64ToString", one); ("dataUri", one);
   ("dataUriToString", one); ("endsWith", two); ("format", one); ("guid", one); ("indexOf", two); ("join", two); ("lastIndexOf", two);
   ("newGuid", any); ("padLeft", two_up); ("replace", (3, Some 3)); ("split", two); ("startsWith", two); ("string", one);
   ("substring", two_up); ("toLower", one); ("toUpper", one); ("trim", one); ("uniqueString", one); ("uri", two);
   ("uriComponent", one); ("uriComponentToString", one)].
Proof. vm_compute. reflexivity. Qed.
Lemma takes_error : Forall (fun b => match b_sig b with Takes e _ _ => e = EIndexError \/ e = EValueError [] | _ => True end) builtins.
Proof. unfold builtins. repeat (apply Forall_cons; [cbn [b_sig sys az one]; auto|]). constructor. Qed.
Theorem C24_arity : forall name b args, known name = Some b ->
  (accepts (b_sig b) (List.length args) -> exists v, call_report name args = Ok v) /\
  (~ accepts (b_sig b) (List.length args) ->
     call_report name args = Err (EVisitError (u "function") (EValueError [])) \/
     call_report name args = Err (EVisitError (u "function") EIndexError)).
Proof.
  intros name b args Hk. unfold call_report. rewrite Hk. pose proof takes_error as He. rewrite Forall_forall in He.
  specialize (He b (proj1 (find_some _ _ Hk))). unfold accepts.
  destruct (b_sig b) as [|e req opt|req|req p s|r x y| | | | |]; cbn [parameters_of arity fst snd].
  - split; [eauto|lia].
  - destruct (Nat.ltb_spec (List.length args) (List.length req)); split; eauto; try lia; intros; destruct He as [->| ->]; auto.
  - destruct (Nat.eqb_spec (List.length args) (List.length req)); split; eauto; lia.
  - destruct (Nat.ltb_spec (List.length args) (List.length req)); split; eauto; lia.
  - destruct (Nat.eqb_spec (List.length args) 0); split; eauto; lia.
  - destruct (Nat.ltb_spec (List.length args) 3); split; eauto; lia.
  - destruct (Nat.eqb_spec (List.length args) 2); split; eauto; lia.
  - destruct args as [|? [|? [|? [|? [|? ?]]]]]; cbn [List.length]; split; eauto; lia.
  - destruct args as [|? [|? [|? [|? ?]]]]; cbn [List.length]; split; eauto; lia.
  - destruct args as [|? [|? [|? ?]]]; cbn [List.length]; split; eauto; lia.
Qed.
(** Arguments go to the parameters by position, missing optional ones are None,
    surplus ones are ignored. *)
Lemma nth_error_firstn' {A} (l : list A) : forall n i, i < n -> nth_error (firstn n l) i = nth_error l i.
Proof.
  induction l as [|x l IH]; intros n i H; destruct n, i; try lia; try reflexivity. cbn [firstn nth_error]. apply IH. lia.
Qed.
Lemma nth_error_repeat' {A} (x : A) n : forall i, i < n -> nth_error (repeat x n) i = Some x.
Proof. induction n as [|n IH]; intros [|i] H; try lia; [reflexivity|]. cbn [repeat nth_error]. apply IH. lia. Qed.
Lemma pad_nth n vs i : i < n -> nth_error (pad n vs) i = Some (nth i vs PNone).
Proof.
  unfold pad. intros Hi. rewrite nth_error_firstn'; [|exact Hi]. destruct (Nat.lt_ge_cases i (List.length vs)) as [Hl|Hl].
  - rewrite nth_error_app1 by exact Hl. apply nth_error_nth'. exact Hl.
  - rewrite nth_error_app2 by exact Hl. rewrite (nth_overflow vs) by exact Hl. apply nth_error_repeat'. lia.
Qed.

Lemma combine_nth' {A B} (a : list A) (b : list B) : forall i x y, nth_error a i = Some x -> nth_error b i = Some y -> nth_error (combine a b) i = Some (x, y).
Proof. revert b. induction a as [|x a IH]; intros [|y b] [|i] x' y' Ha Hb; cbn in *; try discriminate; [congruence|]. apply IH; assumption. Qed.
Theorem C24_positions : forall name b e req opt args, known name = Some b -> b_sig b = Takes e req opt ->
  List.length req <= List.length args -> exists ps,
  call_report name args = Ok (PDict [(u "function", PDict [(u "type", PStr (u (b_type b))); (u "parameters", PDict ps)])]) /\
  List.length ps = List.length (req ++ opt)%list /\
  forall i p, nth_error (req ++ opt)%list i = Some p -> nth_error ps i = Some (u p, nth i args PNone).
Proof.
  intros name b e req opt args Hk Hs Hl. unfold call_report. rewrite Hk, Hs. cbn [parameters_of].
  destruct (Nat.ltb_spec (List.length args) (List.length req)); [lia|]. eexists. split; [reflexivity|].
  assert (Hp : forall vs n, List.length (pad n vs) = n).
  { intros vs n. unfold pad. rewrite firstn_length, app_length, repeat_length. lia. }
  split.
  - unfold named. rewrite combine_length, map_length, Hp, app_length. lia.
  - intros i p Hi. unfold named. apply combine_nth'; [rewrite nth_error_map, Hi; reflexivity|]. apply pad_nth.
    assert (Hi' : nth_error (req ++ opt)%list i <> None) by congruence. apply nth_error_Some in Hi'. clear Hi. rename Hi' into Hi. rewrite app_length in Hi. exact Hi.
Qed.
Theorem C24_exact_positions : forall name b req args, known name = Some b -> b_sig b = Exactly req ->
  List.length args = List.length req -> exists ps,
  call_report name args = Ok (PDict [(u "function", PDict [(u "type", PStr (u (b_type b))); (u "parameters", PDict ps)])]) /\
  map fst ps = map u req /\ map snd ps = args.
Proof.
  intros name b req args Hk Hs Hl. unfold call_report. rewrite Hk, Hs. cbn [parameters_of]. rewrite Hl, Nat.eqb_refl.
  eexists. split; [reflexivity|]. split; [apply named_keys; lia|]. rewrite named_vals by lia. rewrite <- Hl. apply firstn_all.
Qed.
Theorem C24_surplus_ignored : forall name b e req opt args more, known name = Some b -> b_sig b = Takes e req opt ->
  List.length (req ++ opt)%list <= List.length args -> call_report name (args ++ more)%list = call_report name args.
Proof.
  intros name b e req opt args more Hk Hs Hl. unfold call_report. rewrite Hk, Hs. cbn [parameters_of]. rewrite app_length in *.
  destruct (Nat.ltb_spec (List.length args + List.length more) (List.length req)); [lia|].
  destruct (Nat.ltb_spec (List.length args) (List.length req)); [lia|]. unfold pad. rewrite <- app_assoc, !firstn_app.
  replace (List.length req + List.length opt - List.length args) with 0 by lia. reflexivity.
Qed.
(** Which functions have which parameters. *)
Theorem C24_parameters : map (fun b => (b_name b, match b_sig b with Takes _ r o => (r ++ o)%list | Exactly r => r | _ => [] end))
    (filter (fun b => match b_sig b with Takes _ _ _ | Exactly _ => true | _ => false end) builtins) =
  [("any", ["value"]); ("array", ["convert_to_array"]); ("contains", ["container"; "item_to_find"]); ("empty", ["item_to_test"]);
   ("first", ["arg_1"]); ("flatten", ["array_to_flattern"]); ("last", ["arg_1"]); ("length", ["arg_1"]);
   ("range", ["start_index"; "count"]); ("skip", ["original_value"; "number_to_skip"]); ("take", ["original_value"; "number_to_take"]);
   ("dateTimeAdd", ["base"; "duration"; "format"]); ("dateTimeFromEpoch", ["epoch_time"]); ("dateTimeToEpoch", ["date_time"]);
   ("utcNow", ["format"]); ("loadFileAsBase64", ["file_path"]); ("loadTextContent", ["file_path"; "encoding"]);
   ("filter", ["input_array"; "expression"]); ("bool", ["arg_1"]); ("int", ["value_to_convert"]); ("json", ["arg_1"]);
   ("extensionResourceId", ["resource_id"; "resource_type"; "resource_name_1"; "resource_name_2"]);
   ("managementGroupResourceId", ["resource_type"; "resource_name_1"; "resource_name_2"]);
   ("tenantResourceId", ["resource_type"; "resource_name_1"; "resource_name_2"]); ("managementGroup", ["identifier"]);
   ("subscription", ["subscription_id"]); ("base64", ["input_string"]); ("base64ToJson", ["base64_value"]);
   ("base64ToString", ["base64_value"]); ("dataUri", ["string_to_convert"]); ("dataUriToString", ["data_uri_to_convert"]);
   ("endsWith", ["string_to_search"; "string_to_find"]); ("indexOf", ["string_to_search"; "string_to_find"]);
   ("join", ["input_array"; "delimiter"]); ("lastIndexOf", ["string_to_search"; "string_to_find"]);
   ("padLeft", ["value_to_pad"; "total_length"; "padding_character"]); ("replace", ["original_string"; "old_string"; "new_string"]);
   ("split", ["input_string"; "delimiter"]); ("startsWith", ["string_to_search"; "string_to_find"]); ("string", ["value_to_convert"]);
   ("substring", ["string_to_parse"; "start_index"; "length"]); ("toLower", ["string_to_change"]); ("toUpper", ["string_to_change"]);
   ("trim", ["string_to_trim"]); ("uri", ["base_uri"; "relative_uri"]); ("uriComponent", ["string_to_encode"]);
   ("uriComponentToString", ["uri_encoded_string"])].
Proof. vm_compute. reflexivity. Qed.
Example C24_ex : exists m k vs args b, part_of env0 calls_text (TNode L_function m (TTok k :: vs)) /\ tval k = u "sys.padLeft(" /\
  all_ok (transform env0 false) vs = Ok args /\ List.length args = 2 /\ known (u "sys.padLeft") = Some b /\
  b_sig b = Takes (EValueError []) ["value_to_pad"; "total_length"] ["padding_character"].
Proof. do 5 eexists. split; [found 4|]. repeat split; vm_compute; reflexivity. Qed.

(** ** C25 *)
Definition group_report (group sub : pyval) : pyval :=
  PDict [(u "function", PDict [(u "type", PStr (u "resource_group"));
    (u "parameters", PDict [(u "resource_group_name", group); (u "subscription_id", sub)])])].
Theorem C25_resource_group : forall E ln text m k vs, part_of E text (TNode L_function m (TTok k :: vs)) ->
  tval k = u "resourceGroup(" \/ tval k = u "az.resourceGroup(" ->
  (forall a w, vs = [a] -> transform E ln a = Ok w -> transform E ln (TNode L_function m (TTok k :: vs)) = Ok (group_report w PNone)) /\
  (forall a b s n, vs = [a; b] -> transform E ln a = Ok s -> transform E ln b = Ok n ->
     transform E ln (TNode L_function m (TTok k :: vs)) =
       Ok (if truthy s && truthy n then group_report n s else group_report s n)) /\
  (forall ws, all_ok (transform E ln) vs = Ok ws -> List.length vs <> 1 -> List.length vs <> 2 ->
     transform E ln (TNode L_function m (TTok k :: vs)) = Ok (group_report PNone PNone)).
Proof.
  intros E ln text m k vs H Hk. destruct (C22_calls E ln text m _ H) as (k' & ns & n & vs' & [= <- <-] & _ & Hv & _ & _ & Hc).
  assert (Hr : forall args, call_report (ns ++ n)%list args = call_report (u "resourceGroup") args).
  { assert (Hn : (ns ++ n)%list = u "resourceGroup" \/ (ns ++ n)%list = u "az.resourceGroup").
    { rewrite app_assoc in Hv. destruct Hk as [Hk|Hk]; rewrite Hk in Hv; [left; change (u "resourceGroup(") with (u "resourceGroup" ++ u "(")%list in Hv|
        right; change (u "az.resourceGroup(") with (u "az.resourceGroup" ++ u "(")%list in Hv]; apply app_inv_tail in Hv; congruence. }
    intros args. destruct Hn as [->| ->]; reflexivity. }
  split; [|split].
  - intros a w -> Ha. rewrite (Hc [w]), Hr by (cbn [all_ok]; rewrite Ha; reflexivity). reflexivity.
  - intros a b s n' -> Ha Hb. rewrite (Hc [s; n']), Hr by (cbn [all_ok]; rewrite Ha, Hb; reflexivity).
    unfold call_report. change (known (u "resourceGroup")) with (Some (az "resourceGroup" "resource_group" ResourceGroup)).
    cbn [b_sig az parameters_of b_type]. destruct (truthy s && truthy n'); reflexivity.
  - intros ws Hw H1 H2. rewrite (Hc ws Hw), Hr. apply all_ok_length in Hw. destruct ws as [|? [|? [|? ?]]]; cbn [List.length] in Hw; try reflexivity; lia.
Qed.
Example C25_ex : exists m k a b s n, part_of env0 calls_text (TNode L_function m [TTok k; a; b]) /\ tval k = u "resourceGroup(" /\
  transform env0 false a = Ok s /\ transform env0 false b = Ok n /\ truthy s && truthy n = true.
Proof. do 6 eexists. split; [found 2|]. repeat split; vm_compute; reflexivity. Qed.

(** All theorems of this file at once (the walk over the proofs is slow). *)
Definition functions_theorems := (@C22_calls,
  @C22_names,
  @C22_namespaces,
  @C23_which,
  @C23_variadic,
  @C23_unknown,
  @C23_resource_id,
  @C23_recoverable,
  @C24_table,
  @C24_arity,
  @C24_positions,
  @C24_exact_positions,
  @C24_surplus_ignored,
  @C24_parameters,
  @C25_resource_group).
Print Assumptions functions_theorems.
