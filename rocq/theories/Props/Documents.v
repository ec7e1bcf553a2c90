(** C07-C10: the shape of the result, target scope, every declaration reported. *)
From Coq Require Import List Arith NArith ZArith Bool String Lia.
From Verif Require Import Py.Str Py.Val Lark.Tree Lark.Shape Lark.Terminals
  Pycep.Utils Pycep.Transformer Pycep.Main Pycep.Bicep
  Spec.Json Spec.Schema Spec.Outcomes Spec.Calls Spec.Text Spec.Trees Spec.Lexemes Spec.Program Spec.Reports Spec.Children Spec.Declarations
  Proofs.Base Proofs.Grammar Proofs.TokenForms Proofs.TreeGrammar Proofs.Transform Proofs.EndToEnd Proofs.Quiet Proofs.Program Proofs.Children Proofs.Elements Proofs.Documents Props.Calls.
Import ListNotations.
Local Open Scope string_scope.

Definition ln_of (s : string) : str := u s.
Definition nl : string := String (Ascii.ascii_of_nat 10) EmptyString.
Lemma ex_source t : given_text (Some t) -> source ex_fs (Some t) None t.
Proof. intros H. constructor; [exact H|]. intros (p & Hp & _). discriminate. Qed.

(** ** C07 *)
Theorem C07_schema : forall E fs ln text fp t v, source fs text fp t -> ~ contains reserved_key t ->
  bicep_parse E fs ln text fp = Ok v -> document_ok false ln v.
Proof.
  intros E fs ln text fp t v Hs Hno Hv. rewrite (parse_source E fs ln _ _ _ Hs) in Hv. destruct (is_valid t); [|discriminate].
  pose proof (parse_text_outcome E ln t false (fun _ => Hno)) as H. rewrite Hv in H. exact H.
Qed.
(** Without the side condition: only the attributes of resources are in doubt. *)
Theorem C07_schema_any_text : forall E fs ln text fp t v, source fs text fp t ->
  bicep_parse E fs ln text fp = Ok v -> document_ok true ln v.
Proof.
  intros E fs ln text fp t v Hs Hv. rewrite (parse_source E fs ln _ _ _ Hs) in Hv. destruct (is_valid t); [|discriminate].
  pose proof (parse_text_outcome E ln t true ltac:(discriminate)) as H. rewrite Hv in H. exact H.
Qed.
Definition forged : str := u ("resource a 'T@1' = {" ++ nl ++ "  __child_resource__: {" ++ nl
  ++ "    __name__: 'b'" ++ nl ++ "    __attrs__: {" ++ nl ++ "      type: 'c'" ++ nl ++ "      config: {}" ++ nl ++ "      extra: 1" ++ nl
  ++ "    }" ++ nl ++ "  }" ++ nl ++ "}").
(** The side condition is needed: a program that writes the key itself gets a
    resource with made-up attributes. *)
Theorem C07_any_text_strict_refuted : exists text v,
  bicep_parse env0 ex_fs false (Some text) None = Ok v /\ ~ document_ok false false v.
Proof.
  exists forged. eexists. split; [vm_compute; reflexivity|].
  intros (gs & Hv & _ & _ & HF). injection Hv as <-. rewrite Forall_forall in HF.
  destruct (HF _ (or_intror (or_introl eq_refl))) as (kind & Hk & Hin & es & Hes & _ & _ & HE & _).
  cbn [snd] in Hes. injection Hes as <-. rewrite Forall_forall in HE. specialize (HE _ (or_intror (or_introl eq_refl))). cbn [snd] in HE.
  destruct HE as [(row & d & Hrow & Hd & HF2)|[H _]]; [|discriminate]. injection Hd as <-.
  apply Forall2_len in HF2. cbn [fst] in Hk.
  assert (kind = "resources").
  { clear -Hk Hin. cbn [map fst schema line_keys] in Hin. repeat (destruct Hin as [<-|Hin]; [try discriminate Hk; reflexivity|]). destruct Hin. }
  subst kind. clear -Hrow HF2. cbn [schema line_keys app] in Hrow.
  repeat (destruct Hrow as [Hrow|Hrow]; [try discriminate Hrow; injection Hrow as <-; cbn in HF2; discriminate|]). destruct Hrow.
Qed.
Definition sample : str := u ("@secure()" ++ nl ++ "param p string = 'x'" ++ nl ++ "var v = 1" ++ nl ++ "resource r 'T@1' = {" ++ nl
  ++ "  a: 1" ++ nl ++ "  resource c 'U' = {" ++ nl ++ "    b: 2" ++ nl ++ "  }" ++ nl ++ "}" ++ nl ++ "import 'az'" ++ nl ++ "output o int = v").
Lemma sample_clean : ~ contains reserved_key sample.
Proof.
  intros (a & b & H).
  assert (Hl : List.length a <= List.length sample) by (rewrite H, !app_length; lia).
  assert (Hs : forall n, n <= List.length sample -> starts_with reserved_key (skipn n sample) = false).
  { assert (Hall : forallb (fun n => negb (starts_with reserved_key (skipn n sample))) (seq 0 (Datatypes.S (List.length sample))) = true) by (vm_compute; reflexivity).
    intros n Hn. rewrite forallb_forall in Hall. apply negb_true_iff, Hall, in_seq. lia. }
  specialize (Hs _ Hl). rewrite H, skipn_app, skipn_all, Nat.sub_diag in Hs. cbn [skipn app] in Hs.
  assert (Ht : starts_with reserved_key (reserved_key ++ b)%list = true) by (apply starts_with_app; eauto). congruence.
Qed.
Example C07_schema_ex : source ex_fs (Some sample) None sample /\ ~ contains reserved_key sample /\
  exists v, bicep_parse env0 ex_fs true (Some sample) None = Ok v.
Proof.
  split; [apply ex_source; do 2 eexists; reflexivity|]. split; [exact sample_clean|]. eexists. vm_compute. reflexivity.
Qed.

(** ** C08 *)
Theorem C08_plain_json : forall E fs ln text fp v, bicep_parse E fs ln text fp = Ok v -> json v.
Proof.
  intros E fs ln text fp v Hv. destruct (raw_cases fs text fp) as [[H1 H2]|[[H1 H2]|[(t & Hs)|(p & e & H1 & -> & H2 & H3)]]].
  - unfold bicep_parse, parse in Hv. rewrite (raw_both E fs _ _ H1 H2) in Hv. discriminate.
  - unfold bicep_parse, parse in Hv. rewrite (raw_none E fs _ _ H1 H2) in Hv. discriminate.
  - exact (document_json ln true v (C07_schema_any_text E fs ln text fp t v Hs Hv)).
  - unfold bicep_parse, parse in Hv. rewrite (raw_read_error E fs _ _ _ H1 H2 H3) in Hv. discriminate.
Qed.
Example C08_ex : exists v, bicep_parse env0 ex_fs true (Some sample) None = Ok v.
Proof. eexists. vm_compute. reflexivity. Qed.

(** ** C09 *)
Definition valid_scopes : list str := map u ["resourceGroup"; "subscription"; "managementGroup"; "tenant"].
Definition scope_attrs (ln : bool) (s : str) (m : meta) : pyval := PDict ((u "value", PStr s) :: lines ln m).

Lemma no_globals E ln cs own imps ch : oks E sElem cs -> all_of (outline E ln) cs own imps ch -> existsb is_scope cs = false ->
  forall e, In e (own ++ imps ++ ch)%list -> e_kind e <> u "globals".
Proof.
  intros Hok Ha Hno e Hin. destruct (outlines_names E ln cs own imps ch Hok Ha) as (H1 & H2 & H3).
  apply in_app_or in Hin as [Hin|Hin]; [|apply in_app_or in Hin as [Hin|Hin]].
  - apply (in_map key_of) in Hin. rewrite H1 in Hin. apply in_flat_map in Hin as (c & Hc & Hin).
    assert (Hs : is_scope c = false).
    { destruct (is_scope c) eqn:Hx; [|reflexivity]. assert (existsb is_scope cs = true) by (apply existsb_exists; eauto). congruence. }
    exact (own_globals c Hs _ Hin).
  - apply (in_map key_of) in Hin. rewrite H2 in Hin. apply in_flat_map in Hin as (c & Hc & Hin). apply import_kind in Hin. cbn in Hin. intros He. rewrite He in Hin. discriminate.
  - rewrite Forall_forall in H3. rewrite (H3 e Hin). discriminate.
Qed.
Theorem C09_default : forall E fs ln text fp t cs v, source fs text fp t -> program E t cs ->
  existsb is_scope cs = false -> bicep_parse E fs ln text fp = Ok v ->
  lookup (u "globals") (u "scope") v = Some (scope_attrs ln (u "resourceGroup") (Some (0%N, 0%N))).
Proof.
  intros E fs ln text fp t cs v Hs Hp Hno Hv. destruct (parse_outline E fs ln text fp t v Hs Hv) as (cs' & own & imps & ch & Hp' & Ha & ->).
  rewrite (program_unique E t cs' cs Hp' Hp) in Ha. apply lookup_spec.
  exists [], (default_scope ln), (own ++ imps ++ ch)%list. split; [reflexivity|]. split; [reflexivity|]. split; [reflexivity|]. split; [destruct ln; reflexivity|].
  intros e' Hin Hk. exfalso. exact (no_globals E ln cs own imps ch (program_ok E t cs Hp) Ha Hno e' Hin Hk).
Qed.
Theorem C09_last_wins : forall E fs ln text fp t cs a m tok b v, source fs text fp t -> program E t cs ->
  cs = (a ++ TNode L_scope m [TTok tok] :: b)%list -> existsb is_scope b = false ->
  bicep_parse E fs ln text fp = Ok v ->
  exists s, tval tok = quote s /\ In s valid_scopes /\
    lookup (u "globals") (u "scope") v = Some (scope_attrs ln s m).
Proof.
  intros E fs ln text fp t cs a m tok b v Hs Hp Hcs Hno Hv. destruct (parse_outline E fs ln text fp t v Hs Hv) as (cs' & own & imps & ch & Hp' & Ha & ->).
  pose proof (program_unique E t cs' cs Hp' Hp). subst cs'. pose proof (program_ok E t cs Hp) as Hok.
  pose proof (outlines_names E ln cs own imps ch Hok Ha) as (_ & Himp & Hch).
  rewrite Hcs in Ha. apply all_of_app in Ha as (o1 & i1 & c1 & o2 & i2 & c2 & Ha1 & Ha2 & -> & -> & ->).
  inversion Ha2 as [|c cs' oo ii hh o2' i2' c2' Hd Hds]; subst. destruct Hd as [Hd|? ? ? ? ? Hbad]; [|discriminate].
  inversion Hd as [m' t' s Hq Hin| | | | | | | | | | |]; subst. exists s. split; [exact Hq|]. split; [exact Hin|]. apply lookup_spec.
  exists (default_scope ln :: o1), (ent "globals" (u "scope") ((u "value", PStr s) :: lines ln m)), (o2' ++ (i1 ++ i2') ++ c1 ++ c2')%list.
  split; [cbn [app]; rewrite <- !app_assoc; reflexivity|]. split; [reflexivity|]. split; [reflexivity|]. split; [reflexivity|].
  intros e' He Hk. exfalso. apply in_app_or in He as [He|He].
  - apply oks_Forall in Hok. apply Forall_app in Hok as [_ Hok]. inversion Hok as [|? ? _ Hokb]; subst.
    assert (Hokb' : oks E sElem b) by (clear -Hokb; induction Hokb; constructor; auto).
    exact (no_globals E ln b o2' i2' c2' Hokb' Hds Hno e' (in_or_app _ _ _ (or_introl He)) Hk).
  - apply in_app_or in He as [He|He].
    + apply (in_map key_of) in He. cbn [app] in Himp. rewrite Himp in He. apply in_flat_map in He as (c & _ & He). apply import_kind in He. cbn in He. rewrite Hk in He. discriminate.
    + rewrite Forall_forall in Hch. pose proof (Hch e' He) as Hr. rewrite Hk in Hr. discriminate.
Qed.
(** Any other value: never a result; and when nothing before it fails, this error. *)
Theorem C09_invalid : forall E fs ln text fp t cs a m tok b s, source fs text fp t -> program E t cs ->
  cs = (a ++ TNode L_scope m [TTok tok] :: b)%list -> tval tok = quote s -> ~ In s valid_scopes ->
  (forall v, bicep_parse E fs ln text fp <> Ok v) /\
  forall n, occurs triple t n -> Nat.Even n -> (forall c, In c a -> exists v, transform E ln c = Ok v) ->
    bicep_parse E fs ln text fp =
      Err (EVisitError (u "scope") (EValueError (u "target scope is invalid: " ++ s)%list)).
Proof.
  intros E fs ln text fp t cs a m tok b s Hs Hp Hcs Hq Hno. pose proof (program_ok E t cs Hp) as Hok.
  assert (Hf : transform E ln (TNode L_scope m [TTok tok]) = Err (EVisitError (u "scope") (EValueError (u "target scope is invalid: " ++ s)%list))).
  { unfold transform. rewrite transform_node. cbn [transform_list transform_tree bind]. unfold call, cb_scope, pure.
    cbn [arg_at nth_error bind py_str]. rewrite Hq, slice_quote.
    match goal with |- context [if ?x then _ else _] => destruct x eqn:Hx end; [|reflexivity].
    exfalso. apply existsb_exists in Hx as (s' & Hin & He). apply str_eqb_eq in He. subst. exact (Hno Hin). }
  split.
  - intros v Hv. destruct (parse_ok E fs ln text fp t v Hs Hv) as (m' & cs' & Hp' & Ht).
    assert (cs' = cs) by (apply (program_unique E t); [exists m'; exact Hp'|exact Hp]). subst cs'.
    destruct (parse_outline E fs ln text fp t v Hs Hv) as (cs' & own & imps & ch & Hp'' & Ha & _).
    pose proof (program_unique E t cs' cs Hp'' Hp). subst cs'. rewrite Hcs in Ha. apply all_of_app in Ha as (o1 & i1 & c1 & o2 & i2 & c2 & _ & Ha2 & _).
    inversion Ha2 as [|c cs' oo ii hh o2' i2' c2' Hd Hds]; subst. destruct Hd as [Hd|? ? ? ? ? Hbad]; [|discriminate].
    inversion Hd as [m'' t' s' Hq' Hin| | | | | | | | | | |]; subst. rewrite Hq in Hq'. apply quote_inj in Hq'. subst. exact (Hno Hin).
  - intros n Hn He Ha. destruct (parse_program E fs ln text fp t cs n Hs Hn He Hp) as (m' & ->).
    apply (start_fails E ln m' cs _ Hok). exists a, (TNode L_scope m [TTok tok]), b. auto.
Qed.
Definition scopes_text : str := u ("targetScope = 'tenant'" ++ nl ++ "var a = 1" ++ nl ++ "targetScope = 'subscription'" ++ nl ++ "var b = 1").
Example C09_ex :
  (exists cs, program env0 (u "var a = 1") cs /\ existsb is_scope cs = false /\ exists v, bicep_parse env0 ex_fs true (Some (u "var a = 1")) None = Ok v) /\
  (exists a m tok b, program env0 scopes_text (a ++ TNode L_scope m [TTok tok] :: b)%list /\ existsb is_scope a = true /\ existsb is_scope b = false /\
     exists v, bicep_parse env0 ex_fs true (Some scopes_text) None = Ok v /\
       lookup (u "globals") (u "scope") v = Some (scope_attrs true (u "subscription") (Some (3%N, 3%N)))) /\
  (exists m tok, program env0 (u "targetScope = 'nowhere'") [TNode L_scope m [TTok tok]] /\ tval tok = quote (u "nowhere") /\ ~ In (u "nowhere") valid_scopes).
Proof.
  split; [|split].
  - eexists. split; [eexists; vm_compute; reflexivity|]. split; [reflexivity|]. eexists. vm_compute. reflexivity.
  - eexists [_; _], _, _, [_]. split; [eexists; vm_compute; reflexivity|]. split; [reflexivity|]. split; [reflexivity|].
    eexists. split; [vm_compute; reflexivity|]. vm_compute. reflexivity.
  - do 2 eexists. split; [eexists; vm_compute; reflexivity|]. split; [reflexivity|]. vm_compute. intuition discriminate.
Qed.

(** ** C10 *)
(** The result is the document of exactly the entries the declarations say
    (their contents are given by [declares]). *)
Theorem C10_document : forall E fs ln text fp t v, source fs text fp t -> ~ contains reserved_key t ->
  bicep_parse E fs ln text fp = Ok v ->
  exists cs own imps children, program E t cs /\ declares_all E ln cs own imps children /\
    map key_of (own ++ imps ++ children) = declared cs /\
    v = document (default_scope ln :: own ++ imps ++ children).
Proof.
  intros E fs ln text fp t v Hs Hno Hv. destruct (parse_declares E fs ln text fp t v Hs Hno Hv) as (cs & own & imps & ch & Hp & Hd & ->).
  exists cs, own, imps, ch. split; [exact Hp|]. split; [exact Hd|]. split; [|reflexivity].
  destruct (declares_all_names E ln cs own imps ch (program_ok E t cs Hp) Hd) as (H1 & H2 & H3). unfold declared. rewrite !map_app. congruence.
Qed.
(** Reading a document: what was said last about a kind and a name counts. *)
Theorem C10_last_wins : forall k n es a, lookup k n (document es) = Some a <->
  exists es1 e es2, es = (es1 ++ e :: es2)%list /\ e_kind e = k /\ e_name e = n /\ e_attrs e = a /\
    forall e', In e' es2 -> e_kind e' = k -> e_name e' <> n.
Proof. exact lookup_spec. Qed.
(** Nothing is lost and nothing is invented. *)
Theorem C10_exactly_declared : forall E fs ln text fp t cs v, source fs text fp t -> ~ contains reserved_key t ->
  program E t cs -> bicep_parse E fs ln text fp = Ok v ->
  forall k n, (exists a, lookup k n v = Some a) <-> (k, n) = (u "globals", u "scope") \/ In (k, n) (declared cs).
Proof.
  intros E fs ln text fp t cs v Hs Hno Hp Hv k n. destruct (C10_document E fs ln text fp t v Hs Hno Hv) as (cs' & own & imps & ch & Hp' & _ & Hk & ->).
  rewrite (program_unique E t cs' cs Hp' Hp) in Hk. rewrite lookup_key. cbn [map]. rewrite Hk. cbn [In]. unfold key_of, default_scope. cbn [e_kind e_name].
  split; intros [H|H]; auto.
Qed.
(** Without the side condition: every declaration and every import is still reported. *)
Theorem C10_nothing_lost : forall E fs ln text fp t cs v, source fs text fp t ->
  program E t cs -> bicep_parse E fs ln text fp = Ok v ->
  forall k n, In (k, n) (flat_map own_decl cs ++ flat_map import_decl cs) -> exists a, lookup k n v = Some a.
Proof.
  intros E fs ln text fp t cs v Hs Hp Hv k n Hin. destruct (parse_outline E fs ln text fp t v Hs Hv) as (cs' & own & imps & ch & Hp' & Ha & ->).
  rewrite (program_unique E t cs' cs Hp' Hp) in Ha. destruct (outlines_names E ln cs own imps ch (program_ok E t cs Hp) Ha) as (H1 & H2 & _).
  apply lookup_key. cbn [map]. right. rewrite !map_app, H1, H2. apply in_app_or in Hin. rewrite !in_app_iff. tauto.
Qed.
(** Kinds and names come in order of first mention. *)
Theorem C10_order : forall E fs ln text fp t cs v, source fs text fp t -> ~ contains reserved_key t ->
  program E t cs -> bicep_parse E fs ln text fp = Ok v ->
  exists d, v = PDict d /\ map fst d = firsts (u "globals" :: map fst (declared cs)) /\
    forall k g, aget k d = Some g -> exists es, g = PDict es /\
      map fst es = firsts (map snd (filter (fun p => str_eqb k (fst p)) ((u "globals", u "scope") :: declared cs))).
Proof.
  intros E fs ln text fp t cs v Hs Hno Hp Hv. destruct (C10_document E fs ln text fp t v Hs Hno Hv) as (cs' & own & imps & ch & Hp' & _ & Hk & ->).
  rewrite (program_unique E t cs' cs Hp' Hp) in Hk. eexists. split; [reflexivity|]. split.
  - rewrite map_map. cbn [fst]. rewrite map_id, kinds_keys. cbn [map]. rewrite Hk. reflexivity.
  - intros k g Hg. fold (groups (default_scope ln :: own ++ imps ++ ch)) in Hg. rewrite aget_groups in Hg. destruct (existsb _ _); [|discriminate]. injection Hg as <-.
    eexists. split; [reflexivity|]. unfold group. rewrite map_map. cbn [fst]. rewrite map_id, names_of_keys. cbn [map]. rewrite Hk. reflexivity.
Qed.
(** A failure is the failure of the first declaration that cannot be reported. *)
Theorem C10_first_failure : forall E fs ln text fp t cs n, source fs text fp t -> occurs triple t n -> Nat.Even n -> program E t cs ->
  forall e, bicep_parse E fs ln text fp = Err e <->
    exists a c b, cs = (a ++ c :: b)%list /\ (forall x, In x a -> exists v, transform E ln x = Ok v) /\ transform E ln c = Err e.
Proof.
  intros E fs ln text fp t cs n Hs Hn He Hp e. destruct (parse_program E fs ln text fp t cs n Hs Hn He Hp) as (m & ->).
  apply start_fails. exact (program_ok E t cs Hp).
Qed.
Example C10_ex : exists cs v, program env0 sample cs /\ bicep_parse env0 ex_fs true (Some sample) None = Ok v /\
  declared cs = [(u "parameters", u "p"); (u "variables", u "v"); (u "resources", u "r"); (u "outputs", u "o");
                 (u "imports", u "az"); (u "resources", u "r__c")].
Proof. do 2 eexists. split; [eexists; vm_compute; reflexivity|]. split; [vm_compute; reflexivity|]. vm_compute. reflexivity. Qed.
Example C10_last_wins_ex : exists v, bicep_parse env0 ex_fs false (Some (u ("var a = 1" ++ nl ++ "var b = 2" ++ nl ++ "var a = 3"))) None = Ok v /\
  lookup (u "variables") (u "a") v = Some (PDict [(u "decorators", PList []); (u "value", PInt 3)]).
Proof. eexists. split; [vm_compute; reflexivity|]. vm_compute. reflexivity. Qed.

(** All theorems of this file at once (the walk over the proofs is slow). *)
(** A valid target scope never makes a call fail: the declaration itself has a
    report, and the call returns as soon as the other declarations have one. *)
Theorem C09_valid : forall E fs ln text fp t cs a m tok b s n, source fs text fp t -> occurs triple t n -> Nat.Even n -> program E t cs ->
  cs = (a ++ TNode L_scope m [TTok tok] :: b)%list -> tval tok = quote s -> In s valid_scopes ->
  (exists v, transform E ln (TNode L_scope m [TTok tok]) = Ok v) /\
  ((forall c, In c (a ++ b)%list -> exists v, transform E ln c = Ok v) -> exists v, bicep_parse E fs ln text fp = Ok v).
Proof.
  intros E fs ln text fp t cs a m tok b s n Hs Hn He Hp Hcs Hq Hin.
  assert (Hm : exists p, m = Some p).
  { pose proof (program_ok E t cs Hp) as Hok. apply oks_Forall in Hok. rewrite Hcs in Hok. apply Forall_app in Hok as [_ Hok].
    inversion Hok as [|? ? H _]; subst. inversion H; subst; eauto. }
  destruct Hm as ((l1, l2) & ->).
  assert (Hok : exists v, transform E ln (TNode L_scope (Some (l1, l2)) [TTok tok]) = Ok v).
  { unfold transform. rewrite transform_node. cbn [transform_list transform_tree bind]. unfold call, cb_scope, pure.
    cbn [arg_at nth_error bind py_str]. rewrite Hq, slice_quote.
    assert (Hx : existsb (str_eqb s) VALID_TARGET_SCOPES = true).
    { apply existsb_exists. exists s. split; [exact Hin|apply str_eqb_eq; reflexivity]. }
    rewrite Hx. unfold with_lines, wrap. destruct ln; cbn [bind]; eauto. }
  split; [exact Hok|]. intros Hall. destruct (bicep_parse E fs ln text fp) as [v|e] eqn:Hv; [eauto|exfalso].
  apply (C10_first_failure E fs ln text fp t cs n Hs Hn He Hp) in Hv as (x & c & y & Hxy & _ & Hc).
  assert (Hc' : In c cs) by (rewrite Hxy; apply in_elt). rewrite Hcs in Hc'. apply in_app_or in Hc' as [H|[<-|H]].
  - destruct (Hall c (in_or_app _ _ _ (or_introl H))) as (v & Hv'). congruence.
  - destruct Hok as (v & Hv'). congruence.
  - destruct (Hall c (in_or_app _ _ _ (or_intror H))) as (v & Hv'). congruence.
Qed.
Example C09_valid_ex : exists a m tok b, program env0 scopes_text (a ++ TNode L_scope m [TTok tok] :: b)%list /\
  tval tok = quote (u "tenant") /\ In (u "tenant") valid_scopes /\
  forallb (fun c => match transform env0 true c with Ok _ => true | Err _ => false end) (a ++ b) = true.
Proof.
  eexists [], _, _, [_; _; _]. split; [eexists; vm_compute; reflexivity|]. split; [reflexivity|]. split; [vm_compute; tauto|]. vm_compute. reflexivity.
Qed.

Definition documents_theorems := (@C07_schema,
  @C07_schema_any_text,
  @C07_any_text_strict_refuted,
  @C08_plain_json,
  @C09_default,
  @C09_last_wins,
  @C09_invalid,
  @C09_valid,
  @C10_document,
  @C10_last_wins,
  @C10_exactly_declared,
  @C10_nothing_lost,
  @C10_order,
  @C10_first_failure).
Print Assumptions documents_theorems.
