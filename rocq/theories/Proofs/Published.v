(** Reports have the published types, corrected (C44). *)
From Coq Require Import List Arith NArith ZArith Bool String Lia.
From Verif Require Import Py.Str Py.Val Pycep.Utils Pycep.Decorators Pycep.Functions Pycep.Transformer Pycep.PublishedTypes Lark.Tree Lark.Shape
  Spec.Json Spec.Schema Spec.Lexemes Spec.Reports Spec.Parts Spec.Program Spec.Declarations Spec.Values Spec.Functions Spec.Published
  Proofs.Base Proofs.JsonLemmas Proofs.TreeGrammar Proofs.TokenForms Proofs.Transform Proofs.Typing Proofs.State Proofs.Quiet Proofs.Children Proofs.Elements
  Proofs.Parts Proofs.Values Proofs.Functions.
Import ListNotations.
Local Open Scope string_scope.
Arguments u : simpl never.

Notation ht := (has_type corrected).
Notation named_type n := (has_type corrected (TyName n)).

(** ** Values *)
Lemma alias n t v : find_type corrected n = Some (Alias t) -> ht t v -> ht (TyName n) v.
Proof. apply ht_alias. Qed.
Lemma value_is v : ht (TyUnion [TyNone; TyBool; TyInt; TyStr; TyList value; TyDict value]) v -> ht value v.
Proof. apply ht_alias. reflexivity. Qed.
Lemma json_value : forall v, json v -> ht value v.
Proof.
  fix IH 2. intros v H. apply value_is. destruct H as [|b|z|s|s|l Hl|d Hn Hd].
  - eapply ht_union; [left; reflexivity|constructor].
  - eapply ht_union; [right; left; reflexivity|constructor].
  - eapply ht_union; [do 2 right; left; reflexivity|constructor].
  - eapply ht_union; [do 3 right; left; reflexivity|constructor].
  - eapply ht_union; [do 3 right; left; reflexivity|constructor].
  - eapply ht_union; [do 4 right; left; reflexivity|constructor]. induction Hl as [|x l Hx Hl IHl]; constructor; [apply IH; exact Hx|exact IHl].
  - eapply ht_union; [do 5 right; left; reflexivity|constructor]. clear Hn. induction Hd as [|x l Hx Hd IHd]; constructor; [apply IH; exact Hx|exact IHd].
Qed.
(** Types that have every value. *)
Fixpoint accepts (t : pytype) : bool :=
  match t with
  | TyAny => true
  | TyName n => String.eqb n "PossibleValue" || String.eqb n "PossibleNoneValue"
  | TyUnion l => existsb accepts l
  | _ => false
  end.
Lemma accepts_value : forall t v, accepts t = true -> ht value v -> ht t v.
Proof.
  fix IH 1. intros t v H Hv. destruct t; try discriminate.
  - constructor.
  - cbn [accepts] in H. induction l as [|t l IHl]; [discriminate|]. cbn [existsb] in H. apply orb_true_iff in H as [H|H].
    + eapply ht_union; [left; reflexivity|apply IH; assumption].
    + specialize (IHl H). inversion IHl; subst. eapply ht_union; [right; eassumption|assumption].
  - cbn [accepts] in H. apply orb_true_iff in H as [H|H]; apply String.eqb_eq in H; subst n; [exact Hv|].
    eapply ht_alias; [reflexivity|]. eapply ht_union; [left; reflexivity|exact Hv].
Qed.
Lemma accepts_json t v : accepts t = true -> json v -> ht t v.
Proof. intros H Hv. apply accepts_value; [exact H|apply json_value; exact Hv]. Qed.

(** Unions of classes. *)
Fixpoint reaches (n : nat) (t : pytype) (c : string) : bool :=
  match n with
  | O => false
  | Datatypes.S n =>
      match t with
      | TyName x => String.eqb x c || match find_type corrected x with Some (Alias t) => reaches n t c | _ => false end
      | TyUnion l => existsb (fun t => reaches n t c) l
      | _ => false
      end
  end.
Lemma reaches_sound c v : named_type c v -> forall n t, reaches n t c = true -> ht t v.
Proof.
  intros Hc. induction n as [|n IH]; intros t H; [discriminate|]. cbn [reaches] in H. destruct t; try discriminate.
  - apply existsb_exists in H as (t & Hi & H). eapply ht_union; [exact Hi|apply IH; exact H].
  - apply orb_true_iff in H as [H|H]; [apply String.eqb_eq in H; subst; exact Hc|].
    destruct (find_type corrected n0) as [[t|]|] eqn:Hf; try discriminate. eapply ht_alias; [exact Hf|apply IH; exact H].
Qed.

(** ** Classes *)
Definition key_type (fs : list field) (k : str) : option pytype :=
  match find (fun f : field => str_eqb (u (fst (fst f))) k) fs with Some f => Some (snd f) | None => None end.
Definition required (fs : list field) (ks : list str) : bool :=
  forallb (fun f : field => negb (snd (fst f)) || existsb (str_eqb (u (fst (fst f)))) ks) fs.
Definition entry_typed (fs : list field) (more : option (string * pytype)) (kv : str * pyval) : Prop :=
  (exists t, key_type fs (fst kv) = Some t /\ ht t (snd kv)) \/
  (exists p t n, more = Some (p, t) /\ fst kv = nth_key p n /\ ht t (snd kv)).
Lemma class_intro n fs more d : find_type corrected n = Some (Class fs more) -> required fs (map fst d) = true ->
  Forall (entry_typed fs more) d -> ht (TyName n) (PDict d).
Proof.
  intros Hf Hr Hd. eapply ht_class; [exact Hf| |].
  - apply Forall_forall. intros f Hi Hq. unfold required in Hr. rewrite forallb_forall in Hr. specialize (Hr f Hi). rewrite Hq in Hr. cbn [negb orb] in Hr.
    apply existsb_exists in Hr as (k & Hk & He). apply str_eqb_eq in He. subst k. exact Hk.
  - eapply Forall_impl; [|exact Hd]. intros kv [(t & Hk & Ht)|H]; [left|right; exact H]. unfold key_type in Hk.
    destruct (find _ fs) as [[[k r] t']|] eqn:Hfi; [|discriminate]. injection Hk as <-. apply find_some in Hfi as [Hi He].
    apply str_eqb_eq in He. cbn [fst snd] in He. exists k, r, t'. auto.
Qed.
Ltac entry := left; eexists; split; [vm_compute; reflexivity|cbn [snd]].
Ltac class := match goal with |- has_type corrected (TyName ?n) (PDict _) =>
  let d := eval vm_compute in (find_type corrected n) in
  match d with Some (Class ?fs ?more) =>
    apply (class_intro n fs more); [vm_compute; reflexivity|vm_compute; reflexivity|repeat (apply Forall_cons; [entry|]); try apply Forall_nil] end end.
Ltac val := first [assumption | apply accepts_json; [reflexivity|first [assumption|constructor]] | constructor].

(** ** Attribute values *)
Lemma deco_any v : deco_entry v -> named_type "Decorator" v.
Proof.
  intros H. apply (reaches_sound "UnknownDecorator") with (n := 3); [|vm_compute; reflexivity].
  destruct H as [(ty & ->)|(ty & a & -> & Ha)]; class; val.
Qed.
Lemma decos_typed l : Forall deco_entry l -> ht (TyList (TyName "Decorator")) (PList l).
Proof. intros H. constructor. eapply Forall_impl; [|exact H]. exact deco_any. Qed.
Lemma data_type_typed : forall v, data_type v -> named_type "DataType" v.
Proof.
  fix IH 2. intros v H. destruct H as [s|t Ht|l Hl Hall].
  - eapply ht_alias; [reflexivity|]. eapply ht_union; [left; reflexivity|constructor].
  - apply (reaches_sound "ArrayType") with (n := 3); [|vm_compute; reflexivity]. class; [|apply IH; exact Ht]. apply (ht_lit corrected ["array"] "array"). left. reflexivity.
  - apply (reaches_sound "UnionType") with (n := 3); [|vm_compute; reflexivity]. class; [apply (ht_lit corrected ["union"] "union"); left; reflexivity|].
    constructor. clear Hl. induction Hall as [|x l Hx Hall IHl]; constructor; [apply IH; exact Hx|exact IHl].
Qed.
Ltac lit := unfold Transformer.S; match goal with |- has_type _ (TyLit ?l) (PStr (u ?s)) => apply (ht_lit corrected l s); vm_compute; tauto end.

(** ** Calls *)
(** The keys that are always reported, and the prefix of the numbered ones. *)
Definition sig_keys (sg : signature) : list string * option string :=
  match sg with
  | Nothing => ([], None)
  | Takes _ req opt => ((req ++ opt)%list, None)
  | Exactly req => (req, None)
  | Many req p _ => (req, Some p)
  | Either r a b => ([r; a; b], None)
  | PickZones => (["provider_namespace"; "resource_type"; "location"; "number_of_zones"; "offset"], None)
  | ListKeys => (["func_name"; "resource_identifier"; "api_version"], None)
  | ResourceId => (["resource_type"; "resource_name_1"; "resource_name_2"; "resource_group_name"; "subscription_id"], Some "resource_name_")
  | SubscriptionResourceId => (["resource_type"; "resource_name_1"; "resource_name_2"; "subscription_id"], None)
  | ResourceGroup => (["resource_group_name"; "subscription_id"], None)
  end.
Definition has_keys (ks : list string * option string) (ps : list (str * pyval)) : Prop :=
  (forall k, In k (fst ks) -> In (u k) (map fst ps)) /\
  Forall (fun kv => In (fst kv) (map u (fst ks)) \/ exists p n, snd ks = Some p /\ fst kv = nth_key p n) ps.
Lemma named_fst names (vs : list pyval) : List.length vs = List.length names -> map fst (named names vs) = map u names.
Proof.
  unfold named. revert vs. induction names as [|n names IH]; intros [|v vs] H; try discriminate; [reflexivity|]. cbn [map combine fst]. f_equal.
  apply IH. injection H as H. exact H.
Qed.
Lemma has_named names (vs : list pyval) p : List.length vs = List.length names -> has_keys (names, p) (named names vs).
Proof.
  intros H. apply named_fst in H. split.
  - intros k Hk. cbn [fst] in Hk. rewrite H. apply in_map. exact Hk.
  - apply Forall_forall. intros kv Hi. left. cbn [fst]. rewrite <- H. apply in_map. exact Hi.
Qed.
Lemma pad_length n vs : List.length (pad n vs) = n.
Proof. unfold pad. rewrite firstn_length, app_length, repeat_length. lia. Qed.
Lemma named_short names (vs : list pyval) : List.length names <= List.length vs -> named names vs = named names (firstn (List.length names) vs).
Proof.
  unfold named. revert vs. induction names as [|n names IH]; intros [|v vs] H; cbn [List.length] in H; try lia; [reflexivity..|].
  cbn [map combine List.length firstn]. f_equal. apply IH. lia.
Qed.
Lemma listed_numbered p n vs : Forall (fun kv : str * pyval => exists p' i, Some p = Some p' /\ fst kv = nth_key p' i) (listed p n vs).
Proof.
  apply Forall_forall. intros kv Hi. assert (Hk : In (fst kv) (map fst (listed p n vs))) by (apply in_map; exact Hi).
  apply listed_in in Hk as (i & _ & Hk). eauto.
Qed.
Lemma Ok_inj {A} (a b : A) : Ok a = Ok b -> a = b.
Proof. congruence. Qed.
Lemma sig_reports sg args ps : parameters_of sg args = Ok ps -> has_keys (sig_keys sg) ps.
Proof.
  destruct sg as [|e req opt|req|req p s|r a b| | | | |]; cbn [parameters_of sig_keys]; intros H.
  - apply Ok_inj in H as <-. split; [intros k []|constructor].
  - destruct (Nat.ltb _ _); [discriminate|]. apply Ok_inj in H as <-. apply has_named. rewrite pad_length, app_length. reflexivity.
  - destruct (Nat.eqb_spec (List.length args) (List.length req)); [|discriminate]. apply Ok_inj in H as <-. apply has_named. assumption.
  - destruct (Nat.ltb_spec (List.length args) (List.length req)) as [|Hl]; [discriminate|]. apply Ok_inj in H as <-.
    rewrite named_short by exact Hl. destruct (has_named req (firstn (List.length req) args) (Some p)) as [H1 H2]; [rewrite firstn_length; lia|].
    split; [intros k Hk; rewrite map_app; apply in_or_app; left; exact (H1 k Hk)|]. apply Forall_app. split; [exact H2|].
    eapply Forall_impl; [|apply listed_numbered]. intros kv Hk. right. exact Hk.
  - destruct args as [|x args]; [discriminate|]. apply Ok_inj in H as <-. apply has_named.
    match goal with |- context [if ?c then _ else _] => destruct c end; [apply pad_length|reflexivity].
  - destruct (Nat.ltb_spec (List.length args) 3) as [|Hl]; [discriminate|]. apply Ok_inj in H as <-. apply has_named. destruct (Nat.leb_spec (List.length args) 5); [apply pad_length|].
    destruct args as [|? [|? [|? [|? ?]]]]; cbn [List.length] in *; try lia; reflexivity.
  - destruct (Nat.eqb_spec (List.length args) 2) as [Hl|]; [|discriminate]. apply Ok_inj in H as <-. apply has_named. cbn [List.length]. congruence.
  - destruct args as [|a [|b [|c [|d [|e l]]]]]; try discriminate; apply Ok_inj in H as <-; try (apply has_named; reflexivity).
    split.
    + intros k Hk. cbn [fst In] in Hk. cbn [map fst]. rewrite map_app, listed_keys. cbn [List.length seq map app fst]. cbn [In].
      repeat destruct Hk as [<-|Hk]; try contradiction; try (left; reflexivity).
      * right; left; reflexivity.
      * do 2 right; left; reflexivity.
      * do 3 right. apply in_or_app. right. left. reflexivity.
      * do 3 right. apply in_or_app. do 2 right. left. reflexivity.
    + constructor; [left; left; reflexivity|]. apply Forall_app. split; [eapply Forall_impl; [|apply listed_numbered]; intros kv Hk; right; exact Hk|].
      repeat constructor; left; cbn [fst map In]; tauto.
  - destruct args as [|a [|b [|c [|d l]]]]; try discriminate; apply Ok_inj in H as <-; apply has_named; reflexivity.
  - destruct args as [|a [|b [|c l]]]; apply Ok_inj in H as <-; apply has_named; try reflexivity. destruct (truthy a && truthy b); reflexivity.
Qed.
(** The class of parameters declares these keys for any values. *)
Definition sig_fits (sg : signature) (fs : list field) (more : option (string * pytype)) : bool :=
  required fs (map u (fst (sig_keys sg))) &&
  forallb (fun k => match key_type fs (u k) with Some t => accepts t | None => false end) (fst (sig_keys sg)) &&
  match snd (sig_keys sg) with
  | None => true
  | Some p => match more with Some (p', t) => String.eqb p p' && accepts t | None => false end
  end.
Lemma sig_typed n fs more sg args ps : find_type corrected n = Some (Class fs more) -> sig_fits sg fs more = true ->
  parameters_of sg args = Ok ps -> json (PDict ps) -> named_type n (PDict ps).
Proof.
  intros Hn Hf Hp Hj. apply sig_reports in Hp as [Hp1 Hp2]. apply json_dict_inv in Hj as [_ Hj].
  unfold sig_fits in Hf. rewrite !andb_true_iff in Hf. destruct Hf as [[Hr Hk] Hm]. apply (class_intro n fs more); [exact Hn| |].
  - unfold required in *. rewrite forallb_forall in *. intros f Hi. specialize (Hr f Hi). apply orb_true_iff in Hr as [Hr|Hr]; [rewrite Hr; reflexivity|].
    apply orb_true_iff. right. apply existsb_exists in Hr as (k & Hki & He). apply existsb_exists. exists k. split; [|exact He].
    apply in_map_iff in Hki as (k' & <- & Hki). exact (Hp1 k' Hki).
  - unfold JsonLemmas.vals_json in Hj. rewrite Forall_forall in *. intros kv Hi. specialize (Hj kv Hi). destruct (Hp2 kv Hi) as [Hki|(p & i & Hs & Hki)].
    + left. apply in_map_iff in Hki as (k & Hke & Hki). rewrite forallb_forall in Hk. specialize (Hk k Hki). rewrite <- Hke.
      destruct (key_type fs (u k)) as [t|]; [|discriminate]. exists t. split; [reflexivity|]. apply accepts_json; assumption.
    + right. rewrite Hs in Hm. destruct more as [[p' t]|]; [|discriminate]. apply andb_true_iff in Hm as [Hpp Ht]. apply String.eqb_eq in Hpp. subst p'.
      exists p, t, i. split; [reflexivity|]. split; [exact Hki|]. apply accepts_json; assumption.
Qed.
(** The class of a function, in both spellings of its name. *)
Definition builtin_fits (b : builtin) : bool :=
  let c := function_class (u (b_name b)) in
  String.eqb c (function_class (u (b_space b) ++ u "." ++ u (b_name b))%list) && reaches 5 (TyName "Functions") c &&
  match find_type corrected c with
  | Some (Class fs None) =>
      match fs, b_sig b with
      | [(k, true, TyLit [t])], Nothing => String.eqb k "type" && String.eqb t (b_type b)
      | (k, true, TyLit [t]) :: (k2, true, TyName p) :: rest, sg => forallb (fun f : field => negb (snd (fst f))) rest && String.eqb k "type" && String.eqb t (b_type b) && String.eqb k2 "parameters" &&
          match sg with Nothing => false | _ => match find_type corrected p with Some (Class fs more) => sig_fits sg fs more | _ => false end end
      | _, _ => false
      end
  | _ => false
  end.
Lemma builtins_fit : forallb builtin_fits builtins = true.
Proof. vm_compute. reflexivity. Qed.
Ltac bools := repeat match goal with
  | H : _ && _ = true |- _ => apply andb_true_iff in H as [? ?]
  | H : String.eqb _ _ = true |- _ => apply String.eqb_eq in H; subst
  end.
Lemma key_type_here k r t fs : key_type ((k, r, t) :: fs) (u k) = Some t.
Proof. unfold key_type. cbn [find fst]. rewrite str_eqb_refl. reflexivity. Qed.
Lemma call_typed name args v : call_report name args = Ok v -> json v ->
  exists d, v = PDict [(u "function", d)] /\ named_type (function_class name) d /\ named_type "Functions" d.
Proof.
  unfold call_report. destruct (known name) as [b|] eqn:Hk.
  - destruct (parameters_of (b_sig b) args) as [ps|e] eqn:Hp; [|discriminate]. intros H Hj. apply Ok_inj in H as <-. eexists. split; [reflexivity|].
    apply find_some in Hk as [Hi Hn]. pose proof builtins_fit as Hb. rewrite forallb_forall in Hb. specialize (Hb b Hi). unfold builtin_fits in Hb.
    apply andb_true_iff in Hb as [Hb Hc]. apply andb_true_iff in Hb as [He Hr]. apply String.eqb_eq in He.
    assert (Hcl : function_class name = function_class (u (b_name b))).
    { unfold owns in Hn. apply orb_true_iff in Hn as [Hn|Hn]; apply str_eqb_eq in Hn; subst name; congruence. }
    rewrite Hcl. revert Hr Hc. generalize (function_class (u (b_name b))). clear Hcl He Hn Hi. intros c Hr Hc.
    assert (Hd : named_type c (Spec.Functions.body (u (b_type b)) (b_sig b) ps)); [|split; [exact Hd|exact (reaches_sound c _ Hd 5 _ Hr)]].
    destruct (find_type corrected c) as [[|fs [more|]]|] eqn:Hf; try discriminate.
    apply json_dict_inv in Hj as [_ Hj]. inversion Hj as [|? ? Hj1 _]; subst. cbn [snd] in Hj1.
    destruct fs as [|[[k [|]] [| | | | |[|t [|]]| | | | | |]] rest]; try discriminate Hc.
    destruct rest as [|[[k2 [|]] [| | | | | | | | | | |p]] rest]; try discriminate Hc.
    + destruct (b_sig b) eqn:Hs; try discriminate Hc. bools. cbn [Spec.Functions.body].
      apply (class_intro c _ _ _ Hf); [reflexivity|]. apply Forall_cons; [|apply Forall_nil]. left. exists (TyLit [b_type b]). split; [apply key_type_here|].
      apply ht_lit. left. reflexivity.
    + assert (Hbd : Spec.Functions.body (u (b_type b)) (b_sig b) ps = PDict [(u "type", PStr (u (b_type b))); (u "parameters", PDict ps)] /\
        k = "type" /\ t = b_type b /\ k2 = "parameters" /\ forallb (fun f : field => negb (snd (fst f))) rest = true /\ exists fs' more, find_type corrected p = Some (Class fs' more) /\ sig_fits (b_sig b) fs' more = true).
      { destruct (b_sig b); try discriminate Hc; bools; try discriminate; (destruct (find_type corrected p) as [[|fs' more]|]; try discriminate);
        (split; [reflexivity|]); repeat (split; [reflexivity || assumption|]); exists fs', more; auto. }
      destruct Hbd as (Hbd & -> & -> & -> & Hrest & fs' & more & Hf' & Hfit). rewrite Hbd in *.
      apply (class_intro c _ _ _ Hf).
      * unfold required. cbn [forallb]. apply andb_true_iff. split; [reflexivity|]. apply andb_true_iff. split; [reflexivity|].
        rewrite forallb_forall in *. intros f Hin. rewrite (Hrest f Hin). reflexivity.
      * repeat apply Forall_cons; try apply Forall_nil; left; cbn [fst snd].
        -- exists (TyLit [b_type b]). split; [apply key_type_here|]. apply ht_lit. left. reflexivity.
        -- exists (TyName p). split; [reflexivity|]. apply (sig_typed p fs' more (b_sig b) args); try assumption.
           apply json_dict_inv in Hj1 as [_ Hj1]. inversion Hj1 as [|? ? _ Hj2]; subst. inversion Hj2; subst. assumption.
  - intros H Hj. apply Ok_inj in H as <-. eexists. split; [reflexivity|].
    assert (Hcl : function_class name = "UnknownFunction").
    { unfold function_class, class_of. destruct (find _ function_classes) as [c|] eqn:Hc; [|reflexivity]. exfalso.
      apply find_some in Hc as [Hi Hn]. apply str_eqb_eq in Hn. subst name.
      assert (Hall : forallb (fun c : string * string => match known (u (fst c)) with Some _ => true | None => false end) function_classes = true) by (vm_compute; reflexivity).
      rewrite forallb_forall in Hall. specialize (Hall c Hi). rewrite Hk in Hall. discriminate. }
    rewrite Hcl. assert (Hd : named_type "UnknownFunction" (PDict [(u "type", PStr name); (u "parameters", PDict (listed "arg_" 1 args))])); [|split; [exact Hd|apply (reaches_sound "UnknownFunction" _ Hd 5); vm_compute; reflexivity]].
    apply json_dict_inv in Hj as [_ Hj]. inversion Hj as [|? ? Hj1 _]; subst. apply json_dict_inv in Hj1 as [_ Hj1]. inversion Hj1 as [|? ? _ Hj2]; subst. inversion Hj2 as [|? ? Hj3 _]; subst.
    class; [constructor|]. apply (sig_typed _ [] (Some ("arg_", value)) (Many [] "arg_" 1) args); [reflexivity|reflexivity|reflexivity|exact Hj3].
Qed.

(** ** Decorators *)
Section Nodes.
  Variable E : pyenv.
  Variable ln : bool.
  Notation tf := (transform E ln).
  Lemma deco_argument v ty a : v = PDict [(u "type", PStr ty); (u "argument", a)] -> deco_entry v -> json a.
  Proof. intros -> [(t & H)|(t & b & H & Hb)]; [discriminate|]. injection H as _ <-. exact Hb. Qed.
  Lemma deco_typed k params v : cb_decorator E (PTok k :: params) = Ok v -> deco_entry v -> named_type (decorator_class (tval k)) v.
  Proof.
    unfold cb_decorator. cbn [py_str]. generalize (tval k). clear k. intros n H Hd. destruct (aget n (DECORATORS E)) as [f|] eqn:Hf.
    - apply aget_In in Hf.
      unfold DECORATORS in Hf. cbn [In] in Hf.
      repeat destruct Hf as [Hf|Hf]; try contradiction; injection Hf as <- <-;
        match goal with |- context [decorator_class ?n] => let c := eval vm_compute in (decorator_class n) in change (decorator_class n) with c end;
        cbv beta delta [deco_allowed deco_batch deco_description deco_export deco_min_len deco_max_len deco_min_val deco_max_val deco_metadata deco_sealed deco_secure deco_arg0 deco_flag] in H;
        try (apply Ok_inj in H as <-; class; lit);
        (destruct (arg_at 0 params) as [a|e]; [|discriminate]); cbn [bind] in H;
        try (apply Ok_inj in H as <-; pose proof (deco_argument _ _ _ eq_refl Hd) as Hj; class; [lit|val]);
        match type of H with bind ?r _ = _ => destruct r as [a'|e]; [|discriminate] end; cbn [bind] in H;
        apply Ok_inj in H as <-; pose proof (deco_argument _ _ _ eq_refl Hd) as Hj; class; solve [lit|val].
    - assert (Hc : decorator_class n = "UnknownDecorator").
      { unfold decorator_class, class_of. destruct (find _ decorator_classes) as [c|] eqn:Hc; [|reflexivity]. exfalso. apply find_some in Hc as [Hi Hn].
        apply str_eqb_eq in Hn. subst n. apply aget_None in Hf. apply Hf.
        assert (Hm : map fst (DECORATORS E) = map (fun c => u (fst c)) decorator_classes) by reflexivity. rewrite Hm. apply in_map_iff. eauto. }
      rewrite Hc. destruct params as [|a params]; apply Ok_inj in H as <-; class; try (pose proof (deco_argument _ _ _ eq_refl Hd) as Hj); val.
  Qed.

  (** ** Nodes *)
  Lemma of_value s t v : ok E s t -> calm s = true -> tf t = Ok v -> vok E ln true s v.
  Proof. intros H Hc Ht. exact (value_of E ln true s t v H Hc ltac:(discriminate) Ht). Qed.
  (** The type of what is found at a place of the given sort. *)
  Definition place (s : sort) : option pytype :=
    match s with
    | sVal | sVarVal | sTV | sOpt sVal => Some value
    | sObj | sBody | sLoop | sCond => Some (TyDict TyAny)
    | sDecos => Some (TyList (TyName "Decorator"))
    | sDeco => Some (TyName "Decorator")
    | sType | sBase | sUnion => Some (TyName "DataType")
    | sSuf => Some TyNone
    | sTAP => Some (TyName "ApiTypeVersion")
    | sMetaVal | sKey => Some TyStr
    | _ => None
    end.
  Lemma any_dict d : ht (TyDict TyAny) (PDict d).
  Proof. constructor. apply Forall_forall. intros kv _. constructor. Qed.
  Lemma at_place s t v ty : ok E s t -> place s = Some ty -> tf t = Ok v -> ht ty v.
  Proof.
    intros H Hp Ht. assert (Hc : calm s = true) by (destruct s as [|s'| | | | | | | | | | | | | | | | | | | | | | |]; try discriminate Hp; try reflexivity; destruct s'; try discriminate Hp; reflexivity).
    apply (of_value s t v H Hc) in Ht.
    destruct s as [|s'| | | | | | | | | | | | | | | | | | | | | | |]; try discriminate Hp; try (destruct s'; try discriminate Hp); injection Hp as <-; cbn [vok] in Ht.
    all: try (apply json_value; exact Ht).
    all: try (destruct Ht as (_ & (d & ->) & _); apply any_dict).
    all: try (apply data_type_typed; exact Ht).
    all: try (apply deco_any; exact Ht).
    - destruct Ht as [->|Ht]; [apply json_value; constructor|apply json_value; exact Ht].
    - destruct Ht as (k & -> & _). constructor.
    - destruct Ht as (l & -> & Hl). apply decos_typed. exact Hl.
    - rewrite Ht. constructor.
    - destruct Ht as (a & b & ->). class; constructor.
    - destruct Ht as (k & ->). constructor.
  Qed.

  Notation rt := (report_typed corrected corrected_annotation).
  Lemma report_annotation l m cs v : rt (TNode l m cs) v -> ht (corrected_annotation l) v.
  Proof. destruct l; cbn [report_typed]; auto; destruct cs as [|[|k|] cs]; try tauto. Qed.
  Lemma operator_label a : ok E sOp a -> exists l m cs, a = TNode l m cs /\ exists c, corrected_annotation l = TyName c /\ reaches 5 (TyName "Operators") c = true.
  Proof.
    intros H. remember sOp as s eqn:Hs. induction H; try discriminate Hs; do 3 eexists; (split; [reflexivity|]);
      try (match goal with l : label |- _ => destruct l; try discriminate end); eexists; (split; [reflexivity|vm_compute; reflexivity]).
  Qed.
  Lemma loop_label a : ok E sLoopTy a -> exists l m cs, a = TNode l m cs /\ exists c, corrected_annotation l = TyName c /\ reaches 5 (TyName "LoopType") c = true.
  Proof.
    intros H. remember sLoopTy as s eqn:Hs. induction H; try discriminate Hs; do 3 eexists; (split; [reflexivity|]); eexists; (split; [reflexivity|vm_compute; reflexivity]).
  Qed.
  Lemma lines_typed m d d' fs more : with_lines ln m d = Ok d' \/ with_lines_child ln m d = Ok d' ->
    key_type fs (u "__start_line__") = Some TyInt -> key_type fs (u "__end_line__") = Some TyInt ->
    Forall (entry_typed fs more) d -> Forall (entry_typed fs more) d'.
  Proof.
    intros H H1 H2 Hd. assert (Hi : forall k z, key_type fs k = Some TyInt -> entry_typed fs more (k, PInt z)).
    { intros k z Hk. left. exists TyInt. split; [exact Hk|constructor]. }
    unfold with_lines, with_lines_child in H. destruct ln; [|destruct H as [H|H]; injection H as <-; exact Hd].
    destruct m as [[a b]|]; [|destruct H; discriminate].
    destruct H as [H|H]; injection H as <-; do 2 (apply aset_Forall_k; [apply Hi; assumption|]); exact Hd.
  Qed.
  Lemma lines_required m d d' fs : with_lines ln m d = Ok d' \/ with_lines_child ln m d = Ok d' -> required fs (map fst d) = true -> required fs (map fst d') = true.
  Proof.
    intros H Hr. assert (Hs : forall k v (x : list (str * pyval)), required fs (map fst x) = true -> required fs (map fst (aset k v x)) = true).
    { intros k v x Hx. unfold required in *. rewrite forallb_forall in *. intros f Hf. specialize (Hx f Hf). apply orb_true_iff in Hx as [Hx|Hx]; apply orb_true_iff; [left; exact Hx|right].
      apply existsb_exists in Hx as (k' & Hk & He). apply existsb_exists. exists k'. split; [|exact He]. destruct (aset_keys k v x) as [->|[_ ->]]; [exact Hk|apply in_or_app; left; exact Hk]. }
    unfold with_lines, with_lines_child in H. destruct ln; [|destruct H as [H|H]; injection H as <-; exact Hr].
    destruct m as [[a b]|]; [|destruct H; discriminate]. destruct H as [H|H]; injection H as <-; do 2 apply Hs; exact Hr.
  Qed.
  (** Attributes with line numbers. *)
  Ltac attrs := match goal with H : _ = Ok ?d |- has_type corrected (TyName ?n) (PDict ?d) =>
    let t := eval vm_compute in (find_type corrected n) in
    match t with Some (Class ?fs ?more) =>
      apply (class_intro n fs more); [vm_compute; reflexivity|eapply lines_required; [(left; exact H) || (right; exact H)|vm_compute; reflexivity]|
        eapply lines_typed; [(left; exact H) || (right; exact H)|reflexivity|reflexivity|repeat (apply Forall_cons; [entry|]); try apply Forall_nil]] end end.
  Ltac kids := cbn [all_ok] in *; rewrite ?transform_tok, ?transform_none in *; cbn [bind] in *;
    repeat match goal with H : context [match tf ?c with _ => _ end] |- _ => destruct (tf c) eqn:?; [|discriminate H]; cbn [bind] in H end.
  Ltac places := repeat match goal with H : ok E ?s ?c, T : tf ?c = Ok ?v |- _ =>
    lazymatch goal with | _ : has_type corrected _ v |- _ => fail | _ => pose proof (at_place s c v _ H eq_refl T) end end.
  Lemma op_dict_id ty ps : NoDup (map fst ps) -> op_dict ty ps = PDict [(u "type", S ty); (u "operands", PDict ps)].
  Proof. intros H. unfold op_dict. rewrite dict_of_id by exact H. reflexivity. Qed.
  Ltac ops := rewrite op_dict_id by nodup_lit; class; [lit|class; assumption].
  Ltac open := match goal with Hr : bind ?r _ = Ok _ |- _ => destruct r as [?d|?e] eqn:Hlines; [|discriminate Hr]; cbn [bind] in Hr; injection Hr as <-;
    unfold response, py_str'; class; class; [constructor|] end.
  Ltac finish := first [assumption | lit | constructor | apply accepts_value; [reflexivity|assumption]].
  (** Children of declarations. *)
  Definition decl_shape (l : label) (cs : list ptree) : Prop :=
    match l with
    | L_extension => exists a b c, cs = [TTok a; b; c] /\ ok E (sOpt sObj) b /\ ok E (sOpt (sTok "STRING")) c
    | L_metadata => exists a b, cs = [TTok a; b] /\ ok E sMetaVal b
    | L_param => exists d a t v, cs = [d; TTok a; t; v] /\ ok E (sOpt sDecos) d /\ ok E sType t /\ ok E (sOpt sVal) v
    | L_var => exists d a t v, cs = [d; TTok a; t; v] /\ ok E (sOpt sDecos) d /\ ok E (sOpt sType) t /\ ok E sVarVal v
    | L_output => exists d a t v, cs = [d; TTok a; t; v] /\ ok E (sOpt sDecos) d /\ ok E sType t /\ ok E sVarVal v
    | L_resource => exists d a t x v, cs = [d; TTok a; t; x; v] /\ ok E (sOpt sDecos) d /\ ok E sTAP t /\ ok E sBody v
    | L_module => exists d a t v, cs = [d; TTok a; t; v] /\ ok E (sOpt sDecos) d /\ ok E sMP t /\ ok E sBody v
    | L_custom_type => exists d a v, cs = [d; TTok a; v] /\ ok E (sOpt sDecos) d /\ ok E sTV v
    | L_custom_func => exists d a ps t v, cs = (d :: TTok a :: ps ++ [t; v])%list /\ ok E (sOpt sDecos) d /\ okp E ps /\ ok E sType t /\ ok E sVal v
    | L_child_resource => exists a b x v, cs = [TTok a; TTok b; x; v] /\ ok E sBody v
    | L_import_alias => exists a b, cs = [TTok a; b] /\ ok E (sOpt (sTok "STRING")) b
    | _ => True
    end.
  Lemma ok_decl s t : ok E s t -> match t with TNode l _ cs => decl_shape l cs | _ => True end.
  Proof.
    intros H; induction H; cbn [decl_shape]; try exact I; try assumption;
      repeat match goal with H : ok E (sTok _) ?a |- _ => is_var a; apply tok_inv in H as (? & -> & H) end;
      try (destruct l; try discriminate; exact I);
      repeat match goal with |- exists _, _ => eexists end; repeat match goal with |- _ /\ _ => split end; try reflexivity; eassumption.
  Qed.
  Lemma opt_inv s t : ok E (sOpt s) t -> t = TNone \/ ok E s t.
  Proof. intros H. inversion H; subst; auto. Qed.
  (** [decorators or []] *)
  Lemma or_empty_typed d w : ok E (sOpt sDecos) d -> tf d = Ok w -> ht (TyList (TyName "Decorator")) (or_empty w).
  Proof.
    intros H Hw. apply opt_inv in H as [->|H]; [injection Hw as <-; constructor; constructor|].
    pose proof (at_place sDecos d w _ H eq_refl Hw) as Ht. unfold or_empty. destruct (truthy w); [exact Ht|]. constructor. constructor.
  Qed.
  Lemma process_dict fuel a b c d r more : process_child_resource E fuel a b c (PDict d) = Ok (r, more) -> exists d', r = PDict d'.
  Proof.
    destruct fuel as [|fuel]; cbn [process_child_resource has_key bind]; destruct (aget (u "__child_resource__") d) as [ch|]; cbn [negb]; intros H; try discriminate H;
      try (injection H as <- _; eauto).
    repeat match type of H with bind ?r _ = _ => destruct r as [?|?]; [|discriminate H]; cbn [bind] in H end.
    match type of H with (let (_, _) := ?p in _) = _ => destruct p; cbn [bind] in H end.
    repeat match type of H with bind ?r _ = _ => destruct r as [?|?]; [|discriminate H]; cbn [bind] in H end.
    injection H as <- _. eauto.
  Qed.
  Lemma record_cons k (b : bool) (fs : list (string * bool)) (es : list (str * pyval)) :
    Forall2 (fun (f : string * bool) (kv : str * pyval) => fst kv = u (fst f) /\ if snd f then exists s, snd kv = PStr s else exists b, snd kv = PBool b) ((k, b) :: fs) es ->
    exists v es', es = (u k, v) :: es' /\ (if b then exists s, v = PStr s else exists b, v = PBool b) /\
      Forall2 (fun (f : string * bool) (kv : str * pyval) => fst kv = u (fst f) /\ if snd f then exists s, snd kv = PStr s else exists b, snd kv = PBool b) fs es'.
  Proof. intros H. inversion H as [|? [k' v] ? es' [H1 H2] HF]; subst. cbn [fst snd] in *. subst k'. eauto. Qed.
  Lemma module_typed k fs d : In (k, fs) module_details -> has_aty (ARecord fs) d ->
    ht (TyLit ["local"; "bicep_registry"; "bicep_registry_alias"; "template_spec"; "template_spec_alias"]) (PStr (u k)) /\ named_type "ModuleDetail" d.
  Proof.
    intros Hi (es & -> & _ & HF). cbn [In module_details] in Hi. repeat destruct Hi as [Hi|Hi]; try contradiction; injection Hi as <- <-; (split; [lit|]);
      repeat (apply record_cons in HF as (? & ? & -> & [? ->] & HF)); inversion HF; subst.
    1: apply (reaches_sound "_LocalModulePathDetail") with (n := 3); [|vm_compute; reflexivity].
    2: apply (reaches_sound "_BicepRegistryModulePathDetail") with (n := 3); [|vm_compute; reflexivity].
    3: apply (reaches_sound "_BicepRegistryAliasModulePathDetail") with (n := 3); [|vm_compute; reflexivity].
    4: apply (reaches_sound "_TemplateSpecModulePathDetail") with (n := 3); [|vm_compute; reflexivity].
    5: apply (reaches_sound "_TemplateSpecAliasModulePathDetail") with (n := 3); [|vm_compute; reflexivity].
    all: class; constructor.
  Qed.
  Definition main_sort (l : label) : option sort :=
    match l with
    | L_data_type => Some sType | L_base_type => Some sBase | L_union_type => Some sUnion | L_type_api_pair => Some sTAP | L_module_path => Some sMP
    | L_decorators => Some sDecos | L_decorator => Some sDeco | L_function => Some sVal
    | _ => None
    end.
  Lemma ok_main_sort s t : ok E s t -> match t with TNode l _ _ => match main_sort l with Some s' => ok E s' t | None => True end | _ => True end.
  Proof.
    intros H. induction H; cbn [main_sort]; try exact I; try assumption; try (destruct l; try discriminate; exact I); constructor; assumption.
  Qed.
  Lemma ok_main s t : ok E s t -> match t with TNode l _ _ => match main_sort l with Some s' => ok E s' t | None => True end | _ => True end.
  Proof. apply ok_main_sort. Qed.
  Lemma zip_typed cs ws qs : okp E cs -> all_ok tf cs = Ok ws -> zip_pairs E ws = Ok qs -> Forall (fun kv => named_type "DataType" (snd kv)) qs.
  Proof.
    intros H. revert ws qs. induction H as [|a t cs Ha Ht Hcs IH]; intros ws qs Hw Hq.
    - injection Hw as <-. injection Hq as <-. constructor.
    - cbn [all_ok] in Hw. destruct (tf a) as [va|e]; [|discriminate]. destruct (tf t) as [vt|e] eqn:Hvt; [|discriminate]. destruct (all_ok tf cs) as [vs|e] eqn:Hvs; [|discriminate].
      injection Hw as <-. cbn [zip_pairs] in Hq. destruct (zip_pairs E vs) as [ps|e] eqn:Hps; [|discriminate]. injection Hq as <-. constructor; [|exact (IH vs ps eq_refl Hps)].
      exact (at_place sType t vt _ Ht eq_refl Hvt).
  Qed.
  Lemma module_path_typed k fs d : In (k, fs) module_details -> has_aty (ARecord fs) d -> named_type "ModulePath" (PDict [(u "type", PStr (u k)); (u "detail", d)]).
  Proof.
    intros Hi (es & -> & _ & HF). cbn [In module_details] in Hi. repeat destruct Hi as [Hi|Hi]; try contradiction; injection Hi as <- <-;
      repeat (apply record_cons in HF as (? & ? & -> & [? ->] & HF)); inversion HF; subst.
    1: apply (reaches_sound "LocalModulePath") with (n := 3); [|vm_compute; reflexivity].
    2: apply (reaches_sound "BicepRegistryModulePath") with (n := 3); [|vm_compute; reflexivity].
    3: apply (reaches_sound "BicepRegistryAliasModulePath") with (n := 3); [|vm_compute; reflexivity].
    4: apply (reaches_sound "TemplateSpecModulePath") with (n := 3); [|vm_compute; reflexivity].
    5: apply (reaches_sound "TemplateSpecAliasModulePath") with (n := 3); [|vm_compute; reflexivity].
    all: class; [lit|class; constructor].
  Qed.
  Lemma loop_condition_json c r : json c ->
    match c with
    | PDict _ =>
        let* func := py_get c (u "function") (PDict []) in
        let* ty := py_get func (u "type") PNone in
        if eq_lit ty (u "if") then let* params := py_getitem func (u "parameters") in py_getitem params (u "arg_1") else Ok c
    | _ => Ok c
    end = Ok r -> json r.
  Proof.
    intros Hc H. destruct c; try (injection H as <-; exact Hc).
    destruct (py_get (PDict d) (u "function") (PDict [])) as [f|e] eqn:Hf; [|discriminate]. cbn [bind] in H.
    assert (Hjf : json f) by (eapply get_json; [exact Hc| |exact Hf]; constructor; constructor).
    destruct (py_get f (u "type") PNone) as [ty|e] eqn:Hty; [|discriminate]. cbn [bind] in H. destruct (eq_lit ty (u "if")); [|injection H as <-; exact Hc].
    destruct (py_getitem f (u "parameters")) as [ps|e] eqn:Hps; [|discriminate]. cbn [bind] in H. eapply getitem_json; [|exact H]. eapply getitem_json; [|exact Hps]. exact Hjf.
  Qed.
  Lemma suffix_app s p : remove_suffix p (s ++ p)%list = s.
  Proof.
    unfold remove_suffix, remove_prefix. rewrite rev_app_distr.
    assert (H : forall a b : str, starts_with a (a ++ b)%list = true) by (induction a as [|x a IH]; intros b; cbn; [reflexivity|rewrite N.eqb_refl; apply IH]).
    rewrite H. rewrite skipn_app, skipn_all, Nat.sub_diag. cbn [skipn app]. apply rev_involutive.
  Qed.
  Lemma aset_in {A} k (v : A) k' d : In k' (map fst (aset k v d)) <-> k' = k \/ In k' (map fst d).
  Proof.
    induction d as [|[x y] d IHd]; cbn [aset map fst In]; [intuition|]. destruct (str_eqb k x) eqn:He; cbn [map fst In]; [apply str_eqb_eq in He; subst; intuition|rewrite IHd; intuition].
  Qed.
  Lemma dict_keys {A} k (l : list (str * A)) : In k (map fst l) -> In k (map fst (dict_of l)).
  Proof.
    induction l as [|[x y] l IHl] using rev_ind; [auto|]. rewrite dict_of_snoc, map_app, in_app_iff, aset_in. cbn [map fst In]. intuition.
  Qed.
  Lemma class_dict n fs more d : find_type corrected n = Some (Class fs more) -> required fs (map fst d) = true ->
    Forall (entry_typed fs more) d -> ht (TyName n) (PDict (dict_of d)).
  Proof.
    intros Hf Hr Hd. apply (class_intro n fs more _ Hf); [|apply dict_of_ind; exact Hd]. unfold required in *. rewrite forallb_forall in Hr |- *. intros f Hi.
    specialize (Hr f Hi). apply orb_true_iff in Hr as [Hr|Hr]; apply orb_true_iff; [left; exact Hr|right]. apply existsb_exists in Hr as (k & Hk & He). apply existsb_exists.
    exists k. split; [apply dict_keys; exact Hk|exact He].
  Qed.
  Lemma numbered_entries fs p t l : Forall (ht t) l -> forall n, Forall (entry_typed fs (Some (p, t))) (numbered (u p) n l).
  Proof.
    induction 1 as [|v l Hv Hl IHl]; intros n; cbn [numbered]; constructor; auto. right. exists p, t, (N.to_nat n). split; [reflexivity|]. split; [|exact Hv].
    unfold nth_key. rewrite N2Nat.id. reflexivity.
  Qed.
  Lemma kept_typed fs p t l : Forall (fun v => truthy v = false \/ ht t v) l ->
    forall n, Forall (entry_typed fs (Some (p, t))) (filter (fun kv => truthy (snd kv)) (numbered (u p) n l)).
  Proof.
    induction 1 as [|v l Hv Hl IHl]; intros n; cbn [numbered filter snd]; [constructor|]. destruct (truthy v) eqn:Ht; [|auto]. destruct Hv as [Hv|Hv]; [congruence|].
    constructor; [|auto]. right. exists p, t, (N.to_nat n). split; [reflexivity|]. split; [|exact Hv]. unfold nth_key. rewrite N2Nat.id. reflexivity.
  Qed.
  Lemma vals_typed cs vs : oks E sVal cs -> all_ok tf cs = Ok vs -> Forall (ht value) vs.
  Proof. intros H Hvs. eapply Forall_impl; [|exact (vals_json E ln cs vs H Hvs)]. exact json_value. Qed.
  Lemma node_typed s l m cs v : ok E s (TNode l m cs) -> l <> L_start -> (forall c w, In c cs -> tf c = Ok w -> rt c w) ->
    tf (TNode l m cs) = Ok v -> rt (TNode l m cs) v.
  Proof.
    intros Hok Hl IH H. pose proof (ok_shape E _ _ Hok) as Hs. cbn [shaped_node] in Hs. pose proof (ok_decl _ _ Hok) as Hdecl. cbn beta iota in Hdecl.
    pose proof H as Hv. rewrite (transform_node_quiet E ln l m cs (ok_kids_quiet E s l m cs Hok Hl)) in H.
    destruct (all_ok tf cs) as [vs|e] eqn:Hvs; [|discriminate]. cbn [bind] in H. apply wrap_Ok in H. unfold callv in H.
    destruct l; try congruence; cbn [node_shape] in Hs; cbn [decl_shape] in Hdecl; cbn [report_typed corrected_annotation annotation call] in *;
      try match type of H with context [pure ?st ?r] => destruct r as [v'|e] eqn:Hr; [|discriminate H]; cbn in H; injection H as -> end.
    all: try solve [destruct Hs as (a & b & -> & Ha & Hb); kids; injection Hvs as <-; places; cbn in Hr; injection Hr as <-; ops].
    - (* scope *) destruct Hs as (k & -> & Hk). kids. injection Hvs as <-. unfold cb_scope in Hr. cbn [arg_at nth_error bind py_str] in Hr.
      destruct (existsb _ VALID_TARGET_SCOPES) eqn:Hx; [|discriminate]. destruct (with_lines ln m _) as [d|e] eqn:Hd; [|discriminate]. cbn [bind] in Hr. injection Hr as <-.
      unfold response. class. class; [lit|]. attrs. unfold VALID_TARGET_SCOPES in Hx. cbn [existsb] in Hx.
      repeat (apply orb_true_iff in Hx as [Hx|Hx]; [apply str_eqb_eq in Hx; rewrite Hx; lit|]). discriminate.
    - (* import *) destruct (cb_custom_import E ln m vs); [|discriminate]. injection H as <-. constructor.
    - (* extension *) destruct Hdecl as (a & b & c & -> & Hb & Hc). kids. injection Hvs as <-. unfold cb_extension in Hr. open.
      assert (Hcfg : truthy a0 = true -> ht (TyDict TyAny) a0).
      { intros Ht. apply opt_inv in Hb as [->|Hb]; [injection Heqr as <-; discriminate|]. exact (at_place sObj b a0 _ Hb eq_refl Heqr). }
      destruct (truthy a0), (truthy a1); cbn [app] in Hlines; attrs; finish || auto.
    - (* metadata *) destruct Hdecl as (a & b & -> & Hb). kids. injection Hvs as <-. places. unfold cb_metadata in Hr. open. attrs; finish.
    - (* param *) destruct Hdecl as (d & a & t & w & -> & Hd & Ht & Hw). kids. injection Hvs as <-. places. unfold cb_param in Hr. open. attrs; finish || (eapply or_empty_typed; eassumption).
    - (* var *) destruct Hdecl as (d & a & t & w & -> & Hd & Ht & Hw). kids. injection Hvs as <-. places. unfold cb_var in Hr. open.
      assert (Hty : truthy a1 = true -> named_type "DataType" a1).
      { intros Htr. apply opt_inv in Ht as [->|Ht]; [injection Heqr0 as <-; discriminate|]. exact (at_place sType t a1 _ Ht eq_refl Heqr0). }
      destruct (truthy a1); cbn [app] in Hlines; attrs; finish || (eapply or_empty_typed; eassumption) || auto.
    - (* output *) destruct Hdecl as (d & a & t & w & -> & Hd & Ht & Hw). kids. injection Hvs as <-. places. unfold cb_output in Hr. open. attrs; finish || (eapply or_empty_typed; eassumption).
    - (* resource *) destruct Hdecl as (d & a & t & x & w & -> & Hd & Ht & Hw). kids. injection Hvs as <-.
      pose proof (of_value sTAP t _ Ht eq_refl ltac:(eassumption)) as (ty & api & ->). pose proof (at_place sBody w _ _ Hw eq_refl ltac:(eassumption)) as Hb.
      unfold cb_resource in H. destruct (of_value sBody w _ Hw eq_refl ltac:(eassumption)) as (_ & (dw & ->) & _).
      change (py_getitem (PDict [(u "type", PStr ty); (u "api_version", PStr api)]) (u "type")) with (@Ok pyval (PStr ty)) in H.
      change (py_getitem (PDict [(u "type", PStr ty); (u "api_version", PStr api)]) (u "api_version")) with (@Ok pyval (PStr api)) in H. cbn [bind] in H.
      destruct (process_child_resource E _ _ _ _ _) as [[cfg more]|e] eqn:Hp; [|discriminate H]. apply process_dict in Hp as (d' & ->). cbn [bind] in H.
      destruct (with_lines ln m _) as [at'|e] eqn:Hlines; [|discriminate H]. cbn [bind] in H. injection H as <-.
      unfold response; class; class; [constructor|]. attrs; first [eapply or_empty_typed; eassumption | apply any_dict | constructor].
    - (* module *) destruct Hdecl as (d & a & t & w & -> & Hd & Ht & Hw). kids. injection Hvs as <-. pose proof (at_place sBody w _ _ Hw eq_refl ltac:(eassumption)) as Hb.
      pose proof (of_value sMP t _ Ht eq_refl ltac:(eassumption)) as (k & fs & dt & Hi & -> & Hdt). unfold cb_module in Hr.
      change (py_getitem (PDict [(u "type", PStr (u k)); (u "detail", dt)]) (u "type")) with (@Ok pyval (PStr (u k))) in Hr.
      change (py_getitem (PDict [(u "type", PStr (u k)); (u "detail", dt)]) (u "detail")) with (@Ok pyval dt) in Hr. cbn [bind] in Hr. open.
      destruct (module_typed k fs dt Hi Hdt) as [Hk Hdd]. attrs; try assumption. eapply or_empty_typed; eassumption.
    - (* custom_type *) destruct Hdecl as (d & a & w & -> & Hd & Hw). kids. injection Hvs as <-. places. unfold cb_custom_type in Hr. open. eapply ht_alias; [reflexivity|].
      attrs; finish || (eapply or_empty_typed; eassumption).
    - (* custom_func *) destruct Hdecl as (d & a & ps & t & w & -> & Hd & Hps & Ht & Hw). cbn [all_ok] in Hvs. rewrite transform_tok, all_ok_app in Hvs.
      destruct (tf d) as [vd|e] eqn:Hvd; [|discriminate]. destruct (all_ok tf ps) as [ws|e] eqn:Hws; [|discriminate].
      kids. injection Hvs as <-. places. unfold cb_custom_func in Hr. rewrite rev_app_distr in Hr. cbn [rev app] in Hr. rewrite rev_involutive in Hr.
      destruct (zip_pairs E ws) as [qs|e] eqn:Hq; [|discriminate]. cbn [bind] in Hr. open.
      attrs; finish || (eapply or_empty_typed; eassumption). apply dict_of_ind. eapply zip_typed; eassumption.
    - injection H as <-. constructor.
    - injection H as <-. constructor.
    - injection H as <-. constructor.
    - (* int *) destruct Hs as (k & -> & Hk). kids. injection Hvs as <-. unfold cb_int_type in Hr. cbn [arg_at nth_error bind] in Hr.
      destruct (py_int E (PTok k)); [|discriminate]. injection Hr as <-. constructor.
    - (* string *) destruct Hs as (k & -> & Hk). kids. injection Hvs as <-. unfold cb_string in Hr. cbn [arg_at nth_error bind transform_string_token] in Hr.
      repeat match type of Hr with context [if ?b then _ else _] => destruct b end; injection Hr as <-; constructor.
    - (* mls *) destruct Hs as (k & -> & Hk). kids. injection Hvs as <-. injection Hr as <-. constructor.
    - (* child_resource *) destruct Hdecl as (a & b & x & w & -> & Hw). kids. injection Hvs as <-. places. unfold cb_child_resource in Hr.
      destruct (with_lines_child ln m _) as [d|e] eqn:Hlines; [|discriminate]. cbn [bind] in Hr. injection Hr as <-. constructor. constructor; [lit|]. constructor; [|constructor].
      unfold py_str'. class; [constructor|]. attrs; finish || (constructor; constructor). constructor.
    - (* type_value *) injection Hr as <-. constructor.
    - (* data_type *) exact (at_place sType _ _ _ (ok_main _ _ Hok) eq_refl Hv).
    - (* base_type *) exact (at_place sBase _ _ _ (ok_main _ _ Hok) eq_refl Hv).
    - (* union_type *) destruct Hs as (a & b & ts & -> & Ha & Hb & Hts). injection Hr as <-. class; [lit|]. constructor. apply all_ok_Forall2 in Hvs.
      assert (Hall : Forall (ok E sType) (a :: b :: ts)) by (constructor; [exact Ha|]; constructor; [exact Hb|]; apply TreeGrammar.oks_Forall; exact Hts).
      clear - Hall Hvs. induction Hvs as [|c w cs ws Hc Hcs IHcs]; [constructor|]. inversion Hall; subst. constructor; [|auto]. eapply (at_place sType); [eassumption|reflexivity|exact Hc].
    - injection H as <-. constructor.
    - (* type_api_pair *) exact (at_place sTAP _ _ _ (ok_main _ _ Hok) eq_refl Hv).
    - (* module_path *) pose proof (of_value sMP _ _ (ok_main _ _ Hok) eq_refl Hv) as (k & fs & dt & Hi & -> & Hdt). apply (module_path_typed k fs dt Hi Hdt).
    - (* import_alias *) destruct Hdecl as (a & b & -> & Hb). kids. injection Hvs as <-. unfold cb_import_alias in Hr. injection Hr as <-. unfold py_str'.
      destruct (truthy _); class; constructor.
    - (* loop *) destruct Hs as (a & c & w & -> & Ha & Hc & Hw). kids. injection Hvs as <-. 
      destruct (loop_label a Ha) as (l' & m' & cs' & -> & cl & Hcl & Hre). pose proof (IH _ _ (or_introl eq_refl) Heqr) as Hty. apply report_annotation in Hty. rewrite Hcl in Hty.
      unfold cb_loop in Hr. match type of Hr with bind ?r _ = _ => destruct r as [cd|e] eqn:Hcd; [|discriminate] end. cbn [bind] in Hr. injection Hr as <-.
      pose proof (of_value sVal w _ Hw eq_refl ltac:(eassumption)) as Hjw. cbn [vok] in Hjw.
      class; [exact (reaches_sound cl _ Hty 5 _ Hre)| |apply json_value; exact Hjw]. apply accepts_json; [reflexivity|].
      pose proof (of_value (sOpt sVal) c _ Hc eq_refl ltac:(eassumption)) as Hjc. cbn [vok] in Hjc. eapply loop_condition_json; [|exact Hcd]. destruct Hjc as [->|Hjc]; [constructor|exact Hjc].
    - (* loop_array *) destruct Hs as (k & w & -> & Hk & Hw). kids. injection Hvs as <-. places. injection Hr as <-. class; [lit|]. class; finish.
    - (* loop_array_index *) destruct Hs as (k & i & w & -> & Hk & Hi & Hw). kids. injection Hvs as <-. places. injection Hr as <-. class; [lit|]. class; finish.
    - (* loop_object *) destruct Hs as (k & w & -> & Hk & Hw). kids. injection Hvs as <-. places. injection Hr as <-. class; [lit|]. class; finish.
    - (* deploy_condition *) destruct Hs as (c & w & -> & Hc & Hw). kids. injection Hvs as <-. places. injection Hr as <-. class; assumption.
    - (* array *) injection Hr as <-. pose proof (vals_json E ln cs vs Hs Hvs) as Hj. rewrite untoken_list by exact Hj. constructor. eapply Forall_impl; [|exact Hj]. exact json_value.
    - (* object *) unfold cb_object in Hr. destruct (tuple_pairs vs) as [ps|e]; [|discriminate]. injection Hr as <-. apply any_dict.
    - (* pair *) destruct Hs as (k & w & -> & Hk & Hw). kids. injection Hvs as <-. places. injection Hr as <-.
      pose proof (varval_json E ln w _ Hw ltac:(eassumption)) as Hj. rewrite (json_untoken _ Hj). constructor. constructor; [assumption|]. constructor; [assumption|constructor].
    - (* key *) unfold cb_key in Hr. destruct (arg_at 0 vs); [|discriminate]. injection Hr as <-. constructor.
    - (* lambda *) destruct Hs as (a & b & us & -> & Ha & Hb & Hus).
      assert (Hj : Forall (ht value) vs) by (apply (vals_typed (a :: b :: us)); [constructor; [exact Ha|constructor; assumption]|exact Hvs]).
      kids. destruct (all_ok tf us) as [ws|e]; [|discriminate]. cbn [bind] in Hvs. injection Hvs as <-. unfold cb_lambda_expression in Hr. apply Ok_inj in Hr as <-. class; [lit|].
      eapply class_dict; [vm_compute; reflexivity| |].
      + unfold required. cbn [forallb fst snd negb orb]. rewrite andb_true_r. apply andb_true_iff. split; [reflexivity|]. apply existsb_exists. exists (u "expression"). split; [|apply str_eqb_refl].
        cbn [map]. right. rewrite map_app. apply in_or_app. right. left. reflexivity.
      + apply Forall_cons; [left; eexists; split; [vm_compute; reflexivity|constructor]|]. apply Forall_app. split.
        * apply numbered_entries. apply Forall_forall. intros w Hw. apply in_map_iff in Hw as (w' & <- & _). constructor.
        * apply Forall_cons; [|apply Forall_nil]. left. eexists. split; [vm_compute; reflexivity|]. cbn [tl snd]. rewrite Forall_forall in Hj. apply Hj. right.
          match goal with |- In (last ?l PNone) ?l' => destruct (exists_last (l := l) ltac:(discriminate)) as (pre & z & Hz); rewrite Hz, last_last; apply in_or_app; right; left; reflexivity end.
    - (* decorator *) destruct Hs as (k & us & -> & Hk & Hus & _). pose proof (of_value sDeco _ _ (ok_main _ _ Hok) eq_refl Hv) as Hde. cbn [vok] in Hde. split; [apply deco_any; exact Hde|].
      cbn [all_ok] in Hvs. rewrite transform_tok in Hvs. destruct (all_ok tf us) as [ws|e]; [|discriminate]. injection Hvs as <-. exact (deco_typed k ws v Hr Hde).
    - (* decorators *) injection H as <-. pose proof (of_value sDecos _ _ (ok_main _ _ Hok) eq_refl Hv) as (x & Hx & Hde). injection Hx as ->. apply decos_typed. exact Hde.
    - (* function *) destruct Hs as (k & us & -> & [Hkt Hk] & Hus). pose proof (of_value sVal _ _ (ok_main _ _ Hok) eq_refl Hv) as Hj. cbn [vok] in Hj.
      destruct (tok_function E _ Hk) as (ns & n & Hk' & Hn & Hns). cbn [all_ok] in Hvs. rewrite transform_tok in Hvs. destruct (all_ok tf us) as [ws|e]; [|discriminate]. injection Hvs as <-.
      assert (Hc : call_report (ns ++ n)%list ws = Ok v).
      { unfold cb_function in Hr. cbn [py_str] in Hr. rewrite Hk', app_assoc, suffix_app in Hr. unfold call_report. pose proof (function_called (ns ++ n)%list ws) as Hf.
        destruct (known (ns ++ n)%list) as [b|].
        - destruct Hf as (f & Hf & Hg). rewrite Hf, Hg in Hr. destruct (parameters_of (b_sig b) ws); [exact Hr|discriminate].
        - rewrite Hf, unknown_row in Hr. exact Hr. }
      destruct (call_typed _ _ _ Hc Hj) as (d & -> & H1 & H2). split; [class; exact H2|]. intros name Hname. rewrite Hk', app_assoc in Hname. apply app_inv_tail in Hname as <-. eauto.
    - (* operator *) destruct Hs as (a & -> & Ha). kids. injection Hvs as <-. injection Hr as <-. destruct (operator_label a Ha) as (l' & m' & cs' & -> & cl & Hcl & Hre).
      pose proof (IH _ _ (or_introl eq_refl) Heqr) as Hty. apply report_annotation in Hty. rewrite Hcl in Hty. class. exact (reaches_sound cl _ Hty 5 _ Hre).
    - (* not *) destruct Hs as (a & -> & Ha). kids. injection Hvs as <-. places. injection Hr as <-. ops.
    - (* conditional *) destruct Hs as (a & b & c & -> & Ha & Hb & Hc). kids. injection Hvs as <-. places. injection Hr as <-. ops.
    - (* minus *) destruct Hs as (a & -> & Ha). kids. injection Hvs as <-. places. injection Hr as <-. ops.
    - (* function_accessor *) destruct Hs as (a & k & us & -> & _ & Ha & Hk & Hus). cbn [all_ok] in Hvs. rewrite transform_tok in Hvs.
      destruct (tf a) as [va|e] eqn:Hva; [|discriminate]. destruct (all_ok tf us) as [ws|e] eqn:Hws; [|discriminate]. injection Hvs as <-. places.
      unfold cb_function_accessor in Hr. apply Ok_inj in Hr as <-. unfold op_dict. class; [lit|]. eapply class_dict; [vm_compute; reflexivity|reflexivity|].
      apply Forall_cons; [left; eexists; split; [vm_compute; reflexivity|assumption]|].
      apply Forall_cons; [left; eexists; split; [vm_compute; reflexivity|]; apply accepts_json; [reflexivity|constructor]|].
      apply kept_typed. apply all_ok_Forall2 in Hws. clear - Hus Hws. revert Hus. induction Hws as [|c w cs' ws' Hc Hcs IHcs]; intros Hus; [constructor|].
      inversion Hus; subst. constructor; [|auto]. pose proof (of_value (sOpt sVal) c w ltac:(eassumption) eq_refl Hc) as [->|Hj]; [left; reflexivity|right; apply json_value; exact Hj].
    - contradiction.
  Qed.
  Lemma tree_typed : forall t s v, ok E s t -> match t with TNode L_start _ _ => False | _ => True end -> tf t = Ok v -> rt t v.
  Proof.
    apply (ptree_all (fun t => forall s v, ok E s t -> match t with TNode L_start _ _ => False | _ => True end -> tf t = Ok v -> rt t v)); try (intros; exact I).
    intros l m cs IH s v Hok Hl Hv. assert (Hl' : l <> L_start) by (intros ->; exact Hl). apply (node_typed s l m cs v Hok Hl'); [|exact Hv].
    pose proof (ok_kids_quiet E s l m cs Hok Hl') as Hq. rewrite forallb_forall in Hq. pose proof (ok_kids E _ _ Hok) as Hk. rewrite Forall_forall in Hk, IH.
    intros c w Hc Hw. destruct (Hk c Hc) as (s' & Hs'). apply (IH c Hc s' w Hs'); [|exact Hw]. specialize (Hq c Hc). destruct c as [l' ? ?| |]; try exact I. destruct l'; try exact I. discriminate.
  Qed.
End Nodes.

(** ** Whole results *)
Definition kind_classes : list (string * string) :=
  [("imports", "ImportAttributes"); ("extensions", "ExtensionAttributes"); ("metadata", "MetadataAttributes"); ("types", "VariableAttributes"); ("functions", "FunctionAttributes");
   ("parameters", "ParameterAttributes"); ("variables", "VariableAttributes"); ("resources", "ResourceAttributes"); ("modules", "ModuleAttributes"); ("outputs", "OutputAttributes");
   ("globals", "ScopeAttributes")].
Lemma row_cons k a (row : list (string * aty)) d :
  Forall2 (fun (c : string * aty) (kv : str * pyval) => fst kv = u (fst c) /\ has_aty (snd c) (snd kv)) ((k, a) :: row) d ->
  exists v d', d = (u k, v) :: d' /\ has_aty a v /\ Forall2 (fun (c : string * aty) (kv : str * pyval) => fst kv = u (fst c) /\ has_aty (snd c) (snd kv)) row d'.
Proof. intros H. inversion H as [|? [k' v] ? es' [H1 H2] HF]; subst. cbn [fst snd] in *. subst k'. eauto. Qed.
Ltac aty := match goal with
  | H : has_aty AJson ?v |- _ ?v => apply accepts_json; [reflexivity|exact H]
  | H : has_aty AStr ?v |- _ ?v => destruct H as [? ->]; constructor
  | H : has_aty ABool ?v |- _ ?v => destruct H as [? ->]; constructor
  | H : has_aty AInt ?v |- _ ?v => destruct H as [? ->]; constructor
  | H : has_aty ADict ?v |- _ ?v => destruct H as [_ [? ->]]; apply any_dict
  | H : has_aty ADecos ?v |- _ ?v => destruct H as (? & -> & H); apply decos_typed; exact H
  | H : has_aty AType ?v |- _ ?v => apply data_type_typed; exact H
  | H : has_aty AArgs ?v |- _ ?v => destruct H as (? & -> & _ & H); constructor; eapply Forall_impl; [|exact H]; intros ?; apply data_type_typed
  | H : has_aty (AOneOf _) ?v |- _ ?v => destruct H as (? & H & ->); constructor; cbn [In scopes] in *; tauto
  | H : has_aty (ARecord ?fs) ?v |- _ ?v => eapply (module_typed _ fs v); [|exact H]; cbn [In module_details]; tauto
  end.
Lemma attrs_typed ln kind v : attrs_ok ln kind v -> forall c, In (kind, c) kind_classes -> named_type c v.
Proof.
  intros (r & d & Hi & -> & HF) c Hc. unfold schema, line_keys in Hi. destruct ln; cbn [app map module_details In fst snd] in Hi.
  all: repeat (destruct Hi as [Hi|Hi]; [apply pair_equal_spec in Hi as [<- <-]; cbn [kind_classes In] in Hc;
    repeat (destruct Hc as [Hc|Hc]; [try discriminate Hc; injection Hc as <-|]); try contradiction|]); try contradiction.
  all: repeat (apply row_cons in HF as (? & ? & -> & ? & HF)); inversion HF; subst; class; aty.
Qed.
Lemma find_kind kind : In kind (map fst (schema true)) -> kind = "globals" \/ exists c, In (kind, c) kind_classes /\
  exists fs more, find_type corrected "BicepJson" = Some (Class fs more) /\ key_type fs (u kind) = Some (TyDict (TyName c)).
Proof.
  cbn [schema app map module_details fst In]. intros H.
  repeat (destruct H as [<-|H]; [first [left; reflexivity|right; eexists; split; [cbn [kind_classes In]; tauto|do 2 eexists; split; vm_compute; reflexivity]]|]). contradiction.
Qed.
Lemma result_typed ln v : document_ok false ln v -> named_type "BicepJson" v.
Proof.
  intros (gs & -> & _ & Hg & HF). eapply class_intro; [vm_compute; reflexivity| |].
  - unfold required. cbn [forallb fst snd negb orb]. rewrite !andb_true_r. apply existsb_exists. exists (u "globals"). split; [exact Hg|apply str_eqb_refl].
  - eapply Forall_impl; [|exact HF]. intros [k w] (kind & Hk & Hi & es & Hw & _ & Hn & He & Hs). cbn [fst snd] in *. subst k w.
    assert (He' : Forall (fun e => attrs_ok ln kind (snd e)) es) by (eapply Forall_impl; [|exact He]; intros e [H|[H _]]; [exact H|discriminate]).
    assert (Hi' : In kind (map fst (schema true))) by (destruct ln; exact Hi).
    left. destruct (find_kind kind Hi') as [->|(c & Hc & fs & more & Hf & Hk)].
    + eexists. split; [vm_compute; reflexivity|]. specialize (Hs eq_refl). destruct es as [|[k w] [|]]; try discriminate. injection Hs as ->. cbn [snd].
      class. inversion He'; subst. apply (attrs_typed ln "globals"); [assumption|]. cbn [kind_classes In]; tauto.
    + vm_compute in Hf. injection Hf as <- <-. exists (TyDict (TyName c)). split; [exact Hk|]. cbn [snd]. constructor. eapply Forall_impl; [|exact He'].
      intros e Hat. exact (attrs_typed ln kind _ Hat c Hc).
Qed.

(** ** Refuting *)
(** A check that every value of a type passes.  Once the steps run out, the
    answer is yes. *)
Section Check.
  Variable T : table.
  Fixpoint check (n : nat) (t : pytype) (v : pyval) {struct n} : bool :=
    match n with
    | O => true
    | Datatypes.S n =>
        match t, v with
        | TyAny, _ => true
        | TyNone, PNone => true
        | TyBool, PBool _ => true
        | TyInt, (PInt _ | PBool _) => true
        | TyStr, (PStr _ | PElem _) => true
        | TyLit l, PStr s => existsb (fun x => str_eqb (u x) s) l
        | TyLitBool b, PBool b' => Bool.eqb b b'
        | TyUnion l, _ => existsb (fun t => check n t v) l
        | TyList t, PList vs => forallb (check n t) vs
        | TyDict t, PDict es => forallb (fun kv => check n t (snd kv)) es
        | TyTuple ts, PTup vs => forallb (fun p => check n (fst p) (snd p)) (combine ts vs)
        | TyName x, _ =>
            match find_type T x with
            | Some (Alias t) => check n t v
            | Some (Class fs more) =>
                match v with
                | PDict es =>
                    forallb (fun f : field => negb (snd (fst f)) || existsb (fun kv => str_eqb (u (fst (fst f))) (fst kv)) es) fs &&
                    forallb (fun kv =>
                      existsb (fun f : field => str_eqb (u (fst (fst f))) (fst kv) && check n (snd f) (snd kv)) fs ||
                      match more with
                      | Some (p, t) => starts_with (u p) (fst kv) && check n t (snd kv)
                      | None => false
                      end) es
                | _ => false
                end
            | None => false
            end
        | _, _ => false
        end
    end.
  Lemma starts_app a b : starts_with a (a ++ b)%list = true.
  Proof. induction a as [|x a IH]; cbn; [reflexivity|]. rewrite N.eqb_refl. exact IH. Qed.
  Lemma check_complete n : forall t v, has_type T t v -> check n t v = true.
  Proof.
    induction n as [|n IH]; intros t v H; [reflexivity|]. inversion H as [| | | | | | |l s Hs| |l t' v' Ht Hv|t' vs Hvs|t' d Hd|ts vs Hvs|x t' v' Hf Hv|x fs more d Hf Hr Hd]; subst; cbn [check]; try reflexivity.
    - apply existsb_exists. exists s. split; [exact Hs|apply str_eqb_refl].
    - apply Bool.eqb_reflx.
    - apply existsb_exists. exists t'. auto.
    - apply forallb_forall. rewrite Forall_forall in Hvs. auto.
    - apply forallb_forall. rewrite Forall_forall in Hd. auto.
    - apply forallb_forall. clear - Hvs IH. induction Hvs as [|t v ts vs Ht Hts IHts]; intros p Hp; [contradiction|]. destruct Hp as [<-|Hp]; [apply IH; exact Ht|auto].
    - rewrite Hf. auto.
    - rewrite Hf. apply andb_true_iff. rewrite !forallb_forall. rewrite Forall_forall in Hr, Hd. split.
      + intros f Hi. destruct (snd (fst f)) eqn:Hq; [|reflexivity]. cbn [negb orb]. specialize (Hr f Hi Hq). apply in_map_iff in Hr as (kv & Hk & Hi'). apply existsb_exists.
        exists kv. split; [exact Hi'|]. rewrite Hk. apply str_eqb_refl.
      + intros kv Hi. apply orb_true_iff. destruct (Hd kv Hi) as [(k & r & t' & Hf' & Hk & Ht)|(p & t' & i & -> & Hk & Ht)]; [left|right].
        * apply existsb_exists. exists (k, r, t'). split; [exact Hf'|]. cbn [fst snd]. rewrite Hk, str_eqb_refl. cbn [andb]. auto.
        * rewrite Hk. unfold nth_key. rewrite starts_app. cbn [andb]. auto.
  Qed.
  Lemma check_refutes n t v : check n t v = false -> ~ has_type T t v.
  Proof. intros H Ht. rewrite (check_complete n t v Ht) in H. discriminate. Qed.
End Check.
