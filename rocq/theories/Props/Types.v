(** C16, C18, C19: type expressions, resource types, module references. *)
From Coq Require Import List Arith NArith ZArith Bool String Lia.
From Verif Require Import Py.Str Py.Val Lark.Tree Lark.Shape Lark.Terminals
  Pycep.Utils Pycep.Transformer Pycep.Main Pycep.Bicep
  Spec.Json Spec.Schema Spec.Outcomes Spec.Calls Spec.Text Spec.Trees Spec.Lexemes Spec.Program Spec.Reports Spec.Children Spec.Declarations
  Spec.Parts Spec.Values Spec.Types
  Proofs.Base Proofs.Grammar Proofs.JsonLemmas Proofs.TokenForms Proofs.TreeGrammar Proofs.Transform Proofs.State Proofs.Tokens Proofs.EndToEnd Proofs.Quiet Proofs.Program
  Proofs.Children Proofs.Elements Proofs.Documents Proofs.Parts Proofs.Values Proofs.Types Props.Calls Props.Documents Props.Values.
Import ListNotations.
Local Open Scope string_scope.

(** ** C16 *)
Section Types.
  Variable E : pyenv.
  Variable ln : bool.
  Variable text : str.
  Notation tf := (transform E ln).
  Definition typed (t : ptree) : Prop :=
    match t with
    | TNode L_data_type _ _ => exists T, spells t T /\ tf t = Ok (ty_report T)
    | TNode L_base_type _ cs => exists b T, cs = [b] /\ spells_base b T /\ tf t = Ok (ty_report T)
    | TNode L_union_type _ cs => exists ts, spells_base t (Union ts) /\ tf t = Ok (ty_report (Union ts))
    | _ => True
    end.
  Lemma iter_arrays n T : ty_report (Nat.iter n ArrayOf T) = Nat.iter n array_of (ty_report T).
  Proof. induction n as [|n IH]; [reflexivity|]. change (array_of (ty_report (Nat.iter n ArrayOf T)) = array_of (Nat.iter n array_of (ty_report T))). rewrite IH. reflexivity. Qed.
  Lemma fold_arrays (ws : list pyval) : forall v, fold_left (fun r _ => array_of r) ws v = Nat.iter (List.length ws) array_of v.
  Proof.
    induction ws as [|w ws IH]; intros v; [reflexivity|]. cbn [fold_left List.length]. rewrite IH. clear. generalize (List.length ws). intros n.
    induction n as [|n IH]; [reflexivity|]. change (array_of (Nat.iter n array_of (array_of v)) = array_of (Nat.iter (Datatypes.S n) array_of v)). rewrite IH. reflexivity.
  Qed.
  Lemma typed_all cs : oks E sType cs -> Forall (fun c => part_of E text c -> typed c) cs -> (forall c, In c cs -> part_of E text c) ->
    exists ts, spells_all cs ts /\ all_ok tf cs = Ok (map ty_report ts).
  Proof.
    induction cs as [|c cs IHcs]; intros Ho IH Hp.
    - exists []. split; [constructor|reflexivity].
    - inversion Ho; subst. inversion IH as [|? ? Hc Hcs]; subst.
      destruct (type_inv E c ltac:(assumption)) as (m & a & ss & -> & _).
      destruct (Hc (Hp _ (or_introl eq_refl))) as (T & HT & Ht).
      destruct IHcs as (ts & Hts & Hall); [assumption|assumption|intros x Hx; apply Hp; right; exact Hx|].
      exists (T :: ts). split; [constructor; assumption|]. cbn [all_ok map]. rewrite Ht, Hall. reflexivity.
  Qed.
  Lemma types_typed : forall t, part_of E text t -> typed t.
  Proof.
    apply (ptree_all (fun t => part_of E text t -> typed t)); try exact (fun _ _ => I); try exact (fun _ => I).
    intros l m cs IH Hp. destruct l; try exact I; pose proof (part_shape E text _ _ _ Hp) as Hs; cbn [node_shape] in Hs; cbn [typed].
    - (* data_type *) destruct Hs as (a & ss & -> & Ha & Hss). inversion IH as [|? ? Hia Hiss]; subst.
      assert (Hpa : part_of E text a) by (apply (part_child E text _ _ _ a Hp); left; reflexivity).
      assert (Hb : exists mb b T, a = TNode L_base_type mb [b] /\ spells_base b T /\ tf a = Ok (ty_report T)).
      { specialize (Hia Hpa). inversion Ha; subst; destruct Hia as (b & T & Hb & Hr); injection Hb as <-; eexists; eexists; exists T; split; [reflexivity|exact Hr|reflexivity|exact Hr]. }
      destruct Hb as (mb & b & T & -> & Hb & Hr). eexists. split; [apply spells_type; exact Hb|].
      assert (Hw : all_ok tf ss = Ok (map (fun _ => PNone) ss)).
      { clear - Hss. apply TreeGrammar.oks_Forall in Hss. induction Hss as [|c cs Hc Hcs IH]; [reflexivity|]. cbn [all_ok map]. rewrite IH.
        inversion Hc; subst; reflexivity. }
      part Hp. cbn [all_ok]. rewrite Hr, Hw. cbn [bind]. unfold callv. cbn [call cb_data_type bind pure]. unfold cb_data_type.
      rewrite fold_arrays, map_length, iter_arrays. reflexivity.
    - (* base_type *) destruct Hs as (a & -> & Ha). inversion IH as [|? ? Hia _]; subst.
      destruct Ha as [Ha|Ha].
      + apply tok_inv in Ha as (k & -> & Hk). exists (TTok k), (Named (tval k)). split; [reflexivity|]. split; [constructor|].
        part Hp. tokens. reflexivity.
      + assert (Hpa : part_of E text a) by (apply (part_child E text _ _ _ a Hp); left; reflexivity).
        specialize (Hia Hpa). inversion Ha; subst; destruct Hia as (ts & Hsp & Hr);
          (eexists; eexists; split; [reflexivity|]; split; [exact Hsp|]; part Hp; cbn [all_ok]; rewrite Hr; reflexivity).
    - (* union_type *) destruct Hs as (a & b & ts & -> & Ha & Hb & Hts).
      assert (Ho : oks E sType (a :: b :: ts)) by (constructor; [exact Ha|]; constructor; assumption).
      destruct (typed_all _ Ho IH) as (Ts & Hsp & Hr); [intros c Hc; exact (part_child E text _ _ _ c Hp Hc)|].
      exists Ts. split; [constructor; exact Hsp|]. part Hp. rewrite Hr. reflexivity.
  Qed.
End Types.
Theorem C16_reported : forall E ln text m cs, part_of E text (TNode L_data_type m cs) ->
  exists T, spells (TNode L_data_type m cs) T /\ transform E ln (TNode L_data_type m cs) = Ok (ty_report T).
Proof. intros E ln text m cs H. exact (types_typed E ln text _ H). Qed.
Fixpoint ty_all (P : ty -> Prop) (Hn : forall n, P (Named n)) (Ha : forall t, P t -> P (ArrayOf t)) (Hu : forall ts, Forall P ts -> P (Union ts)) (t : ty) : P t :=
  match t with
  | Named n => Hn n
  | ArrayOf t => Ha t (ty_all P Hn Ha Hu t)
  | Union ts => Hu ts ((fix go l : Forall P l := match l with [] => Forall_nil _ | x :: l' => Forall_cons _ (ty_all P Hn Ha Hu x) (go l') end) ts)
  end.
(** Distinct types have distinct reports, at any nesting. *)
Theorem C16_faithful : forall T T', ty_report T = ty_report T' -> T = T'.
Proof.
  apply (ty_all (fun T => forall T', ty_report T = ty_report T' -> T = T')).
  - intros n [n'|t|ts] H; try discriminate. injection H as ->. reflexivity.
  - intros t IH [n'|t'|ts] H; try discriminate. injection H as H. f_equal. exact (IH t' H).
  - intros ts IH [n'|t'|ts'] H; try discriminate. injection H as H. f_equal. revert ts' H.
    induction IH as [|t ts Ht Hts IHts]; intros [|t' ts'] H; try discriminate; [reflexivity|]. injection H as H1 H2. f_equal; auto.
Qed.
(** A tree spells at most one type. *)
Scheme spells_min := Minimality for spells Sort Prop
  with spells_base_min := Minimality for spells_base Sort Prop
  with spells_all_min := Minimality for spells_all Sort Prop.
Combined Scheme spells_mutind from spells_min, spells_base_min, spells_all_min.
Theorem C16_determined : forall t T T', spells t T -> spells t T' -> T = T'.
Proof.
  assert (H : (forall t T, spells t T -> forall T', spells t T' -> T = T') /\ (forall t T, spells_base t T -> forall T', spells_base t T' -> T = T') /\
    (forall cs Ts, spells_all cs Ts -> forall Ts', spells_all cs Ts' -> Ts = Ts')).
  { apply spells_mutind.
    - intros m mb b t ss _ IH T' H. inversion H; subst. f_equal. auto.
    - intros k T' H. inversion H. reflexivity.
    - intros m cs ts _ IH T' H. inversion H; subst. f_equal. auto.
    - intros Ts' H. inversion H. reflexivity.
    - intros c t cs ts _ IH _ IHs Ts' H. inversion H; subst. f_equal; auto. }
  intros t T T' H1 H2. exact (proj1 H t T H1 T' H2).
Qed.
Definition types_text : str := u ("param p (string | (int | a[])[])[][]" ++ nl ++ "resource r 'a/b@2020' = {}" ++ nl ++ "module m 'br/public:x/y:v1 junk' = {}").
Example C16_ex : exists m cs, part_of env0 types_text (TNode L_data_type m cs) /\
  spells (TNode L_data_type m cs) (ArrayOf (ArrayOf (Union [Named (u "string"); ArrayOf (Union [Named (u "int"); ArrayOf (Named (u "a"))])]))).
Proof.
  do 2 eexists. split; [found 0|].
  eapply (spells_type _ _ _ _ [_; _]). apply spells_union. apply spells_cons; [eapply (spells_type _ _ _ _ []); apply (spells_name {| ttype := _; tval := u "string"; tline := _; tend := _ |})|].
  apply spells_cons; [|constructor]. eapply (spells_type _ _ _ _ [_]). apply spells_union.
  apply spells_cons; [eapply (spells_type _ _ _ _ []); apply (spells_name {| ttype := _; tval := u "int"; tline := _; tend := _ |})|].
  apply spells_cons; [eapply (spells_type _ _ _ _ [_]); apply (spells_name {| ttype := _; tval := u "a"; tline := _; tend := _ |})|constructor].
Qed.

(** ** C18 *)
Definition one_at (s ty api : str) : Prop := s = (ty ++ u "@" ++ api)%list /\ ~ In 64%N ty /\ ~ In 64%N api.
Theorem C18_type_and_version : forall E ln text m cs, part_of E text (TNode L_type_api_pair m cs) ->
  exists k s, cs = [TTok k] /\ tval k = quote s /\ contains (tval k) text /\
  ((exists ty api, one_at s ty api /\
      transform E ln (TNode L_type_api_pair m cs) = Ok (PDict [(u "type", PStr ty); (u "api_version", PStr api)])) \/
   ((forall ty api, ~ one_at s ty api) /\
      transform E ln (TNode L_type_api_pair m cs) = Err (EVisitError (u "type_api_pair") (EValueError [])))).
Proof.
  intros E ln text m cs H. pose proof (part_shape E text _ _ _ H) as Hs. cbn [node_shape] in Hs. destruct Hs as (k & -> & Ht & Hk).
  destruct (tok_quoted E _ Hk) as (s & Hq). exists k, s. split; [reflexivity|]. split; [exact Hq|].
  split; [exact (part_token E text _ k H (or_introl eq_refl))|].
  part H. tokens. unfold callv. cbn [call pure]. unfold cb_type_api_pair. cbn [arg_at nth_error bind py_str]. rewrite Hq, slice_quote.
  destruct (split_char 64 s) as [|ty [|api [|x l]]] eqn:Hsp.
  2-4: idtac.
  all: try (left; apply split_two in Hsp as (? & ? & ?); exists ty, api; split; [repeat split; assumption|reflexivity]).
  all: right; split; [|reflexivity]; intros ty' api' (Hs1 & Hs2 & Hs3);
    assert (Hx : split_char 64 s = [ty'; api']) by (apply split_two; repeat split; assumption); congruence.
Qed.
(** A text with another kind of resource type has no result. *)
Theorem C18_rejected : forall E fs ln text fp t m k s, source fs text fp t -> part_of E t (TNode L_type_api_pair m [TTok k]) ->
  tval k = quote s -> (forall ty api, ~ one_at s ty api) -> exists e, bicep_parse E fs ln text fp = Err e.
Proof.
  intros E fs ln text fp t m k s Hs Hp Hq Hn. apply (C38_failing_part E fs ln text fp t (TNode L_type_api_pair m [TTok k]) (EVisitError (u "type_api_pair") (EValueError [])) Hs Hp).
  - exact (part_node_quiet E t _ _ _ Hp eq_refl).
  - destruct (C18_type_and_version E ln t m _ Hp) as (k' & s' & [= <-] & Hq' & _ & Hr). assert (s' = s) as -> by (apply quote_inj; congruence).
    destruct Hr as [(ty & api & Ho & _)|[_ Hr]]; [destruct (Hn ty api Ho)|exact Hr].
Qed.
Example C18_ex : exists m k, part_of env0 types_text (TNode L_type_api_pair m [TTok k]) /\ tval k = quote (u "a/b@2020") /\ one_at (u "a/b@2020") (u "a/b") (u "2020").
Proof.
  do 2 eexists. split; [found 0|]. split; [vm_compute; reflexivity|]. split; [reflexivity|]. split; vm_compute; intros H; repeat destruct H as [H|H]; try contradiction; discriminate.
Qed.
Example C18_rejected_ex : exists m k s, part_of env0 (u "resource r 'a@b@c' = {}") (TNode L_type_api_pair m [TTok k]) /\ tval k = quote s /\ (forall ty api, ~ one_at s ty api).
Proof.
  do 2 eexists. exists (u "a@b@c"). split; [found 0|]. split; [vm_compute; reflexivity|]. intros ty api H.
  assert (Hx : split_char 64 (u "a@b@c") = [ty; api]) by (apply split_two; exact H). vm_compute in Hx. discriminate.
Qed.

(** ** C19 *)
Definition in_rule (l : label) (r : result pyval) : result pyval :=
  match r with Ok v => Ok v | Err e => Err (EVisitError (label_name l) e) end.
Theorem C19_references : forall E ln text m cs, part_of E text (TNode L_module_path m cs) ->
  exists k s, cs = [TTok k] /\ tval k = quote s /\ contains (tval k) text /\
    (exists r, referenced E s r) /\
    forall r, referenced E s r -> transform E ln (TNode L_module_path m cs) = in_rule L_module_path r.
Proof.
  intros E ln text m cs H. pose proof (part_shape E text _ _ _ H) as Hs. cbn [node_shape] in Hs. destruct Hs as (k & -> & Ht & Hk).
  destruct (tok_quoted E _ Hk) as (s & Hq). exists k, s. split; [reflexivity|]. split; [exact Hq|].
  split; [exact (part_token E text _ k H (or_introl eq_refl))|]. split; [apply path_total|]. intros r Hr.
  part H. tokens. unfold callv. cbn [call pure]. rewrite (path_spec E s r (PTok k) Hq Hr). destruct r; reflexivity.
Qed.
(** One outcome per reference. *)
Theorem C19_unique : forall E s r r', referenced E s r -> referenced E s r' -> r = r'.
Proof.
  intros E s r r' H H'. rewrite <- (path_spec E s r (PStr (quote s)) eq_refl H), <- (path_spec E s r' (PStr (quote s)) eq_refl H'). reflexivity.
Qed.
(** The components, with the separators, are a prefix of the reference. *)
Theorem C19_components : forall tpl s gs r, matches tpl s gs r -> s = (render tpl gs ++ r)%list.
Proof. exact matches_render. Qed.
(** Well-formed references are taken apart into what they were put together from. *)
Lemma render_matches tpl : good tpl -> forall gs, Forall2 (fun g c => g <> [] /\ Forall (fun x => c x = true) g) gs
    (flat_map (fun x => match x with Run c => [c] | _ => [] end) tpl) -> matches tpl (render tpl gs) gs [].
Proof.
  induction tpl as [|[l|c] tpl IH]; intros Hg gs H; cbn [flat_map app] in H.
  - inversion H. constructor.
  - cbn [render]. constructor. apply IH; assumption.
  - inversion H as [|g c' gs' cs' [Hg1 Hg2] Hgs]; subst. cbn [render]. destruct Hg as [Hf Hg]. constructor; try assumption; [|apply IH; assumption].
    intros x s' Hx. destruct tpl as [|[l|c'] tpl]; [discriminate| |contradiction]. cbn [render] in Hx.
    destruct Hf as (y & l' & Hl & Hy). rewrite Hl in Hx. injection Hx as <- _. exact Hy.
Qed.
Definition run (c : N -> bool) (g : str) : Prop := g <> [] /\ Forall (fun x => c x = true) g.
Theorem C19_well_formed : forall E a b c d,
  (run (word_or E "/-") a -> run (word_or E ".-") b ->
     matches (public_ref E) (u "br:mcr.microsoft.com/" ++ a ++ u ":" ++ b)%list [a; b] []) /\
  (run (wordc E) a -> run (word_or E "/-.") b -> run (word_or E ".-") c ->
     matches (private_ref E) (u "br:" ++ a ++ u ".azurecr.io/" ++ b ++ u ":" ++ c)%list [a; b; c] [] /\
     matches (alias_ref E) (u "br/" ++ a ++ u ":" ++ b ++ u ":" ++ c)%list [a; b; c] []) /\
  (run (fun x => digitc E x || (x =? 45)%N) a -> run (word_or E "._-()") b -> run (word_or E ".-") c -> run (word_or E ".-") d ->
     matches (spec_ref E) (u "ts:" ++ a ++ u "/" ++ b ++ u "/" ++ c ++ u ":" ++ d)%list [a; b; c; d] []) /\
  (run (wordc E) a -> run (word_or E "/-") b -> run (word_or E ".-") c ->
     matches (spec_alias_ref E) (u "ts/" ++ a ++ u ":" ++ b ++ u ":" ++ c)%list [a; b; c] []).
Proof.
  intros E a b c d.
  assert (R : forall tpl gs s, good tpl -> s = render tpl gs -> Forall2 (fun g c => run c g) gs (flat_map (fun x => match x with Run c => [c] | _ => [] end) tpl) ->
    matches tpl s gs []) by (intros tpl gs s Hg -> H; apply render_matches; assumption).
  split; [|split; [|split]].
  - intros H1 H2. apply R; [apply good_public|cbn [render public_ref]; rewrite app_nil_r; reflexivity|repeat constructor; apply H1 || apply H2].
  - intros H1 H2 H3. split; (apply R; [apply good_private || apply good_alias|cbn [render private_ref alias_ref]; rewrite app_nil_r; reflexivity|repeat constructor; apply H1 || apply H2 || apply H3]).
  - intros H1 H2 H3 H4. apply R; [apply good_spec|cbn [render spec_ref]; rewrite app_nil_r; reflexivity|repeat constructor; apply H1 || apply H2 || apply H3 || apply H4].
  - intros H1 H2 H3. apply R; [apply good_spec_alias|cbn [render spec_alias_ref]; rewrite app_nil_r; reflexivity|repeat constructor; apply H1 || apply H2 || apply H3].
Qed.
Example C19_ex : exists m k s, part_of env0 types_text (TNode L_module_path m [TTok k]) /\ tval k = quote s /\
  referenced env0 s (Ok (refers "bicep_registry_alias" [(u "full", PStr (u "public:x/y:v1 junk")); (u "alias", PStr (u "public"));
    (u "path", PStr (u "x/y")); (u "tag", PStr (u "v1")); (u "public", PBool true)])).
Proof.
  do 2 eexists. exists (u "br/public:x/y:v1 junk"). split; [found 0|]. split; [vm_compute; reflexivity|].
  apply (ref_alias env0 (u "br/public:x/y:v1 junk") (u "public") (u "x/y") (u "v1") (u " junk")).
  apply (matches_fixed "br/"). apply (matches_run _ _ (u "public")); [discriminate|vm_compute; repeat constructor|intros x s' Hx; injection Hx as <- _; reflexivity|].
  apply (matches_fixed ":"). apply (matches_run _ _ (u "x/y")); [discriminate|vm_compute; repeat constructor|intros x s' Hx; injection Hx as <- _; reflexivity|].
  apply (matches_fixed ":"). apply (matches_run _ _ (u "v1")); [discriminate|vm_compute; repeat constructor|intros x s' Hx; injection Hx as <- _; reflexivity|constructor].
Qed.

(** All theorems of this file at once (the walk over the proofs is slow). *)
Definition types_theorems := (@C16_reported,
  @C16_faithful,
  @C16_determined,
  @C18_type_and_version,
  @C18_rejected,
  @C19_references,
  @C19_unique,
  @C19_components,
  @C19_well_formed).
Print Assumptions types_theorems.
