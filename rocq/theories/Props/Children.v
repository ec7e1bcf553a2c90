(** C12, C13: child resources. *)
From Coq Require Import List Arith NArith ZArith Bool String Lia.
From Verif Require Import Py.Str Py.Val Lark.Tree Lark.Shape Lark.Terminals
  Pycep.Utils Pycep.Transformer Pycep.Main Pycep.Bicep
  Spec.Json Spec.Schema Spec.Calls Spec.Text Spec.Trees Spec.Lexemes Spec.Program Spec.Reports Spec.Children Spec.Chains Spec.Declarations
  Proofs.Base Proofs.JsonLemmas Proofs.TokenForms Proofs.TreeGrammar Proofs.Transform Proofs.EndToEnd Proofs.Quiet Proofs.Program Proofs.Children Proofs.Elements Proofs.Documents
  Props.Calls Props.Documents.
Import ListNotations.
Local Open Scope string_scope.

(** ** C12 *)
(** What a resource declaration contributes to the result. *)
Theorem C12_resource : forall E fs ln text fp t cs v m d n mt tt x body,
  source fs text fp t -> ~ contains reserved_key t -> program E t cs ->
  In (TNode L_resource m [d; TTok n; TNode L_type_api_pair mt [TTok tt]; x; body]) cs ->
  NoDup (declared cs) -> bicep_parse E fs ln text fp = Ok v ->
  exists ty api cfg children decos, tval tt = quote (ty ++ u "@" ++ api)%list /\ ~ In 64%N ty /\ ~ In 64%N api /\
    lifts E ln (tval n) ty api body cfg children /\
    lookup (u "resources") (tval n) v =
      Some (PDict ([(u "decorators", decos); (u "type", PStr ty); (u "api_version", PStr api);
                    (u "existing", PBool (given x)); (u "config", PDict cfg)] ++ lines ln m)) /\
    forall c, In c children -> lookup (u "resources") (e_name c) v = Some (e_attrs c).
Proof.
  intros E fs ln text fp t cs v m d n mt tt x body Hs Hno Hp Hin Hnd Hv.
  destruct (C10_document E fs ln text fp t v Hs Hno Hv) as (cs' & own & imps & ch & Hp' & Hd & Hk & ->).
  pose proof (program_unique E t cs' cs Hp' Hp). subst cs'.
  destruct (declares_all_in E ln cs own imps ch _ Hd Hin) as (o & i & h & Hc & Ho & Hi & Hh).
  assert (Hlk : forall e, In e (own ++ imps ++ ch) -> e_kind e = u "resources" ->
    lookup (e_kind e) (e_name e) (document (default_scope ln :: own ++ imps ++ ch)) = Some (e_attrs e)).
  { intros e He Hek. apply in_split in He as (a & b & Hab). apply lookup_spec. exists (default_scope ln :: a), e, b. rewrite Hab.
    split; [reflexivity|]. repeat split. intros e' He' Hk' Hn'. rewrite <- Hk, Hab, map_app in Hnd. cbn [map] in Hnd. apply NoDup_remove_2 in Hnd.
    apply Hnd, in_or_app. right. apply in_map_iff. exists e'. unfold key_of. rewrite Hk', Hn'. auto. }
  inversion Hc; subst. do 5 eexists. split; [eassumption|]. split; [eassumption|]. split; [eassumption|]. split; [eassumption|]. split.
  - match type of Ho with incl [?e] _ => apply (Hlk e); [|reflexivity] end. apply in_or_app. left. apply Ho. left. reflexivity.
  - intros c Hcin. assert (Hkc : e_kind c = u "resources").
    { match goal with Hl : lifts _ _ _ _ _ _ _ h |- _ => apply lifts_names in Hl; apply (in_map key_of) in Hcin; rewrite Hl in Hcin end.
      apply in_map_iff in Hcin as (y & Hy & _). injection Hy as Hy _. congruence. }
    rewrite <- Hkc. apply Hlk; [|exact Hkc]. apply in_or_app. right. apply in_or_app. right. apply Hh. exact Hcin.
Qed.

(** A chain of any depth is lifted completely: names, types, api version,
    dependencies. *)
Lemma depends_last n cfg cfg' : depends_added n cfg cfg' -> exists deps, aget (u "depends_on") cfg' = Some (PList (deps ++ [PElem n])).
Proof.
  intros [[H ->]|(a & l & b & -> & Ha & ->)].
  - exists []. induction cfg as [|[k x] cfg IH]; cbn [app aget].
    + rewrite str_eqb_refl. reflexivity.
    + destruct (str_eqb_spec (u "depends_on") k) as [<-|_]; [exfalso; apply H; left; reflexivity|]. apply IH. intros Hin. apply H. right. exact Hin.
  - exists l. induction a as [|[k x] a IH]; cbn [app aget].
    + rewrite str_eqb_refl. reflexivity.
    + destruct (str_eqb_spec (u "depends_on") k) as [<-|_]; [exfalso; apply Ha; left; reflexivity|]. apply IH. intros Hin. apply Ha. right. exact Hin.
Qed.
Theorem C12_chain : forall E ln n ty api body cfg es cs, lifts E ln n ty api body cfg es -> chain body cs ->
  chained n api (reported_as n ty cs) es /\ List.length es = List.length cs.
Proof.
  intros E ln n ty api body cfg es cs Hl. revert cs.
  induction Hl as [n ty api m es ps Hp Hn|n ty api m es ps mc cname ctype x body tyname cfg cfg' rest Hp Hn Hq Hl IH Hd|n ty api m cs' d Ht|n ty api m cs' d Ht];
    intros cs Hc; inversion Hc; subst; try congruence; try (split; [exact I|reflexivity]).
  rewrite Hn in *. match goal with Hx : Some _ = Some _ |- _ => injection Hx as <- <- <- <- <- end.
  assert (ty0 = tyname) by (apply quote_inj; congruence). subst.
  destruct (IH _ ltac:(eassumption)) as [Hch Hlen]. split; [|cbn; congruence]. cbn [reported_as chained].
  repeat (split; [reflexivity|]). split; [|exact Hch]. destruct (depends_last _ _ _ Hd) as (deps & Hdeps).
  exists cfg', deps. split; [reflexivity|exact Hdeps].
Qed.
(** The bodies: every ordinary entry is reported under its key, nothing else is
    (the last one for a key wins), and no trace of the nesting is left. *)
Lemma plain_clean E ln es ps : forallb clean es = true -> plain_entries E ln es ps -> ~ In reserved_key (map fst ps).
Proof.
  intros Hc H. induction H as [|m mk k x v es ps Hv H IH|m cs es ps H IH]; cbn [forallb] in Hc; [intros []| |];
    apply andb_true_iff in Hc as [Hc1 Hc2]; [|exact (IH Hc2)].
  cbn [map fst In]. intros [Hk|Hk]; [|exact (IH Hc2 Hk)].
  cbn [clean forallb] in Hc1. rewrite Hk, str_eqb_refl in Hc1. cbn in Hc1. discriminate.
Qed.
Lemma dict_of_incl {A} (ps : list (str * A)) k : In k (map fst (dict_of ps)) -> In k (map fst ps).
Proof.
  intros H. assert (Hf : Forall (fun kv => In (fst kv) (map fst ps)) ps) by (apply Forall_forall; intros kv Hkv; apply in_map; exact Hkv).
  apply dict_of_ind in Hf as [_ Hf]. rewrite Forall_forall in Hf. apply in_map_iff in H as (kv & <- & H). exact (Hf kv H).
Qed.
Theorem C12_no_trace : forall E ln n ty api m es cfg ch, forallb clean es = true ->
  lifts E ln n ty api (TNode L_object m es) cfg ch ->
  ~ In reserved_key (map fst cfg) /\ exists ps, plain_entries E ln es ps /\ cfg = dict_of ps.
Proof.
  intros E ln n ty api m es cfg ch Hc Hl. inversion Hl; subst.
  - pose proof (plain_clean E ln es ps Hc ltac:(assumption)) as Hn. split; [|eauto]. intros Hin. exact (Hn (dict_of_incl _ _ Hin)).
  - pose proof (plain_clean E ln es ps Hc ltac:(assumption)) as Hn. split; [|eauto]. intros Hin. exact (Hn (dict_of_incl _ _ Hin)).
Qed.
Lemma chain_child' m es mc n t x body nm ty cs : last_child es = Some (TNode L_child_resource mc [TTok n; TTok t; x; body]) ->
  tval n = nm -> tval t = quote ty -> chain body cs -> chain (TNode L_object m es) ((nm, ty) :: cs).
Proof. intros H <-. exact (chain_child m es mc n t x body ty cs H). Qed.
Definition deep : str := u ("resource a 'T@1' = {" ++ nl ++ "  p: 1" ++ nl ++ "  resource b 'U' = {" ++ nl ++ "    q: 2" ++ nl
  ++ "    resource c 'V' = {" ++ nl ++ "      depends_on: [x]" ++ nl ++ "    }" ++ nl ++ "  }" ++ nl ++ "}").
Example C12_ex : exists m d n mt tt x body v,
  program env0 deep [TNode L_resource m [d; TTok n; TNode L_type_api_pair mt [TTok tt]; x; body]] /\
  chain body [(u "b", u "U"); (u "c", u "V")] /\ bicep_parse env0 ex_fs false (Some deep) None = Ok v /\
  lookup (u "resources") (u "a__b__c") v =
    Some (PDict [(u "decorators", PList []); (u "type", PStr (u "T/U/V")); (u "api_version", PStr (u "1")); (u "existing", PBool false);
                 (u "config", PDict [(u "depends_on", PList [PElem (u "x"); PElem (u "a__b")])])]).
Proof.
  do 8 eexists. split; [eexists; vm_compute; reflexivity|]. split.
  - eapply chain_child'; [reflexivity|reflexivity|reflexivity|]. eapply chain_child'; [reflexivity|reflexivity|reflexivity|]. apply chain_none. reflexivity.
  - split; [vm_compute; reflexivity|]. vm_compute. reflexivity.
Qed.

(** ** C13 *)
(** Of several siblings only the last counts: writing another one before it
    makes no difference at all. *)
Lemma last_child_app a b : last_child (a ++ b) = match last_child b with Some c => Some c | None => last_child a end.
Proof.
  unfold last_child. rewrite fold_left_app. generalize (fold_left (fun acc e => match e with TNode L_child_resource _ _ => Some e | _ => acc end) a None) as acc.
  intros acc. revert acc. induction b as [|e b IH]; intros acc; [reflexivity|]. cbn [fold_left]. rewrite IH. rewrite (IH (match e with TNode L_child_resource _ _ => Some e | _ => None end)).
  destruct (fold_left _ b None); [reflexivity|]. destruct e as [l m cs| |]; try reflexivity. destruct l; reflexivity.
Qed.
Lemma plain_skip E ln a m cs b ps : plain_entries E ln (a ++ TNode L_child_resource m cs :: b) ps -> plain_entries E ln (a ++ b) ps.
Proof.
  revert ps. induction a as [|e a IH]; cbn [app]; intros ps H; inversion H; subst; [assumption|constructor; auto|constructor; auto].
Qed.
Theorem C13_only_last_sibling : forall E ln n ty api m a mc cs b cfg es, last_child b <> None ->
  lifts E ln n ty api (TNode L_object m (a ++ TNode L_child_resource mc cs :: b)) cfg es ->
  lifts E ln n ty api (TNode L_object m (a ++ b)) cfg es.
Proof.
  intros E ln n ty api m a mc cs b cfg es Hb Hl.
  assert (He : last_child (a ++ TNode L_child_resource mc cs :: b) = last_child (a ++ b)).
  { change (TNode L_child_resource mc cs :: b) with ([TNode L_child_resource mc cs] ++ b)%list. rewrite !last_child_app. destruct (last_child b); [reflexivity|congruence]. }
  inversion Hl; subst.
  - constructor; [eapply plain_skip; eassumption|congruence].
  - eapply lifts_child; [eapply plain_skip; eassumption|rewrite <- He; eassumption|eassumption|eassumption|eassumption].
Qed.
Definition siblings : str := u ("resource a 'T@1' = {" ++ nl ++ "  resource b 'U' = {" ++ nl ++ "  }" ++ nl ++ "  resource c 'V' = {" ++ nl ++ "  }" ++ nl ++ "}").
(** So it is false that every child resource of a body is reported. *)
Theorem C13_all_siblings_refuted : exists m d n x1 m0 m1 m2 n1 t1 o1 b1 c2 v,
  program env0 siblings [TNode L_resource m [d; n; x1; m0; TNode L_object m1 [TNode L_child_resource m2 [TTok n1; t1; o1; b1]; c2]]] /\
  bicep_parse env0 ex_fs false (Some siblings) None = Ok v /\
  lookup (u "resources") (u "a__" ++ tval n1)%list v = None /\
  forall k n', (exists a, lookup k n' v = Some a) -> In n' [u "scope"; u "a"; u "a__c"].
Proof.
  do 13 eexists. split; [eexists; vm_compute; reflexivity|]. split; [vm_compute; reflexivity|]. split; [vm_compute; reflexivity|].
  intros k n' (a & H). cbv [lookup] in H. cbn [aget] in H.
  repeat (cbn [aget] in H; match type of H with context [str_eqb ?x ?y] => destruct (str_eqb_spec x y) as [->|_] end); try discriminate H; vm_compute; tauto.
Qed.
(** Bodies that are loops or conditions are reported as they are. *)
Theorem C13_loops_and_conditions : forall E ln n ty api l m cs cfg es, l <> L_object ->
  lifts E ln n ty api (TNode l m cs) cfg es -> es = [] /\ transform E ln (TNode l m cs) = Ok (PDict cfg).
Proof. intros E ln n ty api l m cs cfg es Hl H. inversion H; subst; try congruence; auto. Qed.
(** An object on its own (the body of a module, of a loop, of a condition, or the
    value of a key) keeps its last child under the reserved key. *)
Theorem C13_child_stays : forall E ln m es mc n ct x body d, ok E sObj (TNode L_object m es) -> clean (TNode L_object m es) = true ->
  last_child es = Some (TNode L_child_resource mc [TTok n; TTok ct; x; body]) ->
  transform E ln (TNode L_object m es) = Ok (PDict d) ->
  exists ty cfg, tval ct = quote ty /\ transform E ln body = Ok cfg /\
    aget reserved_key d = Some (PDict [(u "__name__", PStr (tval n));
      (u "__attrs__", PDict ([(u "decorators", PList []); (u "type", PStr ty); (u "api_version", PStr []);
                              (u "existing", PBool (given x)); (u "config", cfg)] ++ child_lines ln mc))]).
Proof.
  intros E ln m es mc n ct x body d Hok Hc Hl Ht. inversion Hok; subst.
  destruct (object_value E ln _ es _ ltac:(eassumption) (clean_node _ _ _ Hc) Ht) as (ps & Hd & HF). injection Hd as ->.
  destruct (entries_last E ln es ps HF) as [[Hn _]|(mc' & c' & ct' & x' & body' & b & dc & Hl' & _ & Hq & _ & _ & Hb & Hlast)]; [congruence|].
  rewrite Hl in Hl'. injection Hl' as <- <- <- <- <-. exists b, (PDict dc). split; [exact Hq|]. split; [exact Hb|].
  rewrite aget_dict_of, Hlast. reflexivity.
Qed.
Definition unlifted : str := u ("module m 'x.bicep' = {" ++ nl ++ "  resource b 'U' = {" ++ nl ++ "  }" ++ nl ++ "}").
Example C13_ex : exists v, bicep_parse env0 ex_fs false (Some unlifted) None = Ok v /\
  exists cfg, lookup (u "modules") (u "m") v = Some (PDict [(u "decorators", PList []); (u "type", PStr (u "local")); (u "detail", PDict [(u "full", PStr (u "x.bicep")); (u "path", PStr (u "x.bicep"))]); (u "config", PDict cfg)]) /\
    aget reserved_key cfg <> None.
Proof. eexists. split; [vm_compute; reflexivity|]. eexists. split; [vm_compute; reflexivity|]. vm_compute. discriminate. Qed.
(** A lifted resource replaces a top-level one of the same name. *)
Definition collision : str := u ("resource a 'T@1' = {" ++ nl ++ "  resource b 'U' = {" ++ nl ++ "  }" ++ nl ++ "}" ++ nl ++ "resource a__b 'W@2' = {}").
Theorem C13_lifted_wins : forall E fs ln text fp t cs v, source fs text fp t -> ~ contains reserved_key t -> program E t cs ->
  bicep_parse E fs ln text fp = Ok v -> forall n, In (u "resources", n) (flat_map child_decl cs) ->
  exists own imps children e, declares_all E ln cs own imps children /\ In e children /\ e_name e = n /\
    lookup (u "resources") n v = Some (e_attrs e).
Proof.
  intros E fs ln text fp t cs v Hs Hno Hp Hv n Hin.
  destruct (parse_declares E fs ln text fp t v Hs Hno Hv) as (cs' & own & imps & ch & Hp' & Hd & ->).
  pose proof (program_unique E t cs' cs Hp' Hp). subst cs'.
  destruct (declares_all_names E ln cs own imps ch (program_ok E t cs Hp) Hd) as (_ & _ & Hk). rewrite <- Hk in Hin.
  apply in_map_iff in Hin as (e0 & He0 & Hin). injection He0 as Hk0 Hn0.
  assert (Hx : existsb (fun e => str_eqb (u "resources") (e_kind e) && str_eqb n (e_name e)) ch = true).
  { apply existsb_exists. exists e0. split; [exact Hin|]. rewrite Hk0, Hn0, !str_eqb_refl. reflexivity. }
  apply last_split in Hx as (a & e & b & Hab & He & Hnob). apply andb_true_iff in He as [H1 H2]. apply str_eqb_eq in H1, H2.
  exists own, imps, ch, e. split; [exact Hd|]. split; [rewrite Hab; apply in_elt|]. split; [congruence|].
  apply lookup_spec. exists (default_scope ln :: own ++ imps ++ a)%list, e, b. split; [rewrite Hab; cbn [app]; rewrite <- !app_assoc; reflexivity|].
  repeat split; try congruence. intros e' He' Hk' Hn'.
  assert (existsb (fun e => str_eqb (u "resources") (e_kind e) && str_eqb n (e_name e)) b = true); [|congruence].
  apply existsb_exists. exists e'. split; [exact He'|]. rewrite Hk', Hn', !str_eqb_refl. reflexivity.
Qed.
Example C13_lifted_wins_ex : exists cs v, program env0 collision cs /\ In (u "resources", u "a__b") (flat_map child_decl cs) /\
  In (u "resources", u "a__b") (flat_map own_decl cs) /\ bicep_parse env0 ex_fs false (Some collision) None = Ok v /\
  lookup (u "resources") (u "a__b") v =
    Some (PDict [(u "decorators", PList []); (u "type", PStr (u "T/U")); (u "api_version", PStr (u "1")); (u "existing", PBool false);
                 (u "config", PDict [(u "depends_on", PList [PElem (u "a")])])]).
Proof.
  do 2 eexists. split; [eexists; vm_compute; reflexivity|]. split; [vm_compute; tauto|]. split; [vm_compute; tauto|].
  split; [vm_compute; reflexivity|]. vm_compute. reflexivity.
Qed.

(** All theorems of this file at once (the walk over the proofs is slow). *)
Definition children_theorems := (@C12_resource,
  @C12_chain,
  @C12_no_trace,
  @C13_only_last_sibling,
  @C13_all_siblings_refuted,
  @C13_loops_and_conditions,
  @C13_child_stays,
  @C13_lifted_wins).
Print Assumptions children_theorems.
