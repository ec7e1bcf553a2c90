(** Child resources: [process_child_resource] against the specification. *)
From Coq Require Import List Arith NArith ZArith Bool String Lia.
From Verif Require Import Py.Str Py.Val Pycep.Utils Pycep.Transformer Lark.Tree
  Spec.Json Spec.Schema Spec.Trees Spec.Lexemes Spec.Program Spec.Reports Spec.Children
  Proofs.Base Proofs.JsonLemmas Proofs.TokenForms Proofs.TreeGrammar Proofs.Transform Proofs.Typing Proofs.State Proofs.Quiet.
Import ListNotations.
Local Open Scope string_scope.

(** ** Dictionaries *)
Section Dicts.
  Context {A : Type}.
  Implicit Types d : list (str * A).
  Lemma dict_of_snoc (l : list (str * A)) k v : dict_of (l ++ [(k, v)]) = aset k v (dict_of l).
  Proof. unfold dict_of. rewrite fold_left_app. reflexivity. Qed.
  Lemma adel_aset_same k v d : adel k (aset k v d) = adel k d.
  Proof.
    induction d as [|[k' v'] d IH]; cbn [aset adel].
    - rewrite str_eqb_refl. reflexivity.
    - destruct (str_eqb k k') eqn:H; cbn [adel]; rewrite H; [reflexivity|]. rewrite IH. reflexivity.
  Qed.
  Lemma adel_aset_other k k' v d : k <> k' -> adel k (aset k' v d) = aset k' v (adel k d).
  Proof.
    intros Hk. induction d as [|[k0 v0] d IH]; cbn [aset adel].
    - apply str_eqb_neq in Hk. rewrite Hk. reflexivity.
    - destruct (str_eqb_spec k' k0) as [->|H1], (str_eqb_spec k k0) as [->|H2]; cbn [adel aset]; try congruence.
      + apply str_eqb_neq in Hk. rewrite Hk, str_eqb_refl. reflexivity.
      + rewrite str_eqb_refl. reflexivity.
      + apply str_eqb_neq in H2, H1. rewrite H2. cbn [aset]. rewrite H1, IH. reflexivity.
  Qed.
  Lemma adel_dict_of k (l : list (str * A)) : adel k (dict_of l) = dict_of (filter (fun kv => negb (str_eqb k (fst kv))) l).
  Proof.
    induction l as [|[k' v] l IH] using rev_ind; [reflexivity|]. rewrite dict_of_snoc, filter_app. cbn [filter fst].
    destruct (str_eqb_spec k k') as [->|H]; cbn [negb].
    - rewrite app_nil_r, adel_aset_same. exact IH.
    - rewrite dict_of_snoc, adel_aset_other, IH by exact H. reflexivity.
  Qed.
  Definition last_value (k : str) (l : list (str * A)) : option A :=
    fold_left (fun acc kv => if str_eqb k (fst kv) then Some (snd kv) else acc) l None.
  Lemma aget_dict_of k (l : list (str * A)) : aget k (dict_of l) = last_value k l.
  Proof.
    induction l as [|[k' v] l IH] using rev_ind; [reflexivity|]. rewrite dict_of_snoc, aget_aset.
    unfold last_value. rewrite fold_left_app. cbn [fold_left fst snd]. destruct (str_eqb k k'); [reflexivity|exact IH].
  Qed.
  Lemma aset_absent k v d : ~ In k (map fst d) -> aset k v d = (d ++ [(k, v)])%list.
  Proof.
    induction d as [|[k' v'] d IH]; cbn [aset map fst In app]; intros H; [reflexivity|].
    destruct (str_eqb_spec k k') as [->|Hk]; [exfalso; apply H; left; reflexivity|]. rewrite IH; [reflexivity|tauto].
  Qed.
  Lemma aget_split k v d : aget k d = Some v -> exists a b, d = (a ++ (k, v) :: b)%list /\ ~ In k (map fst a) /\
    forall w, aset k w d = (a ++ (k, w) :: b)%list.
  Proof.
    induction d as [|[k' v'] d IH]; cbn [aget]; [discriminate|]. destruct (str_eqb_spec k k') as [->|Hk].
    - intros [= ->]. exists [], d. split; [reflexivity|]. split; [tauto|]. intros w. cbn [aset]. rewrite str_eqb_refl. reflexivity.
    - intros H. destruct (IH H) as (a & b & -> & Ha & Hw). exists ((k', v') :: a), b. split; [reflexivity|]. split.
      + cbn [map fst In]. intros [He|Hi]; [congruence|tauto].
      + intros w. cbn [aset]. apply str_eqb_neq in Hk. rewrite Hk, Hw. reflexivity.
  Qed.
  Lemma aget_none_notin k d : aget k d = None -> ~ In k (map fst d).
  Proof.
    induction d as [|[k' v'] d IH]; cbn [aget map fst In]; [tauto|]. destruct (str_eqb_spec k k') as [->|Hk]; [discriminate|].
    intros H [He|Hi]; [congruence|exact (IH H Hi)].
  Qed.
  Lemma adel_absent k d : aget k d = None -> adel k d = d.
  Proof.
    induction d as [|[k' v'] d IH]; cbn [aget adel]; [reflexivity|]. destruct (str_eqb k k'); [discriminate|].
    intros H. rewrite IH; auto.
  Qed.
  Lemma aget_adel_other k k' d : k <> k' -> aget k (adel k' d) = aget k d.
  Proof.
    intros Hk. induction d as [|[k0 v0] d IH]; cbn [aget adel]; [reflexivity|].
    destruct (str_eqb_spec k' k0) as [->|H1]; cbn [aget].
    - apply str_eqb_neq in Hk. rewrite Hk. reflexivity.
    - rewrite IH. reflexivity.
  Qed.
End Dicts.

Section Children.
  Variable E : pyenv.
  Variable ln : bool.
  Notation tf := (transform E ln).

  (** Values of entries. *)
  Lemma clean_node l m cs : clean (TNode l m cs) = true -> forallb clean cs = true.
  Proof. cbn [clean]. intros H. apply andb_true_iff in H. tauto. Qed.
  Lemma value_of mg s t v : ok E s t -> calm s = true -> (mg = false -> clean t = true) -> tf t = Ok v -> vok E ln mg s v.
  Proof.
    intros Hok Hc Hcl Hv. pose proof (proj1 (typing E ln mg) s t Hok Hcl tstate0) as H.
    rewrite (transform_quiet E ln t (quiet_ok E s t Hok Hc)), Hv in H. cbn in H. apply H. split; constructor.
  Qed.
  Lemma json_untoken v : json v -> untoken v = v.
  Proof. destruct v; try reflexivity. intros H. inversion H. Qed.
  Lemma wrap_Ok {A} l (r : result A) a : wrap l r = Ok a -> r = Ok a.
  Proof. unfold wrap. destruct r; congruence. Qed.
  Lemma callv_pure l m vs st r v : call E ln l m vs tstate0 = pure st r -> callv E ln l m vs = Ok v -> r = Ok v.
  Proof. unfold callv. intros ->. unfold pure. destruct r; cbn; congruence. Qed.

  (** [entry_value e p]: the entry [e] of a body contributes the pair [p]. *)
  Inductive entry_value : ptree -> str * pyval -> Prop :=
  | ev_pair m mk k x v : tf x = Ok v -> tval k <> reserved_key ->
      entry_value (TNode L_pair m [TNode L_key mk [TTok k]; x]) (tval k, v)
  | ev_child m c ct x body b d : tk E "STRING" c -> tval ct = quote b -> ok E sBody body -> clean body = true -> tf body = Ok (PDict d) ->
      entry_value (TNode L_child_resource m [TTok c; TTok ct; x; body])
        (reserved_key, child_record (tval c) (res_attrs (PList []) (PStr b) (PStr []) (PBool (given x)) (PDict d) (child_lines ln m))).
  Lemma key_ok k : ok E sKey k -> clean k = true -> exists mk t, k = TNode L_key mk [TTok t] /\ tval t <> reserved_key /\ tf k = Ok (PStr (tval t)).
  Proof.
    intros H Hc. inversion H; subst;
      match goal with Ha : ok E (sTok _) ?a |- _ => inversion Ha; subst end;
      (do 2 eexists; split; [reflexivity|]; split;
        [cbn [clean forallb andb] in Hc; apply andb_true_iff in Hc as [Hc _]; apply negb_true_iff in Hc; apply str_eqb_neq; exact Hc
        |reflexivity]).
  Qed.
  Lemma tok_inv n t : ok E (sTok n) t -> exists tok, t = TTok tok /\ tk E n tok.
  Proof. intros H. inversion H; subst. eauto. Qed.
  Lemma opt_tok_inv n t : ok E (sOpt (sTok n)) t -> t = TNone \/ exists tok, t = TTok tok /\ tk E n tok.
  Proof. intros H. inversion H; subst; [left; reflexivity|]. right. apply tok_inv. assumption. Qed.
  Lemma ent_inv e : ok E sEnt e ->
    (exists m k v, e = TNode L_pair (Some m) [k; v] /\ ok E sKey k /\ ok E sVarVal v) \/
    (exists m a b x v, e = TNode L_child_resource (Some m) [TTok a; TTok b; x; v] /\ tk E "STRING" a /\ tk E "QUOTED_INTERPOLATION" b /\
       ok E (sOpt (sTok "EXISTING")) x /\ ok E sBody v).
  Proof.
    intros H. inversion H; subst.
    - right. match goal with H1 : ok E (sTok "STRING") _, H2 : ok E (sTok "QUOTED_INTERPOLATION") _ |- _ =>
        apply tok_inv in H1 as (ta & -> & H1); apply tok_inv in H2 as (tb & -> & H2) end.
      do 5 eexists. split; [reflexivity|]. auto.
    - left. do 3 eexists. split; [reflexivity|]. auto.
  Qed.
  Lemma entry_ok_value e w : ok E sEnt e -> clean e = true -> tf e = Ok w ->
    exists p, w = PTup [PStr (fst p); snd p] /\ entry_value e p.
  Proof.
    intros H Hc Hw. apply ent_inv in H as [(m & k & x & -> & Hk & Hx)|(m & a & b & x & v & -> & Ha & Hb & Hx & Hv)].
    - apply clean_node in Hc. cbn [forallb andb] in Hc. apply andb_true_iff in Hc as [Hc1 Hc2]. rewrite andb_true_r in Hc2.
      apply key_ok in Hk as Hk'; [|exact Hc1]. destruct Hk' as (mk & t & -> & Ht & Htf).
      rewrite transform_node_quiet in Hw.
      2:{ cbn [forallb]. rewrite (quiet_ok E _ _ Hk eq_refl), (quiet_ok E _ _ Hx eq_refl). reflexivity. }
      cbn [all_ok] in Hw. rewrite Htf in Hw. destruct (tf x) as [vx|e] eqn:Hvx; [|discriminate].
      cbn [bind] in Hw. apply wrap_Ok in Hw. cbn in Hw. injection Hw as <-.
      exists (tval t, vx). split; [|constructor; assumption]. cbn [fst snd]. rewrite json_untoken; [reflexivity|].
      exact (value_of true sVarVal x vx Hx eq_refl ltac:(discriminate) Hvx).
    - apply clean_node in Hc. cbn [forallb] in Hc. rewrite !andb_true_iff in Hc. destruct Hc as (_ & _ & _ & Hc2 & _).
      rewrite transform_node_quiet in Hw.
      2:{ cbn [forallb]. rewrite (quiet_ok E _ _ Hx eq_refl), (quiet_ok E _ _ Hv eq_refl). reflexivity. }
      cbn [all_ok] in Hw. rewrite !transform_tok in Hw.
      assert (Hxv : exists vx, tf x = Ok vx /\ truthy vx = given x).
      { apply opt_tok_inv in Hx as [->|(tx & -> & Hx)]; [exists PNone; auto|]. exists (PTok tx). split; [reflexivity|].
        cbn [truthy given]. destruct Hx as [_ Hx]. apply tok_existing in Hx. rewrite Hx. reflexivity. }
      destruct Hxv as (vx & Hvx & Htr). rewrite Hvx in Hw.
      destruct (tf v) as [vv|e] eqn:Hvv; [|discriminate].
      pose proof (value_of false sBody v vv Hv eq_refl (fun _ => Hc2) Hvv) as Hbody. cbn [vok] in Hbody.
      destruct Hbody as (_ & (d & ->) & _).
      destruct Hb as [_ Hb]. apply tok_quoted in Hb as (bt & Hbt).
      cbn [bind] in Hw. apply wrap_Ok in Hw. unfold callv, call, cb_child_resource in Hw. cbn [py_str] in Hw. rewrite Hbt, slice_quote, Htr in Hw.
      eexists. split; [|exact (ev_child (Some m) a b x v bt d Ha Hbt Hv Hc2 Hvv)].
      cbn [fst snd]. unfold with_lines_child, child_lines, res_attrs in *. destruct ln; destruct m as [l1 l2]; cbn in Hw |- *; injection Hw as <-; reflexivity.
  Qed.

  Lemma tuple_pairs_vals es ws : Forall2 (fun e w => exists p, w = PTup [PStr (fst p); snd p] /\ entry_value e p) es ws ->
    exists ps, tuple_pairs ws = Ok ps /\ Forall2 entry_value es ps.
  Proof.
    induction 1 as [|e w es ws (p & -> & Hp) HF (ps & Hps & IH)]; [exists []; split; [reflexivity|constructor]|].
    exists (p :: ps). cbn [tuple_pairs str_text]. rewrite Hps. cbn [bind]. split; [destruct p; reflexivity|constructor; assumption].
  Qed.
  Lemma object_value m es v : oks E sEnt es -> forallb clean es = true -> tf (TNode L_object m es) = Ok v ->
    exists ps, v = PDict (dict_of ps) /\ Forall2 entry_value es ps.
  Proof.
    intros Hok Hc Hv. rewrite transform_node_quiet in Hv by exact (quiet_oks E _ _ Hok eq_refl).
    destruct (all_ok tf es) as [ws|e] eqn:Hws; [|discriminate]. cbn [bind] in Hv. apply wrap_Ok in Hv.
    apply all_ok_Forall2 in Hws.
    assert (HF : Forall2 (fun e w => exists p, w = PTup [PStr (fst p); snd p] /\ entry_value e p) es ws).
    { clear Hv. induction Hws as [|e w es ws He HF IH]; [constructor|]. inversion Hok; subst. cbn [forallb] in Hc.
      apply andb_true_iff in Hc as [Hc1 Hc2]. constructor; [|auto]. apply entry_ok_value; assumption. }
    apply tuple_pairs_vals in HF as (ps & Hps & HF). exists ps. split; [|exact HF].
    unfold callv, call, cb_object, pure in Hv. rewrite Hps in Hv. cbn in Hv. injection Hv as <-. reflexivity.
  Qed.
  Lemma entries_plain es ps : Forall2 entry_value es ps ->
    plain_entries E ln es (filter (fun kv => negb (str_eqb reserved_key (fst kv))) ps).
  Proof.
    induction 1 as [|e p es ps Hp HF IH]; [constructor|]. destruct Hp as [m mk k x v Hx Hk|m c ct x body b d Hc Hb Hbo Hcl Ht]; cbn [filter fst].
    - destruct (str_eqb_spec reserved_key (tval k)) as [He|_]; [congruence|]. constructor; assumption.
    - rewrite str_eqb_refl. constructor. exact IH.
  Qed.
  Lemma entries_last es ps : Forall2 entry_value es ps ->
    (last_child es = None /\ last_value reserved_key ps = None) \/
    exists m c ct x body b d, last_child es = Some (TNode L_child_resource m [TTok c; TTok ct; x; body]) /\
      tk E "STRING" c /\ tval ct = quote b /\ ok E sBody body /\ clean body = true /\ tf body = Ok (PDict d) /\
      last_value reserved_key ps =
        Some (child_record (tval c) (res_attrs (PList []) (PStr b) (PStr []) (PBool (given x)) (PDict d) (child_lines ln m))).
  Proof.
    revert ps. induction es as [|e es IH] using rev_ind; intros ps HF.
    - inversion HF; subst. left. split; reflexivity.
    - apply Forall2_app_inv_l in HF as (ps1 & ps2 & H1 & H2 & ->). inversion H2 as [|? p ? ? Hp Hnil]; subst. inversion Hnil; subst.
      unfold last_child, last_value. rewrite !fold_left_app. cbn [fold_left].
      destruct Hp as [m mk k x v Hx Hk|m c ct x body b d Hc Hb Hbo Hcl Ht]; cbn [fst snd].
      + destruct (str_eqb_spec reserved_key (tval k)) as [He|_]; [congruence|]. exact (IH ps1 H1).
      + right. rewrite str_eqb_refl. do 7 eexists. repeat (split; [first [reflexivity|eassumption]|]). reflexivity.
  Qed.

  (** The reference to the parent. *)
  Lemma depends_aget d x d1 : append_depends_on (PDict d) x = Ok (PDict d1) -> aget reserved_key d1 = aget reserved_key d.
  Proof.
    unfold append_depends_on. destruct (aget (u "depends_on") d) as [[]|]; try discriminate; intros [= <-];
      apply aget_aset_other; discriminate.
  Qed.
  Lemma depends_adel d x d1 : append_depends_on (PDict d) x = Ok (PDict d1) ->
    append_depends_on (PDict (adel reserved_key d)) x = Ok (PDict (adel reserved_key d1)).
  Proof.
    unfold append_depends_on. rewrite aget_adel_other by discriminate.
    destruct (aget (u "depends_on") d) as [[]|]; try discriminate; intros [= <-];
      rewrite adel_aset_other by discriminate; reflexivity.
  Qed.
  Lemma depends_spec d p d1 : append_depends_on (PDict d) (PElem p) = Ok (PDict d1) -> depends_added p d d1.
  Proof.
    unfold append_depends_on. destruct (aget (u "depends_on") d) as [v|] eqn:Hd.
    - destruct v; try discriminate. intros [= <-]. right. destruct (aget_split _ _ _ Hd) as (a & b & -> & Ha & Hw).
      exists a, l, b. rewrite Hw. auto.
    - intros [= <-]. left. apply aget_none_notin in Hd. split; [exact Hd|]. apply aset_absent. exact Hd.
  Qed.

  Lemma body_inv t : ok E sBody t -> (exists m es, t = TNode L_object (Some m) es /\ oks E sEnt es) \/
    (exists m cs, t = TNode L_loop m cs) \/ (exists m cs, t = TNode L_deploy_condition m cs).
  Proof.
    intros H. inversion H; subst; match goal with H1 : ok E _ t |- _ => inversion H1; subst end.
    - left. eauto.
    - right. left. eauto.
    - right. right. eauto.
  Qed.
  Definition extra (o : option str) (d d1 : list (str * pyval)) : Prop :=
    match o with None => d1 = d | Some p => append_depends_on (PDict d) (PElem p) = Ok (PDict d1) end.
  Definition extra' (o : option str) (d d1 : list (str * pyval)) : Prop :=
    match o with None => d1 = d | Some p => depends_added p d d1 end.
  Lemma extra_spec o d d1 : extra o d d1 -> extra' o d d1.
  Proof. destruct o; [apply depends_spec|]. auto. Qed.
  Lemma extra_adel o d d1 : extra o d d1 -> extra o (adel reserved_key d) (adel reserved_key d1).
  Proof. destruct o; cbn [extra]; [apply depends_adel|congruence]. Qed.
  Lemma extra_aget o d d1 : extra o d d1 -> aget reserved_key d1 = aget reserved_key d.
  Proof. destruct o; cbn [extra]; [apply depends_aget|congruence]. Qed.

  Lemma other_no_key l m cs d : l = L_loop \/ l = L_deploy_condition -> ok E sBody (TNode l m cs) ->
    tf (TNode l m cs) = Ok (PDict d) -> aget reserved_key d = None.
  Proof.
    intros Hl Hok Hv. rewrite transform_node_quiet in Hv.
    2:{ pose proof (quiet_ok E _ _ Hok eq_refl) as Hq. cbn [quiet] in Hq. apply andb_true_iff in Hq. tauto. }
    destruct (all_ok tf cs) as [vs|]; [|discriminate]. cbn [bind] in Hv. apply wrap_Ok in Hv.
    destruct Hl as [-> | ->]; unfold callv, call, pure in Hv.
    - unfold cb_loop in Hv. destruct vs as [|a [|b [|c [|]]]]; try discriminate.
      match type of Hv with context [let* x := ?y in Ok (PDict _)] => destruct y end; [|discriminate].
      cbn [bind] in Hv. injection Hv as <-. reflexivity.
    - unfold cb_deploy_condition in Hv. destruct vs as [|a [|b [|]]]; try discriminate. cbn [bind] in Hv. injection Hv as <-. reflexivity.
  Qed.
  Lemma pcr_none fuel n ty api d v ch : aget reserved_key d = None ->
    process_child_resource E fuel n ty api (PDict d) = Ok (v, ch) -> v = PDict d /\ ch = [].
  Proof.
    intros Hr Hp. destruct fuel; cbn [process_child_resource has_key bind] in Hp; fold reserved_key in Hp; rewrite Hr in Hp;
      cbn [negb] in Hp; injection Hp as <- <-; auto.
  Qed.
  Lemma pcr_some fuel n ty api d c bt x dc tl v ch :
    aget reserved_key d = Some (child_record c (res_attrs (PList []) (PStr bt) (PStr []) x (PDict dc) tl)) ->
    process_child_resource E fuel n ty api (PDict d) = Ok (v, ch) ->
    exists fuel' dc1 cv more, fuel = Datatypes.S fuel' /\ append_depends_on (PDict dc) (PElem n) = Ok (PDict dc1) /\
      process_child_resource E fuel' (n ++ u "__" ++ c)%list (ty ++ u "/" ++ bt)%list api (PDict dc1) = Ok (cv, more) /\
      v = PDict (adel reserved_key d) /\
      ch = PDict [(u "resources", child_record (n ++ u "__" ++ c)%list
             (res_attrs (PList []) (PStr (ty ++ u "/" ++ bt)%list) (PStr api) x cv tl))] :: more.
  Proof.
    intros Hr Hp. destruct fuel as [|fuel]; cbn [process_child_resource has_key bind] in Hp; fold reserved_key in Hp; rewrite Hr in Hp;
      cbn [negb] in Hp; [discriminate|]. unfold child_record, res_attrs in Hp.
    match type of Hp with (let* x := ?a in _) = _ => let b := eval vm_compute in (u "__name__") in change a with (Ok (PStr c)) in Hp end.
    cbn [bind py_str py_setitem] in Hp.
    match type of Hp with context [aset (u "__name__") ?w ?r] =>
      match r with [?p; ?q] => change (aset (u "__name__") w r) with [(u "__name__", w); q] in Hp end end.
    match type of Hp with (let* x := py_getitem ?a ?b in _) = _ => match a with PDict [?p; (_, ?q)] => change (py_getitem a b) with (Ok q) in Hp end end.
    cbn [bind] in Hp.
    match type of Hp with (let* x := ?a in _) = _ => change a with (Ok (PStr bt)) in Hp end.
    cbn [bind py_str py_setitem] in Hp.
    match type of Hp with context [aset (u "api_version") ?w (aset (u "type") ?w' (?p1 :: ?p2 :: ?p3 :: ?r))] =>
      change (aset (u "api_version") w (aset (u "type") w' (p1 :: p2 :: p3 :: r))) with (p1 :: (u "type", w') :: (u "api_version", w) :: r) in Hp end.
    match type of Hp with (let* x := ?a in _) = _ => change a with (Ok (PDict dc)) in Hp end.
    cbn [bind] in Hp.
    destruct (append_depends_on (PDict dc) (PElem n)) as [cc|e] eqn:Hap; cbn [bind] in Hp; [|discriminate].
    assert (Hcc : exists dc1, cc = PDict dc1).
    { clear -Hap. unfold append_depends_on in Hap. destruct (aget (u "depends_on") dc) as [[]|]; try discriminate; injection Hap as <-; eauto. }
    destruct Hcc as (dc1 & ->).
    match type of Hp with context [process_child_resource E fuel ?a ?b ?c ?x] => destruct (process_child_resource E fuel a b c x) as [[cv more]|e] eqn:Hrec end;
      cbn [bind] in Hp; [|discriminate].
    injection Hp as <- <-. exists fuel, dc1, cv, more. repeat (split; [first [reflexivity|assumption]|]). reflexivity.
  Qed.

  Lemma pcr_lifts : forall fuel n ty api body d o d1 v ch,
    ok E sBody body -> clean body = true -> tf body = Ok (PDict d) -> extra o d d1 ->
    process_child_resource E fuel n ty api (PDict d1) = Ok (v, ch) ->
    exists cfg cfg1 es, lifts E ln n ty api body cfg es /\ map as_entry ch = map Some es /\
      v = PDict cfg1 /\ extra' o cfg cfg1.
  Proof.
    induction fuel as [fuel IH] using lt_wf_ind; intros n ty api body d o d1 v ch Hok Hcl Hv Hex Hp.
    destruct (body_inv body Hok) as [(m & es & -> & Hes)|Hother].
    - destruct (object_value (Some m) es _ Hes (clean_node _ _ _ Hcl) Hv) as (ps & Hd & HF). injection Hd as ->.
      pose proof (extra_aget _ _ _ Hex) as Hr. rewrite aget_dict_of in Hr.
      pose proof (extra_adel _ _ _ Hex) as Hex'. rewrite adel_dict_of in Hex'.
      pose proof (entries_plain _ _ HF) as Hpl.
      destruct (entries_last _ _ HF) as [[Hl1 Hl2]|(mc & c & ct & x & body & bt & dc & Hl & Hc & Hct & Hbo & Hbcl & Hbv & Hlv)].
      + rewrite Hl2 in Hr. destruct (pcr_none _ _ _ _ _ _ _ Hr Hp) as [-> ->].
        rewrite (adel_absent _ _ Hr) in Hex'. do 3 eexists. split; [constructor; [exact Hpl|exact Hl1]|].
        split; [reflexivity|]. split; [reflexivity|]. apply extra_spec. exact Hex'.
      + rewrite Hlv in Hr. destruct (pcr_some _ _ _ _ _ _ _ _ _ _ _ _ Hr Hp) as (fuel' & dc1 & cv & more & -> & Hap & Hrec & -> & ->).
        destruct (IH fuel' (Nat.lt_succ_diag_r _) _ _ _ body dc (Some n) dc1 cv more Hbo Hbcl Hbv Hap Hrec) as (cfg & cfg1 & es' & Hlift & Hent & -> & Hdep).
        do 3 eexists. split; [exact (lifts_child E ln n ty api (Some m) es _ mc c ct x body bt cfg cfg1 es' Hpl Hl Hct Hlift Hdep)|].
        split; [cbn [map]; rewrite Hent; reflexivity|]. split; [reflexivity|]. apply extra_spec. exact Hex'.
    - assert (Hr : aget reserved_key d = None).
      { destruct Hother as [(m & cs & ->)|(m & cs & ->)]; (eapply other_no_key; [|exact Hok|exact Hv]); auto. }
      rewrite <- (extra_aget _ _ _ Hex) in Hr. destruct (pcr_none _ _ _ _ _ _ _ Hr Hp) as [-> ->].
      exists d, d1, []. split; [destruct Hother as [(m & cs & ->)|(m & cs & ->)]; constructor; exact Hv|].
      split; [reflexivity|]. split; [reflexivity|]. apply extra_spec. exact Hex.
  Qed.
End Children.
