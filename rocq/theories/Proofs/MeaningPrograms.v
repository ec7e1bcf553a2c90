(** The report of a program is what its abstract syntax says. *)
From Coq Require Import List Arith NArith ZArith Bool String Lia.
From Verif Require Import Py.Str Py.Val Lark.Tree Lark.Shape Lark.Terminals
  Pycep.Utils Pycep.Decorators Pycep.Functions Pycep.Transformer
  Spec.Json Spec.Schema Spec.Trees Spec.Lexemes Spec.Text Spec.Program Spec.Reports Spec.Parts Spec.Values Spec.Functions Spec.Numbering
  Proofs.Base Proofs.JsonLemmas Proofs.TokenForms Proofs.TreeGrammar Proofs.Transform Proofs.State Proofs.Quiet Proofs.Program
  Proofs.Children Proofs.Elements Proofs.Parts Proofs.Values Proofs.Types
  Props.Values Props.Constructs Props.Functions Props.Types
  Spec.Types Spec.Spelling Spec.Syntax Spec.Reading Spec.Meaning Proofs.Lexable Proofs.Generate Proofs.SyntaxInd Proofs.Derive Proofs.DerivePrograms
  Proofs.Like Proofs.Meaning.
Import ListNotations.
Local Open Scope string_scope.

(** ** Types *)
Fixpoint root (t : ty) : ty := match t with ArrayOf t => root t | _ => t end.
Lemma root_layers t : Nat.iter (layers t) ArrayOf (root t) = t.
Proof.
  induction t as [n|t IH|ts]; [reflexivity| |reflexivity]. cbn [layers root]. change (ArrayOf (Nat.iter (layers t) ArrayOf (root t)) = ArrayOf t). rewrite IH. reflexivity.
Qed.
Lemma suffixes_length n ss : Forall2 like ss (repeat suffix_tree n) -> List.length ss = n.
Proof. revert n. induction ss as [|x ss IH]; intros [|n] H; cbn [repeat] in H; inversion H; subst; cbn [List.length]; auto. Qed.
Lemma base_spells : forall t b, like b (base_tree t) -> spells_base b (root t).
Proof.
  apply (ty_all (fun t => forall b, like b (base_tree t) -> spells_base b (root t))).
  - intros n b H. cbn [base_tree root] in *. apply same_leaf_inv in H as (k & -> & _ & Hv). cbn [Spelling.text] in Hv. rewrite <- Hv. constructor.
  - intros t IH b H. exact (IH b H).
  - intros ts IH b H. cbn [base_tree root] in *. apply same_node_inv in H as (m & cs & -> & H). constructor.
    revert cs H. induction IH as [|t ts Ht Hts IHts]; intros cs H; cbn [map] in H; inversion H as [|c ? cs' ? H1 H2]; subst; [constructor|].
    constructor; [|auto]. apply same_node_inv in H1 as (m1 & cs1 & -> & H1). inversion H1 as [|a ? ss ? Ha Hss]; subst.
    apply same_node_inv in Ha as (m2 & cs2 & -> & Ha). inversion Ha as [|b ? x ? Hb Hx]; subst. inversion Hx; subst.
    rewrite <- (root_layers t), <- (suffixes_length _ _ Hss). constructor. auto.
Qed.
Lemma type_spells t c : like c (type_tree t) -> Types.spells c t.
Proof.
  intros H1. apply same_node_inv in H1 as (m1 & cs1 & -> & H1). inversion H1 as [|a ? ss ? Ha Hss]; subst.
  apply same_node_inv in Ha as (m2 & cs2 & -> & Ha). inversion Ha as [|b ? x ? Hb Hx]; subst. inversion Hx; subst.
  rewrite <- (root_layers t), <- (suffixes_length _ _ Hss). constructor. apply base_spells. exact Hb.
Qed.

(** ** References *)
Lemma longest_span c s : longest c s = (span c s, skipn (List.length (span c s)) s).
Proof.
  induction s as [|x s IH]; [reflexivity|]. cbn [longest span]. destruct (c x); [|reflexivity]. rewrite IH. reflexivity.
Qed.
Lemma strip_app p s s' : strip p s = Some s' <-> s = (p ++ s')%list.
Proof.
  revert s. induction p as [|x p IH]; intros s; cbn [strip app]; [split; congruence|]. destruct s as [|y s]; [split; discriminate|].
  destruct (N.eqb_spec x y) as [->|Hn].
  - rewrite IH. split; congruence.
  - split; [discriminate|]. intros [= -> _]. congruence.
Qed.
Lemma runs_matches tpl : forall s gs, runs tpl s = Some gs <-> exists r, matches tpl s gs r.
Proof.
  induction tpl as [|[l|c] tpl IH]; intros s gs; cbn [runs].
  - split; [intros [= <-]; exists s; constructor|]. intros (r & H). inversion H. reflexivity.
  - split.
    + destruct (strip (u l) s) as [s'|] eqn:Hs; [|discriminate]. intros H. apply IH in H as (r & H). apply strip_app in Hs as ->. exists r. constructor. exact H.
    + intros (r & H). apply fixed_inv in H as (s' & -> & H). rewrite (proj2 (strip_app (u l) (u l ++ s')%list s') eq_refl). apply IH. eauto.
  - rewrite longest_span. destruct (span_spec c s) as (r0 & Hs & Hall & Hnext).
    assert (Hsk : skipn (List.length (span c s)) s = r0) by (rewrite Hs at 2; rewrite skipn_app, skipn_all, Nat.sub_diag; reflexivity).
    rewrite Hsk. split.
    + destruct (span c s) as [|x g] eqn:Hg; [discriminate|]. destruct (runs tpl r0) as [gs'|] eqn:Hr; [|discriminate]. intros [= <-].
      apply IH in Hr as (r & Hr). exists r. rewrite Hs. constructor; try assumption. discriminate.
    + intros (r & H). inversion H as [| |c' tpl' g' s' gs' r' Hne Hall' Hn' Hm Ec Es Egs Er]. subst c' tpl' gs r' s.
      assert (Hgg : span c (g' ++ s')%list = g') by (apply span_app; assumption). rewrite Hgg in Hs. apply app_inv_head in Hs. subst r0. rewrite Hgg.
      destruct g' as [|x g']; [congruence|]. rewrite (proj2 (IH s' gs')) by eauto. reflexivity.
Qed.
Lemma runs_re tpl s : Proofs.Types.good tpl -> re_match (map pc tpl) s = runs tpl s.
Proof.
  intros Hg. destruct (runs tpl s) as [gs|] eqn:Hr.
  - apply (re_match_spec tpl Hg). apply runs_matches. exact Hr.
  - destruct (re_match (map pc tpl) s) as [gs|] eqn:Hm; [|reflexivity]. apply (re_match_spec tpl Hg) in Hm. apply runs_matches in Hm. congruence.
Qed.
Lemma starts_begin p s : starts_with (u p) s = starts p s.
Proof.
  unfold starts. destruct (strip (u p) s) as [s'|] eqn:Hs.
  - apply strip_app in Hs as ->. apply begins_dec. eexists. reflexivity.
  - destruct (starts_with (u p) s) eqn:H; [|reflexivity]. apply begins_dec in H as (r & ->).
    rewrite (proj2 (strip_app (u p) (u p ++ r)%list r) eq_refl) in Hs. discriminate.
Qed.
Lemma path_reference E v c : py_str E v = quote c -> cb_module_path E [v] = reference E c.
Proof.
  intros Hv. unfold cb_module_path. cbn [arg_at nth_error bind]. rewrite Hv, slice_quote.
  change (PUBLIC_BICEP_REGISTRY_PATTERN E) with (map pc (public_ref E)). change (PRIVATE_BICEP_REGISTRY_PATTERN E) with (map pc (private_ref E)).
  change (BICEP_REGISTRY_ALIAS_PATTERN E) with (map pc (alias_ref E)). change (TEMPLATE_SPEC_PATTERN E) with (map pc (spec_ref E)).
  change (TEMPLATE_SPEC_ALIAS_PATTERN E) with (map pc (spec_alias_ref E)).
  rewrite !starts_begin, (runs_re _ c (good_public E)), (runs_re _ c (good_private E)), (runs_re _ c (good_alias E)), (runs_re _ c (good_spec E)), (runs_re _ c (good_spec_alias E)).
  unfold reference. destruct (starts "br:" c).
  - destruct (runs (public_ref E) c) as [[|? [|? [|? ?]]]|]; try reflexivity; destruct (runs (private_ref E) c) as [[|? [|? [|? [|? ?]]]]|]; reflexivity.
  - destruct (starts "br/" c); [destruct (runs (alias_ref E) c) as [[|? [|? [|? [|? ?]]]]|]; reflexivity|].
    destruct (starts "ts:" c); [destruct (runs (spec_ref E) c) as [[|? [|? [|? [|? [|? ?]]]]]|]; reflexivity|].
    destruct (starts "ts/" c); [destruct (runs (spec_alias_ref E) c) as [[|? [|? [|? [|? ?]]]]|]; reflexivity|reflexivity].
Qed.

Lemma reference_shape E c : match reference E c with Ok p => exists kind det, p = refers kind det | Err _ => True end.
Proof.
  destruct (path_total E c) as (r & Hr). pose proof (path_spec E c r (PStr (quote c)) eq_refl Hr) as Hp. rewrite (path_reference E (PStr (quote c)) c eq_refl) in Hp. rewrite Hp.
  destruct Hr; try exact I; do 2 eexists; reflexivity.
Qed.

(** ** Children *)
Section Lifting.
  Variable E : pyenv.
  Notation report := (report E).
  Lemma collect_app {A B} (f : A -> result (list B)) l l' :
    collect f (l ++ l')%list = let* x := collect f l in let* y := collect f l' in Ok (x ++ y)%list.
  Proof.
    induction l as [|a l IH]; cbn [collect app].
    - cbn [bind]. destruct (collect f l'); reflexivity.
    - destruct (f a) as [x|e]; [|reflexivity]. cbn [bind]. rewrite IH. destruct (collect f l) as [y|e]; [|reflexivity]. cbn [bind].
      destruct (collect f l') as [z|e]; [|reflexivity]. cbn [bind]. rewrite app_assoc. reflexivity.
  Qed.
  Definition record (c cty : str) (ex : bool) (v : pyval) : pyval :=
    child_record c (res_attrs (PList []) (PStr cty) (PStr []) (PBool ex) v []).
  Lemma key_clean k : clean (key_tree k) = true -> key_text k <> Schema.reserved_key.
  Proof.
    intros H. destruct k as [v|c|]; cbn [key_text]; [|discriminate|discriminate]. cbn in H. rewrite andb_true_r in H. apply negb_true_iff, str_eqb_neq in H. exact H.
  Qed.
  Definition own_key (kv : str * pyval) : bool := negb (str_eqb Schema.reserved_key (fst kv)).
  (** The pairs of a row of an object. *)
  Lemma pairs_keys k v q more ps : forallb clean (item_trees (Pairs k v q more)) = true -> item_report E (Pairs k v q more) = Ok ps ->
    Forall (fun kv => fst kv <> Schema.reserved_key) ps.
  Proof.
    rewrite report_pairs. cbn [item_trees forallb]. intros Hc. apply andb_true_iff in Hc as [Hk Hc].
    assert (Hk' : key_text k <> Schema.reserved_key) by (apply key_clean; apply clean_node in Hk; cbn [forallb] in Hk; apply andb_true_iff in Hk; tauto).
    destruct (report v) as [x|e]; [|discriminate]. cbn [bind].
    match goal with |- context [collect ?f more] => set (g := f) end.
    destruct (collect g more) as [ps'|e] eqn:Hps; [|discriminate]. cbn [bind]. intros [= <-]. constructor; [exact Hk'|].
    clear - Hps Hc. revert ps' Hps Hc. induction more as [|[[k v] q] more IH]; intros ps' Hps Hc.
    - injection Hps as <-. constructor.
    - cbn [collect map forallb] in *. apply andb_true_iff in Hc as [Hk Hc]. unfold g in Hps at 1.
      destruct (report v) as [x|e]; [|discriminate]. cbn [bind] in Hps. destruct (collect g more) as [ps1|e]; [|discriminate].
      cbn [bind app] in Hps. injection Hps as <-. constructor; [|auto].
      apply key_clean. apply clean_node in Hk. cbn [forallb] in Hk. apply andb_true_iff in Hk. tauto.
  Qed.
  Lemma filter_all {A} (f : A -> bool) l : Forall (fun x => f x = true) l -> filter f l = l.
  Proof. induction 1; cbn [filter]; [reflexivity|]. rewrite H. congruence. Qed.
  Lemma last_value_app {A} k (a b : list (str * A)) : last_value k (a ++ b)%list = match last_value k b with Some v => Some v | None => last_value k a end.
  Proof.
    unfold last_value. rewrite fold_left_app. generalize (fold_left (fun acc kv => if str_eqb k (fst kv) then Some (snd kv) else acc) a None). intros o.
    induction b as [|kv b IH] using rev_ind; cbn [fold_left]; [reflexivity|]. rewrite !fold_left_app. cbn [fold_left].
    destruct (str_eqb k (fst kv)); [reflexivity|]. exact IH.
  Qed.
  Lemma last_value_none {A} k (l : list (str * A)) : Forall (fun kv => fst kv <> k) l -> last_value k l = None.
  Proof.
    induction l as [|kv l IH] using rev_ind; [reflexivity|]. intros H. apply Forall_app in H as [H1 H2]. inversion H2; subst.
    unfold last_value. rewrite fold_left_app. cbn [fold_left]. destruct (str_eqb_spec k (fst kv)) as [->|_]; [congruence|]. exact (IH H1).
  Qed.
  Definition last_item (rows : list (item * list str)) : option item :=
    fold_left (fun acc r => match fst r with Child _ _ _ _ => Some (fst r) | _ => acc end) rows None.
  Lemma rows_facts rows ps : forallb clean (flat_map (fun r => item_trees (fst r)) rows) = true ->
    collect (fun r => item_report E (fst r)) rows = Ok ps ->
    collect (fun r => ordinary_pairs E (fst r)) rows = Ok (filter own_key ps) /\
    match last_item rows with
    | Some (Child c cty ex b) => exists v, report b = Ok v /\ last_value Schema.reserved_key ps = Some (record c cty ex v)
    | _ => last_value Schema.reserved_key ps = None
    end.
  Proof.
    revert ps. induction rows as [|[i brs] rows IH] using rev_ind; intros ps Hc Hps.
    - injection Hps as <-. split; reflexivity.
    - rewrite flat_map_app, forallb_app in Hc. apply andb_true_iff in Hc as [Hc1 Hc2]. rewrite collect_app in Hps.
      destruct (collect (fun r => item_report E (fst r)) rows) as [ps1|e] eqn:Hps1; [|discriminate]. cbn [bind collect fst] in Hps.
      destruct (item_report E i) as [ps2|e] eqn:Hps2; [|discriminate]. cbn [bind] in Hps. rewrite app_nil_r in Hps. injection Hps as <-.
      destruct (IH ps1 Hc1 eq_refl) as [Ha Hb]. clear IH. rewrite collect_app, Ha. cbn [bind collect fst].
      cbn [flat_map fst] in Hc2. rewrite app_nil_r in Hc2. unfold last_item. rewrite fold_left_app. cbn [fold_left fst]. fold (last_item rows).
      rewrite filter_app. destruct i as [k v q more|c cty ex b].
      + pose proof (pairs_keys _ _ _ _ _ Hc2 Hps2) as Hk. unfold ordinary_pairs. rewrite Hps2. cbn [bind]. rewrite app_nil_r.
        assert (Hf : filter own_key ps2 = ps2).
        { apply filter_all. eapply Forall_impl; [|exact Hk]. intros kv Hkv. unfold own_key. destruct (str_eqb_spec Schema.reserved_key (fst kv)); [congruence|reflexivity]. }
        rewrite Hf, last_value_app, (last_value_none _ ps2 Hk). split; [reflexivity|exact Hb].
      + rewrite report_child in Hps2. destruct (report b) as [v|e]; [|discriminate]. cbn [bind] in Hps2. injection Hps2 as <-.
        unfold ordinary_pairs. cbn [bind app]. split; [match goal with |- context [filter own_key [?x]] => change (filter own_key [x]) with (@nil (str * pyval)) end; rewrite !app_nil_r; reflexivity|].
        exists v. split; [reflexivity|]. rewrite last_value_app. reflexivity.
  Qed.
  Definition child_part (n ty api : str) (i : item) : result (list entry) :=
    match i with
    | Child c cty ex b =>
        let name := (n ++ u "__" ++ c)%list in
        let type := (ty ++ u "/" ++ cty)%list in
        let* (cfg, more) := lift E name type api b in
        let* cfg := add_depends n cfg in
        Ok (entry_of "resources" name
              [(u "decorators", PList []); (u "type", PStr type); (u "api_version", PStr api); (u "existing", PBool ex);
               (u "config", PDict cfg)] :: more)
    | _ => Ok []
    end.
  Lemma lift_object n ty api lead rows : lift E n ty api (EObject lead rows) =
    let* ps := collect (fun r => ordinary_pairs E (fst r)) rows in
    let* ch := match last_item rows with Some i => child_part n ty api i | None => Ok [] end in
    Ok (dict_of ps, ch).
  Proof.
    cbn [lift]. destruct (collect (fun r => ordinary_pairs E (fst r)) rows) as [ps|e]; [|reflexivity]. cbn [bind].
    match goal with |- bind ?x _ = bind ?y _ => assert (Hxy : x = y); [|rewrite Hxy; reflexivity] end.
    induction rows as [|[i brs] rows IH] using rev_ind; [reflexivity|]. rewrite fold_left_app. unfold last_item. rewrite fold_left_app. cbn [fold_left fst].
    destruct i as [k v q more|c cty ex b]; [exact IH|]. reflexivity.
  Qed.
  Lemma last_item_child rows i : last_item rows = Some i -> exists brs, In (i, brs) rows /\ match i with Child _ _ _ _ => True | _ => False end.
  Proof.
    induction rows as [|[j brs] rows IH] using rev_ind; [discriminate|]. unfold last_item. rewrite fold_left_app. cbn [fold_left fst].
    destruct j as [k v q more|c cty ex b].
    - intros H. destruct (IH H) as (brs' & Hin & Hi). exists brs'. split; [apply in_or_app; left; exact Hin|exact Hi].
    - intros [= <-]. exists brs. split; [apply in_or_app; right; left; reflexivity|exact I].
  Qed.

  (** The reference to the parent, if any. *)
  Definition extended (o : option str) (d : list (str * pyval)) : result (list (str * pyval)) :=
    match o with None => Ok d | Some p => add_depends p d end.
  Lemma append_add d p : append_depends_on (PDict d) (PElem p) = let* d1 := add_depends p d in Ok (PDict d1).
  Proof.
    unfold append_depends_on, add_depends. destruct (aget (u "depends_on") d) as [[]|] eqn:Hd; try reflexivity.
    cbn [bind]. rewrite aset_absent by (apply aget_none_notin; exact Hd). reflexivity.
  Qed.
  Lemma extended_adel o d : extended o (adel Schema.reserved_key d) = let* d1 := extended o d in Ok (adel Schema.reserved_key d1).
  Proof.
    destruct o as [p|]; [|reflexivity]. cbn [extended]. unfold add_depends. rewrite aget_adel_other by discriminate.
    destruct (aget (u "depends_on") d) as [v|] eqn:Hd.
    - destruct v; try reflexivity. cbn [bind]. rewrite adel_aset_other by discriminate. reflexivity.
    - cbn [bind]. rewrite <- (aset_absent _ _ d) by (apply aget_none_notin; exact Hd).
      rewrite adel_aset_other by discriminate. rewrite aset_absent; [reflexivity|]. apply aget_none_notin. rewrite aget_adel_other by discriminate. exact Hd.
  Qed.
  Lemma extended_aget o d d1 : extended o d = Ok d1 -> aget Schema.reserved_key d1 = aget Schema.reserved_key d.
  Proof.
    destruct o as [p|]; cbn [extended]; [|congruence]. unfold add_depends. destruct (aget (u "depends_on") d) as [v|] eqn:Hd.
    - destruct v; try discriminate. intros [= <-]. apply aget_aset_other. discriminate.
    - intros [= <-]. rewrite <- aset_absent by (apply aget_none_notin; exact Hd). apply aget_aset_other. discriminate.
  Qed.
  Lemma extended_err o d e : extended o d = Err e -> e = EAttributeError.
  Proof.
    destruct o as [p|]; cbn [extended]; [|discriminate]. unfold add_depends. destruct (aget (u "depends_on") d) as [[]|]; congruence.
  Qed.

  (** [process_child_resource] on a dictionary, one step. *)
  Lemma pcr_absent fuel n ty api d : aget Schema.reserved_key d = None -> process_child_resource E fuel n ty api (PDict d) = Ok (PDict d, []).
  Proof. intros Hr. destruct fuel; cbn [process_child_resource has_key bind]; fold Schema.reserved_key; rewrite Hr; reflexivity. Qed.
  Lemma pcr_present fuel n ty api d c cty ex dc : aget Schema.reserved_key d = Some (record c cty ex (PDict dc)) ->
    process_child_resource E (Datatypes.S fuel) n ty api (PDict d) =
    let* dc1 := add_depends n dc in
    let* (cv, more) := process_child_resource E fuel (n ++ u "__" ++ c)%list (ty ++ u "/" ++ cty)%list api (PDict dc1) in
    Ok (PDict (adel Schema.reserved_key d),
        PDict [(u "resources", child_record (n ++ u "__" ++ c)%list
             (res_attrs (PList []) (PStr (ty ++ u "/" ++ cty)%list) (PStr api) (PBool ex) cv []))] :: more).
  Proof.
    intros Hr. cbn [process_child_resource has_key bind]. fold Schema.reserved_key. rewrite Hr. cbn [negb]. unfold record, child_record, res_attrs.
    match goal with |- (let* x := ?a in _) = _ => change a with (Ok (PStr c)) end. cbn [bind py_str py_setitem].
    match goal with |- context [aset (u "__name__") ?w ?r] =>
      match r with [?p; ?q] => change (aset (u "__name__") w r) with [(u "__name__", w); q] end end.
    match goal with |- (let* x := py_getitem ?a ?b in _) = _ => match a with PDict [?p; (_, ?q)] => change (py_getitem a b) with (Ok q) end end.
    cbn [bind]. match goal with |- (let* x := ?a in _) = _ => change a with (Ok (PStr cty)) end. cbn [bind py_str py_setitem].
    match goal with |- context [aset (u "api_version") ?w (aset (u "type") ?w' (?p1 :: ?p2 :: ?p3 :: ?r))] =>
      change (aset (u "api_version") w (aset (u "type") w' (p1 :: p2 :: p3 :: r))) with (p1 :: (u "type", w') :: (u "api_version", w) :: r) end.
    match goal with |- (let* x := ?a in _) = _ => change a with (Ok (PDict dc)) end. cbn [bind]. rewrite append_add.
    destruct (add_depends n dc) as [dc1|e]; [|reflexivity]. cbn [bind].
    destruct (process_child_resource E fuel _ _ _ _) as [[cv more]|e]; reflexivity.
  Qed.

  Definition agree (r : result (pyval * list pyval)) (s : result (list (str * pyval) * list entry)) : Prop :=
    match r, s with
    | Ok (v, ch), Ok (cfg, es) => v = PDict cfg /\ map as_entry ch = map Some es
    | Err x, Err y => x = EAttributeError /\ y = EAttributeError
    | _, _ => False
    end.
  Definition LP (e : expr) : Prop := is_body e = true -> shaped e = true -> clean (tree e) = true ->
    forall d, report e = Ok (PDict d) -> forall o fuel n ty api, pv_depth (PDict d) <= fuel ->
    agree (let* d1 := extended o d in process_child_resource E fuel n ty api (PDict d1))
          (let* (cfg, es) := lift E n ty api e in let* cfg1 := extended o cfg in Ok (cfg1, es)).
  Definition LQ (i : item) : Prop := match i with Child _ _ _ b => LP b | _ => True end.
  Lemma body_dict e v : is_body e = true -> report e = Ok v -> exists d, v = PDict d.
  Proof.
    destruct e; try discriminate; intros _ H; cbn [Spec.Meaning.report] in H.
    - destruct (collect _ _) as [ps|]; [|discriminate]. injection H as <-. eauto.
    - destruct (report e1) as [vo|]; [|discriminate]. cbn [bind] in H. destruct (match cond with Some c => report c | None => Ok PNone end) as [vc|]; [|discriminate]. cbn [bind] in H.
      destruct (report e2) as [vb|]; [|discriminate]. cbn [bind] in H. destruct (within_rule _ _) as [c|]; [|discriminate]. injection H as <-. eexists. reflexivity.
    - destruct (report e1) as [vc|]; [|discriminate]. cbn [bind] in H. destruct (report e2) as [vb|]; [|discriminate]. injection H as <-. eauto.
  Qed.
  Lemma other_case e : is_body e = true -> (match e with EObject _ _ => False | _ => True end) -> forall d, report e = Ok (PDict d) ->
    aget Schema.reserved_key d = None /\ forall n ty api, lift E n ty api e = Ok (d, []).
  Proof.
    intros Hb Hn d Hr. split.
    - destruct e; try discriminate; try contradiction; cbn [Spec.Meaning.report] in Hr.
      + destruct (report e1) as [vo|]; [|discriminate]. cbn [bind] in Hr. destruct (match cond with Some c => report c | None => Ok PNone end) as [vc|]; [|discriminate]. cbn [bind] in Hr.
        destruct (report e2) as [vb|]; [|discriminate]. cbn [bind] in Hr. destruct (within_rule _ _) as [c|]; [|discriminate]. injection Hr as <-. reflexivity.
      + destruct (report e1) as [vc|]; [|discriminate]. cbn [bind] in Hr. destruct (report e2) as [vb|]; [|discriminate]. injection Hr as <-. reflexivity.
    - intros n ty api. destruct e; try discriminate; try contradiction; cbn [lift]; rewrite Hr; reflexivity.
  Qed.
  Lemma other_agrees e : (match e with EObject _ _ => False | _ => True end) -> LP e.
  Proof.
    intros Hn Hb _ _ d Hr o fuel n ty api _. destruct (other_case e Hb Hn d Hr) as [Hk Hl]. rewrite Hl. cbn [bind].
    destruct (extended o d) as [d1|e'] eqn:Hd1; cbn [bind].
    - rewrite pcr_absent by (rewrite (extended_aget _ _ _ Hd1); exact Hk). split; reflexivity.
    - apply extended_err in Hd1 as ->. split; reflexivity.
  Qed.
  Lemma depth_record c cty ex v : Datatypes.S (Datatypes.S (pv_depth v)) <= pv_depth (record c cty ex v).
  Proof. unfold record, child_record, res_attrs. cbn [pv_depth fold_right snd app]. lia. Qed.
  Lemma lifts_agree : (forall e, LP e) /\ (forall i, LQ i).
  Proof.
    assert (H : forall lead rows, Forall (fun r => LQ (fst r)) rows -> LP (EObject lead rows)).
    { intros lead rows IH _ Hw Hc d Hr o fuel n ty api Hf. cbn [Spec.Meaning.report] in Hr.
      match type of Hr with (let* ps := ?x in _) = _ => destruct x as [ps|e] eqn:Hps; [|discriminate] end. cbn [bind] in Hr. injection Hr as <-.
      cbn [tree] in Hc. apply clean_node in Hc. destruct (rows_facts rows ps Hc Hps) as [Ho Hl].
      rewrite lift_object, Ho. cbn [bind].
      assert (Hd : dict_of (filter own_key ps) = adel Schema.reserved_key (dict_of ps)) by (rewrite adel_dict_of; reflexivity).
      rewrite Hd. destruct (last_item rows) as [i|] eqn:Hi.
      - destruct (last_item_child _ _ Hi) as (brs & Hin & Hch). destruct i as [|c cty ex b]; [contradiction|]. destruct Hl as (v & Hv & Hlv).
        assert (Hb : is_body b = true /\ shaped b = true).
        { cbn [shaped] in Hw. rewrite forallb_forall in Hw. specialize (Hw _ Hin). cbn [fst item_shaped] in Hw. apply andb_true_iff in Hw as [Hw _]. apply andb_true_iff in Hw. exact Hw. }
        destruct Hb as [Hb1 Hb2]. destruct (body_dict b v Hb1 Hv) as (dc & ->).
        assert (Hcb : clean (tree b) = true).
        { rewrite forallb_forall in Hc. specialize (Hc (N_ L_child_resource [leaf (Name c); leaf (Quoted cty); existing_tree ex; tree b])).
          assert (Hin' : In (N_ L_child_resource [leaf (Name c); leaf (Quoted cty); existing_tree ex; tree b]) (flat_map (fun r => item_trees (fst r)) rows))
            by (apply in_flat_map; exists (Child c cty ex b, brs); split; [exact Hin|left; reflexivity]).
          specialize (Hc Hin'). apply clean_node in Hc. cbn [forallb] in Hc. rewrite !andb_true_iff in Hc. tauto. }
        rewrite Forall_forall in IH. specialize (IH _ Hin). cbn [fst LQ] in IH.
        assert (Hg : aget Schema.reserved_key (dict_of ps) = Some (record c cty ex (PDict dc))) by (rewrite aget_dict_of; exact Hlv).
        assert (Hdep : pv_depth (record c cty ex (PDict dc)) < pv_depth (PDict (dict_of ps))) by (exact (depth_aget _ _ _ Hg)).
        pose proof (depth_record c cty ex (PDict dc)) as Hdr.
        destruct fuel as [|fuel]; [lia|].
        specialize (IH Hb1 Hb2 Hcb dc Hv (Some n) fuel (n ++ u "__" ++ c)%list (ty ++ u "/" ++ cty)%list api ltac:(lia)).
        cbn [child_part]. cbn [extended] in IH. pose proof (extended_adel o (dict_of ps)) as Hda.
        destruct (extended o (dict_of ps)) as [d1|e] eqn:Hd1; cbn [bind] in Hda |- *.
        + rewrite (pcr_present fuel n ty api d1 c cty ex dc) by (rewrite (extended_aget _ _ _ Hd1); exact Hg).
          destruct (add_depends n dc) as [dc1|e1] eqn:Hdc1; cbn [bind] in IH |- *.
          * destruct (process_child_resource E fuel _ _ api (PDict dc1)) as [[cv more]|e2]; cbn [bind] in IH |- *.
            -- destruct (lift E _ _ api b) as [[cfg es]|e3]; cbn [bind] in IH |- *; [|contradiction].
               destruct (add_depends n cfg) as [cfg1|e4]; cbn [bind] in IH |- *; [|contradiction]. destruct IH as [-> Hes].
               rewrite Hda. cbn [bind agree]. split; [reflexivity|]. cbn [map]. rewrite Hes. reflexivity.
            -- destruct (lift E _ _ api b) as [[cfg es]|e3]; cbn [bind] in IH |- *; [|exact IH].
               destruct (add_depends n cfg) as [cfg1|e4]; cbn [bind] in IH |- *; [contradiction|exact IH].
          * destruct (lift E _ _ api b) as [[cfg es]|e3]; cbn [bind] in IH |- *; [|exact IH].
            destruct (add_depends n cfg) as [cfg1|e4]; cbn [bind] in IH |- *; [contradiction|exact IH].
        + apply extended_err in Hd1 as ->. cbn [agree].
          destruct (add_depends n dc) as [dc1|e1] eqn:Hdc1; cbn [bind] in IH;
            [destruct (process_child_resource E fuel _ _ api (PDict dc1)) as [[cv more]|e2]|];
            (destruct (lift E _ _ api b) as [[cfg es]|e3]; cbn [bind] in IH |- *;
             [destruct (add_depends n cfg) as [cfg1|e4]; cbn [bind] in IH |- *; try contradiction; try (rewrite Hda); cbn [bind]; split; try reflexivity; exact (proj2 IH)|try contradiction; split; try reflexivity; exact (proj2 IH)]).
      - cbn [bind]. rewrite extended_adel. destruct (extended o (dict_of ps)) as [d1|e] eqn:Hd1; cbn [bind].
        + assert (Hk : aget Schema.reserved_key d1 = None) by (rewrite (extended_aget _ _ _ Hd1), aget_dict_of; exact Hl).
          rewrite pcr_absent by exact Hk. cbn [agree]. rewrite adel_absent by exact Hk. split; reflexivity.
        + apply extended_err in Hd1 as ->. split; reflexivity. }
    split; [apply (expr_induction LP LQ)|apply (item_induction LP LQ)]; intros; try exact I; try (apply other_agrees; exact I); try assumption; apply H; assumption.
  Qed.
  Lemma lift_agrees e d n ty api : is_body e = true -> shaped e = true -> clean (tree e) = true -> report e = Ok (PDict d) ->
    agree (process_child_resource E (pv_depth (PDict d)) n ty api (PDict d)) (lift E n ty api e).
  Proof.
    intros H1 H2 H3 H4. pose proof (proj1 lifts_agree e H1 H2 H3 d H4 None _ n ty api (le_n _)) as H. cbn [extended bind] in H.
    destruct (lift E n ty api e) as [[cfg es]|]; exact H.
  Qed.
End Lifting.

Lemma like_clean : forall a b, like a b -> clean a = clean b.
Proof.
  apply (ptree_all (fun a => forall b, like a b -> clean a = clean b)).
  - intros t b H. inversion H; subst. reflexivity.
  - intros b H. inversion H. reflexivity.
  - intros l m cs IH b H. inversion H as [| |? ? ? ? cs' HF]; subst. clear H. cbn [clean].
    assert (H1 : forallb clean cs = forallb clean cs').
    { clear -IH HF. induction HF as [|x y xs ys Hx HF IHF]; [reflexivity|]. inversion IH; subst. cbn [forallb]. f_equal; auto. }
    rewrite H1. f_equal. destruct l; try reflexivity. destruct HF as [|x y xs ys Hx HF]; [reflexivity|]. destruct Hx as [a b Ht Hv| |]; try reflexivity.
    destruct HF; [rewrite Hv; reflexivity|reflexivity].
Qed.

Section Declarations.
  Variable E : pyenv.
  Variable src : str.
  Notation tf := (transform E false).
  Notation good := (good E false src).
  Notation report := (report E).
  Ltac kids := repeat match goal with
    | H : Forall2 like _ [] |- _ => inversion H; subst; clear H
    | H : Forall2 like _ (_ :: _) |- _ => inversion H; subst; clear H
    | H : like _ (TNode _ None _) |- _ => let m := fresh "m" in let cs := fresh "cs" in apply same_node_inv in H as (m & cs & -> & H)
    | H : like _ (leaf _) |- _ => let k := fresh "k" in let Ht := fresh "Hk" in let Hv := fresh "Hv" in
        apply same_leaf_inv in H as (k & -> & Ht & Hv)
    | H : like _ TNone |- _ => apply same_none_inv in H; subst
    end.
  Ltac gk G := eapply good_child; [exact G|cbn [In]; auto 10].

  Lemma type_meaning t c : good c -> like c (type_tree t) -> tf c = Ok (ty_report t).
  Proof.
    intros G H. pose proof (type_spells t c H) as Hs. inversion Hs as [m mb b T ss Hb]; subst.
    destruct (C16_reported E false src _ _ (proj1 G)) as (T' & HT & Hr). rewrite Hr. f_equal. f_equal. exact (C16_determined _ _ _ HT Hs).
  Qed.
  Lemma known_spec n : aget n (DECORATORS E) = None /\ known_deco n = None \/
    exists f ty k, aget n (DECORATORS E) = Some f /\ known_deco n = Some (ty, k) /\
      forall args : list pyval, f n args =
        match k, args with
        | NoArgument, _ => Ok (flag (u ty))
        | _, [] => Err EIndexError
        | AnArgument, a :: _ => Ok (marked (u ty) a)
        | LowerBound, a :: _ => let* v := lower_bound a in Ok (marked (u ty) v)
        | UpperBound, a :: _ => let* z := py_int E a in Ok (marked (u ty) (PInt z))
        end.
  Proof.
    assert (Hmin : forall nm args, deco_min_val nm args = match args with [] => Err EIndexError | a :: _ => let* v := lower_bound a in Ok (marked (u "min_value") v) end).
    { intros nm [|a args]; [reflexivity|]. unfold deco_min_val. cbn [arg_at nth_error bind]. destruct a; try reflexivity.
      unfold lower_bound. cbn [py_get bind]. destruct (aget (u "operator") d) as [o|]; [|reflexivity]. destruct o; try reflexivity.
      cbn [py_get bind]. destruct (aget (u "type") d0) as [t|]; [|reflexivity]. destruct (eq_lit t (u "minus")); reflexivity. }
    assert (Hmax : forall nm args, deco_max_val E nm args = match args with [] => Err EIndexError | a :: _ => let* z := py_int E a in Ok (marked (u "max_value") (PInt z)) end).
    { intros nm [|a args]; reflexivity. }
    unfold known_deco, decorators_known, DECORATORS. cbn [find fst aget].
    repeat match goal with |- context [(u "sys." ++ u ?x)%list] => let s := eval vm_compute in ("sys." ++ x)%string in change (u "sys." ++ u x)%list with (u s) end.
    repeat match goal with
    | |- context [str_eqb n ?x] => destruct (str_eqb n x); cbn [orb];
        [right; do 3 eexists; split; [reflexivity|]; split; [reflexivity|]; intros args; first [apply Hmin|apply Hmax|destruct args; reflexivity]|]
    end.
    left. split; reflexivity.
  Qed.
  Lemma deco_meaning d c : good c -> like c (deco_tree d) -> tf c = deco_report E d.
  Proof.
    intros G H. unfold deco_tree in H. apply same_node_inv in H as (m & cs & -> & H). inversion H as [|k ? vs ? Hk Hvs]; subst.
    apply same_leaf_inv in Hk as (k' & -> & _ & Hv). cbn [Spelling.text] in Hv.
    rewrite (good_node E false src _ _ _ G ltac:(discriminate)). cbn [all_ok]. rewrite transform_tok. unfold deco_report.
    assert (Hcall : forall ws, wrap L_decorator (callv E false L_decorator m (PTok k' :: ws)) =
      within_rule "decorator" (match ws with [] => deco_value E (d_name d) None | w :: _ => deco_value E (d_name d) (Some w) end)).
    { intros ws. unfold callv. cbn [call]. unfold cb_decorator. cbn [py_str]. rewrite Hv. unfold deco_value.
      destruct (known_spec (d_name d)) as [[-> ->]|(f & ty & kd & -> & -> & Hf)].
      - unfold unknown_deco. destruct ws; reflexivity.
      - rewrite Hf. destruct kd, ws as [|w ws]; try reflexivity.
        + destruct (lower_bound w); reflexivity.
        + destruct (py_int E w); reflexivity. }
    destruct (d_arg d) as [e|]; cbn [opt] in Hvs.
    - inversion Hvs as [|t ? ts ? Ht Hts]; subst. inversion Hts; subst. cbn [all_ok].
      rewrite (expr_meaning E false src e t) by (assumption || gk G). destruct (report e) as [v|x]; [|reflexivity]. cbn [bind]. rewrite Hcall. reflexivity.
    - inversion Hvs; subst. cbn [all_ok bind]. rewrite Hcall. reflexivity.
  Qed.
  Lemma all_meaning {A} (f : A -> ptree) (g : A -> result pyval) l : (forall a t, good t -> like t (f a) -> tf t = g a) ->
    forall ts, Forall good ts -> Forall2 like ts (map f l) -> all_ok tf ts = collect (fun a => single (g a)) l.
  Proof.
    intros Hf. induction l as [|a l IH]; intros ts G H; cbn [map] in H; inversion H as [|t ? ts' ? H1 H2]; subst; [reflexivity|].
    inversion G as [|? ? G1 G2]; subst. cbn [all_ok collect]. rewrite (Hf a t G1 H1), (IH ts' G2 H2). destruct (g a) as [v|e]; [|reflexivity]. cbn [bind single].
    destruct (collect _ l); reflexivity.
  Qed.
  Lemma decos_meaning ds c : good c -> like c (decos_tree ds) ->
    (let* v := tf c in Ok (or_empty v)) = decos_report E ds.
  Proof.
    intros G H. destruct ds as [|d ds]; cbn [decos_tree] in H.
    - apply same_none_inv in H as ->. reflexivity.
    - apply same_node_inv in H as (m & cs & -> & H). rewrite (good_node E false src _ _ _ G ltac:(discriminate)).
      rewrite (all_meaning deco_tree (deco_report E) (d :: ds) deco_meaning cs (good_children E false src _ _ _ G) H). unfold decos_report.
      destruct (collect _ (d :: ds)) as [vs|e]; [|reflexivity]. cbn [bind]. unfold callv, wrap. cbn [call bind]. destruct vs; reflexivity.
  Qed.
  Lemma or_null_meaning o c : good c -> like c (or_none tree o) -> tf c = or_null E o.
  Proof. intros G H. destruct o as [e|]; cbn [or_none or_null] in *; [exact (expr_meaning E false src e c G H)|]. apply same_none_inv in H as ->. reflexivity. Qed.
  Lemma over l m cs : good (TNode l m cs) -> l <> L_start ->
    transform_tree E false (TNode l m cs) tstate0 = let* vs := all_ok tf cs in wrap l (call E false l m vs tstate0).
  Proof.
    intros [G _] Hl. destruct (part_ok E src _ G) as (s & Hs). apply transform_over. exact (ok_kids_quiet E s l m cs Hs Hl).
  Qed.

  (** What a declaration adds. *)
  Definition outcome (r : result (pyval * tstate)) (s : result entries) : Prop :=
    match r, s with
    | Ok (v, st), Ok (own, imps, ch) => to_entries v own /\ map as_entry (imports st) = map Some imps /\ map as_entry (child_resources st) = map Some ch
    | Err e, Err e' => e = e'
    | _, _ => False
    end.
  Lemma alias_meaning a c : like c (maybe_name a) -> ok E (sOpt (sTok "STRING")) c ->
    a <> Some [] /\ exists w, tf c = Ok w /\ (if truthy w then [(u "alias", PStr (py_str E w))] else []) = alias_attr a.
  Proof.
    intros H Hok. destruct a as [n|]; cbn [maybe_name] in H.
    - apply same_leaf_inv in H as (k & -> & _ & Hv).
      destruct (alias_val E false (TTok k) (PTok k) Hok eq_refl) as [[? _]|(t & _ & [= <-] & Htr)]; [discriminate|].
      split; [intros [= ->]; cbn [truthy] in Htr; rewrite Hv in Htr; discriminate|]. exists (PTok k). split; [reflexivity|]. rewrite Htr. cbn [py_str alias_attr opt]. rewrite Hv. reflexivity.
    - apply same_none_inv in H as ->. split; [discriminate|]. exists PNone. split; reflexivity.
  Qed.
  Definition symbol_alias (s : symbol) : option str := match s with SName _ a | SAll a => a end.
  Definition symbol_record (s : symbol) : pyval :=
    match s with
    | SName v a => PDict ((u "name", PStr v) :: alias_attr a)
    | SAll a => PDict ((u "name", PStr (u "*")) :: alias_attr a)
    end.
  Lemma symbol_meaning s c : good c -> ok E sImp c -> like c (symbol_tree s) -> tf c = Ok (symbol_record s) /\ symbol_alias s <> Some [].
  Proof.
    intros G Hok H. assert (Hx : exists k a, symbol_tree s = N_ L_import_alias [leaf k; maybe_name a] /\ symbol_record s = PDict ((u "name", PStr (text k)) :: alias_attr a) /\ symbol_alias s = a).
    { destruct s as [v a|a]; do 2 eexists; repeat split; reflexivity. }
    destruct Hx as (k & a & Ht & Hr & ->). rewrite Ht in H. rewrite Hr. clear Ht Hr.
    apply same_node_inv in H as (m & cs & -> & H). inversion H as [|x1 ? l1 ? Hx1 Hl1]; subst. inversion Hl1 as [|x2 ? l2 ? Hx2 Hl2]; subst. inversion Hl2; subst.
    apply same_leaf_inv in Hx1 as (k1 & -> & _ & Hv).
    rewrite (good_node E false src _ _ _ G ltac:(discriminate)). cbn [all_ok]. rewrite transform_tok.
    assert (Ha : ok E (sOpt (sTok "STRING")) x2) by (inversion Hok; subst; assumption).
    destruct (alias_meaning a x2 Hx2 Ha) as (Hn & w & -> & Hw). split; [|exact Hn]. cbn [bind]. rewrite <- Hw, <- Hv. unfold callv. cbn [call]. unfold cb_import_alias, py_str'. cbn [py_str].
    destruct (truthy w); reflexivity.
  Qed.
  Lemma import_meaning m k c s : tk E "QUOTED_INTERPOLATION" k -> tval k = quote c -> symbol_alias s <> Some [] ->
    exists v, import_entry E false m (PTok k) (symbol_record s) = Ok v /\ as_entry v = Some (import_report c s).
  Proof.
    intros Hk Hv Hn. unfold import_entry. rewrite (quoted_val E _ _ Hk Hv).
    destruct s as [v [[|x a]|]|[[|x a]|]]; try (exfalso; exact (Hn eq_refl)); eexists; (split; [reflexivity|]); reflexivity.
  Qed.
  Lemma imports_meaning m k c ss : tk E "QUOTED_INTERPOLATION" k -> tval k = quote c -> Forall (fun s => symbol_alias s <> Some []) ss ->
    exists vs, import_entries E false m (PTok k) (map symbol_record ss) = Ok vs /\ map as_entry vs = map Some (map (import_report c) ss).
  Proof.
    intros Hk Hv. induction 1 as [|s ss Hs Hss (vs & IH1 & IH2)]; [exists []; split; reflexivity|].
    destruct (import_meaning m k c s Hk Hv Hs) as (v & H1 & H2). exists (v :: vs). cbn [map import_entries]. rewrite H1. cbn [bind]. rewrite IH1. cbn [bind]. split; [reflexivity|congruence].
  Qed.

  Lemma symbols_meaning ss cs : Forall good cs -> oks E sImp cs -> Forall2 like cs (map symbol_tree ss) ->
    all_ok tf cs = Ok (map symbol_record ss) /\ Forall (fun s => symbol_alias s <> Some []) ss.
  Proof.
    revert cs. induction ss as [|s ss IH]; intros cs G Hok H; cbn [map] in H; inversion H as [|c ? cs' ? H1 H2]; subst; [split; [reflexivity|constructor]|].
    inversion G as [|? ? G1 G2]; subst. inversion Hok as [|? ? ? O1 O2]; subst. destruct (symbol_meaning s c G1 O1 H1) as [Ha Hb]. destruct (IH cs' G2 O2 H2) as [Hc Hd].
    split; [cbn [all_ok map]; rewrite Ha, Hc; reflexivity|constructor; assumption].
  Qed.
  Lemma import_call m k c ss : tk E "QUOTED_INTERPOLATION" k -> tval k = quote c -> Forall (fun s => symbol_alias s <> Some []) ss -> ss <> [] ->
    outcome (wrap L_custom_import (call E false L_custom_import m (map symbol_record ss ++ [PTok k])%list tstate0)) (Ok ([], map (import_report c) ss, [])).
  Proof.
    intros Hk Hv Hn Hne. destruct (imports_meaning m k c ss Hk Hv Hn) as (vs & H1 & H2). cbn [call].
    assert (Hcall : cb_custom_import E false m (map symbol_record ss ++ [PTok k])%list = Ok vs).
    { destruct ss as [|s ss]; [congruence|]. unfold cb_custom_import. cbn [map app] in *.
      destruct (map symbol_record ss ++ [PTok k])%list as [|y l] eqn:Hl; [destruct ss; discriminate|]. rewrite <- Hl.
      change (symbol_record s :: (map symbol_record ss ++ [PTok k]))%list with ((symbol_record s :: map symbol_record ss) ++ [PTok k])%list. rewrite last_last, removelast_last. exact H1. }
    rewrite Hcall. cbn [bind]. unfold wrap, outcome. split; [left; split; reflexivity|]. split; [exact H2|reflexivity].
  Qed.
  Lemma params_meaning ps cs : Forall good cs -> Forall2 like cs (flat_map param_trees ps) ->
    exists vs, all_ok tf cs = Ok vs /\ zip_pairs E vs = Ok (map (fun p => (fst p, ty_report (snd p))) ps).
  Proof.
    revert cs. induction ps as [|[n t] ps IH]; intros cs G H; cbn [flat_map param_trees app fst snd] in H.
    - inversion H; subst. exists []. split; reflexivity.
    - inversion H as [|c1 ? cs1 ? H1 H2]; subst. inversion H2 as [|c2 ? cs2 ? H3 H4]; subst. inversion G as [|? ? G1 G2]; subst. inversion G2 as [|? ? G3 G4]; subst.
      destruct (IH cs2 G4 H4) as (vs & Hvs & Hz). apply same_leaf_inv in H1 as (k & -> & _ & Hv). cbn [Spelling.text] in Hv.
      exists (PTok k :: ty_report t :: vs). cbn [all_ok]. rewrite transform_tok, (type_meaning t c2 G3 H3), Hvs. split; [reflexivity|].
      cbn [zip_pairs map fst snd py_str]. rewrite Hz, Hv. reflexivity.
  Qed.
  Lemma existing_meaning c ex : like c (existing_tree ex) -> exists w, tf c = Ok w /\ truthy w = ex.
  Proof. exact (existing_case E false c ex). Qed.
  Lemma type_true t : truthy (ty_report t) = true \/ exists v, t = Named v.
  Proof. destruct t; [right; eauto|left; reflexivity|left; reflexivity]. Qed.

  Lemma decos_cases ds c : good c -> like c (decos_tree ds) ->
    (exists w, tf c = Ok w /\ decos_report E ds = Ok (or_empty w)) \/ (exists e, tf c = Err e /\ decos_report E ds = Err e).
  Proof.
    intros G H. pose proof (decos_meaning ds c G H) as Hd. destruct (tf c) as [w|e]; cbn [bind] in Hd; rewrite <- Hd; eauto.
  Qed.
  Lemma truthy_name n k : tk E n k -> n = "STRING" -> truthy (PStr (tval k)) = true.
  Proof. intros [_ Ht] ->. apply tok_string in Ht as (c & s & Hs & _). cbn [truthy]. rewrite Hs. reflexivity. Qed.

  Ltac decos := match goal with G : good _, H : like ?c (decos_tree ?ds) |- _ =>
    let w := fresh "wd" in let e := fresh "e" in let H1 := fresh "Hd" in let H2 := fresh "Hdr" in
    destruct (decos_cases ds c ltac:(gk G) H) as [(w & H1 & H2)|(e & H1 & H2)]; rewrite H1, H2; cbn [bind]; [|reflexivity] end.
  Ltac part e v := match goal with G : good _, H : like ?c (tree e) |- _ =>
    rewrite (expr_meaning E false src e c ltac:(gk G) H); destruct (report e) as [v|?]; cbn [bind]; [|reflexivity] end.
  Ltac typed t := match goal with G : good _, H : like ?c (type_tree t) |- _ => rewrite (type_meaning t c ltac:(gk G) H); cbn [bind] end.
  Ltac finish := unfold wrap, pure, with_lines, py_str'; cbn [bind py_str]; repeat match goal with H : tval ?k = _ |- context [tval ?k] => rewrite H end;
    split; [right; eexists; split; reflexivity|split; reflexivity].
  Definition clean_body (d : decl) : Prop := match d with DResource _ _ _ _ e => clean (tree e) = true | _ => True end.
  Lemma import_inv m cs : ok E sElem (TNode L_custom_import m cs) -> exists pre k, cs = (pre ++ [TTok k])%list /\ oks E sImp pre /\ tk E "QUOTED_INTERPOLATION" k.
  Proof.
    intros H. inversion H; subst.
    - match goal with H : ok E (sTok _) _ |- _ => apply tok_inv in H as (k & -> & H); exists [], k end. split; [reflexivity|]. split; [constructor|assumption].
    - match goal with H : ok E (sTok _) _ |- _ => apply tok_inv in H as (k & -> & H) end. eexists (_ :: _), k. split; [reflexivity|]. split; [constructor; assumption|assumption].
  Qed.
  Lemma extension_inv m a b c : ok E sElem (TNode L_extension m [a; b; c]) -> ok E (sOpt (sTok "STRING")) c.
  Proof. intros H. inversion H; subst. assumption. Qed.
  Lemma symbols_case ss m cs c0 : good (TNode L_custom_import m cs) -> ok E sElem (TNode L_custom_import m cs) -> ss <> [] ->
    Forall2 like cs (map symbol_tree ss ++ [leaf (Quoted c0)])%list ->
    outcome (let* vs := all_ok tf cs in wrap L_custom_import (call E false L_custom_import m vs tstate0)) (Ok ([], map (import_report c0) ss, [])).
  Proof.
    intros G Hok Hne H. destruct (import_inv m cs Hok) as (pre & k & -> & Hpre & Hk). apply Forall2_app_inv_r in H as (l1 & l2 & H1 & H2 & He).
    inversion H2 as [|x ? l3 ? Hx Hl]; subst. inversion Hl; subst. apply app_inj_tail in He as [He1 He2]. subst.
    apply same_leaf_inv in Hx as (k' & Hkk & _ & Hv). injection Hkk as <-. cbn [Spelling.text] in Hv.
    assert (Gp : Forall good l1) by (apply good_children in G; apply Forall_app in G; tauto).
    destruct (symbols_meaning ss l1 Gp Hpre H1) as [Ha Hn]. rewrite all_ok_app, Ha. cbn [bind all_ok]. rewrite transform_tok. cbn [bind].
    apply import_call; assumption.
  Qed.

  Lemma decl_meaning d c : good c -> ok E sElem c -> decl_shaped d = true -> clean_body d -> like c (decl_tree d) ->
    outcome (transform_tree E false c tstate0) (decl_report E d).
  Proof.
    intros G Hok Hw Hcl H. destruct d as [c0|c0|s c0|s more c0|n config alias|n c0|ds n t q e|ds n t e|ds n t q e|ds n c0 ex e|ds n c0 e|ds n e more|ds n params t e];
      cbn [decl_tree] in H; apply same_node_inv in H as (m & cs & -> & H); rewrite (over _ _ _ G ltac:(discriminate)).
    - (* scope *) kids. cbn [Spelling.text] in *. cbn [all_ok bind]. rewrite transform_tok. cbn [bind call]. unfold cb_scope. cbn [arg_at nth_error bind py_str]. rewrite Hv, slice_quote.
      cbn [decl_report]. change (map u ["resourceGroup"; "subscription"; "managementGroup"; "tenant"]) with VALID_TARGET_SCOPES.
      destruct (existsb (str_eqb c0) VALID_TARGET_SCOPES); [finish|reflexivity].
    - (* namespace *) destruct (import_inv m cs Hok) as (pre & k & -> & Hpre & Hk). destruct pre as [|x pre]; [|inversion H as [|? ? ? ? ? Hx]; inversion Hx; destruct pre; discriminate].
      cbn [app] in *. inversion H as [|? ? ? ? Hx _]; subst. apply same_leaf_inv in Hx as (k' & Hkk & _ & Hv). injection Hkk as <-. cbn [Spelling.text] in Hv.
      cbn [all_ok bind]. rewrite transform_tok. cbn [bind call]. unfold cb_custom_import.
      rewrite (quoted_val E _ c0 Hk) by assumption. cbn [bind]. unfold wrap. split; [left; split; reflexivity|]. split; reflexivity.
    - (* import *) exact (symbols_case [s] m cs c0 G Hok ltac:(discriminate) H).
    - (* imports *) exact (symbols_case (s :: more) m cs c0 G Hok ltac:(discriminate) H).
    - (* extension *) kids. cbn [Spelling.text] in *.
      match goal with Ha : like ?x (maybe_name alias) |- _ => destruct (alias_meaning alias x Ha (extension_inv _ _ _ _ Hok)) as (_ & w & Hwa & Hal) end.
      match goal with Hc : like ?x (or_none tree config) |- _ => cbn [all_ok]; rewrite transform_tok, (or_null_meaning config x ltac:(gk G) Hc), Hwa end.
      cbn [decl_report]. rewrite <- Hal. destruct (or_null E config) as [v|e]; [|reflexivity]. cbn [bind call]. unfold cb_extension, wrap, pure, with_lines. cbn [bind].
      split; [right; eexists; split; [|reflexivity]|split; reflexivity]. unfold py_str'. cbn [py_str]. rewrite Hv. destruct (truthy w); [reflexivity|]. rewrite app_nil_r. reflexivity.
    - (* metadata *) kids. cbn [Spelling.text] in *. cbn [all_ok]. rewrite transform_tok.
      match goal with |- context [tf (TNode L_string ?ms ?x)] => assert (Gs : good (TNode L_string ms x)) by (gk G);
        rewrite (expr_meaning E false src (EStr c0) (TNode L_string ms x) Gs) by (cbn [tree]; apply like_node; apply Forall2_cons; [apply like_tok; assumption|apply Forall2_nil]) end.
      cbn [Spec.Meaning.report bind call decl_report]. unfold cb_metadata. finish.
    - (* param *) kids. cbn [Spelling.text] in *. cbn [all_ok decl_report]. decos. rewrite transform_tok. typed t.
      match goal with Hc : like ?x (or_none tree e) |- _ => rewrite (or_null_meaning e x ltac:(gk G) Hc) end.
      destruct (or_null E e) as [v|?]; [|reflexivity]. cbn [bind call]. unfold cb_param. finish.
    - (* var *) kids. cbn [Spelling.text] in *. cbn [all_ok decl_report]. decos. rewrite transform_tok.
      match goal with Hc : like ?x (or_none _ t) |- _ => assert (Gt : good x) by (gk G); assert (Hty : exists w, tf x = Ok w /\
        (if truthy w then [(u "type", w)] else []) = opt (fun a => [(u "type", ty_report (fst a))]) t) end.
      { assert (Hot : ok E (sOpt sType) x1) by (inversion Hok; subst; assumption).
        destruct t as [[t q]|]; cbn [or_none opt fst] in *.
        - exists (ty_report t). pose proof (type_meaning t x1 Gt ltac:(assumption)) as Ht. split; [exact Ht|].
          assert (Hx1 : ok E sType x1) by (inversion Hot; subst; [exfalso; match goal with H : like TNone _ |- _ => inversion H end|assumption]).
          rewrite (type_truthy E false x1 _ Hx1 Ht). reflexivity.
        - kids. exists PNone. split; reflexivity. }
      destruct Hty as (w & Hwt & <-). rewrite Hwt. cbn [bind]. part e v. cbn [call]. unfold cb_var.
      unfold wrap, pure, with_lines, py_str'; cbn [bind py_str]. split; [right; eexists; split; [|reflexivity]|split; reflexivity]. rewrite Hv. destruct (truthy w); reflexivity.
    - (* output *) kids. cbn [Spelling.text] in *. cbn [all_ok decl_report]. decos. rewrite transform_tok. typed t. part e v. cbn [call]. unfold cb_output. finish.
    - (* resource *) kids. cbn [Spelling.text] in *. cbn [all_ok decl_report]. decos. rewrite !transform_tok. cbn [bind].
      match goal with |- context [tf (TNode L_type_api_pair ?ms ?x)] => assert (Gs : good (TNode L_type_api_pair ms x)) by (gk G);
        rewrite (good_node E false src _ _ _ Gs ltac:(discriminate)) end. cbn [all_ok]. rewrite transform_tok. cbn [bind]. unfold callv at 1. cbn [call].
      unfold cb_type_api_pair. cbn [arg_at nth_error bind py_str]. match goal with H : tval _ = quote c0 |- _ => rewrite H, slice_quote end.
      destruct (split_char 64 c0) as [|ty [|api [|? ?]]] eqn:Hsp; [reflexivity|reflexivity| |reflexivity]. unfold wrap at 1. cbn [pure bind].
      match goal with Hx : like _ (existing_tree ex) |- _ => destruct (existing_meaning _ _ Hx) as (w & Hwx & Htx) end. rewrite Hwx. cbn [bind].
      cbn [decl_shaped] in Hw. rewrite !andb_true_iff in Hw. destruct Hw as (_ & Hb & Hwf).
      match goal with H : like ?c (tree e) |- _ => rewrite (expr_meaning E false src e c ltac:(gk G) H) end.
      destruct (report e) as [v|?] eqn:Hre; cbn [bind]; [|reflexivity]. destruct (body_dict E e v Hb Hre) as (dd & ->).
      pose proof (lift_agrees E e dd n ty api Hb Hwf Hcl Hre) as Hag.
      cbn [call]. unfold cb_resource. cbn [py_str]. match goal with H : tval _ = n |- _ => rewrite H end.
      change (py_getitem _ (u "type")) with (Ok (PStr ty)). change (py_getitem _ (u "api_version")) with (Ok (PStr api)). cbn [bind py_str].
      destruct (process_child_resource E (pv_depth (PDict dd)) n ty api (PDict dd)) as [[cv ch]|?]; destruct (lift E n ty api e) as [[cfg es]|?]; cbn [agree] in Hag; try contradiction.
      + destruct Hag as [-> Hes]. cbn [bind within_rule]. unfold wrap, with_lines. cbn [bind]. split; [right; eexists; split; [|reflexivity]|split; [reflexivity|exact Hes]].
        rewrite Htx. reflexivity.
      + destruct Hag as [-> ->]. reflexivity.
    - (* module *) kids. cbn [Spelling.text] in *. cbn [all_ok decl_report]. decos. rewrite transform_tok. cbn [bind].
      match goal with |- context [tf (TNode L_module_path ?ms ?x)] => assert (Gs : good (TNode L_module_path ms x)) by (gk G);
        rewrite (good_node E false src _ _ _ Gs ltac:(discriminate)) end. cbn [all_ok]. rewrite transform_tok. cbn [bind]. unfold callv at 1. cbn [call].
      match goal with H : tval ?k = quote c0 |- _ => rewrite (path_reference E (PTok k) c0 H) end. pose proof (reference_shape E c0) as Hshape.
      destruct (reference E c0) as [p|?]; [|reflexivity]. destruct Hshape as (kind & det & ->). unfold wrap at 1. cbn [pure within_rule bind].
      part e v. cbn [call]. unfold cb_module. change (py_getitem _ (u "type")) with (Ok (PStr (u kind))). change (py_getitem _ (u "detail")) with (Ok (PDict det)). cbn [bind]. finish.
    - (* type *) kids. cbn [Spelling.text] in *. cbn [all_ok decl_report]. decos. rewrite transform_tok. cbn [bind].
      assert (Hval : tf x1 = let* v := report e in let* vs := collect (fun x => single (report x)) more in
        Ok (match vs with [] => v | _ => PStr (join (u " | ") (map (py_str E) (v :: vs))) end)).
      { assert (G1 : good x1) by (gk G). destruct more as [|e' more].
        - rewrite (expr_meaning E false src e x1) by assumption. cbn [collect bind]. destruct (report e); reflexivity.
        - match goal with H : like x1 _ |- _ => apply same_node_inv in H as (mt & ct & -> & Ht) end.
          rewrite (good_node E false src _ _ _ G1 ltac:(discriminate)).
          rewrite (all_meaning tree report (e :: e' :: more) (expr_meaning E false src) ct (good_children E false src _ _ _ G1) Ht). cbn [collect].
          destruct (report e) as [v|]; [|reflexivity]. cbn [single bind]. destruct (report e') as [v'|]; [|reflexivity]. cbn [single bind].
          destruct (collect _ more) as [vs|]; reflexivity. }
      rewrite Hval. destruct (report e) as [v|]; [|reflexivity]. cbn [bind]. destruct (collect _ more) as [vs|]; [|reflexivity]. cbn [bind call]. unfold cb_custom_type. finish.
    - (* func *) inversion H as [|x0 ? l0 ? Hd0 Hl0]; subst. inversion Hl0 as [|x1 ? l1 ? Hd1 Hl1]; subst. apply Forall2_app_inv_r in Hl1 as (ps & l2 & Hps & Hl2 & ->).
      inversion Hl2 as [|x2 ? l3 ? Hd2 Hl3]; subst. inversion Hl3 as [|x3 ? l4 ? Hd3 Hl4]; subst. inversion Hl4; subst. apply same_leaf_inv in Hd1 as (k & -> & _ & Hv). cbn [Spelling.text] in Hv.
      assert (Gs : Forall good (x0 :: TTok k :: ps ++ [x2; x3])%list) by exact (good_children E false src _ _ _ G).
      inversion Gs as [|? ? G0 Gs1]; subst. inversion Gs1 as [|? ? _ Gs2]; subst. apply Forall_app in Gs2 as [Gp Gs3]. inversion Gs3 as [|? ? G2 Gs4]; subst. inversion Gs4 as [|? ? G3 _]; subst.
      cbn [all_ok decl_report]. destruct (decos_cases ds x0 G0 Hd0) as [(wd & H1 & H2)|(ed & H1 & H2)]; rewrite H1, H2; cbn [bind]; [|reflexivity].
      rewrite transform_tok, all_ok_app. destruct (params_meaning params ps Gp Hps) as (vs & Hvs & Hz). rewrite Hvs. cbn [bind all_ok].
      rewrite (type_meaning t x2 G2 Hd2), (expr_meaning E false src e x3 G3 Hd3). destruct (report e) as [v|]; [|reflexivity]. cbn [bind call].
      unfold cb_custom_func. rewrite rev_app_distr. cbn [rev app]. rewrite rev_involutive, Hz. cbn [bind]. finish.
  Qed.

  (** ** Programs *)
  Definition fit (d : decl) (c : ptree) : Prop := good c /\ ok E sElem c /\ decl_shaped d = true /\ clean_body d /\ like c (decl_tree d).
  Lemma decls_outs ds cs outs : Forall2 fit ds cs -> Forall2 (reported E false) cs outs ->
    exists a b c ess, decls_report E ds = Ok (a, b, c) /\ Forall2 to_entries (map fst outs) ess /\ List.concat ess = a /\
      map as_entry (imports (State.collect outs)) = map Some b /\ map as_entry (child_resources (State.collect outs)) = map Some c.
  Proof.
    intros H. revert outs. induction H as [|d c ds cs (G & Hok & Hw & Hcl & Hs) HF IH]; intros outs Ho.
    - inversion Ho; subst. exists [], [], [], []. repeat split; constructor.
    - inversion Ho as [|? [v st] ? outs' H1 H2]; subst. destruct (IH outs' H2) as (a' & b' & c' & ess & Hd & Hess & Ha & Hb & Hc).
      pose proof (decl_meaning d c G Hok Hw Hcl Hs) as Hm. unfold reported in H1. cbn [fst snd] in H1. rewrite H1 in Hm. cbn [outcome] in Hm.
      destruct (decl_report E d) as [[[a0 b0] c0]|e] eqn:Hr; [|contradiction]. destruct Hm as (He & Hi & Hch).
      exists (a0 ++ a')%list, (b0 ++ b')%list, (c0 ++ c')%list, (a0 :: ess). cbn [decls_report]. rewrite Hr, Hd. cbn [bind]. split; [reflexivity|].
      split; [constructor; assumption|]. split; [cbn [List.concat]; congruence|].
      unfold State.collect. cbn [map fold_right snd st_app imports child_resources]. split; apply map_as_app; assumption.
  Qed.
  Lemma decls_error ds cs a c b outs e : Forall2 fit ds cs -> cs = (a ++ c :: b)%list -> Forall2 (reported E false) a outs ->
    transform_tree E false c tstate0 = Err e -> decls_report E ds = Err e.
  Proof.
    intros H. revert a outs. induction H as [|d x ds cs (G & Hok & Hw & Hcl & Hs) HF IH]; intros a outs He Ho Hc; [destruct a; discriminate|].
    pose proof (decl_meaning d x G Hok Hw Hcl Hs) as Hm. cbn [decls_report]. destruct a as [|y a].
    - injection He as -> ->. rewrite Hc in Hm. cbn [outcome] in Hm. destruct (decl_report E d) as [[[? ?] ?]|e']; [contradiction|]. unfold outcome in Hm. rewrite Hm. reflexivity.
    - injection He as -> He. inversion Ho as [|? [v st] ? outs' H1 H2]; subst. unfold reported in H1. cbn [fst snd] in H1. rewrite H1 in Hm. cbn [outcome] in Hm.
      destruct (decl_report E d) as [[[? ?] ?]|e']; [|contradiction]. cbn [bind]. rewrite (IH a outs' eq_refl H2 Hc). reflexivity.
  Qed.
  Lemma start_meaning m ds cs : oks E sElem cs -> Forall2 fit ds cs ->
    tf (TNode L_start m cs) = let* (a, b, c) := decls_report E ds in Ok (document (default_scope false :: a ++ b ++ c)).
  Proof.
    intros Hok HF. unfold transform. rewrite transform_node.
    assert (Hn : forallb nostart cs = true) by (apply (proj1 (proj2 (ok_nostart E)) sElem cs Hok); reflexivity).
    pose proof (transform_list_reports E false cs Hn) as H. destruct (transform_list E false cs tstate0) as [[vs d]|e]; cbn [bind].
    - destruct H as (outs & Ho & -> & ->). destruct (decls_outs ds cs outs HF Ho) as (a & b & c & ess & -> & Hess & Ha & Hb & Hc). cbn [bind].
      assert (Hall : Forall2 to_entries (map fst outs ++ imports (State.collect outs) ++ child_resources (State.collect outs))%list
                (ess ++ map (fun e => [e]) b ++ map (fun e => [e]) c)%list).
      { apply Forall2_app; [exact Hess|]. apply Forall2_app; apply to_entries_some; assumption. }
      apply (cb_start_document false) in Hall. unfold call, pure. rewrite Hall. cbn [bind wrap]. unfold wrap.
      rewrite !concat_app, !concat_single, Ha. reflexivity.
    - destruct H as (a & c & b & outs & He & Ho & Hc). rewrite (decls_error ds cs a c b outs e HF He Ho Hc). reflexivity.
  Qed.
End Declarations.
