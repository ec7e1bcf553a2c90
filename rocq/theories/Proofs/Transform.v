(** The transformer on trees of the grammar: every callback's result has the
    documented shape, and every failure is a VisitError around a Python
    exception. *)
From Coq Require Import List Arith NArith ZArith Bool String Lia.
From Verif Require Import Py.Str Py.Val Pycep.Utils Pycep.Decorators Pycep.Functions Pycep.Transformer Lark.Tree
  Spec.Json Spec.Schema Spec.Trees Spec.Outcomes
  Proofs.Base Proofs.JsonLemmas Proofs.FunctionsLemmas Proofs.Lexer Proofs.TreeGrammar.
Import ListNotations.
Local Open Scope string_scope.
#[global] Arguments S _ : simpl never.
#[global] Arguments wrap {A} l r : simpl never.

Scheme ok_mut := Minimality for ok Sort Prop
  with oks_mut := Minimality for oks Sort Prop
  with okp_mut := Minimality for okp Sort Prop.
Combined Scheme ok_mutind from ok_mut, oks_mut, okp_mut.

(** ** Unfolding the traversal *)
Section Lists.
  Variable E : pyenv.
  Variable ln : bool.
  Fixpoint transform_list (cs : list ptree) (st : tstate) : result (list pyval * tstate) :=
    match cs with
    | [] => Ok ([], st)
    | c :: cs' =>
        let* (v, st1) := transform_tree E ln c st in
        let* (vs, st2) := transform_list cs' st1 in
        Ok (v :: vs, st2)
    end.
  Lemma transform_node l m cs st : transform_tree E ln (TNode l m cs) st =
    let* (args, st') := transform_list cs st in wrap l (call E ln l m args st').
  Proof. reflexivity. Qed.
  Lemma transform_list_app a : forall b st, transform_list (a ++ b) st =
    let* (vs, st1) := transform_list a st in
    let* (ws, st2) := transform_list b st1 in Ok (vs ++ ws, st2)%list.
  Proof.
    induction a as [|c a IH]; intros b st; cbn [app transform_list].
    - cbn [bind]. destruct (transform_list b st) as [[ws st2]|e]; reflexivity.
    - destruct (transform_tree E ln c st) as [[v st1]|e]; [|reflexivity]. cbn [bind]. rewrite IH.
      destruct (transform_list a st1) as [[vs st2]|e]; [|reflexivity]. cbn [bind].
      destruct (transform_list b st2) as [[ws st3]|e]; reflexivity.
  Qed.
End Lists.

(** ** Shapes of values *)
Section Shapes.
  Variable E : pyenv.
  Variable ln : bool.
  Variable mg : bool.        (* lenient: the reserved key may be written *)

  Definition tail_ok (tl : list (str * pyval)) : Prop :=
    Forall2 (fun c kv => fst kv = u (fst c) /\ has_aty (snd c) (snd kv)) (line_keys ln) tl.
  Definition res_attrs (dec ty api ex cfg : pyval) (tl : list (str * pyval)) : list (str * pyval) :=
    ((u "decorators", dec) :: (u "type", ty) :: (u "api_version", api) :: (u "existing", ex) :: (u "config", cfg) :: tl).
  (** The record [child_resource] builds. *)
  Definition child_record (n : str) (attrs : list (str * pyval)) : pyval :=
    PDict [(u "__name__", PStr n); (u "__attrs__", PDict attrs)].
  Inductive body : pyval -> Prop :=
  | body_leaf d : json (PDict d) -> aget reserved_key d = None -> body (PDict d)
  | body_child d n dec ty api ex cfg tl : json (PDict d) ->
      aget reserved_key d = Some (child_record n (res_attrs dec ty api ex cfg tl)) ->
      has_aty ADecos dec -> has_aty AStr ty -> has_aty AStr api -> has_aty ABool ex -> tail_ok tl ->
      body cfg -> body (PDict d).
  Lemma body_json v : body v -> json v /\ exists d, v = PDict d.
  Proof. destruct 1; eauto. Qed.
  Definition bodyok (v : pyval) : Prop := json v /\ (exists d, v = PDict d) /\ (mg = false -> body v).
  Definition child_ok (v : pyval) : Prop :=
    exists n dec ty api ex cfg tl, v = child_record n (res_attrs dec ty api ex cfg tl) /\
      has_aty ADecos dec /\ has_aty AStr ty /\ has_aty AStr api /\ has_aty ABool ex /\ tail_ok tl /\ body cfg.

  Definition elem_ok (v : pyval) : Prop :=
    exists kind name attrs, v = PDict [(u kind, PDict [(u "__name__", PStr name); (u "__attrs__", attrs)])] /\
      entry_ok mg ln kind attrs /\ (kind = "globals" -> name = u "scope").
  Definition import_ok (v : pyval) : Prop :=
    exists name attrs, v = PDict [(u "imports", PDict [(u "__name__", PStr name); (u "__attrs__", attrs)])] /\
      attrs_ok ln "imports" attrs.
  Definition lift_ok (v : pyval) : Prop :=
    exists c name attrs, v = PDict [(u "resources", PDict c)] /\
      aget (u "__name__") c = Some (PStr name) /\ aget (u "__attrs__") c = Some attrs /\
      entry_ok mg ln "resources" attrs.
  Definition state_ok (st : tstate) : Prop := Forall import_ok (imports st) /\ Forall lift_ok (child_resources st).

  Fixpoint vok (s : sort) (v : pyval) : Prop :=
    match s with
    | sTok n => exists t, v = PTok t /\ tk E n t
    | sOpt s' => v = PNone \/ vok s' v
    | sStart => document_ok mg ln v
    | sElem => v = PNone \/ elem_ok v
    | sVal | sVarVal | sLoopTy | sOp | sTV => json v
    | sObj | sBody | sLoop | sCond => bodyok v
    | sEnt => exists k x, v = PTup [PStr k; x] /\ json x /\ (mg = false -> k = reserved_key -> child_ok x)
    | sKey => exists k, v = PStr k /\ (mg = false -> k <> reserved_key)
    | sDecos => exists l, v = PList l /\ Forall deco_entry l
    | sDeco => deco_entry v
    | sType | sBase | sUnion => data_type v
    | sSuf => v = PNone
    | sTAP => exists t a, v = PDict [(u "type", PStr t); (u "api_version", PStr a)]
    | sMP => exists k fs d, In (k, fs) module_details /\ v = PDict [(u "type", PStr (u k)); (u "detail", d)] /\ has_aty (ARecord fs) d
    | sImp => (exists n, v = PDict [(u "name", PStr n)]) \/ (exists n a, v = PDict [(u "name", PStr n); (u "alias", PStr a)])
    | sMetaVal => exists s, v = PStr s
    end.

  Definition visit_err (e : exn) : Prop := exists r x, e = EVisitError r x /\ may_fail mg r x.
  Definition outc {A} (V : A -> Prop) (r : result (A * tstate)) : Prop :=
    match r with Ok (v, st') => V v /\ state_ok st' | Err e => visit_err e end.
  Definition P (s : sort) (t : ptree) : Prop :=
    (mg = false -> clean t = true) -> forall st, state_ok st -> outc (vok s) (transform_tree E ln t st).
  Definition LP (V : list pyval -> Prop) (cs : list ptree) : Prop :=
    (mg = false -> forallb clean cs = true) -> forall st, state_ok st -> outc V (transform_list E ln cs st).
  Definition cons_ok (s : sort) (V : list pyval -> Prop) (vs : list pyval) : Prop :=
    exists v vs', vs = v :: vs' /\ vok s v /\ V vs'.
  Definition nil_ok (vs : list pyval) : Prop := vs = [].
  Lemma LP_nil : LP nil_ok [].
  Proof. intros _ st Hst. cbn. split; [reflexivity|exact Hst]. Qed.
  Lemma LP_cons s V c cs : P s c -> LP V cs -> LP (cons_ok s V) (c :: cs).
  Proof.
    intros Hc Hcs Hcl st Hst. cbn [transform_list].
    assert (H1 : mg = false -> clean c = true) by (intros Hm; specialize (Hcl Hm); cbn in Hcl; apply andb_true_iff in Hcl; tauto).
    assert (H2 : mg = false -> forallb clean cs = true) by (intros Hm; specialize (Hcl Hm); cbn in Hcl; apply andb_true_iff in Hcl; tauto).
    specialize (Hc H1 st Hst). destruct (transform_tree E ln c st) as [[v st1]|e]; cbn [bind outc] in *; [|exact Hc].
    destruct Hc as [Hv Hst1]. specialize (Hcs H2 st1 Hst1).
    destruct (transform_list E ln cs st1) as [[vs st2]|e]; cbn [bind outc] in *; [|exact Hcs].
    destruct Hcs as [Hvs Hst2]. split; [|exact Hst2]. exists v, vs. auto.
  Qed.
  Lemma LP_app V W a b : LP V a -> LP W b -> LP (fun vs => exists v w, vs = (v ++ w)%list /\ V v /\ W w) (a ++ b).
  Proof.
    intros Ha Hb Hcl st Hst. rewrite transform_list_app.
    assert (H1 : mg = false -> forallb clean a = true) by (intros Hm; specialize (Hcl Hm); rewrite forallb_app in Hcl; apply andb_true_iff in Hcl; tauto).
    assert (H2 : mg = false -> forallb clean b = true) by (intros Hm; specialize (Hcl Hm); rewrite forallb_app in Hcl; apply andb_true_iff in Hcl; tauto).
    specialize (Ha H1 st Hst). destruct (transform_list E ln a st) as [[v st1]|e]; cbn [bind outc] in *; [|exact Ha].
    destruct Ha as [Hv Hst1]. specialize (Hb H2 st1 Hst1).
    destruct (transform_list E ln b st1) as [[w st2]|e]; cbn [bind outc] in *; [|exact Hb].
    destruct Hb as [Hw Hst2]. split; [|exact Hst2]. eauto.
  Qed.
  Lemma LP_weak (V W : list pyval -> Prop) cs : (forall vs, V vs -> W vs) -> LP V cs -> LP W cs.
  Proof.
    intros HVW H Hcl st Hst. specialize (H Hcl st Hst). destruct (transform_list E ln cs st) as [[vs st']|e]; cbn in *; [|exact H].
    destruct H; auto.
  Qed.
  (** A node: children as described, then the callback. *)
  Definition rok (ks : list exn_kind) (V : pyval -> Prop) (r : result pyval) : Prop :=
    match r with Ok v => V v | Err e => kind_in ks e end.
  Definition callok (s : sort) (l : label) (m : meta) (V : list pyval -> Prop) : Prop :=
    forall vs st, V vs -> state_ok st ->
      match call E ln l m vs st with Ok (v, st') => vok s v /\ state_ok st' | Err e => may_fail mg (label_name l) e end.
  Lemma node_ok s l m cs V : LP V cs -> callok s l m V -> P s (TNode l m cs).
  Proof.
    intros Hcs Hcall Hcl st Hst. rewrite transform_node.
    assert (H : mg = false -> forallb clean cs = true).
    { intros Hm. specialize (Hcl Hm). cbn [clean] in Hcl. apply andb_true_iff in Hcl. tauto. }
    specialize (Hcs H st Hst). destruct (transform_list E ln cs st) as [[vs st']|e]; cbn [bind outc] in *; [|exact Hcs].
    destruct Hcs as [Hvs Hst']. specialize (Hcall vs st' Hvs Hst'). unfold wrap.
    destruct (call E ln l m vs st') as [[v st'']|e]; cbn; [exact Hcall|]. exists (label_name l), e. auto.
  Qed.
  Lemma pure_ok s ks l st r : (forall e, kind_in ks e -> may_fail mg (label_name l) e) -> state_ok st -> rok ks (vok s) r ->
    match pure st r with Ok (v, st') => vok s v /\ state_ok st' | Err e => may_fail mg (label_name l) e end.
  Proof. intros Hk Hst H. unfold pure. destruct r; cbn in *; auto. Qed.
  Lemma P_weak s s' t : (forall v, vok s v -> vok s' v) -> P s t -> P s' t.
  Proof.
    intros HV H Hcl st Hst. specialize (H Hcl st Hst). destruct (transform_tree E ln t st) as [[v st']|e]; cbn [outc] in *; [|exact H].
    destruct H; auto.
  Qed.

  (** ** Small facts *)
  Lemma bodyok_json v : bodyok v -> json v.
  Proof. intros [H _]. exact H. Qed.
  Lemma data_type_json : forall v, data_type v -> json v.
  Proof.
    fix IH 2. intros v H. destruct H as [s|t Ht|l Hl Hall].
    - constructor.
    - apply json_lit; [nodup_lit|]. repeat constructor. cbn [snd]. apply IH. exact Ht.
    - apply json_lit; [nodup_lit|]. repeat constructor. cbn [snd].
      clear Hl. induction Hall as [|x l Hx Hall IHl]; constructor; [apply IH; exact Hx|exact IHl].
  Qed.
  Lemma has_aty_json a v : has_aty a v -> json v.
  Proof.
    destruct a; cbn [has_aty]; intros H.
    - exact H.
    - destruct H as [s ->]. constructor.
    - destruct H as [s ->]. constructor.
    - destruct H as [s ->]. constructor.
    - tauto.
    - destruct H as (l & -> & H). constructor. eapply Forall_impl; [|exact H]. apply deco_entry_json.
    - apply data_type_json. exact H.
    - destruct H as (d & -> & Hn & H). constructor; [exact Hn|]. eapply Forall_impl; [|exact H].
      intros kv. apply data_type_json.
    - destruct H as (s & _ & ->). constructor.
    - destruct H as (d & -> & Hn & H). constructor; [exact Hn|]. clear Hn. induction H as [|f kv fs d [_ Hf] H IH]; constructor; [|exact IH].
      destruct (snd f), Hf as (x & ->); constructor.
  Qed.
  Lemma rows_nodup : Forall (fun e => NoDup (map (fun c => u (fst c)) (snd e))) (schema ln).
  Proof. destruct ln; cbn [schema line_keys app map module_details fst snd]; repeat (constructor; [cbn [snd map fst]; nodup_lit|]); constructor. Qed.
  Lemma row_keys row d : Forall2 (fun c kv => fst kv = u (fst c) /\ has_aty (snd c) (snd kv)) row d ->
    map fst d = map (fun c => u (fst c)) row.
  Proof. induction 1 as [|c kv row d [H _] HF IH]; cbn [map]; [reflexivity|]. congruence. Qed.
  Lemma attrs_ok_json kind v : attrs_ok ln kind v -> json v.
  Proof.
    intros (row & d & Hin & -> & H). constructor.
    - rewrite (row_keys row d H). pose proof rows_nodup as Hr. rewrite Forall_forall in Hr. exact (Hr _ Hin).
    - clear Hin. induction H as [|c kv row d [_ Ha] HF IH]; constructor; [|exact IH]. eapply has_aty_json. exact Ha.
  Qed.
  Lemma entry_ok_json kind v : entry_ok mg ln kind v -> json v.
  Proof. intros [H|(_ & _ & H & _)]; [eapply attrs_ok_json; exact H|exact H]. Qed.

  Lemma lines_ok m d row : m <> None ->
    Forall2 (fun c kv => fst kv = u (fst c) /\ has_aty (snd c) (snd kv)) row d ->
    ~ In "__start_line__" (map fst row) -> ~ In "__end_line__" (map fst row) ->
    exists d', with_lines ln m d = Ok d' /\
      Forall2 (fun c kv => fst kv = u (fst c) /\ has_aty (snd c) (snd kv)) (row ++ line_keys ln)%list d'.
  Proof.
    intros Hm HF H1 H2. unfold with_lines, line_keys. destruct ln.
    2:{ rewrite app_nil_r. eauto. }
    destruct m as [[a b]|]; [|congruence]. eexists. split; [reflexivity|].
    assert (Hu : forall a b, u a = u b -> a = b).
    { clear. intros a. unfold u. induction a as [|x a IH]; intros [|y b] H; cbn in H; try discriminate; [reflexivity|].
      inversion H. f_equal; [|apply IH; assumption].
      rewrite <- (Ascii.ascii_N_embedding x), <- (Ascii.ascii_N_embedding y). congruence. }
    assert (Hs : forall k x, ~ In k (map fst row) -> aset (u k) x d = (d ++ [(u k, x)])%list).
    { clear H1 H2. intros k x Hk. induction HF as [|c kv row d [Hc _] HF IH]; cbn [aset app]; [reflexivity|].
      destruct kv as [k' v']. cbn [fst] in Hc. subst k'.
      destruct (str_eqb_spec (u k) (u (fst c))) as [He|_].
      - apply Hu in He. exfalso. apply Hk. left. symmetry. exact He.
      - rewrite IH; [reflexivity|]. intros Hin. apply Hk. right. exact Hin. }
    rewrite Hs by exact H1.
    assert (Hs2 : forall x y, aset (u "__end_line__") x (d ++ [(u "__start_line__", y)])%list = (d ++ [(u "__start_line__", y); (u "__end_line__", x)])%list).
    { clear H1 Hs. intros x y. induction HF as [|c kv row d [Hc _] HF IH]; cbn [aset app]; [reflexivity|].
      destruct kv as [k' v']. cbn [fst] in Hc. subst k'.
      destruct (str_eqb_spec (u "__end_line__") (u (fst c))) as [He|_].
      - apply Hu in He. exfalso. apply H2. left. symmetry. exact He.
      - rewrite IH; [reflexivity|]. intros Hin. apply H2. right. exact Hin. }
    rewrite Hs2. apply Forall2_app; [exact HF|]. repeat constructor; cbn; eauto.
  Qed.

  (** ** Child resources *)
  Lemma depth_aget k d v : aget k d = Some v -> pv_depth v < pv_depth (PDict d).
  Proof.
    intros H. cbn [pv_depth]. apply aget_In in H. apply -> Nat.lt_succ_r.
    induction d as [|[k' v'] d IH]; [destruct H|]. cbn [fold_right snd]. destruct H as [H|H].
    - inversion H; subst. lia.
    - specialize (IH H). lia.
  Qed.
  Lemma aget_aset_other {A} k k' (v : A) d : k <> k' -> aget k (aset k' v d) = aget k d.
  Proof. intros H. rewrite aget_aset. apply str_eqb_neq in H. rewrite H. reflexivity. Qed.
  Lemma aget_aset_same {A} k (v : A) d : aget k (aset k v d) = Some v.
  Proof. rewrite aget_aset, str_eqb_refl. reflexivity. Qed.

  Lemma append_depends_on_ok cfg x : json cfg -> json x ->
    match append_depends_on cfg x with
    | Ok v => json v /\ exists d d', cfg = PDict d /\ v = PDict d' /\ aget reserved_key d' = aget reserved_key d
    | Err e => kind_in [KAttr] e
    end.
  Proof.
    intros Hc Hx. unfold append_depends_on. destruct cfg; try kin.
    pose proof (json_dict_inv _ Hc) as [H1 H2].
    assert (Hk : reserved_key <> u "depends_on") by discriminate.
    destruct (aget (u "depends_on") d) as [v|] eqn:He.
    - destruct v; try kin. split; [|do 2 eexists; split; [reflexivity|]; split; [reflexivity|apply aget_aset_other; exact Hk]].
      apply aset_json; [exact H1|exact H2|]. constructor.
      pose proof (aget_json _ _ _ Hc He) as Hl. apply json_list_inv in Hl. apply Forall_app. split; [exact Hl|repeat constructor; exact Hx].
    - split; [|do 2 eexists; split; [reflexivity|]; split; [reflexivity|apply aget_aset_other; exact Hk]].
      apply aset_json; [exact H1|exact H2|]. repeat constructor. exact Hx.
  Qed.

  Definition pcr_ok (len : bool) (r : result (pyval * list pyval)) : Prop :=
    match r with
    | Ok (cfg, ch) => json cfg /\ (exists d, cfg = PDict d) /\
        Forall (fun v => exists c name attrs, v = PDict [(u "resources", PDict c)] /\
          aget (u "__name__") c = Some (PStr name) /\ aget (u "__attrs__") c = Some attrs /\
          entry_ok len ln "resources" attrs) ch
    | Err e => kind_in (if len then [KType; KKey; KAttr] else [KAttr]) e
    end.
  Lemma pcr_json : forall fuel pn pt pa d, json (PDict d) ->
    (forall c, aget reserved_key d = Some c -> pv_depth c < fuel) ->
    pcr_ok true (process_child_resource E fuel pn pt pa (PDict d)).
  Proof.
    induction fuel as [|fuel IH]; intros pn pt pa d Hd Hdepth; cbn [process_child_resource has_key bind];
      fold reserved_key; destruct (aget reserved_key d) as [c|] eqn:Hc; cbn [negb].
    2,4: split; [exact Hd|]; split; [eauto|constructor].
    - specialize (Hdepth c eq_refl). lia.
    - specialize (Hdepth c eq_refl). pose proof (aget_json _ _ _ Hd Hc) as Hcj.
      destruct (py_getitem c (u "__name__")) as [cname|e] eqn:Hn; cbn [bind]; [|eapply kind_in_incl; [|eapply getitem_err; eassumption]; intros z [<-|[<-|[]]]; cbn; tauto].
      destruct c as [| | | | | | | |dc]; try discriminate. cbn [py_setitem bind].
      pose proof (json_dict_inv _ Hcj) as [Hc1 Hc2].
      cbn [py_getitem]. rewrite aget_aset_other by discriminate.
      destruct (aget (u "__attrs__") dc) as [attrs|] eqn:Hattrs; cbn [bind]; [|kin].
      pose proof (aget_json _ _ _ Hcj Hattrs) as Haj.
      destruct (py_getitem attrs (u "type")) as [ctype|e] eqn:Ht; cbn [bind]; [|eapply kind_in_incl; [|eapply getitem_err; eassumption]; intros z [<-|[<-|[]]]; cbn; tauto].
      destruct attrs as [| | | | | | | |da]; try discriminate. cbn [py_setitem bind py_getitem].
      pose proof (json_dict_inv _ Haj) as [Ha1 Ha2].
      rewrite !aget_aset_other by discriminate.
      destruct (aget (u "config") da) as [cc|] eqn:Hcc; cbn [bind]; [|kin].
      pose proof (aget_json _ _ _ Haj Hcc) as Hccj.
      pose proof (append_depends_on_ok cc (PElem pn) Hccj (json_elem _)) as Hap.
      destruct (append_depends_on cc (PElem pn)) as [cc'|e]; cbn [bind]; [|eapply kind_in_incl; [|exact Hap]; intros z [<-|[]]; cbn; tauto].
      destruct Hap as [Hcc'j (d0 & d1 & -> & -> & Hr)].
      match goal with |- context [process_child_resource E fuel ?a ?b ?c ?x] => specialize (IH a b c d1 Hcc'j) end.
      match goal with |- context [process_child_resource E fuel ?a ?b ?c ?x] => destruct (process_child_resource E fuel a b c x) as [[cfg more]|e] end;
        cbn [bind py_setitem].
      + cbn [pcr_ok] in IH. destruct IH as (Hcfg & _ & Hmore).
        { intros c Hcr. rewrite Hr in Hcr. apply depth_aget in Hcr. apply depth_aget in Hcc. apply depth_aget in Hattrs. lia. }
        split; [apply adel_json; exact Hd|]. split; [eauto|]. constructor; [|exact Hmore].
        do 3 eexists. split; [reflexivity|]. rewrite aget_aset_same, aget_aset_other, aget_aset_same by discriminate.
        split; [reflexivity|]. split; [reflexivity|]. right. split; [reflexivity|]. split; [reflexivity|]. split; [|eauto].
        repeat apply aset_json; auto using aset_NoDup, json_str;
          repeat (apply aset_Forall; [intros; cbn [snd]; auto using json_str|]); auto using aset_NoDup.
      + apply IH. intros c Hcr. rewrite Hr in Hcr. apply depth_aget in Hcr. apply depth_aget in Hcc. apply depth_aget in Hattrs. lia.
  Qed.

  Lemma res_attrs_ok dec ty api ex cfg tl : has_aty ADecos dec -> has_aty AStr ty -> has_aty AStr api -> has_aty ABool ex ->
    has_aty ADict cfg -> tail_ok tl -> attrs_ok ln "resources" (PDict (res_attrs dec ty api ex cfg tl)).
  Proof.
    intros. eexists _, _. split; [|split; [reflexivity|]].
    - unfold schema. do 13 right. left. reflexivity.
    - cbn [app]. unfold res_attrs. repeat (constructor; [split; [reflexivity|assumption]|]). assumption.
  Qed.
  Lemma body_same d d' : body (PDict d) -> json (PDict d') -> aget reserved_key d' = aget reserved_key d -> body (PDict d').
  Proof.
    intros H Hj Hr. inversion H as [d0 H1 H2|d0 n dec ty api ex cfg tl H1 H2 H3 H4 H5 H6 H7 H8]; subst.
    - apply body_leaf; [assumption|congruence].
    - rewrite <- Hr in H2. exact (body_child d' n dec ty api ex cfg tl Hj H2 H3 H4 H5 H6 H7 H8).
  Qed.
  Lemma pcr_body : forall fuel pn pt pa cfg, body cfg -> forall d, cfg = PDict d ->
    (forall c, aget reserved_key d = Some c -> pv_depth c < fuel) ->
    pcr_ok false (process_child_resource E fuel pn pt pa cfg).
  Proof.
    induction fuel as [|fuel IH]; intros pn pt pa cfg Hb d -> Hdepth.
    - inversion Hb as [d' Hj Hr|d' n dec ty api ex cfg' tl Hj Hr]; subst; cbn [process_child_resource has_key bind]; fold reserved_key; rewrite Hr; cbn [negb].
      + split; [exact Hj|]. split; [eauto|constructor].
      + specialize (Hdepth _ Hr). lia.
    - inversion Hb as [d' Hj Hr|d' n dec ty api ex cfg' tl Hj Hr Hdec Hty Hapi Hex Htl Hcfg]; subst; cbn [process_child_resource has_key bind]; fold reserved_key; rewrite Hr; cbn [negb].
      + split; [exact Hj|]. split; [eauto|constructor].
      + specialize (Hdepth _ Hr).
        match goal with |- pcr_ok false (let* x := py_getitem _ _ in _) => idtac end.
        unfold child_record. change (py_getitem (PDict [(u "__name__", PStr n); (u "__attrs__", PDict (res_attrs dec ty api ex cfg' tl))]) (u "__name__")) with (Ok (PStr n)).
        cbn [bind py_str]. cbn [py_setitem bind].
        set (name := (pn ++ u "__" ++ n)%list).
        change (aset (u "__name__") (PStr name) [(u "__name__", PStr n); (u "__attrs__", PDict (res_attrs dec ty api ex cfg' tl))])
          with [(u "__name__", PStr name); (u "__attrs__", PDict (res_attrs dec ty api ex cfg' tl))].
        change (py_getitem (PDict [(u "__name__", PStr name); (u "__attrs__", PDict (res_attrs dec ty api ex cfg' tl))]) (u "__attrs__"))
          with (Ok (PDict (res_attrs dec ty api ex cfg' tl))). cbn [bind].
        change (py_getitem (PDict (res_attrs dec ty api ex cfg' tl)) (u "type")) with (Ok ty). cbn [bind py_setitem].
        set (typ := (pt ++ u "/" ++ py_str E ty)%list).
        change (aset (u "api_version") (PStr pa) (aset (u "type") (PStr typ) (res_attrs dec ty api ex cfg' tl)))
          with (res_attrs dec (PStr typ) (PStr pa) ex cfg' tl).
        change (py_getitem (PDict (res_attrs dec (PStr typ) (PStr pa) ex cfg' tl)) (u "config")) with (Ok cfg'). cbn [bind].
        pose proof (body_json _ Hcfg) as [Hcj (dc & Hdc)].
        pose proof (append_depends_on_ok cfg' (PElem pn) Hcj (json_elem _)) as Hap.
        destruct (append_depends_on cfg' (PElem pn)) as [cc'|e]; cbn [bind]; [|exact Hap].
        destruct Hap as [Hcc'j (d0 & d1 & Hd0 & -> & Hr1)].
        assert (Hb1 : body (PDict d1)).
        { rewrite Hd0 in Hcfg. exact (body_same _ _ Hcfg Hcc'j Hr1). }
        specialize (IH name typ pa _ Hb1 d1 eq_refl).
        destruct (process_child_resource E fuel name typ pa (PDict d1)) as [[cfg more]|e]; cbn [bind py_setitem].
        * cbn [pcr_ok] in IH. destruct IH as (Hcfgj & Hcfgd & Hmore).
          { intros c Hcr. rewrite Hr1 in Hcr. apply depth_aget in Hcr. unfold child_record, res_attrs in Hdepth.
            cbn [pv_depth fold_right snd] in Hdepth. rewrite Hd0 in Hdepth. lia. }
          split; [apply adel_json; exact Hj|]. split; [eauto|]. constructor; [|exact Hmore].
          change (aset (u "config") cfg (res_attrs dec (PStr typ) (PStr pa) ex cfg' tl)) with (res_attrs dec (PStr typ) (PStr pa) ex cfg tl).
          do 3 eexists. split; [reflexivity|]. split; [reflexivity|]. split; [reflexivity|]. left.
          apply res_attrs_ok; cbn [has_aty]; eauto.
        * apply IH. intros c Hcr. rewrite Hr1 in Hcr. apply depth_aget in Hcr. unfold child_record, res_attrs in Hdepth.
          cbn [pv_depth fold_right snd] in Hdepth. rewrite Hd0 in Hdepth. lia.
  Qed.
  Lemma pcr_bodyok pn pt pa cfg : bodyok cfg -> pcr_ok mg (process_child_resource E (pv_depth cfg) pn pt pa cfg).
  Proof.
    intros (Hj & (d & ->) & Hb). destruct mg.
    - apply pcr_json; [exact Hj|]. intros c Hc. apply depth_aget in Hc. exact Hc.
    - eapply pcr_body; [apply Hb; reflexivity|reflexivity|]. intros c Hc. apply depth_aget in Hc. exact Hc.
  Qed.
End Shapes.
