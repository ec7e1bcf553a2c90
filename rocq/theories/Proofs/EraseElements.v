(** Reports of declarations up to positions, and with or without line numbers. *)
From Coq Require Import List Arith NArith ZArith Bool String Lia.
From Verif Require Import Py.Str Py.Val Pycep.Utils Pycep.Decorators Pycep.Functions Pycep.Transformer Lark.Tree
  Spec.Json Spec.Schema Spec.Trees Spec.Program Spec.Reports Spec.Numbering
  Proofs.Base Proofs.JsonLemmas Proofs.TreeGrammar Proofs.Transform Proofs.Typing Proofs.State Proofs.Quiet Proofs.Children
  Proofs.Program Proofs.Erase Proofs.EraseCalls Proofs.EraseTrees.
Import ListNotations.
Local Open Scope string_scope.

Lemma list_two {A} (P : list A -> Prop) : P [] -> (forall x, P [x]) -> (forall x y l, P l -> P (x :: y :: l)) -> forall l, P l.
Proof. intros H0 H1 H2. fix F 1. intros [|x [|y l]]; [exact H0|exact (H1 x)|exact (H2 x y l (F l))]. Qed.

(** Child resources, as equations. *)
Lemma pcr_leaf E fuel n ty api d : aget reserved_key d = None ->
  process_child_resource E fuel n ty api (PDict d) = Ok (PDict d, []).
Proof. intros Hr. destruct fuel; cbn [process_child_resource has_key bind]; fold reserved_key; rewrite Hr; reflexivity. Qed.
Lemma pcr_child E fuel n ty api d c dec t a ex cfg tl :
  aget reserved_key d = Some (child_record c (res_attrs dec (PStr t) a ex cfg tl)) ->
  process_child_resource E (Datatypes.S fuel) n ty api (PDict d) =
    let* cc := append_depends_on cfg (PElem n) in
    let* (cv, more) := process_child_resource E fuel (n ++ u "__" ++ c)%list (ty ++ u "/" ++ t)%list api cc in
    Ok (PDict (adel reserved_key d),
        PDict [(u "resources", child_record (n ++ u "__" ++ c)%list (res_attrs dec (PStr (ty ++ u "/" ++ t)%list) (PStr api) ex cv tl))] :: more).
Proof.
  intros Hr. cbn [process_child_resource has_key bind]; fold reserved_key; rewrite Hr; cbn [negb].
  unfold child_record. change (py_getitem (PDict [(u "__name__", PStr c); (u "__attrs__", PDict (res_attrs dec (PStr t) a ex cfg tl))]) (u "__name__")) with (Ok (PStr c)).
  cbn [bind py_str]. cbn [py_setitem bind].
  set (name := (n ++ u "__" ++ c)%list).
  change (aset (u "__name__") (PStr name) [(u "__name__", PStr c); (u "__attrs__", PDict (res_attrs dec (PStr t) a ex cfg tl))])
    with [(u "__name__", PStr name); (u "__attrs__", PDict (res_attrs dec (PStr t) a ex cfg tl))].
  change (py_getitem (PDict [(u "__name__", PStr name); (u "__attrs__", PDict (res_attrs dec (PStr t) a ex cfg tl))]) (u "__attrs__"))
    with (Ok (PDict (res_attrs dec (PStr t) a ex cfg tl))). cbn [bind].
  change (py_getitem (PDict (res_attrs dec (PStr t) a ex cfg tl)) (u "type")) with (Ok (PStr t)). cbn [bind py_setitem py_str].
  set (typ := (ty ++ u "/" ++ t)%list).
  change (aset (u "api_version") (PStr api) (aset (u "type") (PStr typ) (res_attrs dec (PStr t) a ex cfg tl)))
    with (res_attrs dec (PStr typ) (PStr api) ex cfg tl).
  change (py_getitem (PDict (res_attrs dec (PStr typ) (PStr api) ex cfg tl)) (u "config")) with (Ok cfg). cbn [bind].
  destruct (append_depends_on cfg (PElem n)) as [cc|e]; cbn [bind]; [|reflexivity].
  destruct (process_child_resource E fuel name typ api cc) as [[cv more]|e]; reflexivity.
Qed.

Lemma without_lines_aset k v d : line_key k = true -> without_lines (aset k v d) = without_lines d.
Proof.
  intros Hk. induction d as [|[k' w] d IH]; cbn [aset without_lines filter fst negb].
  - rewrite Hk. reflexivity.
  - destruct (str_eqb_spec k k') as [->|_]; cbn [filter fst].
    + rewrite Hk. reflexivity.
    + destruct (line_key k'); cbn [negb]; [exact IH|]. f_equal. exact IH.
Qed.

(** What elements report: [resp v n a] *)
Definition resp (v : pyval) : Prop := exists k n a, v = PDict [(k, PDict [(u "__name__", PStr n); (u "__attrs__", a)])].
Lemma pcr_resp E ln : forall fuel pn pt pa cfg, body ln cfg -> forall v ch,
  process_child_resource E fuel pn pt pa cfg = Ok (v, ch) -> Forall resp ch.
Proof.
  induction fuel as [|fuel IH]; intros pn pt pa cfg Hb v ch Hp.
  - destruct Hb as [d Hj Hr|d n dec ty api ex cfg' tl Hj Hr].
    + rewrite pcr_leaf in Hp by exact Hr. injection Hp as <- <-. constructor.
    + cbn [process_child_resource has_key bind] in Hp. fold reserved_key in Hp. rewrite Hr in Hp. discriminate.
  - inversion Hb as [d Hj Hr|d n dec ty api ex cfg' tl Hj Hr Hdec [t ->] Hapi Hex Htl Hcfg]; subst.
    + rewrite pcr_leaf in Hp by exact Hr. injection Hp as <- <-. constructor.
    + rewrite (pcr_child _ _ _ _ _ _ _ _ _ _ _ _ _ Hr) in Hp.
      pose proof (body_json _ _ Hcfg) as [Hcj (dc & Hdc)].
      pose proof (append_depends_on_ok cfg' (PElem pn) Hcj (json_elem _)) as Hap.
      destruct (append_depends_on cfg' (PElem pn)) as [cc'|e]; cbn [bind] in Hp; [|discriminate].
      destruct Hap as [Hcc'j (d0 & d1 & Hd0 & -> & Hr1)].
      assert (Hb1 : body ln (PDict d1)) by (rewrite Hd0 in Hcfg; exact (body_same _ _ _ Hcfg Hcc'j Hr1)).
      match type of Hp with context [process_child_resource E fuel ?a ?b ?c ?x] =>
        destruct (process_child_resource E fuel a b c x) as [[cv more]|e] eqn:Hrec end; cbn [bind] in Hp; [|discriminate].
      injection Hp as <- <-. constructor; [do 3 eexists; reflexivity|]. exact (IH _ _ _ _ Hb1 _ _ Hrec).
Qed.

Section Elements.
  Variable E : pyenv.
  Variable p : token -> token.
  Hypothesis p_type : forall t, ttype (p t) = ttype t.
  Hypothesis p_val : forall t, tval (p t) = tval t.
  Variable q : meta -> meta.
  Variable b : bool.
  Notation tr := (tr p q).
  Notation er := (er p b).
  Notation emap := (emap p b).
  Notation rec' := (rec' b).

  Definition wl (d : list (str * pyval)) : list (str * pyval) := if b then without_lines d else d.
  Definition eresp (v : pyval) : pyval := match v with PDict [(k, r)] => PDict [(k, rec' (er r))] | _ => v end.
  Definition est (st : tstate) : tstate :=
    {| imports := map eresp (imports st); child_resources := map eresp (child_resources st) |}.
  Definition eout (o : pyval * tstate) : pyval * tstate := (eresp (fst o), est (snd o)).

  Lemma without_lines_emap b' d : without_lines (Erase.emap p b' d) = Erase.emap p b' (without_lines d).
  Proof.
    induction d as [|[k v] d IH]; [reflexivity|]. cbn [Erase.emap without_lines filter map fst] in *. destruct (line_key k); cbn [negb map fst snd]; [exact IH|].
    f_equal. exact IH.
  Qed.
  Lemma er_record n attrs : er (child_record n attrs) = child_record n (emap attrs).
  Proof. unfold child_record. rewrite er_dict, !emap_cons by reflexivity. reflexivity. Qed.
  Lemma rec_record n attrs : rec' (child_record n attrs) = child_record n (wl attrs).
  Proof. unfold Erase.rec', wl. destruct b; reflexivity. Qed.
  Lemma wl_res dec ty api ex cfg tl : wl (res_attrs dec ty api ex cfg tl) = res_attrs dec ty api ex cfg (wl tl).
  Proof. unfold wl. destruct b; reflexivity. Qed.
  Lemma emap_res dec ty api ex cfg tl : emap (res_attrs dec ty api ex cfg tl) = res_attrs (er dec) (er ty) (er api) (er ex) (er cfg) (emap tl).
  Proof. unfold res_attrs. rewrite !emap_cons by reflexivity. reflexivity. Qed.
  Lemma ev_reserved w : ev b reserved_key w = rec' w.
  Proof. unfold ev, Erase.rec'. rewrite str_eqb_refl, andb_true_r. reflexivity. Qed.

  Lemma append_er cfg n : append_depends_on (er cfg) (PElem n) = rmap er (append_depends_on cfg (PElem n)).
  Proof.
    destruct cfg; try reflexivity; [destruct l as [|x [|y [|]]]; reflexivity|]. rewrite er_dict. cbn [append_depends_on].
    rewrite aget_emap. destruct (aget (u "depends_on") d) as [v|]; cbn [option_map].
    - rewrite ev_other by reflexivity. destruct v; try reflexivity; [|destruct l as [|x [|y [|]]]; reflexivity].
      change (er (PList l)) with (PList (map er l)). cbn [rmap].
      rewrite er_dict, <- aset_emap, ev_other by reflexivity. cbn [Erase.er]. rewrite map_app. reflexivity.
    - cbn [rmap]. rewrite er_dict, <- aset_emap, ev_other by reflexivity. reflexivity.
  Qed.
  Lemma append_dict d n v : append_depends_on (PDict d) (PElem n) = Ok v -> exists d1, v = PDict d1 /\ aget reserved_key d1 = aget reserved_key d.
  Proof.
    intros H. assert (Hd : exists d1, v = PDict d1).
    { unfold append_depends_on in H. destruct (aget (u "depends_on") d) as [[]|]; try discriminate; injection H as <-; eauto. }
    destruct Hd as (d1 & ->). exists d1. split; [reflexivity|]. exact (depends_aget _ _ _ H).
  Qed.
  Definition enough (fuel : nat) (d : list (str * pyval)) : Prop := forall c, aget reserved_key d = Some c -> pv_depth c < fuel.
  Lemma enough_depth d : enough (pv_depth (PDict d)) d.
  Proof. intros c Hc. apply depth_aget in Hc. exact Hc. Qed.
  Lemma enough_child fuel d c dec ty api ex dc tl dc1 :
    aget reserved_key d = Some (child_record c (res_attrs dec ty api ex (PDict dc) tl)) -> enough (Datatypes.S fuel) d ->
    aget reserved_key dc1 = aget reserved_key dc -> enough fuel dc1.
  Proof.
    intros Hr He Ha x Hx. specialize (He _ Hr). rewrite Ha in Hx. apply depth_aget in Hx. unfold child_record, res_attrs in He.
    cbn [pv_depth fold_right snd] in He. cbn [pv_depth] in Hx. lia.
  Qed.
  Definition epcr (o : pyval * list pyval) : pyval * list pyval := (er (fst o), map eresp (snd o)).
  Lemma pcr_er : forall fuel fuel' n ty api d, body b (PDict d) -> enough fuel d -> enough fuel' (emap d) ->
    process_child_resource E fuel' n ty api (PDict (emap d)) = rmap epcr (process_child_resource E fuel n ty api (PDict d)).
  Proof.
    induction fuel as [|fuel IH]; intros fuel' n ty api d Hb He He'.
    all: inversion Hb as [d' Hj Hr|d' c dec t a ex cfg tl Hj Hr Hdec [t' ->] Hapi Hex Htl Hcfg]; subst d'.
    1,3: rewrite !pcr_leaf by (rewrite ?aget_emap, Hr; reflexivity); reflexivity.
    - specialize (He _ Hr). lia.
    - pose proof (aget_emap p b reserved_key d) as Hr'. rewrite Hr in Hr'. cbn [option_map] in Hr'.
      rewrite ev_reserved, er_record, rec_record, emap_res, wl_res in Hr'. cbn [Erase.er] in Hr'.
      destruct fuel' as [|fuel']; [specialize (He' _ Hr'); lia|].
      rewrite (pcr_child E fuel' n ty api _ _ _ _ _ _ _ _ Hr'), (pcr_child E fuel n ty api _ _ _ _ _ _ _ _ Hr).
      destruct (body_json _ _ Hcfg) as [Hcj (dc & ->)]. rewrite append_er, bind_rmap, rmap_bind. apply bind_ext. intros cc Hcc.
      destruct (append_dict _ _ _ Hcc) as (dc1 & -> & Hd1). rewrite er_dict.
      assert (Hcj1 : json (PDict dc1)).
      { pose proof (append_depends_on_ok (PDict dc) (PElem n) Hcj (json_elem _)) as Hap. rewrite Hcc in Hap. exact (proj1 Hap). }
      rewrite (IH fuel'); [|exact (body_same _ _ _ Hcfg Hcj1 Hd1)|exact (enough_child _ _ _ _ _ _ _ _ _ _ Hr He Hd1)|].
      2:{ eapply (enough_child fuel' (emap d)); [exact Hr'|exact He'|]. etransitivity; [apply aget_emap|]. etransitivity; [|symmetry; apply aget_emap]. rewrite Hd1. reflexivity. }
      rewrite bind_rmap, rmap_bind. apply bind_ext. intros [cv more] _. unfold epcr. cbn [fst snd rmap]. rewrite er_dict, adel_emap. cbn [map].
      unfold eresp at 2. rewrite er_record, rec_record, emap_res, wl_res. reflexivity.
  Qed.

  (** ** Callbacks of declarations *)
  Lemma with_lines_er m attrs k n : (b = true -> m <> None) -> without_lines attrs = attrs ->
    (let* a := with_lines false (q m) (emap attrs) in Ok (response k (PStr n) a)) =
    rmap eresp (let* a := with_lines b m attrs in Ok (response k (PStr n) a)).
  Proof.
    intros Hm Ha. assert (Hr : forall a, eresp (response k (PStr n) a) = response k (PStr n) (wl (emap a))).
    { intros a. unfold response, eresp. change (PDict [(u "__name__", PStr n); (u "__attrs__", PDict a)]) with (child_record n a).
      rewrite er_record, rec_record. reflexivity. }
    assert (Hw : exists a, with_lines b m attrs = Ok a /\ wl a = attrs).
    { clear Hr. unfold with_lines, wl. destruct b; [|eauto]. destruct m as [[x y]|]; [|exfalso; apply Hm; reflexivity].
      eexists. split; [reflexivity|]. rewrite !without_lines_aset by reflexivity. exact Ha. }
    destruct Hw as (a & -> & Hw). cbn [bind rmap with_lines]. rewrite Hr. f_equal. f_equal. rewrite <- Hw at 1. unfold wl. destruct b; [|reflexivity].
    rewrite without_lines_emap. reflexivity.
  Qed.
  Lemma pure_er st x y : x = rmap eresp y -> pure (est st) x = rmap eout (pure st y).
  Proof. intros ->. unfold pure. destruct y; reflexivity. Qed.
  Ltac attrs := rewrite <- with_lines_er; [repeat (rewrite emap_cons by reflexivity); rewrite ?or_empty_er by exact p_val; reflexivity|try discriminate|reflexivity].
  Ltac named := cbn [map]; unfold py_str'; change (er (PTok ?t)) with (PTok (p t)); cbn [py_str]; rewrite ?p_val.

  Lemma scope_er m n : cb_scope E false (q (Some m)) [er (PTok n)] = rmap eresp (cb_scope E b (Some m) [PTok n]).
  Proof.
    unfold cb_scope, Transformer.S. cbn [arg_at nth_error bind Erase.er py_str]. rewrite p_val. destruct (existsb _ _); [|reflexivity]. attrs.
  Qed.
  Lemma extension_er m n c a : cb_extension E false (q (Some m)) [er (PTok n); er c; er (PTok a)] = rmap eresp (cb_extension E b (Some m) [PTok n; c; PTok a])
    /\ cb_extension E false (q (Some m)) [er (PTok n); er c; er PNone] = rmap eresp (cb_extension E b (Some m) [PTok n; c; PNone]).
  Proof.
    unfold cb_extension, py_str'. rewrite !(truthy_er p p_val). cbn [Erase.er py_str]. rewrite !p_val.
    split; destruct (truthy c); cbn [truthy]; try (match goal with |- context [if ?x then _ else _] => destruct x end); cbn [app]; attrs.
  Qed.
  Lemma metadata_er m n v : cb_metadata E false (q (Some m)) [er (PTok n); er v] = rmap eresp (cb_metadata E b (Some m) [PTok n; v]).
  Proof. unfold cb_metadata, py_str'. cbn [Erase.er py_str]. rewrite p_val. attrs. Qed.
  Lemma param_er m d n t v : cb_param E false (q (Some m)) [er d; er (PTok n); er t; er v] = rmap eresp (cb_param E b (Some m) [d; PTok n; t; v]).
  Proof. unfold cb_param, py_str'. cbn [Erase.er py_str]. rewrite p_val. attrs. Qed.
  Lemma output_er m d n t v : cb_output E false (q (Some m)) [er d; er (PTok n); er t; er v] = rmap eresp (cb_output E b (Some m) [d; PTok n; t; v]).
  Proof. unfold cb_output, py_str'. cbn [Erase.er py_str]. rewrite p_val. attrs. Qed.
  Lemma type_er m d n v : cb_custom_type E false (q (Some m)) [er d; er (PTok n); er v] = rmap eresp (cb_custom_type E b (Some m) [d; PTok n; v]).
  Proof. unfold cb_custom_type, py_str'. cbn [Erase.er py_str]. rewrite p_val. attrs. Qed.
  Lemma var_er m d n t v : cb_var E false (q (Some m)) [er d; er (PTok n); er t; er v] = rmap eresp (cb_var E b (Some m) [d; PTok n; t; v]).
  Proof. unfold cb_var, py_str'. rewrite !(truthy_er p p_val). cbn [Erase.er py_str]. rewrite p_val. destruct (truthy t); cbn [app]; attrs. Qed.
  Lemma module_er m d n x v : cb_module E false (q (Some m)) [er d; er (PTok n); er x; er v] = rmap eresp (cb_module E b (Some m) [d; PTok n; x; v]).
  Proof.
    unfold cb_module, py_str'. rewrite !getitem_er, !bind_rmap. cbn [Erase.er py_str]. rewrite p_val.
    destruct (py_getitem x (u "type")); [|reflexivity]. cbn [bind]. destruct (py_getitem x (u "detail")); [|reflexivity]. cbn [bind rmap].
    rewrite !ev_other by reflexivity. attrs.
  Qed.
  Lemma resource_er m d n t x v st : body b (PDict v) ->
    call E false L_resource (q (Some m)) [er d; er (PTok n); er (PDict [(u "type", PStr (fst t)); (u "api_version", PStr (snd t))]); er x; er (PDict v)] (est st) =
    rmap eout (call E b L_resource (Some m) [d; PTok n; PDict [(u "type", PStr (fst t)); (u "api_version", PStr (snd t))]; x; PDict v] st).
  Proof.
    intros Hv. unfold call, cb_resource. rewrite !getitem_er, (truthy_er p p_val).
    change (py_getitem (PDict [(u "type", PStr (fst t)); (u "api_version", PStr (snd t))]) (u "type")) with (Ok (PStr (fst t))).
    change (py_getitem (PDict [(u "type", PStr (fst t)); (u "api_version", PStr (snd t))]) (u "api_version")) with (Ok (PStr (snd t))).
    cbn [rmap bind]. rewrite !ev_other by reflexivity. rewrite (er_dict p b v). cbn [Erase.er py_str]. rewrite p_val.
    rewrite (pcr_er (pv_depth (PDict v)) _ _ _ _ _ Hv (enough_depth v) (enough_depth (emap v))).
    destruct (process_child_resource E (pv_depth (PDict v)) (tval n) (fst t) (snd t) (PDict v)) as [[cfg ch]|e]; cbn [rmap bind epcr fst snd]; [|reflexivity].
    assert (H : forall k attrs, without_lines attrs = attrs ->
      (let* a := with_lines false (q (Some m)) (emap attrs) in Ok (response k (PStr (tval n)) a)) =
      rmap eresp (let* a := with_lines b (Some m) attrs in Ok (response k (PStr (tval n)) a))) by (intros k attrs Ha; apply with_lines_er; [discriminate|exact Ha]).
    match goal with |- context [with_lines b (Some m) ?a] => specialize (H "resources" a eq_refl) end.
    repeat (rewrite emap_cons in H by reflexivity). rewrite <- or_empty_er in H by exact p_val. cbn [Erase.er] in H. cbn [Erase.emap map] in H.
    destruct (with_lines false _ _) as [a1|e1]; destruct (with_lines b _ _) as [a2|e2]; cbn [bind rmap] in H |- *; try discriminate.
    - assert (Hx : response "resources" (PStr (tval n)) a1 = eresp (response "resources" (PStr (tval n)) a2)) by congruence.
      rewrite Hx. unfold eout. cbn [fst snd]. unfold est. cbn [imports child_resources]. rewrite map_app. reflexivity.
    - assert (Hx : e1 = e2) by congruence. rewrite Hx. reflexivity.
  Qed.
  Lemma data_type_er v : data_type v -> er v = v /\ record_without_lines v = v.
  Proof.
    revert v. assert (H : forall v, (data_type v -> er v = v /\ record_without_lines v = v) /\
      (forall l, v = PList l -> Forall data_type l -> map er l = l)).
    { apply pyval_all; try (intros; split; [|discriminate]; intros Hdt; inversion Hdt; subst; split; reflexivity).
      - intros l IH. split; [intros H; inversion H|]. intros l' [= <-] Hl. clear -IH Hl. induction Hl as [|x l Hx Hl IHl]; [reflexivity|].
        inversion IH as [|? ? [H1 _] H2]; subst. cbn [map]. rewrite (proj1 (H1 Hx)), (IHl H2). reflexivity.
      - intros d IH. split; [|discriminate]. intros H. inversion H as [|t Ht|l Hl Hls]; subst.
        + inversion IH as [|? ? _ IH1]; subst. inversion IH1 as [|? ? [IH2 _] _]; subst. cbn [snd] in IH2. specialize (IH2 Ht).
          split; [rewrite er_dict, !emap_cons by reflexivity; rewrite (proj1 IH2); reflexivity|]. destruct Ht; reflexivity.
        + split; [|reflexivity]. rewrite er_dict, !emap_cons by reflexivity.
          inversion IH as [|? ? _ IH1]; subst. inversion IH1 as [|? ? [_ IH2] _]; subst. cbn [snd] in IH2. cbn [Erase.er].
          rewrite (IH2 l eq_refl Hls). reflexivity. }
    intros v. exact (proj1 (H v)).
  Qed.
  Lemma data_dict_er d : Forall (fun kv => data_type (snd kv)) d -> emap d = d.
  Proof.
    induction 1 as [|[k v] d Hv _ IH]; [reflexivity|]. cbn [Erase.emap map fst snd] in *. f_equal; [|exact IH]. f_equal. cbn [snd] in Hv.
    destruct (data_type_er v Hv) as [H1 H2]. rewrite H1. unfold ev. destruct (b && _); [exact H2|reflexivity].
  Qed.
  Lemma pairs_er ps vs : okp E ps -> all_ok (transform E b) ps = Ok vs ->
    exists l, zip_pairs E vs = Ok l /\ zip_pairs E (map er vs) = Ok l /\ Forall (fun kv => data_type (snd kv)) l.
  Proof.
    intros H. revert vs. induction ps as [|x|x y l IH] using list_two;
      intros vs Hv.
    - injection Hv as <-. exists []. repeat split; constructor.
    - inversion H.
    - inversion H as [|? ? ? Hx Hy Hl]; subst. apply tok_inv in Hx as (tok & -> & _). cbn [all_ok] in Hv. rewrite transform_tok in Hv.
      destruct (transform E b y) as [w|] eqn:Hw; [|discriminate]. destruct (all_ok (transform E b) l) as [ws|]; [|discriminate]. injection Hv as <-.
      destruct (IH Hl ws eq_refl) as (ps & H1 & H2 & H3). exists ((tval tok, w) :: ps). cbn [zip_pairs map]. rewrite H1, H2. cbn [bind Erase.er py_str].
      pose proof (value_of E b true sType y w Hy eq_refl ltac:(discriminate) Hw) as Hd. cbn [vok] in Hd. rewrite (proj1 (data_type_er w Hd)), p_val.
      split; [reflexivity|]. split; [reflexivity|]. constructor; assumption.
  Qed.
  Lemma func_er m d n ps t v l : zip_pairs E ps = Ok l -> zip_pairs E (map er ps) = Ok l -> Forall (fun kv => data_type (snd kv)) l ->
    cb_custom_func E false (q (Some m)) (map er (d :: PTok n :: ps ++ [t; v])%list) = rmap eresp (cb_custom_func E b (Some m) (d :: PTok n :: ps ++ [t; v])%list).
  Proof.
    intros H1 H2 H3. cbn [map]. rewrite map_app. unfold cb_custom_func, py_str'. cbn [map]. rewrite !rev_app_distr. cbn [rev app]. rewrite !rev_involutive, H1, H2.
    cbn [bind]. cbn [Erase.er py_str]. rewrite p_val.
    assert (Hd : er (PDict (dict_of l)) = PDict (dict_of l)) by (rewrite er_dict, data_dict_er; [reflexivity|exact (proj2 (dict_of_ind _ _ H3))]).
    rewrite <- Hd at 1. attrs.
  Qed.
  Lemma import_er m fp na : vok E b true sImp na -> 
    import_entry E false (q (Some m)) (er fp) (er na) = rmap eresp (import_entry E b (Some m) fp na).
  Proof.
    intros Hna. unfold import_entry. pose proof (get_er p b na (u "alias") PNone eq_refl) as Hg. cbn [Erase.er] in Hg.
    rewrite (tst_er p p_type p_val), getitem_er, Hg.
    assert (H : exists n, py_getitem na (u "name") = Ok (PStr n) /\ (py_get na (u "alias") PNone = Ok PNone \/ exists a, py_get na (u "alias") PNone = Ok (PStr a))).
    { destruct Hna as [(n & ->)|(n & a & ->)]; exists n; (split; [reflexivity|]); [left; reflexivity|right; exists a; reflexivity]. }
    destruct H as (n & -> & Ha). cbn [rmap bind]. rewrite bind_rmap, rmap_bind. apply bind_ext. intros f _. rewrite ev_other by reflexivity. cbn [Erase.er]. unfold py_str'. cbn [py_str].
    destruct Ha as [->|(a & ->)]; cbn [rmap bind Erase.er py_str truthy]; [|match goal with |- context [if ?x then _ else _] => destruct x end]; attrs.
  Qed.
  Lemma imports_er m fp nas : Forall (vok E b true sImp) nas ->
    import_entries E false (q (Some m)) (er fp) (map er nas) = rmap (map eresp) (import_entries E b (Some m) fp nas).
  Proof.
    induction 1 as [|na nas Hna _ IH]; [reflexivity|]. cbn [map import_entries]. rewrite (import_er m fp na Hna), IH, bind_rmap, rmap_bind. apply bind_ext. intros e _.
    rewrite bind_rmap, rmap_bind. reflexivity.
  Qed.
  Lemma custom_import_er m vs st : (exists t, vs = [PTok t] /\ tk E "QUOTED_INTERPOLATION" t) \/
      (exists c cs a, vs = (c :: cs ++ [a])%list /\ vok E b true sImp c /\ Forall (vok E b true sImp) cs) ->
    call E false L_custom_import (q (Some m)) (map er vs) (est st) = rmap eout (call E b L_custom_import (Some m) vs st).
  Proof.
    intros H. assert (Hc : cb_custom_import E false (q (Some m)) (map er vs) = rmap (map eresp) (cb_custom_import E b (Some m) vs)).
    { destruct H as [(t & -> & Ht)|(c & cs & a & -> & Hc & Hcs)].
      - cbn [map cb_custom_import]. rewrite (tst_er p p_type p_val), bind_rmap, rmap_bind. apply bind_ext. intros s Hs.
        assert (Hs' : exists x, s = PStr x).
        { destruct (quoted_ok E b true (PTok t) (ex_intro _ t (conj eq_refl Ht))) as (x & Hx). exists x. congruence. }
        destruct Hs' as (x & ->). cbn [rmap map]. unfold response, eresp. change (PDict [(u "__name__", PStr x); (u "__attrs__", PDict [])]) with (child_record x []).
        rewrite er_record, rec_record. cbn [Erase.er]. unfold wl. destruct b; reflexivity.
      - assert (He : forall ln m f, cb_custom_import E ln m (map f (c :: cs ++ [a])) = import_entries E ln m (f a) (map f (c :: cs))).
        { intros ln m' f. cbn [map]. rewrite map_app. cbn [map]. unfold cb_custom_import. destruct (map f cs ++ [f a])%list as [|y l] eqn:Hy; [destruct (map f cs); discriminate|]. rewrite <- Hy.
          change (f c :: map f cs ++ [f a])%list with ((f c :: map f cs) ++ [f a])%list. rewrite last_last, removelast_last. reflexivity. }
        rewrite He. pose proof (He b (Some m) (fun x => x)) as He'. rewrite !map_id in He'. rewrite He'. apply (imports_er m a (c :: cs)). constructor; assumption. }
    unfold call. rewrite Hc, bind_rmap, rmap_bind. apply bind_ext. intros es _. unfold eout, est. cbn [fst snd rmap imports child_resources]. rewrite map_app. reflexivity.
  Qed.

  (** ** Declarations *)
  Definition fine (c : ptree) : Prop := low c = true /\ (b = true -> shaped c = true).
  Lemma fine_ok s c : ok E s c -> calm s = true -> clean c = true -> (b = true -> child_as_text c = false) -> fine c.
  Proof.
    intros H Hs Hc Ht. split; [exact (proj1 (ok_low E) s c H Hs)|]. intros Hb. exact (proj1 (ok_shaped E) s c H Hs Hc (Ht Hb)).
  Qed.
  Lemma fine_oks s cs : oks E s cs -> calm s = true -> forallb clean cs = true -> (b = true -> existsb child_as_text cs = false) -> Forall fine cs.
  Proof.
    intros H Hs Hc Ht. apply oks_Forall in H. rewrite Forall_forall in H |- *. intros c Hi. rewrite forallb_forall in Hc. apply (fine_ok s); auto.
    intros Hb. specialize (Ht Hb). destruct (child_as_text c) eqn:Hx; [|reflexivity]. rewrite <- Ht. symmetry. apply existsb_exists. eauto.
  Qed.
  Lemma fine_okp cs : okp E cs -> forallb clean cs = true -> (b = true -> existsb child_as_text cs = false) -> Forall fine cs.
  Proof.
    intros H Hc Ht. apply Forall_forall. intros c Hi. split.
    - pose proof (proj2 (proj2 (ok_low E)) cs H) as Hl. rewrite forallb_forall in Hl. auto.
    - intros Hb. pose proof (proj2 (proj2 (ok_shaped E)) cs H Hc (Ht Hb)) as Hl. rewrite forallb_forall in Hl. auto.
  Qed.
  Lemma fine_er c : fine c -> transform E false (tr c) = rmap er (transform E b c).
  Proof.
    intros [Hl Hs]. destruct b.
    - apply transform_er_true; auto.
    - apply transform_er_false; auto.
  Qed.
  Lemma low_tr : forall c, low c = true -> low (tr c) = true.
  Proof.
    apply (ptree_all (fun c => low c = true -> low (tr c) = true)); try reflexivity. intros l' m' cs' IH' H. cbn [low Erase.tr] in *.
    apply andb_true_iff in H as [H1 H2]. rewrite H1. cbn [andb]. rewrite forallb_forall in H2 |- *. rewrite Forall_forall in IH'.
    intros x Hx. apply in_map_iff in Hx as (y & <- & Hy). auto.
  Qed.
  Lemma over_er l m cs st : Forall fine cs ->
    (forall vs, all_ok (transform E b) cs = Ok vs -> call E false l (q m) (map er vs) (est st) = rmap eout (call E b l m vs st)) ->
    transform_tree E false (tr (TNode l m cs)) (est st) = rmap eout (transform_tree E b (TNode l m cs) st).
  Proof.
    intros Hf Hc. cbn [Erase.tr].
    assert (Hl : forallb low cs = true) by (rewrite forallb_forall; rewrite Forall_forall in Hf; intros c Hi; exact (proj1 (Hf c Hi))).
    rewrite !transform_over.
    - rewrite all_ok_map. rewrite (all_ok_ext _ (fun c => rmap er (transform E b c)) cs).
      2:{ rewrite Forall_forall in Hf |- *. intros c Hi. exact (fine_er c (Hf c Hi)). }
      rewrite all_ok_rmap, bind_rmap, rmap_bind. apply bind_ext. intros vs Hvs. rewrite <- wrap_rmap, <- (Hc vs Hvs). reflexivity.
    - apply low_quiets. exact Hl.
    - apply low_quiets. rewrite forallb_forall in Hl |- *. intros x Hx. apply in_map_iff in Hx as (y & <- & Hy). apply low_tr. auto.
  Qed.
  Lemma elem_children l m cs : ok E sElem (TNode l m cs) -> clean (TNode l m cs) = true -> (b = true -> child_as_text (TNode l m cs) = false) -> Forall fine cs.
  Proof.
    intros Hok Hc Ht.
    assert (Ht' : b = true -> existsb child_as_text cs = false).
    { intros Hb. specialize (Ht Hb). cbn [child_as_text] in Ht. apply orb_false_iff in Ht. tauto. }
    apply clean_node in Hc. clear Ht.
    assert (Hand : forall x y, (b = true -> x || y = false) -> (b = true -> x = false) /\ (b = true -> y = false)).
    { intros x y H. split; intros Hb; specialize (H Hb); apply orb_false_iff in H; tauto. }
    inversion Hok; subst; cbn [forallb existsb] in Hc, Ht'; rewrite ?forallb_app in Hc; rewrite ?existsb_app in Ht'; cbn [forallb existsb] in Hc, Ht';
      repeat match goal with
      | H : _ && _ = true |- _ => apply andb_true_iff in H as [? ?]
      | H : b = true -> _ || _ = false |- _ => apply Hand in H as [? ?]
      end;
      repeat (apply Forall_cons || apply Forall_app; [try split|]); try apply Forall_nil; rewrite ?Forall_app; try split; repeat (apply Forall_cons || apply Forall_nil);
      first [eapply fine_ok; [eassumption|reflexivity|assumption|assumption] | eapply fine_oks; [eassumption|reflexivity|assumption|assumption]
            | eapply fine_okp; eassumption].
  Qed.
  Lemma elem_er c st : ok E sElem c -> clean c = true -> (b = true -> child_as_text c = false) ->
    transform_tree E false (tr c) (est st) = rmap eout (transform_tree E b c st).
  Proof.
    intros Hok Hc Ht.
    assert (Hn : exists l m cs, c = TNode l m cs) by (inversion Hok; eauto). destruct Hn as (l & m & cs & ->).
    apply over_er; [exact (elem_children l m cs Hok Hc Ht)|]. intros vs Hvs.
    apply clean_node in Hc. clear Ht.
    inversion Hok; subst.
    all: cbn [forallb] in Hc; rewrite ?forallb_app in Hc; cbn [forallb] in Hc.
    all: repeat match goal with
      | H : _ && _ = true |- _ => apply andb_true_iff in H as [? ?]
      | H : ok E (sTok _) ?a |- _ => apply tok_inv in H as (? & -> & ?)
      end.
    all: try (cbn [all_ok] in Hvs; rewrite ?transform_tok in Hvs;
      repeat match type of Hvs with context [match transform E b ?x with _ => _ end] => destruct (transform E b x) eqn:?; [|discriminate] end;
      injection Hvs as <-; cbn [map]).
    - apply pure_er, scope_er.
    - apply (custom_import_er m0 [PTok x]). left. eauto.
    - apply custom_import_er. right. change (c :: cs0 ++ [TTok x])%list with ((c :: cs0) ++ [TTok x])%list in Hvs. rewrite all_ok_app in Hvs.
      destruct (all_ok (transform E b) (c :: cs0)) as [ws|] eqn:Hws; [|discriminate]. cbn in Hvs. injection Hvs as <-.
      apply all_ok_Forall2 in Hws. inversion Hws as [|? w ? ws' Hw Hws']; subst. exists w, ws', (PTok x). split; [reflexivity|]. split.
      + eapply value_of; [eassumption|reflexivity|discriminate|exact Hw].
      + match goal with H : oks E sImp cs0 |- _ => apply oks_Forall in H; rename H into Hi end. clear -Hi Hws'.
        induction Hws' as [|y w ys ws Hy _ IH]; [constructor|]. inversion Hi; subst. constructor; [|auto]. eapply value_of; [eassumption|reflexivity|discriminate|exact Hy].
    - apply pure_er. match goal with H : ok E (sOpt (sTok "STRING")) ?c |- _ => apply opt_tok_inv in H as [->|(al & -> & _)] end.
      + match goal with H : transform E b TNone = Ok _ |- _ => injection H as <- end. apply (proj2 (extension_er m0 x _ x)).
      + match goal with H : transform E b (TTok al) = Ok _ |- _ => injection H as <- end. apply (proj1 (extension_er m0 x _ al)).
    - apply pure_er, metadata_er.
    - apply pure_er, param_er.
    - apply pure_er, var_er.
    - apply pure_er, output_er.
    - match goal with H : transform E b ?t = Ok ?w, H1 : ok E sTAP ?t |- _ => 
        destruct (value_of E b false sTAP t w H1 eq_refl ltac:(intros _; assumption) H) as (ty & api & ->) end.
      match goal with H : transform E b ?t = Ok ?w, H1 : ok E sBody ?t |- _ => 
        destruct (value_of E b false sBody t w H1 eq_refl ltac:(intros _; assumption) H) as (_ & (dv & ->) & Hb) end.
      exact (resource_er m0 _ _ (ty, api) _ dv st (Hb eq_refl)).
    - apply pure_er, module_er.
    - apply pure_er, type_er.
    - change (d :: TTok x :: ps ++ [t; v])%list with ([d; TTok x] ++ (ps ++ [t; v]))%list in Hvs. rewrite !all_ok_app in Hvs. cbn [all_ok] in Hvs.
      rewrite transform_tok in Hvs. destruct (transform E b d) as [wd|]; [|discriminate]. destruct (all_ok (transform E b) ps) as [wps|] eqn:Hps; [|discriminate].
      destruct (transform E b t) as [wt|]; [|discriminate]. destruct (transform E b v) as [wv|]; [|discriminate]. cbn [bind app] in Hvs. injection Hvs as <-.
      destruct (pairs_er ps wps ltac:(assumption) Hps) as (l & H1' & H2' & H3'). apply pure_er. exact (func_er m0 wd x wps wt wv l H1' H2' H3').
  Qed.

  (** Programs. *)
  Lemma est_app a c : est (st_app a c) = st_app (est a) (est c).
  Proof. unfold est, st_app. cbn [imports child_resources]. rewrite !map_app. reflexivity. Qed.
  Definition eouts (o : list pyval * tstate) : list pyval * tstate := (map eresp (fst o), est (snd o)).
  Lemma list_er cs : oks E sElem cs -> forallb clean cs = true -> (b = true -> existsb child_as_text cs = false) ->
    forall st, transform_list E false (map tr cs) (est st) = rmap eouts (transform_list E b cs st).
  Proof.
    intros Hok. apply oks_Forall in Hok. induction Hok as [|c cs Hc _ IH]; intros Hcl Ht st; [reflexivity|].
    cbn [forallb existsb] in Hcl, Ht. apply andb_true_iff in Hcl as [Hcl1 Hcl2]. cbn [map transform_list].
    assert (Ht' : (b = true -> child_as_text c = false) /\ (b = true -> existsb child_as_text cs = false)).
    { split; intros Hb; specialize (Ht Hb); apply orb_false_iff in Ht; tauto. }
    rewrite (elem_er c st Hc Hcl1 (proj1 Ht')), bind_rmap, rmap_bind. apply bind_ext. intros [v st1] _. unfold eout at 1. cbn [fst snd].
    rewrite (IH Hcl2 (proj2 Ht') st1), bind_rmap, rmap_bind. apply bind_ext. intros [vs st2] _. reflexivity.
  Qed.

  (** ** Documents *)
  Lemma call_children l m vs st v st' : l <> L_resource -> call E b l m vs st = Ok (v, st') -> child_resources st' = child_resources st.
  Proof.
    intros Hl. destruct l; try congruence; unfold call, pure;
      try (intros [= <- <-]; reflexivity);
      match goal with |- bind ?x _ = _ -> _ => destruct x; cbn [bind]; [intros [= <- <-]; reflexivity|discriminate] end.
  Qed.
  Lemma elem_resp c st v st' : ok E sElem c -> clean c = true -> transform_tree E b c st = Ok (v, st') ->
    Forall resp (child_resources st) -> Forall resp (child_resources st').
  Proof.
    intros Hok Hc Hv Hst. assert (Hn : exists l m cs, c = TNode l m cs) by (inversion Hok; eauto). destruct Hn as (l & m & cs & ->).
    rewrite transform_over in Hv.
    2:{ pose proof (clean_node _ _ _ Hc). apply low_quiets. inversion Hok; subst; cbn [forallb]; rewrite ?forallb_app; cbn [forallb];
          rewrite ?andb_true_iff; repeat split;
          first [eapply (proj1 (ok_low E)); [eassumption|reflexivity] | eapply (proj1 (proj2 (ok_low E))); [eassumption|reflexivity] | eapply (proj2 (proj2 (ok_low E))); eassumption]. }
    destruct (all_ok (transform E b) cs) as [vs|] eqn:Hvs; [|discriminate]. cbn [bind] in Hv. apply wrap_Ok in Hv.
    assert (Hl : l = L_resource \/ l <> L_resource) by (destruct l; (left; reflexivity) || (right; discriminate)).
    destruct Hl as [->|Hl]; [|rewrite (call_children _ _ _ _ _ _ Hl Hv); exact Hst].
    apply clean_node in Hc. inversion Hok; subst. cbn [forallb] in Hc. 
    repeat match goal with H : _ && _ = true |- _ => apply andb_true_iff in H as [? ?] end.
    cbn [all_ok] in Hvs. repeat match type of Hvs with context [match transform E b ?x with _ => _ end] => destruct (transform E b x) eqn:?; [|discriminate] end.
    injection Hvs as <-.
    match goal with H : transform E b ?t = Ok ?w, H1 : ok E sTAP ?t |- _ => 
        destruct (value_of E b false sTAP t w H1 eq_refl ltac:(intros _; assumption) H) as (ty & api & ->) end.
    match goal with H : transform E b ?t = Ok ?w, H1 : ok E sBody ?t |- _ => 
        destruct (value_of E b false sBody t w H1 eq_refl ltac:(intros _; assumption) H) as (_ & (dv & ->) & Hb) end.
    unfold call, cb_resource in Hv.
    change (py_getitem (PDict [(u "type", PStr ty); (u "api_version", PStr api)]) (u "type")) with (Ok (PStr ty)) in Hv.
    change (py_getitem (PDict [(u "type", PStr ty); (u "api_version", PStr api)]) (u "api_version")) with (Ok (PStr api)) in Hv. cbn [bind] in Hv.
    match type of Hv with context [process_child_resource E ?f ?x ?y ?z ?w] => destruct (process_child_resource E f x y z w) as [[cfg ch]|] eqn:Hp end; cbn [bind] in Hv; [|discriminate].
    match type of Hv with context [with_lines ?x ?y ?z] => destruct (with_lines x y z) end; cbn [bind] in Hv; [|discriminate]. injection Hv as _ <-. cbn [child_resources].
    apply Forall_app. split; [exact Hst|]. exact (pcr_resp E b _ _ _ _ _ (Hb eq_refl) _ _ Hp).
  Qed.
  Lemma list_resp cs : oks E sElem cs -> forallb clean cs = true -> forall st vs st', transform_list E b cs st = Ok (vs, st') ->
    Forall resp (child_resources st) -> Forall resp (child_resources st').
  Proof.
    intros Hok. apply oks_Forall in Hok. induction Hok as [|c cs Hc _ IH]; intros Hcl st vs st' Hv Hst; cbn [transform_list] in Hv.
    - injection Hv as <- <-. exact Hst.
    - cbn [forallb] in Hcl. apply andb_true_iff in Hcl as [Hcl1 Hcl2]. destruct (transform_tree E b c st) as [[v st1]|] eqn:H1; [|discriminate]. cbn [bind] in Hv.
      destruct (transform_list E b cs st1) as [[ws st2]|] eqn:H2; [|discriminate]. cbn [bind] in Hv. injection Hv as <- <-.
      exact (IH Hcl2 _ _ _ H2 (elem_resp _ _ _ _ Hc Hcl1 H1 Hst)).
  Qed.

  Definition eattrs (a : pyval) : pyval := match er a with PDict d => PDict (wl d) | v => v end.
  Definition eentry (e : entry) : entry := {| e_kind := e_kind e; e_name := e_name e; e_attrs := eattrs (e_attrs e) |}.
  Lemma as_entry_er v : resp v -> as_entry (eresp v) = option_map eentry (as_entry v).
  Proof.
    intros (k & n & a & ->). cbn [eresp]. rewrite er_dict, !emap_cons by reflexivity. change (emap []) with (@nil (str * pyval)). cbn [Erase.er].
    assert (H : rec' (PDict [(u "__name__", PStr n); (u "__attrs__", er a)]) = PDict [(u "__name__", PStr n); (u "__attrs__", eattrs a)]).
    { unfold Erase.rec', eattrs, wl. destruct b; [|destruct (Erase.er p false a); reflexivity]. destruct (Erase.er p true a); reflexivity. }
    rewrite H. reflexivity.
  Qed.
  Lemma to_entries_er v es : (v = PNone \/ resp v) -> to_entries v es -> to_entries (eresp v) (map eentry es).
  Proof.
    intros [->|Hr].
    - intros [[_ ->]|(e & He & _)]; [left; auto|discriminate].
    - intros [[-> ->]|(e & He & ->)]; [left; auto|]. right. exists (eentry e). split; [|reflexivity]. rewrite (as_entry_er v Hr), He. reflexivity.
  Qed.
  Lemma resp_entries v : resp v -> exists es, to_entries v es.
  Proof. intros (k & n & a & ->). eexists. right. eexists. split; reflexivity. Qed.
  Lemma default_er : eentry (default_scope b) = default_scope false.
  Proof.
    unfold eentry, default_scope, eattrs. cbn [e_kind e_name e_attrs]. f_equal. rewrite er_dict. unfold wl. destruct b; reflexivity.
  Qed.
  Theorem start_er m cs : oks E sElem cs -> forallb clean cs = true -> (b = true -> existsb child_as_text cs = false) ->
    match transform E b (TNode L_start m cs) with
    | Ok v => exists es, v = document (default_scope b :: es) /\
        transform E false (tr (TNode L_start m cs)) = Ok (document (default_scope false :: map eentry es))
    | Err e => transform E false (tr (TNode L_start m cs)) = Err e
    end.
  Proof.
    intros Hok Hcl Ht. unfold transform. cbn [Erase.tr]. rewrite !transform_node.
    pose proof (list_er cs Hok Hcl Ht tstate0) as Hl. change (est tstate0) with tstate0 in Hl. rewrite Hl.
    pose proof (proj1 (proj2 (typing E b true)) sElem cs Hok ltac:(discriminate) tstate0 (conj (Forall_nil _) (Forall_nil _))) as Hty.
    destruct (transform_list E b cs tstate0) as [[vs st]|e] eqn:Hv; cbn [rmap bind]; [|reflexivity]. cbn [outc] in Hty. destruct Hty as [Hvs [Himp _]].
    pose proof (list_resp cs Hok Hcl _ _ _ Hv (Forall_nil _)) as Hch. cbn [eouts fst snd call].
    assert (Hall : Forall (fun v => v = PNone \/ resp v) (vs ++ imports st ++ child_resources st)).
    { rewrite !Forall_app. split; [|split].
      - eapply Forall_impl; [|exact Hvs]. intros v [->|(k & n & a & -> & _)]; [left; reflexivity|right]. do 3 eexists. reflexivity.
      - eapply Forall_impl; [|exact Himp]. intros v (n & a & -> & _). right. do 3 eexists. reflexivity.
      - eapply Forall_impl; [|exact Hch]. auto. }
    assert (Hess : exists ess, Forall2 to_entries (vs ++ imports st ++ child_resources st)%list ess).
    { clear -Hall. induction Hall as [|v l Hv _ (ess & IH)]; [exists []; constructor|].
      destruct Hv as [->|Hv]; [exists ([] :: ess); constructor; [left; auto|exact IH]|]. destruct (resp_entries v Hv) as (es & He). exists (es :: ess). constructor; assumption. }
    destruct Hess as (ess & Hess). rewrite (cb_start_document b st vs ess Hess). cbn [pure bind wrap].
    exists (List.concat ess). split; [reflexivity|].
    rewrite (cb_start_document false (est st) (map eresp vs) (map (map eentry) ess)).
    - cbn [pure bind wrap]. rewrite concat_map. reflexivity.
    - unfold est. cbn [imports child_resources]. rewrite <- !map_app. clear -Hall Hess p_type p_val.
      induction Hess as [|v es l ess Hv _ IH]; [constructor|]. inversion Hall; subst. cbn [map]. constructor; [apply to_entries_er; assumption|auto].
  Qed.
End Elements.
