(** Reports of trees up to positions, and with or without line numbers. *)
From Coq Require Import List Arith NArith ZArith Bool String Lia.
From Verif Require Import Py.Str Py.Val Pycep.Utils Pycep.Decorators Pycep.Functions Pycep.Transformer Lark.Tree
  Spec.Json Spec.Schema Spec.Trees Spec.Program Spec.Reports Spec.Numbering
  Proofs.Base Proofs.JsonLemmas Proofs.TreeGrammar Proofs.Transform Proofs.State Proofs.Quiet Proofs.Children Proofs.Erase Proofs.EraseCalls.
Import ListNotations.
Local Open Scope string_scope.

(** Only labels of parts of declarations. *)
Fixpoint low (t : ptree) : bool :=
  match t with TNode l _ cs => below l && forallb low cs | _ => true end.
Lemma ok_low E : (forall s t, ok E s t -> calm s = true -> low t = true) /\
  (forall s cs, oks E s cs -> calm s = true -> forallb low cs = true) /\
  (forall cs, okp E cs -> forallb low cs = true).
Proof.
  apply ok_mutind; intros; cbn [low forallb calm] in *; rewrite ?forallb_app; cbn [forallb];
    repeat match goal with
    | H : ?a = true -> _ |- _ => specialize (H ltac:(first [assumption | reflexivity]))
    end; repeat (apply andb_true_iff; split); auto; try discriminate; try reflexivity;
    match goal with l : label |- _ => destruct l; try discriminate; reflexivity end.
Qed.
Lemma low_quiet : forall t, low t = true -> quiet t = true.
Proof.
  apply (ptree_all (fun t => low t = true -> quiet t = true)); try reflexivity.
  intros l m cs IH H. cbn [low quiet] in *. apply andb_true_iff in H as [Hl H]. apply andb_true_iff. split.
  - destruct l; try reflexivity; discriminate.
  - clear -IH H. induction IH as [|c cs Hc IH IHcs]; [reflexivity|]. cbn [forallb] in *.
    apply andb_true_iff in H as [H1 H2]. apply andb_true_iff. auto.
Qed.
Lemma low_quiets cs : forallb low cs = true -> forallb quiet cs = true.
Proof. rewrite !forallb_forall. intros H x Hx. apply low_quiet, H, Hx. Qed.

Lemma all_ok_ext {A B} (f g : A -> result B) cs : Forall (fun c => f c = g c) cs -> all_ok f cs = all_ok g cs.
Proof. induction 1 as [|c cs Hc _ IH]; [reflexivity|]. cbn [all_ok]. rewrite Hc, IH. reflexivity. Qed.
Lemma all_ok_map {A B C} (h : C -> A) (f : A -> result B) cs : all_ok f (map h cs) = all_ok (fun c => f (h c)) cs.
Proof. induction cs as [|c cs IH]; [reflexivity|]. cbn [map all_ok]. rewrite IH. reflexivity. Qed.
Lemma all_ok_rmap {A B C} (h : B -> C) (f : A -> result B) cs : all_ok (fun c => rmap h (f c)) cs = rmap (map h) (all_ok f cs).
Proof. induction cs as [|c cs IH]; [reflexivity|]. cbn [all_ok]. rewrite IH. destruct (f c); [|reflexivity]. destruct (all_ok f cs); reflexivity. Qed.
Lemma wrap_rmap {A B} l (h : A -> B) r : wrap l (rmap h r) = rmap h (wrap l r).
Proof. destruct r; reflexivity. Qed.

(** The option matters to child resources and declarations only. *)
Lemma callv_same E l m vs : below l = true -> l <> L_child_resource -> callv E true l m vs = callv E false l m vs.
Proof. intros Hb Hc. unfold callv. destruct l; try discriminate; try congruence; reflexivity. Qed.
Lemma transform_nochild E : forall t, low t = true -> has_child t = false -> transform E true t = transform E false t.
Proof.
  apply (ptree_all (fun t => low t = true -> has_child t = false -> transform E true t = transform E false t)); try reflexivity.
  intros l m cs IH Hl Hh. cbn [low has_child] in *. apply andb_true_iff in Hl as [Hl Hls]. apply orb_false_iff in Hh as [Hh Hhs].
  rewrite !transform_node_quiet by (apply low_quiets; exact Hls).
  assert (Hcs : all_ok (transform E true) cs = all_ok (transform E false) cs).
  { apply all_ok_ext. rewrite Forall_forall in IH |- *. intros c Hc. rewrite forallb_forall in Hls. apply IH; auto.
    destruct (has_child c) eqn:Hx; [|reflexivity]. rewrite <- Hhs. symmetry. apply existsb_exists. eauto. }
  rewrite Hcs. apply bind_ext. intros vs _. rewrite callv_same; [reflexivity|exact Hl|]. intros ->. discriminate.
Qed.

Definition leaf (t : ptree) : bool := match t with TNode _ _ _ => false | _ => true end.
Definition fits (l : label) (cs : list ptree) : bool :=
  match l with
  | L_type_value | L_loop_object => negb (existsb has_child cs)
  | L_lambda_expression => negb (existsb has_child (removelast cs))
  | L_import_alias => forallb leaf cs
  | L_function | L_decorator | L_key | L_multi_line_string | L_type_api_pair | L_module_path | L_loop_array => forallb leaf (firstn 1 cs)
  | L_loop_array_index | L_child_resource => forallb leaf (firstn 2 cs)
  | L_function_accessor => forallb leaf (firstn 1 (tl cs))
  | L_pair => match cs with [TNode L_key _ [TTok k]; _] => negb (str_eqb (tval k) reserved_key) | _ => false end
  | _ => true
  end.
Fixpoint shaped (t : ptree) : bool :=
  match t with
  | TNode l m cs => match m with Some _ => true | None => false end && fits l cs && forallb shaped cs
  | _ => true
  end.

Section Trees.
  Variable E : pyenv.
  Variable p : token -> token.
  Hypothesis p_type : forall t, ttype (p t) = ttype t.
  Hypothesis p_val : forall t, tval (p t) = tval t.
  Variable q : meta -> meta.
  Notation tr := (tr p q).

  Lemma pstr_false v : pstr E p false v.
  Proof.
    unfold pstr.
    assert (Hr : forall v, py_repr E (er p false v) = py_repr E v).
    { clear v. apply pyval_all; try reflexivity.
      - intros t. cbn [er py_repr]. rewrite p_type, p_val. reflexivity.
      - intros l IH. cbn [er py_repr]. rewrite map_map. do 2 f_equal. f_equal. apply map_ext_in. rewrite Forall_forall in IH. exact IH.
      - intros l IH. assert (Hm : er p false (PTup l) = PTup (map (er p false) l)).
        { destruct l as [|x [|y [|]]]; try reflexivity. cbn [er map]. destruct (str_text x); reflexivity. }
        rewrite Hm. cbn [py_repr]. rewrite map_map. rewrite Forall_forall in IH. rewrite (map_ext_in _ _ _ IH). destruct l as [|x [|]]; reflexivity.
      - intros d IH. cbn [er py_repr]. rewrite map_map. do 2 f_equal. f_equal. apply map_ext_in. rewrite Forall_forall in IH. intros kv Hkv. cbn [fst snd].
        rewrite ev_off by reflexivity. rewrite (IH kv Hkv). reflexivity. }
    destruct v; try reflexivity; try exact (Hr _); [cbn; apply p_val|]. assert (H := Hr (PTup l)). destruct l as [|x [|y [|]]]; exact H.
  Qed.

  Section One.
    Variable b : bool.
    Hypothesis text_sites : b = true -> forall c v, low c = true -> has_child c = false -> transform E b c = Ok v ->
      transform E false (tr c) = rmap (er p b) (transform E b c) -> pstr E p b v.
    Lemma leaf_site c v : leaf c = true -> transform E b c = Ok v -> pstr E p b v.
    Proof. destruct c; intros Hl; try discriminate; intros [= <-]; [exact (p_val _)|reflexivity]. Qed.

    Definition simulated (c : ptree) : Prop := transform E false (tr c) = rmap (er p b) (transform E b c).
    Lemma sites_leaf cs vs : forallb leaf cs = true -> Forall2 (fun c v => transform E b c = Ok v) cs vs -> Forall (pstr E p b) vs.
    Proof.
      intros H. induction 1 as [|c v cs vs Hc _ IH]; [constructor|]. cbn [forallb] in H. apply andb_true_iff in H as [H1 H2].
      constructor; [exact (leaf_site c v H1 Hc)|auto].
    Qed.
    Lemma sites_text cs vs : b = true -> existsb has_child cs = false -> forallb low cs = true -> Forall simulated cs ->
      Forall2 (fun c v => transform E b c = Ok v) cs vs -> Forall (pstr E p b) vs.
    Proof.
      intros Hb H Hl Hs HF. induction HF as [|c v cs vs Hc _ IH]; [constructor|]. cbn [existsb forallb] in H, Hl.
      apply orb_false_iff in H as [H1 H2]. apply andb_true_iff in Hl as [Hl1 Hl2]. inversion Hs; subst.
      constructor; [|auto]. apply (text_sites Hb c v Hl1 H1 Hc). assumption.
    Qed.
    Lemma F2_firstn {A B} (R : A -> B -> Prop) n l l' : Forall2 R l l' -> Forall2 R (firstn n l) (firstn n l').
    Proof. intros H. revert n. induction H; intros [|n]; cbn [firstn]; constructor; auto. Qed.
    Lemma F2_removelast {A B} (R : A -> B -> Prop) l l' : Forall2 R l l' -> Forall2 R (removelast l) (removelast l').
    Proof.
      induction 1 as [|x y l l' Hx HF IH]; [constructor|]. destruct HF; [constructor|]. cbn [removelast] in *. constructor; assumption.
    Qed.
    Lemma F2_tl {A B} (R : A -> B -> Prop) l l' : Forall2 R l l' -> Forall2 R (tl l) (tl l').
    Proof. destruct 1; [constructor|assumption]. Qed.
    Lemma Forall_removelast {A} (P : A -> Prop) l : Forall P l -> Forall P (removelast l).
    Proof. induction 1 as [|x l Hx HF IH]; [constructor|]. destruct HF; [constructor|]. cbn [removelast] in *. constructor; assumption. Qed.
    Lemma forallb_removelast {A} (P : A -> bool) l : forallb P l = true -> forallb P (removelast l) = true.
    Proof. rewrite !forallb_forall. intros H x Hx. apply H. clear H. induction l as [|y [|z l] IH]; [destruct Hx|destruct Hx|]. destruct Hx as [->|Hx]; [left; reflexivity|right; exact (IH Hx)]. Qed.

    Lemma sites_ok l cs vs : (b = true -> fits l cs = true) -> forallb low cs = true -> Forall simulated cs ->
      Forall2 (fun c v => transform E b c = Ok v) cs vs -> Forall (pstr E p b) (sites l vs).
    Proof.
      intros Hf Hl Hs HF. assert (Eb : b = true \/ b = false) by (destruct b; auto). destruct Eb as [Eb|Eb].
      - specialize (Hf Eb).
        destruct l; cbn [sites fits] in *; try apply Forall_nil;
          try (apply negb_true_iff in Hf; eapply sites_text; eassumption);
          try (eapply sites_leaf; [exact Hf|]; first [exact HF | apply F2_firstn; exact HF | apply F2_firstn, F2_tl; exact HF]).
        + eapply sites_text; [exact Eb|apply negb_true_iff; exact Hf|apply forallb_removelast; exact Hl|apply Forall_removelast; exact Hs|]. apply F2_removelast. exact HF.
      - rewrite Eb. apply Forall_forall. intros v _. apply pstr_false.
    Qed.
    Theorem transform_er_b : forall t, low t = true -> (b = true -> shaped t = true) -> simulated t.
    Proof.
      apply (ptree_all (fun t => low t = true -> (b = true -> shaped t = true) -> simulated t)); try reflexivity.
      intros l m cs IH Hl Hsh. cbn [low] in Hl. apply andb_true_iff in Hl as [Hl Hls]. unfold simulated. cbn [Erase.tr].
      assert (Hss : b = true -> m <> None /\ fits l cs = true /\ forallb shaped cs = true).
      { intros Hb. specialize (Hsh Hb). cbn [shaped] in Hsh. rewrite !andb_true_iff in Hsh. destruct Hsh as [[Hm Hf] Hc]. split; [destruct m; congruence|auto]. }
      assert (Hsim : Forall simulated cs).
      { rewrite Forall_forall in IH |- *. intros c Hc. apply IH; [exact Hc| |].
        - rewrite forallb_forall in Hls. auto.
        - intros Hb. destruct (Hss Hb) as (_ & _ & H). rewrite forallb_forall in H. auto. }
      assert (Hq : forallb quiet (map tr cs) = true).
      { assert (Hlt : forall c, low c = true -> low (tr c) = true).
        { apply (ptree_all (fun c => low c = true -> low (tr c) = true)); try reflexivity. intros l' m' cs' IH' H. cbn [low Erase.tr] in *.
          apply andb_true_iff in H as [H1 H2]. rewrite H1. cbn [andb]. rewrite forallb_forall in H2 |- *. rewrite Forall_forall in IH'.
          intros x Hx. apply in_map_iff in Hx as (y & <- & Hy). auto. }
        apply low_quiets. rewrite forallb_forall in Hls |- *. intros x Hx. apply in_map_iff in Hx as (y & <- & Hy). auto. }
      rewrite !transform_node_quiet by (first [exact Hq | apply low_quiets; exact Hls]).
      rewrite all_ok_map, (all_ok_ext _ _ cs Hsim), all_ok_rmap, bind_rmap, rmap_bind. apply bind_ext. intros vs Hvs.
      rewrite <- wrap_rmap. f_equal. apply all_ok_Forall2 in Hvs. apply (callv_er E p p_type p_val q b l m vs Hl).
      - intros Hb. exact (proj1 (Hss Hb)).
      - apply (sites_ok l cs vs); auto. intros Hb. exact (proj1 (proj2 (Hss Hb))).
      - intros Hb -> k v -> Hk. destruct (Hss Hb) as (_ & Hf & _). cbn [fits] in Hf.
        inversion Hvs as [|ck vk ? ? H1 H2]; subst. inversion H2 as [|cv vv ? ? H3 H4]; subst. inversion H4; subst.
        destruct ck as [l' m' cs'| |]; try discriminate; destruct l'; try discriminate. destruct cs' as [|x [|]]; try discriminate;
          destruct x as [| tk0|]; try discriminate. cbv in H1. injection H1 as <-. cbn [str_text] in Hk. injection Hk as Hk.
        apply negb_true_iff, str_eqb_neq in Hf. exact (Hf Hk).
    Qed.
  End One.
  Theorem transform_er_false t : low t = true -> transform E false (tr t) = rmap (er p false) (transform E false t).
  Proof. intros Hl. apply (transform_er_b false); [discriminate|exact Hl|discriminate]. Qed.
  Theorem transform_er_true t : low t = true -> shaped t = true -> transform E false (tr t) = rmap (er p true) (transform E true t).
  Proof.
    intros Hl Hs. apply (transform_er_b true); [|exact Hl|intros _; exact Hs].
    intros _ c v Hlc Hc Hv Hsim. rewrite Hv in Hsim. rewrite (transform_nochild E c Hlc Hc) in Hv.
    rewrite (transform_er_false c Hlc), Hv in Hsim. cbn [rmap] in Hsim. unfold pstr. assert (He : er p false v = er p true v) by congruence.
    rewrite <- He. apply pstr_false.
  Qed.
End Trees.

(** Trees of texts have the shape. *)
Lemma ok_leaf E n t : ok E (sTok n) t -> leaf t = true.
Proof. intros H. apply tok_inv in H as (k & -> & _). reflexivity. Qed.
Lemma ok_opt_leaf E n t : ok E (sOpt (sTok n)) t -> leaf t = true.
Proof. intros H. apply opt_tok_inv in H as [->|(k & -> & _)]; reflexivity. Qed.
Lemma shaped_key E k : ok E sKey k -> clean k = true -> forall v, fits L_pair [k; v] = true.
Proof.
  intros H Hc v. destruct (key_ok E true k H Hc) as (mk & t & -> & Hk & _). cbn [fits]. apply negb_true_iff, str_eqb_neq. exact Hk.
Qed.
Lemma ok_shaped E : (forall s t, ok E s t -> calm s = true -> clean t = true -> child_as_text t = false -> shaped t = true) /\
  (forall s cs, oks E s cs -> calm s = true -> forallb clean cs = true -> existsb child_as_text cs = false -> forallb shaped cs = true) /\
  (forall cs, okp E cs -> forallb clean cs = true -> existsb child_as_text cs = false -> forallb shaped cs = true).
Proof.
  assert (Hnode : forall l m cs, clean (TNode l (Some m) cs) = true -> child_as_text (TNode l (Some m) cs) = false ->
    (forallb clean cs = true -> existsb child_as_text cs = false -> forallb shaped cs = true) ->
    (child_as_text (TNode l (Some m) cs) = false -> forallb clean cs = true -> fits l cs = true) -> shaped (TNode l (Some m) cs) = true).
  { intros l m cs Hc Ht Hs Hf. pose proof (clean_node _ _ _ Hc) as Hc'. cbn [shaped andb]. apply andb_true_iff. split; [auto|].
    apply Hs; [exact Hc'|]. cbn [child_as_text] in Ht. apply orb_false_iff in Ht. tauto. }
  apply ok_mutind; intros; try discriminate; try reflexivity; cbn [calm] in *; auto;
    try match goal with |- shaped (TNode _ _ _) = true => apply Hnode; [assumption|assumption|intros ? ?|intros ? ?] end;
    cbn [forallb existsb] in *;
    repeat match goal with
    | H : _ && _ = true |- _ => apply andb_true_iff in H as [? ?]
    | H : _ || _ = false |- _ => apply orb_false_iff in H as [? ?]
    end;
    try (rewrite ?andb_true_iff; repeat split; auto; fail).
  all: try (match goal with |- fits ?l _ = true => destruct l end; try discriminate; reflexivity).
  all: try (cbn [fits firstn tl forallb]; rewrite ?andb_true_iff; repeat split; eauto using ok_leaf, ok_opt_leaf; fail).
  all: try (eapply shaped_key; eassumption).
  all: match goal with H : child_as_text (TNode _ _ _) = false |- _ => cbn [child_as_text] in H; apply orb_false_iff in H as [H _] end;
    cbn [fits]; match goal with H : ?a = false |- negb ?a = true => rewrite H; reflexivity end.
Qed.
