(** Documents: looking entries up, order, and the step from texts to entries. *)
From Coq Require Import List Arith NArith ZArith Bool String Lia Permutation.
From Verif Require Import Py.Str Py.Val Pycep.Utils Pycep.Transformer Pycep.Main Pycep.Bicep Lark.Tree Lark.Shape
  Spec.Json Spec.Schema Spec.Trees Spec.Text Spec.Lexemes Spec.Program Spec.Reports Spec.Calls Spec.Children Spec.Declarations
  Proofs.Base Proofs.JsonLemmas Proofs.TreeGrammar Proofs.Transform Proofs.Typing Proofs.State Proofs.Tokens Proofs.EndToEnd Proofs.Quiet
  Proofs.Program Proofs.Children Proofs.Elements.
Import ListNotations.
Local Open Scope string_scope.

(** ** Lookup *)
Lemma latest_app k n es es' : latest k n (es ++ es')%list =
  fold_left (fun acc e => if str_eqb k (e_kind e) && str_eqb n (e_name e) then e_attrs e else acc) es' (latest k n es).
Proof. unfold latest. apply fold_left_app. Qed.
Lemma fold_latest_none k n es acc : ~ In (k, n) (map key_of es) ->
  fold_left (fun acc e => if str_eqb k (e_kind e) && str_eqb n (e_name e) then e_attrs e else acc) es acc = acc.
Proof.
  revert acc. induction es as [|e es IH]; intros acc H; [reflexivity|]. cbn [fold_left map In] in *.
  destruct (str_eqb_spec k (e_kind e)) as [->|]; cbn [andb]; [|apply IH; tauto].
  destruct (str_eqb_spec n (e_name e)) as [->|]; [|apply IH; tauto]. exfalso. apply H. left. reflexivity.
Qed.
Lemma latest_at es1 e es2 : ~ In (key_of e) (map key_of es2) -> latest (e_kind e) (e_name e) (es1 ++ e :: es2)%list = e_attrs e.
Proof.
  intros H. rewrite latest_app. cbn [fold_left]. rewrite !str_eqb_refl. cbn [andb]. apply fold_latest_none. exact H.
Qed.
Lemma in_names k n es : In n (names_of k es) <-> In (k, n) (map key_of es).
Proof.
  unfold names_of. rewrite (proj2 (firsts_spec _)), !in_map_iff. split.
  - intros (e & He & Hin). apply filter_In in Hin as [Hin Hk]. apply str_eqb_eq in Hk. exists e. unfold key_of. split; [congruence|exact Hin].
  - intros (e & He & Hin). injection He as Hk Hn. exists e. split; [exact Hn|]. apply filter_In. split; [exact Hin|]. apply str_eqb_eq. congruence.
Qed.
Lemma last_split (P : entry -> bool) es : existsb P es = true -> exists a e b, es = (a ++ e :: b)%list /\ P e = true /\ existsb P b = false.
Proof.
  induction es as [|e es IH]; intros H; [discriminate|]. cbn [existsb] in H. destruct (existsb P es) eqn:Hes.
  - destruct (IH eq_refl) as (a & e' & b & -> & H1 & H2). exists (e :: a), e', b. auto.
  - rewrite orb_false_r in H. exists [], e, es. auto.
Qed.
Lemma lookup_latest k n es : lookup k n (document es) =
  if existsb (fun e => str_eqb k (e_kind e) && str_eqb n (e_name e)) es then Some (latest k n es) else None.
Proof.
  unfold lookup, document. fold (groups es). rewrite aget_groups.
  destruct (existsb (str_eqb k) (firsts (map e_kind es))) eqn:Hk.
  - unfold group. fold (tab (fun n => latest k n es) (names_of k es)). rewrite aget_tab.
    destruct (existsb (str_eqb n) (names_of k es)) eqn:Hn, (existsb _ es) eqn:Hx; try reflexivity.
    + apply mem_str_in, in_names, in_map_iff in Hn as (e & He & Hin). injection He as Hek Hen.
      assert (existsb (fun e => str_eqb k (e_kind e) && str_eqb n (e_name e)) es = true); [|congruence].
      apply existsb_exists. exists e. split; [exact Hin|]. rewrite Hek, Hen, !str_eqb_refl. reflexivity.
    + apply existsb_exists in Hx as (e & Hin & He). apply andb_true_iff in He as [H1 H2]. apply str_eqb_eq in H1, H2.
      assert (existsb (str_eqb n) (names_of k es) = true); [|congruence].
      apply mem_str_in, in_names, in_map_iff. exists e. split; [unfold key_of; congruence|exact Hin].
  - destruct (existsb _ es) eqn:Hx; [|reflexivity]. apply existsb_exists in Hx as (e & Hin & He). apply andb_true_iff in He as [H1 _]. apply str_eqb_eq in H1.
    assert (existsb (str_eqb k) (firsts (map e_kind es)) = true); [|congruence].
    apply mem_str_in, firsts_spec, in_map_iff. exists e. split; [congruence|exact Hin].
Qed.
Lemma lookup_spec k n es a : lookup k n (document es) = Some a <->
  exists es1 e es2, es = (es1 ++ e :: es2)%list /\ e_kind e = k /\ e_name e = n /\ e_attrs e = a /\
    forall e', In e' es2 -> e_kind e' = k -> e_name e' <> n.
Proof.
  rewrite lookup_latest. split.
  - destruct (existsb _ es) eqn:Hx; [|discriminate]. intros [= <-].
    apply last_split in Hx as (es1 & e & es2 & -> & He & Hno). apply andb_true_iff in He as [H1 H2]. apply str_eqb_eq in H1, H2. subst k n.
    assert (Hn : forall e', In e' es2 -> e_kind e' = e_kind e -> e_name e' <> e_name e).
    { intros e' Hin Hk Hn'. assert (existsb (fun e0 => str_eqb (e_kind e) (e_kind e0) && str_eqb (e_name e) (e_name e0)) es2 = true); [|congruence].
      apply existsb_exists. exists e'. split; [exact Hin|]. rewrite Hk, Hn', !str_eqb_refl. reflexivity. }
    exists es1, e, es2. repeat split; auto. symmetry. apply latest_at. intros Hin. apply in_map_iff in Hin as (e' & He' & Hin).
    injection He' as Hk Hn'. exact (Hn e' Hin Hk Hn').
  - intros (es1 & e & es2 & -> & <- & <- & <- & Hno).
    assert (Hx : existsb (fun e0 => str_eqb (e_kind e) (e_kind e0) && str_eqb (e_name e) (e_name e0)) (es1 ++ e :: es2)%list = true).
    { apply existsb_exists. exists e. split; [apply in_elt|]. rewrite !str_eqb_refl. reflexivity. }
    rewrite Hx. f_equal. apply latest_at. intros Hin. apply in_map_iff in Hin as (e' & He' & Hin). injection He' as Hk Hn. exact (Hno e' Hin Hk Hn).
Qed.

(** ** From texts to entries *)
Section Texts.
  Variable E : pyenv.
  Variable fs : path -> result str.
  Lemma program_ok t cs : program E t cs -> oks E sElem cs.
  Proof. intros (m & H). apply lark_parse_ok in H. inversion H; subst. assumption. Qed.
  Lemma program_clean t cs : program E t cs -> ~ contains reserved_key t -> forallb clean cs = true.
  Proof. intros (m & H) Hno. apply (lark_parse_clean E) in H; [|exact Hno]. cbn [clean] in H. exact H. Qed.
  Lemma lark_start t tree : lark_parse E t = Ok tree -> exists m cs, tree = TNode L_start m cs.
  Proof. intros H. apply lark_parse_ok in H. inversion H; subst. eauto. Qed.


  Lemma parse_ok ln text fp t v : source fs text fp t -> bicep_parse E fs ln text fp = Ok v ->
    exists m cs, lark_parse E t = Ok (TNode L_start m cs) /\ transform E ln (TNode L_start m cs) = Ok v.
  Proof.
    intros Hs. rewrite (parse_source E fs ln _ _ _ Hs). destruct (is_valid t); [|discriminate].
    destruct (lark_parse E t) as [tree|e] eqn:Hp; cbn [bind]; [|discriminate]. intros Hv.
    destruct (lark_start t tree Hp) as (m & cs & ->). eauto.
  Qed.
  Lemma parse_program ln text fp t cs n : source fs text fp t -> occurs triple t n -> Nat.Even n -> program E t cs ->
    exists m, bicep_parse E fs ln text fp = transform E ln (TNode L_start m cs).
  Proof.
    intros Hs Hn He (m & Hp). exists m. rewrite (parse_source E fs ln _ _ _ Hs), (is_valid_occurs _ _ Hn).
    apply Nat.even_spec in He. rewrite He, Hp. reflexivity.
  Qed.
  Lemma program_unique t cs cs' : program E t cs -> program E t cs' -> cs = cs'.
  Proof. intros (m & H) (m' & H'). congruence. Qed.
  Lemma transform_pair ln c v : transform E ln c = Ok v <-> exists st, transform_tree E ln c tstate0 = Ok (v, st).
  Proof.
    unfold transform. destruct (transform_tree E ln c tstate0) as [[w st]|e]; cbn [bind]; split; intros H; try discriminate.
    - injection H as ->. eauto.
    - destruct H as (st' & H). injection H as -> _. reflexivity.
    - destruct H as (st' & H). discriminate.
  Qed.
  Lemma transform_err ln c e : transform E ln c = Err e <-> transform_tree E ln c tstate0 = Err e.
  Proof. unfold transform. destruct (transform_tree E ln c tstate0) as [[w st]|x]; cbn [bind]; split; intros H; congruence. Qed.

  Lemma parse_outline ln text fp t v : source fs text fp t -> bicep_parse E fs ln text fp = Ok v ->
    exists cs own imps ch, program E t cs /\ all_of (outline E ln) cs own imps ch /\
      v = document (default_scope ln :: own ++ imps ++ ch)%list.
  Proof.
    intros Hs Hv. destruct (parse_ok ln text fp t v Hs Hv) as (m & cs & Hp & Ht).
    assert (Hprog : program E t cs) by (exists m; exact Hp).
    pose proof (start_outline E ln m cs (program_ok t cs Hprog)) as H. rewrite Ht in H.
    destruct H as (own & imps & ch & H). exists cs, own, imps, ch. split; [exact Hprog|exact H].
  Qed.
  Lemma parse_declares ln text fp t v : source fs text fp t -> ~ contains reserved_key t -> bicep_parse E fs ln text fp = Ok v ->
    exists cs own imps ch, program E t cs /\ declares_all E ln cs own imps ch /\
      v = document (default_scope ln :: own ++ imps ++ ch)%list.
  Proof.
    intros Hs Hno Hv. destruct (parse_ok ln text fp t v Hs Hv) as (m & cs & Hp & Ht).
    assert (Hprog : program E t cs) by (exists m; exact Hp).
    pose proof (start_declares E ln m cs (program_ok t cs Hprog) (program_clean t cs Hprog Hno)) as H. rewrite Ht in H.
    destruct H as (own & imps & ch & H). exists cs, own, imps, ch. split; [exact Hprog|exact H].
  Qed.
  (** Failure: the first declaration that cannot be reported. *)
  Lemma start_fails ln m cs e : oks E sElem cs -> transform E ln (TNode L_start m cs) = Err e <->
    exists a c b, cs = (a ++ c :: b)%list /\ (forall x, In x a -> exists o, transform E ln x = Ok o) /\ transform E ln c = Err e.
  Proof.
    intros Hok. pose proof (start_outline E ln m cs Hok) as H. split.
    - intros Ht. rewrite Ht in H. destruct H as (a & c & b & H1 & H2 & H3). exists a, c, b. split; [exact H1|]. split.
      + intros x Hx. destruct (H2 x Hx) as ([o st] & Ho). exists o. apply transform_pair. eauto.
      + apply transform_err. exact H3.
    - intros (a & c & b & Hcs & Ha & Hc). destruct (transform E ln (TNode L_start m cs)) as [v|e'] eqn:Ht.
      + exfalso. unfold transform in Ht. rewrite transform_node in Ht.
        assert (Hn : forallb nostart cs = true) by (apply (proj1 (proj2 (ok_nostart E)) sElem cs Hok); reflexivity).
        pose proof (transform_list_reports E ln cs Hn) as Hl. destruct (transform_list E ln cs tstate0) as [[vs d]|]; [|discriminate].
        destruct Hl as (outs & HF & _). subst cs. apply Forall2_app_inv_l in HF as (o1 & o2 & _ & HF & _). inversion HF as [|? [o st] ? ? Ho]; subst.
        apply transform_err in Hc. unfold reported in Ho. congruence.
      + destruct H as (a' & c' & b' & H1 & H2 & H3). apply transform_err in Hc. f_equal.
        rewrite Hcs in H1. clear -H1 Ha H2 H3 Hc. revert a' H1 H2. induction a as [|x a IH]; intros [|y a'] H1 H2; cbn [app] in H1; injection H1 as H1 H1'; subst.
        * congruence.
        * exfalso. destruct (H2 y (or_introl eq_refl)) as (o & Ho). congruence.
        * exfalso. destruct (Ha c' (or_introl eq_refl)) as (o & Ho). apply transform_pair in Ho as (st & Ho). congruence.
        * apply (IH ltac:(intros; apply Ha; right; assumption) a' H1'). intros; apply H2; right; assumption.
  Qed.

  (** ** Scope *)
  Lemma all_of_app ln (D := outline E ln) a b own imps ch : all_of D (a ++ b) own imps ch ->
    exists o1 i1 c1 o2 i2 c2, all_of D a o1 i1 c1 /\ all_of D b o2 i2 c2 /\ own = (o1 ++ o2)%list /\ imps = (i1 ++ i2)%list /\ ch = (c1 ++ c2)%list.
  Proof.
    revert own imps ch. induction a as [|c a IH]; cbn [app]; intros own imps ch H.
    - exists [], [], [], own, imps, ch. repeat split; [constructor|exact H].
    - inversion H; subst. destruct (IH _ _ _ ltac:(eassumption)) as (o1 & i1 & c1 & o2 & i2 & c2 & Ha & Hb & -> & -> & ->).
      do 6 eexists. split; [constructor; eassumption|]. split; [exact Hb|]. rewrite !app_assoc. auto.
  Qed.
  Lemma outline_names ln c own imps ch : ok E sElem c -> outline E ln c own imps ch ->
    map key_of own = own_decl c /\ map key_of imps = import_decl c /\ Forall (fun e => e_kind e = u "resources") ch /\
    (clean c = true -> map key_of ch = child_decl c).
  Proof.
    intros Hok [Hd|m d n rest attrs -> Hc -> -> Hch].
    - destruct (declares_names E ln c own imps ch Hok Hd) as (H1 & H2 & H3). repeat split; auto.
      assert (Hk : Forall (fun p => fst p = u "resources") (child_decl c)).
      { clear. destruct c as [l m cs| |]; try constructor. destruct l; try constructor.
        destruct cs as [|? [|[] [|? [|? [|? [|]]]]]]; try constructor. cbn [child_decl]. apply Forall_forall. intros pp Hpp. apply in_map_iff in Hpp as (xx & <- & _). reflexivity. }
      rewrite <- H3 in Hk. rewrite Forall_forall in *. intros e He. apply (Hk (key_of e)). apply in_map. exact He.
    - repeat split; auto. congruence.
  Qed.
  Lemma outlines_names ln cs own imps ch : oks E sElem cs -> all_of (outline E ln) cs own imps ch ->
    map key_of own = flat_map own_decl cs /\ map key_of imps = flat_map import_decl cs /\ Forall (fun e => e_kind e = u "resources") ch.
  Proof.
    intros Hok H. induction H as [|c cs own imps ch own' imps' ch' Hd Hds IH]; [repeat split; constructor|].
    inversion Hok; subst. destruct (IH ltac:(assumption)) as (H1' & H2' & H3').
    destruct (outline_names ln c own imps ch ltac:(assumption) Hd) as (H1'' & H2'' & H3'' & _).
    rewrite !map_app. cbn [flat_map]. repeat split; try congruence. apply Forall_app. auto.
  Qed.
  Lemma own_globals c : is_scope c = false -> forall p, In p (own_decl c) -> fst p <> u "globals".
  Proof.
    intros Hs p. destruct c as [l m cs| |]; cbn [own_decl]; try contradiction. destruct l; try discriminate Hs; try contradiction;
      destruct cs as [|[] cs]; try contradiction; try destruct cs as [|[] cs]; try contradiction;
      cbn [In]; intros [<-|[]]; discriminate.
  Qed.
  Lemma import_kind c p : In p (import_decl c) -> fst p = u "imports".
  Proof.
    destruct c as [l m cs| |]; cbn [import_decl]; try contradiction. destruct l; try contradiction.
    assert (H : forall q, In q (flat_map (fun c => match c with TNode L_import_alias _ (TTok n :: _) => [(u "imports", tval n)] | _ => [] end) cs) -> fst q = u "imports").
    { intros q Hq. apply in_flat_map in Hq as (c & _ & Hq). destruct c as [l' ? ccs| |]; try contradiction. destruct l'; try contradiction.
      destruct ccs as [|[] ?]; try contradiction. destruct Hq as [<-|[]]. reflexivity. }
    destruct cs as [|[] [|]]; try apply H. cbn [In]. intros [<-|[]]. reflexivity.
  Qed.
End Texts.

(** ** Orders *)
Lemma names_of_keys k es : names_of k es = firsts (map snd (filter (fun p => str_eqb k (fst p)) (map key_of es))).
Proof.
  unfold names_of. f_equal. induction es as [|e es IH]; [reflexivity|]. cbn [map filter]. unfold key_of at 1. cbn [fst].
  destruct (str_eqb k (e_kind e)); cbn [map snd]; rewrite IH; reflexivity.
Qed.
Lemma kinds_keys es : map e_kind es = map fst (map key_of es).
Proof. rewrite map_map. reflexivity. Qed.
Lemma lookup_key k n es : (exists a, lookup k n (document es) = Some a) <-> In (k, n) (map key_of es).
Proof.
  rewrite lookup_latest. split.
  - intros (a & H). destruct (existsb _ es) eqn:Hx; [|discriminate]. apply existsb_exists in Hx as (e & Hin & He).
    apply andb_true_iff in He as [H1 H2]. apply str_eqb_eq in H1, H2. apply in_map_iff. exists e. unfold key_of. split; [congruence|exact Hin].
  - intros H. apply in_map_iff in H as (e & He & Hin). injection He as Hk Hn.
    replace (existsb _ es) with true; [eauto|]. symmetry. apply existsb_exists. exists e. split; [exact Hin|]. rewrite Hk, Hn, !str_eqb_refl. reflexivity.
Qed.
Lemma document_json ln mg v : document_ok mg ln v -> json v.
Proof.
  intros (gs & -> & Hn & _ & HF). constructor; [exact Hn|]. eapply Forall_impl; [|exact HF].
  intros g (kind & _ & _ & entries & -> & _ & Hnd & Hes & _). constructor; [exact Hnd|].
  eapply Forall_impl; [|exact Hes]. intros e He. exact (entry_ok_json ln mg kind _ He).
Qed.
Section In.
  Variable E : pyenv.
  Variable ln : bool.
  Lemma declares_all_in cs own imps ch c : declares_all E ln cs own imps ch -> In c cs ->
    exists o i h, declares E ln c o i h /\ incl o own /\ incl i imps /\ incl h ch.
  Proof.
    induction 1 as [|x cs o i h own imps ch Hd Hds IH]; intros Hin; [destruct Hin|]. destruct Hin as [->|Hin].
    - exists o, i, h. split; [exact Hd|]. repeat split; apply incl_appl, incl_refl.
    - destruct (IH Hin) as (o' & i' & h' & H1 & H2 & H3 & H4). exists o', i', h'. split; [exact H1|]. repeat split; apply incl_appr; assumption.
  Qed.
  Lemma lookup_unique es e : In e es -> NoDup (map key_of es) -> lookup (e_kind e) (e_name e) (document es) = Some (e_attrs e).
  Proof.
    intros Hin Hnd. apply in_split in Hin as (a & b & ->). apply lookup_spec. exists a, e, b. repeat split.
    intros e' Hin Hk Hn. rewrite map_app in Hnd. cbn [map] in Hnd. apply NoDup_remove_2 in Hnd. apply Hnd. apply in_or_app. right.
    apply in_map_iff. exists e'. unfold key_of. rewrite Hk, Hn. auto.
  Qed.
End In.
