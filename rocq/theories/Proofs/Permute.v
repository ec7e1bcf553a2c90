(** Declarations in another order. *)
From Coq Require Import List Arith NArith ZArith Bool String Lia Permutation.
From Verif Require Import Py.Str Py.Val Pycep.Utils Pycep.Transformer Lark.Tree Lark.Shape
  Spec.Json Spec.Schema Spec.Trees Spec.Program Spec.Reports Spec.Declarations Spec.Numbering
  Proofs.Base Proofs.JsonLemmas Proofs.TreeGrammar Proofs.Transform Proofs.Typing Proofs.State Proofs.EndToEnd Proofs.Quiet Proofs.Children
  Proofs.Program Proofs.Elements Proofs.Documents Proofs.Erase Proofs.EraseCalls Proofs.EraseTrees Proofs.EraseElements Proofs.EraseDocuments.
Import ListNotations.
Local Open Scope string_scope.

(** ** Documents of permuted entries *)
Lemma latest_unique d es e : NoDup (map key_of es) -> In e es -> latest (e_kind e) (e_name e) (d :: es) = e_attrs e.
Proof.
  intros Hnd Hin. apply in_split in Hin as (a & b & ->). rewrite map_app in Hnd. cbn [map] in Hnd.
  change (d :: a ++ e :: b)%list with ((d :: a) ++ e :: b)%list. apply latest_at. apply NoDup_remove in Hnd as [_ Hnd].
  intros H. apply Hnd. apply in_or_app. right. exact H.
Qed.
Lemma latest_absent d k n es : ~ In (k, n) (map key_of es) -> latest k n (d :: es) = latest k n [d].
Proof. intros H. change (d :: es) with ([d] ++ es)%list. rewrite latest_app. apply fold_latest_none. exact H. Qed.
Lemma latest_perm d k n es es' : Permutation es es' -> NoDup (map key_of es) -> latest k n (d :: es) = latest k n (d :: es').
Proof.
  intros HP Hnd. assert (Hdec : In (k, n) (map key_of es) \/ ~ In (k, n) (map key_of es)).
  { destruct (existsb (fun e => str_eqb k (e_kind e) && str_eqb n (e_name e)) es) eqn:Hx.
    - left. apply existsb_exists in Hx as (e & Hin & He). apply andb_true_iff in He as [H1 H2]. apply str_eqb_eq in H1, H2. subst. apply (in_map key_of) in Hin. exact Hin.
    - right. intros Hin. apply in_map_iff in Hin as (e & He & Hin). injection He as Hk Hn.
      assert (existsb (fun e => str_eqb k (e_kind e) && str_eqb n (e_name e)) es = true); [|congruence].
      apply existsb_exists. exists e. split; [exact Hin|]. rewrite Hk, Hn, !str_eqb_refl. reflexivity. }
  destruct Hdec as [Hin|Hno].
  - apply in_map_iff in Hin as (e & He & Hin). injection He as <- <-. rewrite !latest_unique; auto.
    + apply (Permutation_NoDup (l := map key_of es)); [|exact Hnd]. apply Permutation_map. exact HP.
    + apply (Permutation_in _ HP Hin).
  - rewrite (latest_absent d k n es Hno), (latest_absent d k n es'); [reflexivity|]. intros H. apply Hno. apply (Permutation_in _ (Permutation_sym (Permutation_map key_of HP)) H).
Qed.
Lemma firsts_perm l l' : Permutation l l' -> Permutation (firsts l) (firsts l').
Proof.
  intros HP. apply NoDup_Permutation; try apply firsts_spec. intros x. rewrite !(proj2 (firsts_spec _)). split; apply Permutation_in; [exact HP|apply Permutation_sym; exact HP].
Qed.
Lemma filter_perm {A} (f : A -> bool) l l' : Permutation l l' -> Permutation (filter f l) (filter f l').
Proof.
  induction 1; cbn [filter]; [constructor| | |eapply Permutation_trans; eassumption].
  - destruct (f x); [constructor|]; assumption.
  - destruct (f x), (f y); try apply Permutation_refl. constructor.
Qed.
Lemma group_perm d k es es' : Permutation es es' -> NoDup (map key_of es) -> Permutation (group k (d :: es)) (group k (d :: es')).
Proof.
  intros HP Hnd. unfold group. rewrite (map_ext _ (fun n => (n, latest k n (d :: es')))) by (intros n; rewrite (latest_perm d k n es es' HP Hnd); reflexivity).
  apply Permutation_map. unfold names_of. apply firsts_perm, Permutation_map, filter_perm. constructor. exact HP.
Qed.
Lemma existsb_perm {A} (f : A -> bool) l l' : Permutation l l' -> existsb f l = existsb f l'.
Proof. induction 1; cbn [existsb]; try congruence. destruct (f x), (f y); reflexivity. Qed.
Lemma document_perm d es es' : Permutation es es' -> NoDup (map key_of es) -> same_document (document (d :: es)) (document (d :: es')).
Proof.
  intros HP Hnd. exists (groups (d :: es)), (groups (d :: es')). split; [reflexivity|]. split; [reflexivity|].
  assert (Hk : Permutation (firsts (map e_kind (d :: es))) (firsts (map e_kind (d :: es')))) by (apply firsts_perm, Permutation_map; constructor; exact HP).
  split.
  - unfold groups. rewrite !map_map. cbn [fst]. rewrite !map_id. exact Hk.
  - intros k. rewrite !aget_groups, (existsb_perm (str_eqb k) _ _ Hk). destruct (existsb _ _); [|exact I]. apply group_perm; assumption.
Qed.

(** ** Programs *)
Section Programs.
  Variable E : pyenv.
  Variable ln : bool.
  Definition entered (c : ptree) (own imps ch : list entry) : Prop :=
    declares E ln c own imps ch /\
    exists v st, transform_tree E ln c tstate0 = Ok (v, st) /\ to_entries v own /\
      map as_entry (imports st) = map Some imps /\ map as_entry (child_resources st) = map Some ch.
  Lemma element_entered c : ok E sElem c -> clean c = true -> described E ln entered c.
  Proof.
    intros Hok Hcl v st Ht. destruct (element_declares E ln c v st Hok (fun _ => Hcl) Ht) as (own & imps & ch & Hd & H1 & H2 & H3).
    exists own, imps, ch. split; [|auto]. split; [exact Hd|]. exists v, st. auto.
  Qed.
  Lemma to_entries_fun v es es' : to_entries v es -> to_entries v es' -> es = es'.
  Proof. intros [[-> ->]|(e & H & ->)] [[H1 ->]|(e' & H' & ->)]; subst; try discriminate; congruence. Qed.
  Lemma map_some_inj {A} (l l' : list A) : map Some l = map Some l' -> l = l'.
  Proof. revert l'. induction l as [|x l IH]; intros [|y l'] H; try discriminate; [reflexivity|]. cbn [map] in H. injection H as -> H. f_equal. auto. Qed.
  Lemma entered_fun c o i r o' i' r' : entered c o i r -> entered c o' i' r' -> o = o' /\ i = i' /\ r = r'.
  Proof.
    intros (_ & v & st & H1 & H2 & H3 & H4) (_ & v' & st' & H1' & H2' & H3' & H4').
    assert (v' = v /\ st' = st) as [-> ->] by (rewrite H1 in H1'; injection H1'; auto).
    split; [exact (to_entries_fun v o o' H2 H2')|]. split; apply map_some_inj; congruence.
  Qed.
  Lemma all_entered_fun cs o i r o' i' r' : all_of entered cs o i r -> all_of entered cs o' i' r' -> o = o' /\ i = i' /\ r = r'.
  Proof.
    intros H. revert o' i' r'. induction H as [|c cs o i r o1 i1 r1 Hc Hcs IH]; intros o' i' r' H'.
    - inversion H'; subst. auto.
    - inversion H' as [|? ? o2 i2 r2 o3 i3 r3 Hc' Hcs']; subst. destruct (IH _ _ _ Hcs') as (-> & -> & ->). destruct (entered_fun _ _ _ _ _ _ _ Hc Hc') as (-> & -> & ->). auto.
  Qed.
  Lemma all_of_perm D cs cs' : Permutation cs cs' -> forall o i r, all_of D cs o i r ->
    exists o' i' r', all_of D cs' o' i' r' /\ Permutation o o' /\ Permutation i i' /\ Permutation r r'.
  Proof.
    induction 1 as [|x l l' HP IH|x y l|l1 l2 l3 HP1 IH1 HP2 IH2]; intros o i r H.
    - inversion H; subst. exists [], [], []. repeat split; constructor.
    - inversion H; subst. destruct (IH _ _ _ ltac:(eassumption)) as (o' & i' & r' & Q1 & Q2 & Q3 & Q4). do 3 eexists.
      split; [constructor; eassumption|]. repeat split; apply Permutation_app; auto.
    - inversion H as [|? ? a1 b1 c1 a2 b2 c2 Hy Hr]; subst. inversion Hr as [|? ? a3 b3 c3 a4 b4 c4 Hx Hl]; subst. do 3 eexists.
      split; [constructor; [exact Hx|constructor; [exact Hy|exact Hl]]|]. repeat split; apply Permutation_app_swap_app.
    - destruct (IH1 _ _ _ H) as (o1 & i1 & r1 & H1 & H2 & H3 & H4). destruct (IH2 _ _ _ H1) as (o2 & i2 & r2 & H5 & H6 & H7 & H8).
      exists o2, i2, r2. split; [exact H5|]. repeat split; eapply Permutation_trans; eassumption.
  Qed.
  Lemma start_entered m cs : oks E sElem cs -> forallb clean cs = true ->
    match transform E ln (TNode L_start m cs) with
    | Ok v => exists own imps ch, all_of entered cs own imps ch /\ v = document (default_scope ln :: own ++ imps ++ ch)%list
    | Err e => exists a c b, cs = (a ++ c :: b)%list /\ (forall x, In x a -> exists o, transform_tree E ln x tstate0 = Ok o) /\
                transform_tree E ln c tstate0 = Err e
    end.
  Proof.
    intros Hok Hcl. apply (start_described E ln entered m cs Hok). apply oks_Forall in Hok. rewrite Forall_forall in *. rewrite forallb_forall in Hcl.
    intros c Hc. apply element_entered; auto.
  Qed.
  Lemma oks_perm s cs cs' : Permutation cs cs' -> oks E s cs -> oks E s cs'.
  Proof.
    intros HP H. apply oks_Forall in H. assert (H' : Forall (ok E s) cs') by (rewrite Forall_forall in *; intros x Hx; apply H; apply (Permutation_in _ (Permutation_sym HP) Hx)).
    clear H HP. induction H'; constructor; assumption.
  Qed.
  Lemma forallb_perm {A} (f : A -> bool) l l' : Permutation l l' -> forallb f l = true -> forallb f l' = true.
  Proof. intros HP H. rewrite forallb_forall in *. intros x Hx. apply H. apply (Permutation_in _ (Permutation_sym HP) Hx). Qed.
  Theorem start_perm m m' cs cs' : oks E sElem cs -> forallb clean cs = true -> Permutation cs cs' -> NoDup (declared cs) ->
    match transform E ln (TNode L_start m cs) with
    | Ok v => exists v', transform E ln (TNode L_start m' cs') = Ok v' /\ same_document v v'
    | Err _ => exists e, transform E ln (TNode L_start m' cs') = Err e
    end.
  Proof.
    intros Hok Hcl HP Hnd.
    pose proof (oks_perm _ _ _ HP Hok) as Hok'. pose proof (forallb_perm _ _ _ HP Hcl) as Hcl'.
    pose proof (start_entered m cs Hok Hcl) as H. pose proof (start_entered m' cs' Hok' Hcl') as H'.
    destruct (transform E ln (TNode L_start m cs)) as [v|e].
    - destruct H as (o & i & r & Ha & ->). destruct (all_of_perm entered cs cs' HP _ _ _ Ha) as (o' & i' & r' & Ha' & P1 & P2 & P3).
      destruct (transform E ln (TNode L_start m' cs')) as [v'|e'].
      + destruct H' as (o2 & i2 & r2 & Hb & ->). destruct (all_entered_fun _ _ _ _ _ _ _ Ha' Hb) as (<- & <- & <-).
        eexists. split; [reflexivity|]. apply document_perm; [apply Permutation_app; [exact P1|apply Permutation_app; assumption]|].
        assert (Hd : declares_all E ln cs o i r) by (clear -Ha; induction Ha as [|? ? ? ? ? ? ? ? [? _]]; constructor; assumption).
        destruct (declares_all_names E ln cs o i r Hok Hd) as (K1 & K2 & K3). rewrite !map_app, K1, K2, K3. exact Hnd.
      + exfalso. destruct H' as (a & c & b & Hcs & _ & Hc). assert (Hin : In c cs') by (rewrite Hcs; apply in_elt).
        clear -Ha' Hin Hc. induction Ha' as [|x cs o i r o1 i1 r1 (_ & w & st & Hx & _) _ IH]; [destruct Hin|]. destruct Hin as [->|Hin]; [congruence|auto].
    - destruct (transform E ln (TNode L_start m' cs')) as [v'|e']; [|eauto].
      exfalso. destruct H as (a & c & b & Hcs & _ & Hc). destruct H' as (o' & i' & r' & Ha' & _).
      assert (Hin : In c cs') by (apply (Permutation_in _ HP); rewrite Hcs; apply in_elt).
      clear -Ha' Hin Hc. induction Ha' as [|x cs o i r o1 i1 r1 (_ & w & st & Hx & _) _ IH]; [destruct Hin|]. destruct Hin as [->|Hin]; [congruence|auto].
  Qed.
End Programs.
