(** Facts about plain JSON data and the dict operations. *)
From Coq Require Import List Arith NArith ZArith Bool String Lia.
From Verif Require Import Py.Str Py.Val Spec.Outcomes Spec.Json Proofs.Base.
Import ListNotations.

#[global] Arguments u _ : simpl never.
Definition vals_json (d : list (str * pyval)) : Prop := Forall (fun kv => json (snd kv)) d.

Lemma json_dict_inv d : json (PDict d) -> NoDup (map fst d) /\ vals_json d.
Proof. intros H. inversion H; subst. split; assumption. Qed.
Lemma json_list_inv l : json (PList l) -> Forall json l.
Proof. intros H. inversion H; subst. assumption. Qed.

Lemma aget_In {A} k (d : list (str * A)) v : aget k d = Some v -> In (k, v) d.
Proof.
  induction d as [|[k' v'] d IH]; cbn [aget]; [discriminate|].
  destruct (str_eqb_spec k k') as [->|_]; intros H.
  - inversion H; subst. left. reflexivity.
  - right. apply IH. exact H.
Qed.
Lemma aget_None {A} k (d : list (str * A)) : aget k d = None <-> ~ In k (map fst d).
Proof.
  induction d as [|[k' v'] d IH]; cbn [aget map fst].
  - split; [intros _ []|reflexivity].
  - destruct (str_eqb_spec k k') as [->|Hk].
    + split; [discriminate|]. intros H. exfalso. apply H. left. reflexivity.
    + rewrite IH. cbn. intuition congruence.
Qed.
Lemma aset_keys {A} k (v : A) d : map fst (aset k v d) = map fst d \/ (~ In k (map fst d) /\ map fst (aset k v d) = (map fst d ++ [k])%list).
Proof.
  induction d as [|[k' v'] d IH]; cbn [aset map fst]; [right; split; [intros []|reflexivity]|].
  destruct (str_eqb_spec k k') as [->|Hk]; [left; reflexivity|].
  cbn [map fst]. destruct IH as [->|[Hn ->]]; [left; reflexivity|right].
  split; [|reflexivity]. intros [H|H]; [congruence|contradiction].
Qed.
Lemma NoDup_snoc {A} (l : list A) x : NoDup l -> ~ In x l -> NoDup (l ++ [x]).
Proof.
  induction l as [|a l IH]; intros H Hx; cbn [app]; [repeat constructor; intros []|].
  inversion H; subst. constructor.
  - rewrite in_app_iff. cbn. intros [H1|[H1|[]]]; [contradiction|]. subst. apply Hx. left. reflexivity.
  - apply IH; [assumption|]. intros H1. apply Hx. right. exact H1.
Qed.
Lemma aset_NoDup {A} k (v : A) d : NoDup (map fst d) -> NoDup (map fst (aset k v d)).
Proof.
  intros H. destruct (aset_keys k v d) as [->|[Hn ->]]; [exact H|]. apply NoDup_snoc; assumption.
Qed.
Lemma aset_Forall {A} (P : str * A -> Prop) k v d : (forall k', P (k', v)) -> Forall P d -> Forall P (aset k v d).
Proof.
  intros Hv. induction d as [|[k' v'] d IH]; intros H; cbn [aset].
  - constructor; [apply Hv|constructor].
  - inversion H; subst. destruct (str_eqb k k'); constructor; auto.
Qed.
Lemma aset_Forall_k {A} (P : str * A -> Prop) k v d : P (k, v) -> Forall P d -> Forall P (aset k v d).
Proof.
  intros Hv. induction d as [|[k' v'] d IH]; intros H; cbn [aset].
  - constructor; [apply Hv|constructor].
  - inversion H; subst. destruct (str_eqb_spec k k') as [<-|]; constructor; auto.
Qed.
Lemma dict_of_ind {A} (P : str * A -> Prop) l : Forall P l -> NoDup (map fst (dict_of l)) /\ Forall P (dict_of l).
Proof.
  intros H. unfold dict_of.
  assert (Hg : forall l d, Forall P l -> NoDup (map fst d) -> Forall P d ->
     NoDup (map fst (fold_left (fun d kv => aset (fst kv) (snd kv) d) l d)) /\
     Forall P (fold_left (fun d kv => aset (fst kv) (snd kv) d) l d)).
  { clear. induction l as [|[k v] l IH]; intros d Hl Hd1 Hd2; cbn [fold_left]; [auto|].
    inversion Hl; subst. apply IH; [assumption|apply aset_NoDup; assumption|]. apply aset_Forall_k; assumption. }
  apply Hg; [exact H|constructor|constructor].
Qed.
Lemma dict_of_NoDup {A} (l : list (str * A)) : NoDup (map fst (dict_of l)).
Proof. apply (dict_of_ind (fun _ => True)). induction l; constructor; auto. Qed.
Lemma json_dict_of l : vals_json l -> json (PDict (dict_of l)).
Proof. intros H. destruct (dict_of_ind _ l H) as [H1 H2]. constructor; assumption. Qed.
Lemma aset_json k v d : NoDup (map fst d) -> vals_json d -> json v -> json (PDict (aset k v d)).
Proof. intros H1 H2 H3. constructor; [apply aset_NoDup; exact H1|]. apply aset_Forall; [intros; exact H3|exact H2]. Qed.
Lemma adel_sub {A} k (d : list (str * A)) : forall e, In e (adel k d) -> In e d.
Proof.
  induction d as [|[k' v'] d IH]; intros e H; cbn [adel] in H; [exact H|].
  destruct (str_eqb k k'); [right; exact H|]. destruct H as [H|H]; [left; exact H|right; apply IH; exact H].
Qed.
Lemma adel_NoDup {A} k (d : list (str * A)) : NoDup (map fst d) -> NoDup (map fst (adel k d)).
Proof.
  induction d as [|[k' v'] d IH]; intros H; cbn [adel]; [exact H|].
  cbn [map fst] in H. inversion H; subst. destruct (str_eqb k k'); [assumption|].
  cbn [map fst]. constructor; [|apply IH; assumption].
  intros Hin. apply in_map_iff in Hin as (e & He & Hin). apply adel_sub in Hin. apply H2. apply in_map_iff. eauto.
Qed.
Lemma adel_json k d : json (PDict d) -> json (PDict (adel k d)).
Proof.
  intros H. apply json_dict_inv in H as [H1 H2]. constructor; [apply adel_NoDup; exact H1|].
  apply Forall_forall. intros e He. apply adel_sub in He. eapply Forall_forall in H2; eassumption.
Qed.
Lemma aget_adel {A} k k' (d : list (str * A)) : NoDup (map fst d) ->
  aget k (adel k' d) = if str_eqb k k' then None else aget k d.
Proof.
  induction d as [|[k0 v0] d IH]; intros H; cbn [adel aget]; [destruct (str_eqb k k'); reflexivity|].
  cbn [map fst] in H. inversion H; subst.
  destruct (str_eqb_spec k' k0) as [->|Hk'].
  - destruct (str_eqb_spec k k0) as [->|Hk]; [apply aget_None; assumption|reflexivity].
  - cbn [aget]. rewrite IH by assumption. destruct (str_eqb_spec k k0) as [->|Hk], (str_eqb_spec k0 k') as [->|]; try congruence; try reflexivity.
Qed.
Lemma aget_json k d v : json (PDict d) -> aget k d = Some v -> json v.
Proof.
  intros H Hg. apply json_dict_inv in H as [_ H]. apply aget_In in Hg. eapply Forall_forall in H; [|exact Hg]. exact H.
Qed.
Lemma getitem_json v k x : json v -> py_getitem v k = Ok x -> json x.
Proof.
  intros H Hg. destruct v; try discriminate. cbn [py_getitem] in Hg. destruct (aget k d) eqn:He; [|discriminate].
  inversion Hg; subst. eapply aget_json; eassumption.
Qed.
Lemma get_json v k df x : json v -> json df -> py_get v k df = Ok x -> json x.
Proof.
  intros H Hd Hg. destruct v; try discriminate. cbn [py_get] in Hg. inversion Hg; subst.
  destruct (aget k d) eqn:He; [|exact Hd]. eapply aget_json; eassumption.
Qed.
Lemma setitem_json v k x y : json v -> json x -> py_setitem v k x = Ok y -> json y.
Proof.
  intros H Hx Hg. destruct v; try discriminate. cbn [py_setitem] in Hg. inversion Hg; subst.
  apply json_dict_inv in H as [H1 H2]. apply aset_json; assumption.
Qed.
Lemma numbered_json p n l : Forall json l -> vals_json (numbered p n l).
Proof. intros H. revert n. induction H; intros n; cbn [numbered]; constructor; auto. apply IHForall. Qed.

(** Dict displays with literal keys. *)
Lemma json_lit d : NoDup (map fst d) -> vals_json d -> json (PDict d).
Proof. apply json_dict. Qed.
Ltac nodup_lit := cbn [map fst]; repeat (constructor; [cbn [In]; intros Hin; repeat destruct Hin as [Hin|Hin]; try discriminate Hin; try contradiction|]); constructor.

(** The python exceptions a callback can raise. *)
Definition py_kinds : list exn_kind := [KType; KValue; KKey; KIndex; KAttr].
Ltac kin := eexists; split; [reflexivity|cbn; tauto].
Lemma kind_in_incl ks ks' e : incl ks ks' -> kind_in ks e -> kind_in ks' e.
Proof. intros Hi (k & Hk & Hin). exists k. auto. Qed.
Lemma getitem_err v k e : py_getitem v k = Err e -> kind_in [KType; KKey] e.
Proof. destruct v; cbn; intros H; try (inversion H; subst; kin). destruct (aget k d); inversion H; kin. Qed.
Lemma setitem_err v k x e : py_setitem v k x = Err e -> kind_in [KType] e.
Proof. destruct v; cbn; intros H; inversion H; subst; kin. Qed.
Lemma get_err v k x e : py_get v k x = Err e -> kind_in [KAttr] e.
Proof. destruct v; cbn; intros H; inversion H; subst; kin. Qed.
Lemma arg_err i l e : arg_at i l = Err e -> kind_in [KIndex] e.
Proof. unfold arg_at. destruct (nth_error l i); intros H; inversion H; kin. Qed.
Lemma arg_json i l v : Forall json l -> arg_at i l = Ok v -> json v.
Proof.
  unfold arg_at. destruct (nth_error l i) eqn:He; intros Hl H; inversion H; subst.
  apply nth_error_In in He. eapply Forall_forall in Hl; eassumption.
Qed.

(** A result that is JSON data or an exception of the given kinds. *)
Definition rjson (ks : list exn_kind) (r : result pyval) : Prop := match r with Ok v => json v | Err e => kind_in ks e end.
Lemma rjson_bind ks (m : result pyval) f : rjson ks m -> (forall v, json v -> rjson ks (f v)) -> rjson ks (bind m f).
Proof. destruct m; cbn; auto. Qed.
Lemma rjson_arg ks i l : In KIndex ks -> Forall json l -> rjson ks (arg_at i l).
Proof.
  intros Hk H. destruct (arg_at i l) eqn:He; cbn; [eapply arg_json; eassumption|].
  eapply kind_in_incl; [|eapply arg_err; eassumption]. intros k [<-|[]]. exact Hk.
Qed.
Lemma rjson_getitem ks v k : In KType ks -> In KKey ks -> json v -> rjson ks (py_getitem v k).
Proof.
  intros H1 H2 H. destruct (py_getitem v k) eqn:He; cbn; [eapply getitem_json; eassumption|].
  eapply kind_in_incl; [|eapply getitem_err; eassumption]. intros x [<-|[<-|[]]]; assumption.
Qed.
Lemma rjson_get ks v k x : In KAttr ks -> json v -> json x -> rjson ks (py_get v k x).
Proof.
  intros Hk H Hx. destruct (py_get v k x) eqn:He; cbn; [exact (get_json _ _ _ _ H Hx He)|].
  eapply kind_in_incl; [|eapply get_err; eassumption]. intros y [<-|[]]. exact Hk.
Qed.
