(** The result of [start] is the document of the reported entries. *)
From Coq Require Import List Arith NArith ZArith Bool String Lia Permutation.
From Verif Require Import Py.Str Py.Val Pycep.Transformer Lark.Tree
  Spec.Json Spec.Schema Spec.Program
  Proofs.Base Proofs.TreeGrammar Proofs.Transform Proofs.Typing Proofs.State.
Import ListNotations.
Local Open Scope string_scope.

Lemma mem_str_in x l : existsb (str_eqb x) l = true <-> In x l.
Proof.
  rewrite existsb_exists. split.
  - intros (y & Hy & He). apply str_eqb_eq in He. congruence.
  - intros H. exists x. split; [exact H|apply str_eqb_refl].
Qed.
Lemma firsts_snoc l x : firsts (l ++ [x])%list = if existsb (str_eqb x) (firsts l) then firsts l else (firsts l ++ [x])%list.
Proof. unfold firsts. rewrite fold_left_app. reflexivity. Qed.
Lemma firsts_spec l : NoDup (firsts l) /\ (forall x, In x (firsts l) <-> In x l).
Proof.
  induction l as [|x l [IH1 IH2]] using rev_ind.
  - split; [constructor|reflexivity].
  - rewrite firsts_snoc. destruct (existsb (str_eqb x) (firsts l)) eqn:H.
    + split; [exact IH1|]. intros y. rewrite IH2, in_app_iff. split; [auto|].
      intros [Hy|[->|[]]]; [exact Hy|]. apply mem_str_in in H. apply IH2, H.
    + assert (Hn : ~ In x (firsts l)) by (rewrite <- mem_str_in, H; discriminate).
      split.
      * rewrite <- (rev_involutive (firsts l ++ [x])), rev_app_distr. apply NoDup_rev.
        cbn. constructor; [rewrite <- in_rev; exact Hn|apply NoDup_rev, IH1].
      * intros y. rewrite !in_app_iff, IH2. reflexivity.
Qed.
Lemma latest_snoc k n es e : latest k n (es ++ [e])%list =
  if str_eqb k (e_kind e) && str_eqb n (e_name e) then e_attrs e else latest k n es.
Proof. unfold latest. rewrite fold_left_app. reflexivity. Qed.
Lemma names_snoc k es e : names_of k (es ++ [e])%list =
  if str_eqb k (e_kind e) then
    (if existsb (str_eqb (e_name e)) (names_of k es) then names_of k es else (names_of k es ++ [e_name e])%list)
  else names_of k es.
Proof.
  unfold names_of. rewrite filter_app, map_app. cbn [filter]. destruct (str_eqb k (e_kind e)); cbn [map].
  - apply firsts_snoc.
  - rewrite app_nil_r. reflexivity.
Qed.

Section MapAset.
  Context {A : Type}.
  Variable f : str -> A.
  Definition tab (ks : list str) : list (str * A) := map (fun k => (k, f k)) ks.
  Lemma aget_tab k ks : aget k (tab ks) = if existsb (str_eqb k) ks then Some (f k) else None.
  Proof.
    induction ks as [|x ks IH]; cbn; [reflexivity|]. destruct (str_eqb_spec k x) as [->|H]; [reflexivity|exact IH].
  Qed.
  Lemma aset_tab_out k v ks : ~ In k ks -> aset k v (tab ks) = (tab ks ++ [(k, v)])%list.
  Proof.
    induction ks as [|x ks IH]; intros H; cbn; [reflexivity|].
    destruct (str_eqb_spec k x) as [->|Hk]; [exfalso; apply H; left; reflexivity|].
    f_equal. apply IH. intros Hin. apply H. right. exact Hin.
  Qed.
End MapAset.
Lemma tab_ext {A} (f g : str -> A) ks : (forall k, In k ks -> f k = g k) -> tab f ks = tab g ks.
Proof. intros H. apply map_ext_in. intros k Hk. rewrite (H k Hk). reflexivity. Qed.
Lemma aset_tab_in {A} (f : str -> A) k v ks : NoDup ks -> In k ks ->
  aset k v (tab f ks) = tab (fun x => if str_eqb x k then v else f x) ks.
Proof.
  induction ks as [|x ks IH]; intros Hn Hin; [contradiction|]. inversion Hn; subst. cbn.
  destruct (str_eqb_spec k x) as [->|Hk].
  - rewrite str_eqb_refl. f_equal. apply tab_ext. intros y Hy.
    destruct (str_eqb_spec y x) as [->|_]; [contradiction|reflexivity].
  - destruct (str_eqb_spec x k) as [->|_]; [congruence|]. f_equal. apply IH; [assumption|].
    destruct Hin as [->|Hin]; [congruence|exact Hin].
Qed.

Definition groups (es : list entry) : list (str * pyval) :=
  map (fun k => (k, PDict (group k es))) (firsts (map e_kind es)).
Lemma group_snoc k es e : group k (es ++ [e])%list =
  if str_eqb k (e_kind e) then aset (e_name e) (e_attrs e) (group k es) else group k es.
Proof.
  unfold group. rewrite names_snoc. destruct (str_eqb k (e_kind e)) eqn:Hk.
  - fold (tab (fun n => latest k n es) (names_of k es)).
    destruct (existsb (str_eqb (e_name e)) (names_of k es)) eqn:Hm.
    + apply mem_str_in in Hm. rewrite aset_tab_in; [|apply firsts_spec|exact Hm].
      apply tab_ext. intros n _. rewrite latest_snoc, Hk. reflexivity.
    + rewrite aset_tab_out by (rewrite <- mem_str_in, Hm; discriminate). rewrite map_app. cbn [map].
      rewrite latest_snoc, Hk, str_eqb_refl. cbn [andb]. f_equal. apply tab_ext. intros n Hn.
      rewrite latest_snoc, Hk. destruct (str_eqb_spec n (e_name e)) as [->|_]; [|reflexivity].
      apply mem_str_in in Hn. congruence.
  - apply tab_ext. intros n _. rewrite latest_snoc, Hk. reflexivity.
Qed.
Lemma filter_none k es : ~ In k (map e_kind es) -> filter (fun e => str_eqb k (e_kind e)) es = [].
Proof.
  induction es as [|e es IH]; intros H; [reflexivity|]. cbn [filter].
  destruct (str_eqb_spec k (e_kind e)) as [->|_]; [exfalso; apply H; left; reflexivity|].
  apply IH. intros Hin. apply H. right. exact Hin.
Qed.
Lemma group_nil k es : ~ In k (map e_kind es) -> group k es = [].
Proof. intros H. unfold group, names_of. rewrite (filter_none _ _ H). reflexivity. Qed.
Lemma groups_snoc es e : groups (es ++ [e])%list =
  aset (e_kind e) (PDict (aset (e_name e) (e_attrs e) (group (e_kind e) es))) (groups es).
Proof.
  unfold groups. rewrite map_app. cbn [map]. rewrite firsts_snoc.
  fold (tab (fun k => PDict (group k es)) (firsts (map e_kind es))).
  destruct (existsb (str_eqb (e_kind e)) (firsts (map e_kind es))) eqn:Hm.
  - apply mem_str_in in Hm. rewrite aset_tab_in; [|apply firsts_spec|exact Hm].
    apply tab_ext. intros k _. rewrite group_snoc. destruct (str_eqb_spec k (e_kind e)) as [->|_]; reflexivity.
  - assert (Hn : ~ In (e_kind e) (firsts (map e_kind es))) by (rewrite <- mem_str_in, Hm; discriminate).
    rewrite aset_tab_out by exact Hn. rewrite map_app. cbn [map]. rewrite group_snoc, str_eqb_refl. f_equal.
    apply tab_ext. intros k Hk. rewrite group_snoc. destruct (str_eqb_spec k (e_kind e)) as [->|_]; [contradiction|reflexivity].
Qed.

Lemma aget_groups k es : aget k (groups es) =
  if existsb (str_eqb k) (firsts (map e_kind es)) then Some (PDict (group k es)) else None.
Proof. exact (aget_tab (fun k => PDict (group k es)) k _). Qed.

Lemma add_entry_groups es k r e :
  as_entry (PDict [(k, r)]) = Some e -> add_entry (groups es) k r = Ok (groups (es ++ [e])%list).
Proof.
  intros H. cbn [as_entry] in H. destruct r; try discriminate.
  destruct (aget (u "__name__") d) as [n|] eqn:Hn; [|discriminate]. destruct n; try discriminate.
  destruct (aget (u "__attrs__") d) as [a|] eqn:Ha; [|discriminate]. injection H as <-.
  unfold add_entry. cbn [py_getitem]. rewrite Ha. cbn [bind]. rewrite Hn. cbn [bind str_text].
  rewrite aget_groups, groups_snoc. cbn [e_kind e_name e_attrs].
  destruct (existsb (str_eqb k) (firsts (map e_kind es))) eqn:Hm; [reflexivity|].
  rewrite group_nil; [reflexivity|]. intros Hin. apply firsts_spec in Hin. apply mem_str_in in Hin. congruence.
Qed.
Definition to_entries (v : pyval) (es : list entry) : Prop :=
  (v = PNone /\ es = []) \/ (exists e, as_entry v = Some e /\ es = [e]).
Lemma add_all_groups vs : forall ess es, Forall2 to_entries vs ess ->
  add_all (groups es) vs = Ok (groups (es ++ List.concat ess)%list).
Proof.
  induction vs as [|v vs IH]; intros ess es H; inversion H as [|v' es' vs' ess' Hv Hvs]; subst; cbn [add_all List.concat].
  - rewrite app_nil_r. reflexivity.
  - destruct Hv as [[-> ->]|(e & He & ->)].
    + cbn [truthy app]. exact (IH _ _ Hvs).
    + destruct v as [| | | | | | | |d]; try discriminate. destruct d as [|[k r] [|x d]]; try discriminate.
      cbn [truthy add_entries]. rewrite (add_entry_groups es k r e He). cbn [bind].
      rewrite (IH ess' (es ++ [e])%list Hvs), <- app_assoc. reflexivity.
      destruct r; discriminate.
Qed.
Lemma start_init_groups ln : start_init ln = groups [default_scope ln].
Proof. destruct ln; vm_compute; reflexivity. Qed.
Lemma cb_start_document ln st vs ess : Forall2 to_entries (vs ++ imports st ++ child_resources st)%list ess ->
  cb_start ln st vs = Ok (document (default_scope ln :: List.concat ess)).
Proof.
  intros H. unfold cb_start. rewrite start_init_groups, (add_all_groups _ ess [default_scope ln] H). reflexivity.
Qed.
