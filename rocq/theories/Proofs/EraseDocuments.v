(** Documents up to positions, and with or without line numbers. *)
From Coq Require Import List Arith NArith ZArith Bool String Lia Permutation.
From Verif Require Import Py.Str Py.Val Pycep.Utils Pycep.Transformer Lark.Tree Lark.Shape
  Spec.Json Spec.Schema Spec.Trees Spec.Program Spec.Reports Spec.Declarations Spec.Numbering
  Proofs.Base Proofs.JsonLemmas Proofs.TreeGrammar Proofs.Transform Proofs.Typing Proofs.State Proofs.EndToEnd Proofs.Quiet Proofs.Children
  Proofs.Program Proofs.Elements Proofs.Documents Proofs.Erase Proofs.EraseCalls Proofs.EraseTrees Proofs.EraseElements.
Import ListNotations.
Local Open Scope string_scope.

(** ** Documents under a change of attributes *)
Definition lift (f : pyval -> pyval) (e : entry) : entry := {| e_kind := e_kind e; e_name := e_name e; e_attrs := f (e_attrs e) |}.
Lemma latest_lift f k n es : f PNone = PNone -> latest k n (map (lift f) es) = f (latest k n es).
Proof.
  intros Hf. unfold latest. rewrite <- Hf at 1. generalize PNone. induction es as [|e es IH]; intros acc; [reflexivity|]. cbn [map fold_left lift e_kind e_name e_attrs].
  rewrite <- IH. f_equal. destruct (_ && _); reflexivity.
Qed.
Lemma kinds_lift f es : map e_kind (map (lift f) es) = map e_kind es.
Proof. rewrite map_map. reflexivity. Qed.
Lemma names_lift f k es : names_of k (map (lift f) es) = names_of k es.
Proof.
  unfold names_of. f_equal. induction es as [|e es IH]; [reflexivity|]. cbn [map filter lift e_kind]. destruct (str_eqb k (e_kind e)); cbn [map]; rewrite IH; reflexivity.
Qed.
Lemma document_lift f es : f PNone = PNone -> document (map (lift f) es) =
  PDict (map (fun k => (k, PDict (map (fun n => (n, f (latest k n es))) (names_of k es)))) (firsts (map e_kind es))).
Proof.
  intros Hf. unfold document. rewrite kinds_lift. f_equal. apply map_ext. intros k. f_equal. f_equal. unfold group. rewrite names_lift. apply map_ext. intros n.
  rewrite (latest_lift f k n es Hf). reflexivity.
Qed.
Lemma latest_json es k n : json (document es) -> In k (firsts (map e_kind es)) -> In n (names_of k es) -> json (latest k n es).
Proof.
  intros Hj Hk Hn. inversion Hj as [| | | | | |d Hnd Hd]; subst. rewrite Forall_map, Forall_forall in Hd. specialize (Hd k Hk). cbn [snd] in Hd.
  inversion Hd as [| | | | | |d' Hnd' Hd']; subst. unfold group in Hd'. rewrite Forall_map, Forall_forall in Hd'. exact (Hd' n Hn).
Qed.

(** ** Values without tokens and tuples *)
Lemma json_er_true v : json v -> er (fun t => t) true v = unnumbered v.
Proof.
  revert v. apply (pyval_all (fun v => json v -> er (fun t => t) true v = unnumbered v)); try (intros; reflexivity).
  - intros l IH H. inversion H; subst. cbn [er unnumbered]. f_equal. apply map_ext_in. rewrite Forall_forall in *. auto.
  - intros l IH H. inversion H.
  - intros d IH H. inversion H; subst. rewrite er_dict. cbn [unnumbered]. f_equal. unfold emap. apply map_ext_in. rewrite Forall_forall in *. intros kv Hkv.
    f_equal. unfold ev. cbn [andb]. rewrite (IH kv Hkv); [reflexivity|]. auto.
Qed.
Lemma json_er_false p v : json v -> er p false v = v.
Proof.
  revert v. apply (pyval_all (fun v => json v -> er p false v = v)); try (intros; reflexivity).
  - intros t H. inversion H.
  - intros l IH H. inversion H; subst. cbn [er]. f_equal. rewrite <- (map_id l) at 2. apply map_ext_in. rewrite Forall_forall in *. auto.
  - intros l IH H. inversion H.
  - intros d IH H. inversion H; subst. rewrite er_dict. f_equal. unfold emap. rewrite <- (map_id d) at 2. apply map_ext_in. rewrite Forall_forall in *. intros [k v] Hkv.
    f_equal. unfold ev. cbn [andb]. apply (IH _ Hkv). apply (H2 _ Hkv).
Qed.
Lemma tr_id : forall t, tr (fun t => t) (fun m => m) t = t.
Proof.
  apply (ptree_all (fun t => tr (fun t => t) (fun m => m) t = t)); try (intros; reflexivity). intros l m cs IH. cbn [tr]. f_equal.
  rewrite <- (map_id cs) at 2. apply map_ext_in. rewrite Forall_forall in IH. exact IH.
Qed.

(** ** The option (C14) *)
Lemma start_numbering E m cs : oks E sElem cs -> forallb clean cs = true -> existsb child_as_text cs = false ->
  match transform E true (TNode L_start m cs) with
  | Ok v => transform E false (TNode L_start m cs) = Ok (document_unnumbered v)
  | Err e => transform E false (TNode L_start m cs) = Err e
  end.
Proof.
  intros Hok Hcl Ht.
  pose proof (start_er E (fun t => t) (fun _ => eq_refl) (fun _ => eq_refl) (fun m => m) true m cs Hok Hcl (fun _ => Ht)) as H.
  rewrite tr_id in H.
  pose proof (transform_outcome E true true (TNode L_start m cs) (ok_start E m cs Hok) ltac:(discriminate)) as Hout.
  destruct (transform E true (TNode L_start m cs)) as [v|e]; [|exact H]. destruct H as (es & -> & ->). f_equal.
  rewrite <- (default_er (fun t => t) true).
  change (eentry (fun t => t) true (default_scope true) :: map (eentry (fun t => t) true) es) with (map (lift (eattrs (fun t => t) true)) (default_scope true :: es)).
  rewrite document_lift by reflexivity. apply document_json in Hout. set (es' := default_scope true :: es) in *.
  unfold document. cbn [document_unnumbered]. f_equal. rewrite map_map. apply map_ext_in. intros k Hk. cbn [fst snd]. f_equal. cbn [group_unnumbered]. f_equal.
  unfold group. rewrite map_map. apply map_ext_in. intros n Hn. cbn [fst snd]. f_equal. unfold eattrs, attrs_unnumbered.
  rewrite (json_er_true _ (latest_json es' k n Hout Hk Hn)). destruct (unnumbered _); reflexivity.
Qed.

(** ** Positions (C11, C36) *)
Definition zero (t : token) : token := {| ttype := ttype t; tval := tval t; tline := 0; tend := 0 |}.
Definition skel (t : ptree) : ptree := tr zero (fun _ => None) t.
Lemma same_skel : forall a b, same_tree a b -> skel a = skel b.
Proof.
  apply (ptree_all (fun a => forall b, same_tree a b -> skel a = skel b)).
  - intros t b H. inversion H as [? t' H1 H2| |]; subst. cbn. unfold zero. rewrite H1, H2. reflexivity.
  - intros b H. inversion H. reflexivity.
  - intros l m cs IH b H. inversion H as [| |? ? ? ? cs' HF]; subst. unfold skel. cbn [tr]. f_equal.
    induction HF as [|x y cs cs' Hx HF IHF]; [reflexivity|]. inversion IH; subst. cbn [map]. f_equal; [auto|]. apply IHF; [assumption|]. constructor. exact HF.
Qed.
Lemma start_positions E m cs : oks E sElem cs -> forallb clean cs = true ->
  transform E false (skel (TNode L_start m cs)) = transform E false (TNode L_start m cs).
Proof.
  intros Hok Hcl. pose proof (start_er E zero (fun _ => eq_refl) (fun _ => eq_refl) (fun _ => None) false m cs Hok Hcl ltac:(discriminate)) as H. fold (skel (TNode L_start m cs)) in H.
  pose proof (transform_outcome E false true (TNode L_start m cs) (ok_start E m cs Hok) ltac:(discriminate)) as Hout.
  destruct (transform E false (TNode L_start m cs)) as [v|e]; [|exact H]. destruct H as (es & -> & ->). f_equal.
  rewrite <- (default_er zero false) at 1.
  change (eentry zero false (default_scope false) :: map (eentry zero false) es) with (map (lift (eattrs zero false)) (default_scope false :: es)).
  rewrite document_lift by reflexivity. apply document_json in Hout. set (es' := default_scope false :: es) in *.
  unfold document. f_equal. apply map_ext_in. intros k Hk. f_equal. f_equal. unfold group. apply map_ext_in. intros n Hn. f_equal. unfold eattrs.
  rewrite (json_er_false _ _ (latest_json es' k n Hout Hk Hn)). unfold wl. destruct (latest k n es'); reflexivity.
Qed.
Lemma start_same E m cs m' cs' : oks E sElem cs -> oks E sElem cs' -> forallb clean cs = true -> forallb clean cs' = true -> Forall2 same_tree cs cs' ->
  transform E false (TNode L_start m cs) = transform E false (TNode L_start m' cs').
Proof.
  intros H1 H2 H3 H4 HF. rewrite <- (start_positions E m cs H1 H3), <- (start_positions E m' cs' H2 H4). f_equal. apply same_skel. constructor. exact HF.
Qed.
