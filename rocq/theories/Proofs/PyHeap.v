(** Heaps and the values of the model they stand for. *)
From Coq Require Import List NArith ZArith Bool String Lia.
From Verif Require Import Py.Str Py.Val Python.Eval Proofs.Base.
Import ListNotations.

(** ** Cells *)
Lemma next_push h o : next (push h o) = S (next h). Proof. reflexivity. Qed.
Lemma next_set h l o : next (set h l o) = next h. Proof. reflexivity. Qed.
Lemma get_push_new h o : get (push h o) (next h) = Some o.
Proof. unfold get, push. cbn. now rewrite Nat.eqb_refl. Qed.
Lemma get_push_new' h o l : l = next h -> get (push h o) l = Some o.
Proof. intros ->. apply get_push_new. Qed.
Lemma get_push_old h o l : l < next h -> get (push h o) l = get h l.
Proof. intros H. unfold get, push. cbn. destruct (Nat.eqb_spec l (next h)); [lia|reflexivity]. Qed.
Lemma get_set_same h l o : get (set h l o) l = Some o.
Proof. unfold get, set. cbn. now rewrite Nat.eqb_refl. Qed.
Lemma get_set_other h l k o : k <> l -> get (set h l o) k = get h k.
Proof. intros H. unfold get, set. cbn. destruct (Nat.eqb_spec k l); [congruence|reflexivity]. Qed.

(** ** Footprints *)
Fixpoint cnt (F : list nat) (l : nat) : nat :=
  match F with [] => 0 | x :: r => (if Nat.eqb x l then 1 else 0) + cnt r l end.
Lemma cnt_app F G l : cnt (F ++ G) l = cnt F l + cnt G l.
Proof. induction F as [|x F IH]; cbn [app cnt]; [reflexivity|]. rewrite IH. lia. Qed.
(** No cell twice, none beyond the end. *)
Definition own (h : heap) (F : list nat) : Prop := forall l, cnt F l <= if l <? next h then 1 else 0.

(** ** Values of the model *)
Inductive rep (h : heap) : val -> pyval -> list nat -> Prop :=
| r_none : rep h VNone PNone []
| r_bool b : rep h (VBool b) (PBool b) []
| r_int z : rep h (VInt z) (PInt z) []
| r_str s : rep h (VStr s) (PStr s) []
| r_elem s : rep h (VElem s) (PElem s) []
| r_tok t : rep h (VTok t) (PTok t) []
| r_tup vs ps F : reps h vs ps F -> rep h (VTup vs) (PTup ps) F
| r_list l vs ps F : get h l = Some (OList vs) -> reps h vs ps F -> rep h (VRef l) (PList ps) (l :: F)
| r_dict l d q F : get h l = Some (ODict d) -> repd h d q F -> rep h (VRef l) (PDict q) (l :: F)
with reps (h : heap) : list val -> list pyval -> list nat -> Prop :=
| rs_nil : reps h [] [] []
| rs_cons v p F vs ps G : rep h v p F -> reps h vs ps G -> reps h (v :: vs) (p :: ps) (F ++ G)
with repd (h : heap) : list (str * val) -> list (str * pyval) -> list nat -> Prop :=
| rd_nil : repd h [] [] []
| rd_cons k v p F d q G : rep h v p F -> repd h d q G -> repd h ((k, v) :: d) ((k, p) :: q) (F ++ G).
Scheme rep_mind := Minimality for rep Sort Prop
  with reps_mind := Minimality for reps Sort Prop
  with repd_mind := Minimality for repd Sort Prop.
Combined Scheme rep_mutind from rep_mind, reps_mind, repd_mind.

(** The cells of [F] are untouched. *)
Definition keeps (h h' : heap) (F : list nat) : Prop := forall l, 1 <= cnt F l -> get h' l = get h l.
Lemma rep_keeps h h' :
  (forall v p F, rep h v p F -> keeps h h' F -> rep h' v p F) /\
  (forall vs ps F, reps h vs ps F -> keeps h h' F -> reps h' vs ps F) /\
  (forall d q F, repd h d q F -> keeps h h' F -> repd h' d q F).
Proof.
  apply rep_mutind; intros; try (now constructor).
  - constructor. auto.
  - econstructor.
    + rewrite H2; [eassumption|]. cbn. rewrite Nat.eqb_refl. lia.
    + apply H1. intros k Hk. apply H2. cbn. lia.
  - econstructor.
    + rewrite H2; [eassumption|]. cbn. rewrite Nat.eqb_refl. lia.
    + apply H1. intros k Hk. apply H2. cbn. lia.
  - constructor; [apply H0|apply H2]; intros j Hj; apply H3; rewrite cnt_app; lia.
  - constructor; [apply H0|apply H2]; intros j Hj; apply H3; rewrite cnt_app; lia.
Qed.
(** Growth: nothing old is changed. *)
Definition ext (h h' : heap) : Prop := next h <= next h' /\ forall l, l < next h -> get h' l = get h l.
Lemma ext_refl h : ext h h. Proof. split; [lia|reflexivity]. Qed.
Lemma ext_trans h1 h2 h3 : ext h1 h2 -> ext h2 h3 -> ext h1 h3.
Proof. intros [A B] [C D]. split; [lia|]. intros l Hl. rewrite D by lia. apply B, Hl. Qed.
Lemma ext_push h o : ext h (push h o).
Proof. split; [rewrite next_push; lia|]. intros l Hl. apply get_push_old, Hl. Qed.
Lemma ext_push' h h' o : ext h h' -> ext h (push h' o).
Proof. intros H. eapply ext_trans; [exact H|apply ext_push]. Qed.
Lemma ext_set h h' l o : ext h h' -> next h <= l -> ext h (set h' l o).
Proof. intros [A B] Hl. split; [rewrite next_set; exact A|]. intros k Hk. rewrite get_set_other by lia. apply B, Hk. Qed.
Definition below (h : heap) (F : list nat) : Prop := forall l, 1 <= cnt F l -> l < next h.
Lemma own_below h F : own h F -> below h F.
Proof. intros H l Hl. specialize (H l). destruct (Nat.ltb_spec l (next h)); lia. Qed.
Lemma ext_keeps h h' F : below h F -> ext h h' -> keeps h h' F.
Proof. intros B [_ H] l Hl. apply H, B, Hl. Qed.
Lemma rep_ext h h' v p F : below h F -> ext h h' -> rep h v p F -> rep h' v p F.
Proof. intros B X R. apply (proj1 (rep_keeps h h') v p F R). now apply ext_keeps. Qed.
Lemma reps_ext h h' vs ps F : below h F -> ext h h' -> reps h vs ps F -> reps h' vs ps F.
Proof. intros B X R. apply (proj1 (proj2 (rep_keeps h h')) vs ps F R). now apply ext_keeps. Qed.
Lemma repd_ext h h' vs ps F : below h F -> ext h h' -> repd h vs ps F -> repd h' vs ps F.
Proof. intros B X R. apply (proj2 (proj2 (rep_keeps h h')) vs ps F R). now apply ext_keeps. Qed.
Lemma own_sub h F G : own h F -> (forall l, cnt G l <= cnt F l) -> own h G.
Proof. intros H S l. specialize (H l). specialize (S l). lia. Qed.
Lemma own_app_l h F G : own h (F ++ G) -> own h F.
Proof. intros H. eapply own_sub; [exact H|]. intros l. rewrite cnt_app. lia. Qed.
Lemma own_app_r h F G : own h (F ++ G) -> own h G.
Proof. intros H. eapply own_sub; [exact H|]. intros l. rewrite cnt_app. lia. Qed.
Lemma own_tail h x G : own h (x :: G) -> own h G.
Proof. intros H. eapply own_sub; [exact H|]. intros l. cbn. lia. Qed.
Lemma own_ext h h' F : own h F -> ext h h' -> own h' F.
Proof. intros H [A _] l. specialize (H l). destruct (Nat.ltb_spec l (next h)), (Nat.ltb_spec l (next h')); lia. Qed.

(** ** Reading a value back *)
Lemma cnt_le_length F : forall l, cnt F l <= List.length F.
Proof. induction F as [|x F IH]; intros l; cbn; [lia|]. specialize (IH l). destruct (Nat.eqb x l); lia. Qed.
Lemma own_length h F : own h F -> List.length F <= next h.
Proof.
  intros H. rewrite <- (seq_length (next h) 0). apply NoDup_incl_length.
  - assert (Hn : forall l, cnt F l <= 1) by (intros l; specialize (H l); destruct (l <? next h); lia). clear H.
    induction F as [|x F IH]; [constructor|]. constructor.
    + intros Hi. specialize (Hn x). cbn in Hn. rewrite Nat.eqb_refl in Hn.
      assert (1 <= cnt F x); [|lia]. clear - Hi. induction F as [|y F IH]; [destruct Hi|]. cbn. destruct Hi as [->|Hi]; [rewrite Nat.eqb_refl; lia|]. specialize (IH Hi). lia.
    + apply IH. intros l. specialize (Hn l). cbn in Hn. lia.
  - intros l Hi. apply in_seq. assert (1 <= cnt F l).
    { clear - Hi. induction F as [|y F IH]; [destruct Hi|]. cbn. destruct Hi as [->|Hi]; [rewrite Nat.eqb_refl; lia|]. specialize (IH Hi). lia. }
    specialize (H l). destruct (Nat.ltb_spec l (next h)); lia.
Qed.
Lemma readback_list n h vs : (fix go (l : list val) : option (list pyval) :=
    match l with [] => Some [] | v :: r => match readback n h v with Some a => match go r with Some b => Some (a :: b) | None => None end | None => None end end) vs = all (map (readback n h) vs).
Proof. induction vs as [|v r IH]; [reflexivity|]. cbn [map all]. now rewrite IH. Qed.
Lemma rep_readback h :
  (forall v p F, rep h v p F -> forall n, List.length F <= n -> readback n h v = Some p) /\
  (forall vs ps F, reps h vs ps F -> forall n, List.length F <= n -> all (map (readback n h) vs) = Some ps) /\
  (forall d q F, repd h d q F -> forall n, List.length F <= n ->
     all (map (fun kv => match readback n h (snd kv) with Some p => Some (fst kv, p) | None => None end) d) = Some q).
Proof.
  apply rep_mutind; intros; try (destruct n; reflexivity).
  - specialize (H0 n H1). replace (readback n h (VTup vs)) with (match all (map (readback n h) vs) with Some ps => Some (PTup ps) | None => None end) by (destruct n; reflexivity).
    now rewrite H0.
  - cbn [List.length] in H2. destruct n as [|n]; [lia|]. cbn. rewrite H, (H1 n) by lia. reflexivity.
  - cbn [List.length] in H2. destruct n as [|n]; [lia|]. cbn. rewrite H, (H1 n) by lia. reflexivity.
  - rewrite app_length in H3. cbn [map all]. rewrite H0, H2 by lia. reflexivity.
  - rewrite app_length in H3. cbn [map all fst snd]. rewrite H0, H2 by lia. reflexivity.
Qed.
Lemma str_of_rep E h v p F : rep h v p F -> own h F -> str_of E h v = Some (py_str E p).
Proof.
  intros R O. unfold str_of. rewrite (proj1 (rep_readback h) v p F R) by now apply own_length.
  inversion R; subst; reflexivity.
Qed.
Lemma truth_rep h v p F : rep h v p F -> truth h v = Some (truthy p).
Proof.
  intros R. inversion R; subst; cbn; try reflexivity.
  - inversion H; reflexivity.
  - rewrite H. inversion H0; reflexivity.
  - rewrite H. inversion H0; reflexivity.
Qed.

(** ** Results *)
Definition fits (h h' : heap) (F F' : list nat) : Prop :=
  forall l, cnt F' l <= if l <? next h then cnt F l else if l <? next h' then 1 else 0.
Definition gives (h : heap) (F : list nat) (m : result pyval) (r : out (val * heap)) : Prop :=
  match m with
  | Ok p => exists v h' F', r = Got (v, h') /\ rep h' v p F' /\ ext h h' /\ fits h h' F F'
  | Err e => r = Exn e
  end.
Lemma fits_own h h' F F' : own h F -> ext h h' -> fits h h' F F' -> own h' F'.
Proof. intros O [A _] H l. specialize (H l). specialize (O l). destruct (Nat.ltb_spec l (next h)), (Nat.ltb_spec l (next h')); lia. Qed.

Lemma fits_trans h h1 h2 F F1 F2 : ext h h1 -> ext h1 h2 -> fits h h1 F F1 -> fits h1 h2 F1 F2 -> fits h h2 F F2.
Proof.
  intros [A _] [B _] H1 H2 l. specialize (H1 l). specialize (H2 l).
  destruct (Nat.ltb_spec l (next h)), (Nat.ltb_spec l (next h1)), (Nat.ltb_spec l (next h2)); lia.
Qed.
Lemma gives_trans h h1 F F1 m r : ext h h1 -> fits h h1 F F1 -> gives h1 F1 m r -> gives h F m r.
Proof.
  intros X Hf. destruct m as [p|e]; [|easy]. intros (v & h2 & F2 & -> & R & X2 & H2).
  exists v, h2, F2. repeat split; try assumption; try (eapply ext_trans; eassumption). eapply fits_trans; eassumption.
Qed.
Lemma gives_bind h F m r (k : pyval -> result pyval) (K : val -> heap -> out (val * heap)) : own h F -> gives h F m r ->
  (forall v p h1 F1, ext h h1 -> rep h1 v p F1 -> own h1 F1 -> gives h1 F1 (k p) (K v h1)) ->
  gives h F (match m with Ok p => k p | Err e => Err e end) (match r with Got (v, h1) => K v h1 | Exn e => Exn e | Stuck => Stuck end).
Proof.
  intros O G H. destruct m as [p|e]; cbn in G; [|subst; reflexivity]. destruct G as (v & h1 & F1 & -> & R & X & Hf).
  eapply gives_trans; [exact X|exact Hf|]. apply H; [exact X|exact R|]. eapply fits_own; eassumption.
Qed.

(** ** Dicts *)
Lemma repd_aget h k : forall d q F, repd h d q F ->
  match aget k q with
  | Some p => exists v G, aget k d = Some v /\ rep h v p G /\ forall l, cnt G l <= cnt F l
  | None => aget k d = None
  end.
Proof.
  induction d as [|[k' v] d IH]; intros q F R; inversion R as [|? ? p0 F0 ? q0 G0 Hv Hd]; subst; cbn [aget]; [reflexivity|].
  destruct (str_eqb k k').
  - exists v, F0. split; [reflexivity|]. split; [assumption|]. intros l. rewrite cnt_app. lia.
  - specialize (IH _ _ Hd). destruct (aget k q0) as [p'|]; [|exact IH]. destruct IH as (v' & G' & A & B & C).
    exists v', G'. split; [exact A|]. split; [exact B|]. intros l. rewrite cnt_app. specialize (C l). lia.
Qed.
(** Two keys: two parts of the heap. *)
Lemma repd_two h k1 k2 p1 p2 : str_eqb k1 k2 = false -> forall d q F, repd h d q F -> aget k1 q = Some p1 -> aget k2 q = Some p2 ->
  exists v1 G1 v2 G2, aget k1 d = Some v1 /\ rep h v1 p1 G1 /\ aget k2 d = Some v2 /\ rep h v2 p2 G2 /\ forall l, cnt G1 l + cnt G2 l <= cnt F l.
Proof.
  intros Hk. induction d as [|[k' v] d IH]; intros q F R A1 A2; inversion R as [|? ? p0 F0 ? q0 G0 Hv Hd]; subst; cbn [aget] in *; [discriminate|].
  destruct (str_eqb k1 k') eqn:H1, (str_eqb k2 k') eqn:H2.
  - apply str_eqb_eq in H1, H2. subst. now rewrite str_eqb_refl in Hk.
  - injection A1 as ->. pose proof (repd_aget h k2 d q0 G0 Hd) as A. rewrite A2 in A. destruct A as (w & G & Ea & Rw & C).
    exists v, F0, w, G. repeat split; auto. intros l. rewrite cnt_app. specialize (C l). lia.
  - injection A2 as ->. pose proof (repd_aget h k1 d q0 G0 Hd) as A. rewrite A1 in A. destruct A as (w & G & Ea & Rw & C).
    exists w, G, v, F0. repeat split; auto. intros l. rewrite cnt_app. specialize (C l). lia.
  - destruct (IH _ _ Hd A1 A2) as (v1 & G1 & v2 & G2 & B1 & B2 & B3 & B4 & C). exists v1, G1, v2, G2. repeat split; auto. intros l. rewrite cnt_app. specialize (C l). lia.
Qed.
Lemma repd_aset h k v p G : rep h v p G -> forall d q F, repd h d q F ->
  exists F', repd h (aset k v d) (aset k p q) F' /\ forall l, cnt F' l <= cnt F l + cnt G l.
Proof.
  intros R. induction d as [|[k' v'] d IH]; intros q F RD; inversion RD as [|? ? p0 F0 ? q0 G0 Hv Hd]; subst; cbn [aset].
  - exists (G ++ []). split; [now repeat constructor|]. intros l. rewrite cnt_app. cbn. lia.
  - destruct (str_eqb k k').
    + exists (G ++ G0). split; [now constructor|]. intros l. rewrite !cnt_app. lia.
    + destruct (IH _ _ Hd) as (F' & A & B). exists (F0 ++ F'). split; [now constructor|]. intros l. rewrite !cnt_app. specialize (B l). lia.
Qed.
Lemma repd_adel h k : forall d q F, repd h d q F -> exists F', repd h (adel k d) (adel k q) F' /\ forall l, cnt F' l <= cnt F l.
Proof.
  induction d as [|[k' v'] d IH]; intros q F RD; inversion RD as [|? ? p0 F0 ? q0 G0 Hv Hd]; subst; cbn [adel].
  - exists []. split; [constructor|]. reflexivity.
  - destruct (str_eqb k k').
    + exists G0. split; [assumption|]. intros l. rewrite cnt_app. lia.
    + destruct (IH _ _ Hd) as (F' & A & B). exists (F0 ++ F'). split; [now constructor|]. intros l. rewrite !cnt_app. specialize (B l). lia.
Qed.
Lemma repd_merge h : forall e r G d q F, repd h e r G -> repd h d q F ->
  exists F', repd h (merge d e) (merge q r) F' /\ forall l, cnt F' l <= cnt F l + cnt G l.
Proof.
  induction e as [|[k v] e IH]; intros r G d q F RE RD; inversion RE as [|? ? p0 F0 ? q0 G0 Hv Hd]; subst; unfold merge; cbn [fold_left fst snd].
  - exists F. split; [assumption|]. intros l. lia.
  - destruct (repd_aset h k v p0 F0 Hv d q F RD) as (F1 & A & B).
    destruct (IH _ _ _ _ _ Hd A) as (F2 & C & D). exists F2. split; [exact C|]. intros l. rewrite cnt_app. specialize (B l). specialize (D l). lia.
Qed.
Lemma aset_twice {A} k (v w : A) d : aset k v (aset k w d) = aset k v d.
Proof.
  induction d as [|[k' x] d IH]; cbn; [now rewrite str_eqb_refl|].
  destruct (str_eqb k k') eqn:Hk; cbn; rewrite Hk; [reflexivity|]. now rewrite IH.
Qed.
Lemma aset_swap {A} k k' (v w x : A) d : str_eqb k k' = false -> aget k d = Some x ->
  aset k v (aset k' w d) = aset k' w (aset k v d).
Proof.
  intros Hk. induction d as [|[k1 y] d IH]; cbn; [discriminate|]. intros Hg.
  destruct (str_eqb k k1) eqn:H1, (str_eqb k' k1) eqn:H2; cbn; rewrite ?H1, ?H2; try reflexivity.
  - apply str_eqb_eq in H1, H2. subst. now rewrite str_eqb_refl in Hk.
  - f_equal. now apply IH.
Qed.
Lemma aget_aset {A} k k' (v : A) d : aget k (aset k' v d) = if str_eqb k k' then Some v else aget k d.
Proof.
  induction d as [|[k1 y] d IH]; cbn; [destruct (str_eqb k k'); reflexivity|].
  destruct (str_eqb k' k1) eqn:H1; cbn.
  - apply str_eqb_eq in H1. subst. destruct (str_eqb k k1); reflexivity.
  - rewrite IH. destruct (str_eqb k k1) eqn:H2; [|reflexivity].
    apply str_eqb_eq in H2. subst. destruct (str_eqb k1 k') eqn:H3; [|reflexivity]. apply str_eqb_eq in H3. subst. now rewrite str_eqb_refl in H1.
Qed.
(** Setting a key before or after other keys are set: the same, if it is there already. *)
Lemma merge_aset {A} (e : list (str * A)) k v x : aget k e = None -> forall d, aget k d = Some x -> merge (aset k v d) e = aset k v (merge d e).
Proof.
  induction e as [|[k1 y] e IH]; intros He d Hd; unfold merge; cbn [fold_left fst snd]; [reflexivity|].
  cbn in He. destruct (str_eqb k k1) eqn:H1; [discriminate|].
  rewrite <- (aset_swap k k1 v y x d H1 Hd). apply IH; [exact He|]. rewrite aget_aset, H1. exact Hd.
Qed.
Lemma merge_app {A} (d e f : list (str * A)) : merge d (e ++ f) = merge (merge d e) f.
Proof. apply fold_left_app. Qed.
Lemma aget_keep {A} k (e : list (str * A)) : forall d x, aget k d = Some x -> exists y, aget k (merge d e) = Some y.
Proof.
  induction e as [|[k1 y] e IH]; intros d x Hd; unfold merge; cbn [fold_left fst snd]; [eauto|].
  destruct (str_eqb k k1) eqn:H1.
  - apply (IH (aset k1 y d) y). now rewrite aget_aset, H1.
  - apply (IH (aset k1 y d) x). now rewrite aget_aset, H1.
Qed.
Definition once {A} (e : list (str * A)) : Prop := NoDup (map fst e).
Lemma aget_none {A} k (e : list (str * A)) : ~ In k (map fst e) -> aget k e = None.
Proof.
  induction e as [|[k1 y] e IH]; cbn; [reflexivity|]. intros H. destruct (str_eqb k k1) eqn:H1; [apply str_eqb_eq in H1; subst; tauto|]. apply IH. tauto.
Qed.
Lemma aset_keys {A} k (v : A) d : In k (map fst d) -> map fst (aset k v d) = map fst d.
Proof.
  induction d as [|[k1 y] d IH]; cbn; [tauto|]. intros H. destruct (str_eqb k k1) eqn:H1; [reflexivity|]. cbn. f_equal. apply IH. destruct H as [->|H]; [now rewrite str_eqb_refl in H1|exact H].
Qed.
Lemma aset_new {A} k (v : A) d : ~ In k (map fst d) -> aset k v d = d ++ [(k, v)].
Proof.
  induction d as [|[k1 y] d IH]; cbn; [reflexivity|]. intros H. destruct (str_eqb k k1) eqn:H1; [apply str_eqb_eq in H1; subst; tauto|]. f_equal. apply IH. tauto.
Qed.
Lemma once_aset {A} k (v : A) d : once d -> once (aset k v d).
Proof.
  intros H. unfold once. destruct (in_dec (list_eq_dec N.eq_dec) k (map fst d)) as [Hi|Hi]; [now rewrite aset_keys|].
  rewrite aset_new by exact Hi. rewrite map_app. cbn. apply (NoDup_Add (a := k) (l := map fst d)); [|split; [exact H|exact Hi]].
  rewrite <- (app_nil_r (map fst d)) at 1. apply Add_app.
Qed.
Lemma merge_once_aset {A} k (v : A) : forall e d, once e -> merge d (aset k v e) = aset k v (merge d e).
Proof.
  induction e as [|[k1 y] e IH]; intros d H; [reflexivity|]. inversion H; subst. cbn [aset]. destruct (str_eqb k k1) eqn:H1.
  - apply str_eqb_eq in H1. subst k1. change (merge (aset k v d) e = aset k v (merge (aset k y d) e)).
    rewrite <- (merge_aset e k v y); [now rewrite aset_twice|now apply aget_none|]. now rewrite aget_aset, str_eqb_refl.
  - change (merge (aset k1 y d) (aset k v e) = aset k v (merge (aset k1 y d) e)). now apply IH.
Qed.
Lemma dict_of_merge {A} (e : list (str * A)) : dict_of e = merge [] e. Proof. reflexivity. Qed.
Lemma once_dict_of {A} (e : list (str * A)) : once (dict_of e).
Proof.
  rewrite dict_of_merge. assert (H : forall d, once d -> once (merge d e)); [|apply H; constructor].
  induction e as [|[k v] e IH]; intros d Hd; [exact Hd|]. apply (IH (aset k v d)). now apply once_aset.
Qed.
Lemma merge_dict_of {A} (e : list (str * A)) d : merge d (dict_of e) = merge d e.
Proof.
  induction e as [|[k v] e IH] using rev_ind; [reflexivity|].
  rewrite dict_of_merge, !merge_app. change (merge (merge [] e) [(k, v)]) with (aset k v (dict_of e)). rewrite merge_once_aset by apply once_dict_of.
  now rewrite IH.
Qed.
Lemma dict_of_app {A} (d e : list (str * A)) : dict_of (d ++ e) = merge (dict_of d) e.
Proof. apply fold_left_app. Qed.
