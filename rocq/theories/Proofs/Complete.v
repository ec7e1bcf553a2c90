(** Completeness of the LALR driver, part 2: whatever derives from the refined
    grammar is parsed, by the very reductions of the derivation. *)
From Coq Require Import List Arith NArith PArith Bool String Lia.
From Verif Require Import Py.Str Py.Val Lark.Regex Lark.Terminals Lark.Lexer Lark.Ebnf
     Lark.Lalr Lark.BicepGrammar Lark.BicepTables Lark.Driver Proofs.LR Proofs.Refine.
Import ListNotations.

#[global] Opaque ritems rprod_map f_map r_by_lhs.

(** A token of the input: its class and its leaf. *)
Definition yl := (positive * cst)%type.
Inductive rderiv : rsym -> cst -> list yl -> Prop :=
| rd_leaf c n t : term_id n = terminal_of c -> In c classes -> rderiv (RT c) (Leaf n t) [(c, Leaf n t)]
| rd_node i r ts cs ys : rget i = Some r -> N.testbit ts (rp_tag r) = true -> rderivs (rp_rhs r) cs ys ->
    rderiv (RN (rp_lhs r) ts) (Br (rp_p r) cs) ys
with rderivs : list rsym -> list cst -> list yl -> Prop :=
| rds_nil : rderivs [] [] []
| rds_cons s l c cs ys zs : rderiv s c ys -> rderivs l cs zs -> rderivs (s :: l) (c :: cs) (ys ++ zs).
Scheme rderiv_ind2 := Induction for rderiv Sort Prop
  with rderivs_ind2 := Induction for rderivs Sort Prop.
Combined Scheme rderiv_mutind from rderiv_ind2, rderivs_ind2.

Definition next_class (ys : list yl) (a : positive) : positive := match ys with [] => a | (c, _) :: _ => c end.
Lemma next_class_app ys zs a : next_class (ys ++ zs) a = next_class ys (next_class zs a).
Proof. destruct ys as [|[c l] ys]; reflexivity. Qed.

(** ** First tokens *)
Lemma within_bit a b n : within a b = true -> N.testbit a n = true -> N.testbit b n = true.
Proof. intros H Ha. apply N.eqb_eq in H. rewrite <- H, N.lor_spec, Ha. reflexivity. Qed.
Lemma bit_self c : N.testbit (bit c) (Npos c) = true.
Proof. unfold bit. rewrite N.shiftl_1_l, N.pow2_bits_true. reflexivity. Qed.

Lemma rprod_checked i r : rget i = Some r -> rprod_ok i r = true.
Proof.
  intros H. pose proof rprods_ok as Hc. rewrite forallb_forall in Hc.
  exact (Hc _ (In_elements_find _ _ _ H)).
Qed.
Lemma first_checked i r : rget i = Some r -> first_ok r = true.
Proof.
  intros H. pose proof firsts_ok as Hc. rewrite forallb_forall in Hc.
  exact (Hc _ (In_elements_find _ _ _ H)).
Qed.
Lemma tag_small i r : rget i = Some r -> In (rp_tag r) all_tags.
Proof.
  intros H. pose proof small_tags_true as Hc. unfold small_tags in Hc. rewrite forallb_forall in Hc.
  specialize (Hc _ (In_elements_find _ _ _ H)). cbn [snd] in Hc.
  apply existsb_exists in Hc as (x & Hx & He). apply N.eqb_eq in He. subst x. exact Hx.
Qed.

Definition covers (e : N * bool) (ys : list yl) : Prop :=
  match ys with [] => snd e = true | (c, _) :: _ => N.testbit (fst e) (Npos c) = true end.
Lemma fold_tags m x l : forall acc t, In t l \/ False ->
  forall ys, covers (f_get m x t) ys ->
  covers (fold_left (fun a t => let e := f_get m x t in (N.lor (fst a) (fst e), snd a || snd e)) l acc) ys.
Proof.
  assert (Hacc : forall l acc ys, covers acc ys ->
    covers (fold_left (fun a t => let e := f_get m x t in (N.lor (fst a) (fst e), snd a || snd e)) l acc) ys).
  { clear l. induction l as [|t l IH]; intros acc ys H; [exact H|]. cbn [fold_left]. apply IH.
    destruct ys as [|[c lf] ys]; cbn [covers fst snd] in *.
    - rewrite H. reflexivity.
    - rewrite N.lor_spec, H. reflexivity. }
  induction l as [|t' l IH]; intros acc t [Ht|[]] ys H; [destruct Ht|]. cbn [fold_left].
  destruct Ht as [->|Ht].
  - apply Hacc. destruct ys as [|[c lf] ys]; cbn [covers fst snd] in *.
    + rewrite H, orb_true_r. reflexivity.
    + rewrite N.lor_spec, H, orb_true_r. reflexivity.
  - apply (IH _ t); auto.
Qed.
Lemma f_get_covers x tag ts ys : covers (f_get f_map x tag) ys -> In tag all_tags -> N.testbit ts tag = true ->
  covers (f_sym f_map (RN x ts)) ys.
Proof.
  intros H Hs Ht. unfold f_sym. apply (fold_tags _ _ _ _ tag); [|exact H].
  left. unfold tags_in. apply filter_In. split; assumption.
Qed.
Lemma first_covers : (forall s c ys, rderiv s c ys -> covers (f_sym f_map s) ys) /\
  (forall l cs ys, rderivs l cs ys -> forall la ws, covers la ws -> covers (f_syms f_map l la) (ys ++ ws)).
Proof.
  apply rderiv_mutind.
  - intros c n t Hid Hin. cbn [f_sym covers fst]. apply bit_self.
  - intros i r ts cs ys Hi Ht Hds IH. apply (f_get_covers _ (rp_tag r)); [|eapply tag_small; exact Hi|exact Ht].
    pose proof (first_checked _ _ Hi) as Hc. unfold first_ok in Hc. apply andb_true_iff in Hc as [Hc1 Hc2].
    specialize (IH (0%N, true) [] eq_refl). rewrite app_nil_r in IH.
    destruct ys as [|[c l] ys]; cbn [covers] in *.
    + rewrite IH in Hc2. exact Hc2.
    + exact (within_bit _ _ _ Hc1 IH).
  - intros la ws H. exact H.
  - intros s l c cs ys zs Hs IHs Hl IHl la ws Hla. specialize (IHl la ws Hla). cbn [f_syms].
    rewrite <- app_assoc. destruct ys as [|[c' leaf] ys].
    + cbn [covers] in IHs. rewrite IHs. cbn [app].
      destruct (zs ++ ws) as [|[c'' leaf] rest]; cbn [covers fst snd] in *; [exact IHl|].
      rewrite N.lor_spec, IHl, orb_true_r. reflexivity.
    + cbn [covers] in IHs. cbn [app covers]. destruct (snd (f_sym f_map s)); [|exact IHs].
      cbn [fst]. rewrite N.lor_spec, IHs. reflexivity.
Qed.
Lemma firsts_next l cs ys la a : rderivs l cs ys -> N.testbit la (Npos a) = true ->
  N.testbit (firsts l la) (Npos (next_class ys a)) = true.
Proof.
  intros H Ha. unfold firsts.
  (* the lookahead as one more token *)
  pose proof (proj2 first_covers _ _ _ H (la, true) [(a, Leaf "" {| ttype := []; tval := []; tline := 0; tend := 0 |})] Ha) as C.
  destruct ys as [|[c l0] ys]; exact C.
Qed.

(** ** Items *)
Definition item (s i : positive) (d : N) (a : positive) : Prop := N.testbit (iget ritems s i d) (Npos a) = true.
Lemma item_checked s i d a : item s i d a -> item_ok s i d (iget ritems s i d) = true.
Proof.
  unfold item, iget. destruct (ifind ritems s i d) as [la|] eqn:Hf; [|discriminate]. intros _.
  unfold ifind, sub, sub2 in Hf.
  destruct (PM.find s ritems) as [m1|] eqn:H1; [|rewrite !PM.gempty in Hf; cbv iota in Hf; rewrite ?PM.gempty in Hf; discriminate].
  destruct (PM.find i m1) as [m2|] eqn:H2; [|rewrite PM.gempty in Hf; discriminate].
  pose proof items_ok_true as Hc. unfold items_ok in Hc.
  rewrite forallb_forall in Hc. specialize (Hc _ (In_elements_find _ _ _ H1)). cbn [fst snd] in Hc.
  rewrite forallb_forall in Hc. specialize (Hc _ (In_elements_find _ _ _ H2)). cbn [fst snd] in Hc.
  rewrite forallb_forall in Hc. specialize (Hc _ (In_elements_find _ _ _ Hf)). cbn [fst snd] in Hc.
  replace (N.pred (Npos (N.succ_pos d))) with d in Hc; [exact Hc|].
  rewrite N.succ_pos_spec, N.pred_succ. reflexivity.
Qed.

Lemma item_reduce s i d a r : item s i d a -> rget i = Some r -> skipn (N.to_nat d) (rp_rhs r) = [] -> In a classes ->
  action s (terminal_of a) = Some (Reduce (rp_p r)).
Proof.
  intros H Hr Hd Ha. pose proof (item_checked _ _ _ _ H) as Hc. unfold item_ok in Hc. rewrite Hr, Hd in Hc.
  rewrite forallb_forall in Hc. specialize (Hc a Ha). unfold item in H. rewrite H in Hc. cbn [negb orb] in Hc.
  unfold is_reduce in Hc. destruct (action s (terminal_of a)) as [[|q]|]; try discriminate.
  apply Pos.eqb_eq in Hc. subst q. reflexivity.
Qed.
Lemma item_shift s i d a r c rest : item s i d a -> rget i = Some r -> skipn (N.to_nat d) (rp_rhs r) = RT c :: rest ->
  exists s', action s (terminal_of c) = Some (Shift s') /\ item s' i (N.succ d) a.
Proof.
  intros H Hr Hd. pose proof (item_checked _ _ _ _ H) as Hc. unfold item_ok in Hc. rewrite Hr, Hd in Hc.
  apply andb_true_iff in Hc as [Hc _]. unfold target in Hc.
  destruct (action s (terminal_of c)) as [[s'|]|]; try discriminate.
  exists s'. split; [reflexivity|]. exact (within_bit _ _ _ Hc H).
Qed.
Lemma item_goto s i d a r y ts rest : item s i d a -> rget i = Some r -> skipn (N.to_nat d) (rp_rhs r) = RN y ts :: rest ->
  exists s', goto s y = Some s' /\ item s' i (N.succ d) a.
Proof.
  intros H Hr Hd. pose proof (item_checked _ _ _ _ H) as Hc. unfold item_ok in Hc. rewrite Hr, Hd in Hc.
  apply andb_true_iff in Hc as [Hc _]. unfold target in Hc.
  destruct (goto s y) as [s'|]; try discriminate.
  exists s'. split; [reflexivity|]. exact (within_bit _ _ _ Hc H).
Qed.
Lemma item_closure s i d a r y ts rest j rj b : item s i d a -> rget i = Some r ->
  skipn (N.to_nat d) (rp_rhs r) = RN y ts :: rest ->
  rget j = Some rj -> rp_lhs rj = y -> N.testbit ts (rp_tag rj) = true ->
  N.testbit (firsts rest (iget ritems s i d)) (Npos b) = true -> item s j 0 b.
Proof.
  intros H Hr Hd Hj Hy Ht Hb. pose proof (item_checked _ _ _ _ H) as Hc. unfold item_ok in Hc. rewrite Hr, Hd in Hc.
  apply andb_true_iff in Hc as [_ Hc]. cbv zeta in Hc. rewrite forallb_forall in Hc.
  pose proof (rprod_checked _ _ Hj) as Hp. unfold rprod_ok in Hp.
  destruct (PM.find (rp_p rj) prod_info) as [[[lhs rhs] k]|]; [|discriminate].
  apply andb_true_iff in Hp as [Hp _]. apply andb_true_iff in Hp as [Hp _]. apply andb_true_iff in Hp as [_ Hp].
  apply existsb_exists in Hp as ([j' t'] & Hin & He). cbn [fst snd] in He. apply andb_true_iff in He as [He1 He2].
  apply Pos.eqb_eq in He1. apply N.eqb_eq in He2. subst j' t'. rewrite Hy in Hin.
  specialize (Hc _ Hin). cbn [fst snd] in Hc. rewrite Ht in Hc. cbn [negb orb] in Hc.
  exact (within_bit _ _ _ Hc Hb).
Qed.

(** Which classes of tokens may come next in a state. *)
Definition may (s a : positive) : Prop :=
  exists i r d b, rget i = Some r /\ item s i d b /\
    N.testbit (firsts (skipn (N.to_nat d) (rp_rhs r)) (iget ritems s i d)) (Npos a) = true.

(** The same for a state entered by shifting a token of class [c]. *)
Definition after (c s a : positive) : Prop :=
  exists i r d b rest, rget i = Some r /\ item s i (N.succ d) b /\ skipn (N.to_nat d) (rp_rhs r) = RT c :: rest /\
    N.testbit (firsts rest (iget ritems s i (N.succ d))) (Npos a) = true.

(** ** Runs of the automaton over tokens *)
Inductive steps : stack -> list yl -> positive -> stack -> Prop :=
| st_refl st a : steps st [] a st
| st_reduce st p st1 w a st2 : In (next_class w a) classes ->
    action (top_state st) (terminal_of (next_class w a)) = Some (Reduce p) -> reduce p st = Some st1 ->
    steps st1 w a st2 -> steps st w a st2
| st_shift st c l s' w a st2 : action (top_state st) (terminal_of c) = Some (Shift s') ->
    after c s' (next_class w a) ->
    steps ((s', l) :: st) w a st2 -> steps st ((c, l) :: w) a st2.
Lemma steps_app st1 w1 w2 a st2 st3 : steps st1 w1 (next_class w2 a) st2 -> steps st2 w2 a st3 -> steps st1 (w1 ++ w2) a st3.
Proof.
  intros H. remember (next_class w2 a) as b eqn:Hb. induction H; intros Hlast; cbn [app].
  - exact Hlast.
  - apply st_reduce with (p := p) (st1 := st1); auto; rewrite next_class_app, <- Hb; auto.
  - apply st_shift with (s' := s'); auto. rewrite next_class_app, <- Hb. assumption.
Qed.

Lemma skipn_S {A} (l : list A) : forall d x rest, skipn d l = x :: rest -> skipn (Datatypes.S d) l = rest.
Proof.
  induction l as [|y l IH]; intros d x rest H.
  - rewrite skipn_nil in H. discriminate.
  - destruct d as [|d]; cbn [skipn] in *; [inversion H; reflexivity|]. exact (IH _ _ _ H).
Qed.
Lemma skipn_Nsucc {A} (l : list A) d x rest : skipn (N.to_nat d) l = x :: rest -> skipn (N.to_nat (N.succ d)) l = rest.
Proof. intros H. rewrite Nnat.N2Nat.inj_succ. eapply skipn_S. exact H. Qed.

(** Children pushed one after the other. *)
Inductive pushed : stack -> list cst -> stack -> Prop :=
| pu_nil st : pushed st [] st
| pu_cons st s c cs st' : pushed ((s, c) :: st) cs st' -> pushed st (c :: cs) st'.
Lemma pop_pushed st cs st' : pushed st cs st' -> forall acc, pop (List.length cs) st' acc = Some (cs ++ acc, st).
Proof.
  intros H. assert (G : forall n acc r, pop n st acc = r -> pop (List.length cs + n) st' acc = pop (List.length cs + n) st' acc) by reflexivity.
  clear G. assert (G : forall n, forall acc, pop (List.length cs + n) st' acc = pop n st (cs ++ acc)).
  { induction H as [st|st s c cs st' H IH]; intros n acc; [reflexivity|].
    cbn [List.length plus]. replace (Datatypes.S (List.length cs + n)) with (List.length cs + Datatypes.S n) by lia.
    rewrite IH. cbn [pop]. reflexivity. }
  intros acc. specialize (G 0 acc). rewrite Nat.add_0_r in G. rewrite G. reflexivity.
Qed.

Lemma classes_yield : (forall s c ys, rderiv s c ys -> Forall (fun e => In (fst e) classes) ys) /\
  (forall l cs ys, rderivs l cs ys -> Forall (fun e => In (fst e) classes) ys).
Proof.
  apply rderiv_mutind.
  - intros c n t _ Hin. constructor; [exact Hin|constructor].
  - auto.
  - constructor.
  - intros. apply Forall_app. split; assumption.
Qed.
Lemma next_in ys a : Forall (fun e : yl => In (fst e) classes) ys -> In a classes -> In (next_class ys a) classes.
Proof. intros H Ha. destruct H as [|[c l] ys Hc]; [exact Ha|exact Hc]. Qed.
Lemma rderivs_length l cs ys : rderivs l cs ys -> List.length l = List.length cs.
Proof. induction 1; cbn [List.length]; congruence. Qed.

Lemma may_item s i d a r b : rget i = Some r -> item s i d b ->
  (exists cs ys, rderivs (skipn (N.to_nat d) (rp_rhs r)) cs ys /\ next_class ys b = a) -> may s a.
Proof.
  intros Hr Hi (cs & ys & Hd & <-). exists i, r, d, b. repeat split; auto.
  eapply firsts_next; eassumption.
Qed.

(** The two directions of the induction: a symbol in front of an item's dot, and
    the rest of an item. *)
Theorem complete :
  (forall s c ys, rderiv s c ys ->
    forall st i r d a b rest, rget i = Some r -> item (top_state st) i d b -> skipn (N.to_nat d) (rp_rhs r) = s :: rest ->
    N.testbit (firsts rest (iget ritems (top_state st) i d)) (Npos a) = true -> In a classes ->
    (forall s', item s' i (N.succ d) b -> N.testbit (firsts rest (iget ritems s' i (N.succ d))) (Npos a) = true) ->
    exists s', steps st ys a ((s', c) :: st) /\ item s' i (N.succ d) b) /\
  (forall l cs ys, rderivs l cs ys ->
    forall st i r d a, rget i = Some r -> item (top_state st) i d a -> skipn (N.to_nat d) (rp_rhs r) = l -> In a classes ->
    exists st', steps st ys a st' /\ pushed st cs st' /\ item (top_state st') i (d + N.of_nat (List.length l)) a).
Proof.
  apply rderiv_mutind.
  - intros c n t Hid Hin st i r d a b rest Hr Hit Hs Ha Hac Hmay.
    destruct (item_shift _ _ _ _ _ _ _ Hit Hr Hs) as (s' & Hact & Hit').
    exists s'. split; [|exact Hit']. apply st_shift with (s' := s'); [exact Hact| |apply st_refl].
    cbn [next_class]. exists i, r, d, b, rest. auto.
  - intros j rj ts cs ys Hj Ht Hds IH st i r d a b rest Hr Hit Hs Ha Hac Hmay.
    pose proof (item_closure _ _ _ _ _ _ _ _ _ _ _ Hit Hr Hs Hj eq_refl Ht Ha) as Hj0.
    destruct (IH st j rj 0%N a Hj Hj0 eq_refl Hac) as (st' & Hsteps & Hpush & Hend).
    rewrite N.add_0_l in Hend.
    destruct (item_goto _ _ _ _ _ _ _ _ Hit Hr Hs) as (s' & Hgoto & Hit').
    exists s'. split; [|exact Hit'].
    rewrite <- (app_nil_r ys). eapply steps_app; [exact Hsteps|].
    assert (Hred : action (top_state st') (terminal_of a) = Some (Reduce (rp_p rj))).
    { eapply item_reduce; [exact Hend|exact Hj| |exact Hac].
      rewrite Nnat.Nat2N.id. apply skipn_all. }
    apply st_reduce with (p := rp_p rj) (st1 := (s', Br (rp_p rj) cs) :: st); auto.
    + unfold reduce. pose proof (rprod_checked _ _ Hj) as Hp. unfold rprod_ok in Hp.
      destruct (PM.find (rp_p rj) prod_info) as [[[lhs rhs] k]|]; [|discriminate].
      apply andb_true_iff in Hp as [Hp _]. apply andb_true_iff in Hp as [Hp Hlen].
      apply andb_true_iff in Hp as [Hp _]. apply Pos.eqb_eq in Hp. apply Nat.eqb_eq in Hlen. subst lhs.
      rewrite Hlen, (rderivs_length _ _ _ Hds), (pop_pushed _ _ _ Hpush), app_nil_r, Hgoto. reflexivity.
    + apply st_refl.
  - intros st i r d a Hr Hit Hs Hac. exists st. split; [apply st_refl|]. split; [constructor|].
    cbn [List.length N.of_nat]. rewrite N.add_0_r. exact Hit.
  - intros s l c cs ys zs Hd IHd Hds IHds st i r d a Hr Hit Hs Hac.
    assert (Hnext : N.testbit (firsts l (iget ritems (top_state st) i d)) (Npos (next_class zs a)) = true)
      by (eapply firsts_next; [exact Hds|exact Hit]).
    pose proof (skipn_Nsucc _ _ _ _ Hs) as Hs'.
    destruct (IHd st i r d (next_class zs a) a l Hr Hit Hs Hnext) as (s' & Hsteps & Hit').
    { apply next_in; [exact (proj2 classes_yield _ _ _ Hds)|exact Hac]. }
    { intros s' Hi'. eapply firsts_next; [exact Hds|exact Hi']. }
    destruct (IHds ((s', c) :: st) i r (N.succ d) a Hr Hit' Hs' Hac) as (st' & Hsteps' & Hpush & Hend).
    exists st'. split; [|split].
    + eapply steps_app; eassumption.
    + econstructor. exact Hpush.
    + replace (d + N.of_nat (List.length (s :: l)))%N with (N.succ d + N.of_nat (List.length l))%N; [exact Hend|].
      cbn [List.length]. lia.
Qed.

(** A whole document. *)
Theorem complete_start c ys : rderiv (RN start_sym 255) c ys ->
  exists p cs st', c = Br p cs /\ steps [] ys 1 st' /\ pushed [] cs st' /\
    action (top_state st') 1 = Some (Reduce p) /\ may (tb_init bicep_tables) (next_class ys 1) /\
    (exists rhs k, PM.find p prod_info = Some (start_sym, rhs, k) /\ List.length rhs = List.length cs).
Proof.
  intros H. remember (RN start_sym 255) as x eqn:Hx. destruct H as [|i r ts cs ys Hi Ht Hds]; [discriminate|].
  inversion Hx as [[Hl Hts]]. clear Hx. subst ts.
  pose proof (rprod_checked _ _ Hi) as Hp. unfold rprod_ok in Hp.
  destruct (PM.find (rp_p r) prod_info) as [[[lhs rhs] k]|] eqn:Hpr; [|discriminate].
  apply andb_true_iff in Hp as [Hp _]. apply andb_true_iff in Hp as [Hp Hlen]. apply andb_true_iff in Hp as [Hp Hex].
  apply Pos.eqb_eq in Hp. apply Nat.eqb_eq in Hlen. subst lhs.
  assert (H0 : item (top_state []) i 0 1).
  { apply existsb_exists in Hex as ([i' t'] & Hin & He). cbn [fst snd] in He. apply andb_true_iff in He as [He1 He2].
    apply Pos.eqb_eq in He1. subst i'. rewrite Hl in Hin.
    pose proof seeds_ok as Hs. rewrite forallb_forall in Hs. exact (Hs _ Hin). }
  assert (H1 : In 1%positive classes) by (vm_compute; auto).
  destruct (proj2 complete _ _ _ Hds [] i r 0%N 1%positive Hi H0 eq_refl H1) as (st' & Hsteps & Hpush & Hend).
  exists (rp_p r), cs, st'. repeat split; auto.
  - change 1%positive with (terminal_of 1) at 1. eapply item_reduce; [exact Hend|exact Hi| |exact H1].
    rewrite N.add_0_l, Nnat.Nat2N.id. apply skipn_all.
  - eapply may_item; [exact Hi|exact H0|]. exists cs, ys. split; [exact Hds|reflexivity].
  - exists rhs, k. split; [congruence|]. rewrite <- (rderivs_length _ _ _ Hds). congruence.
Qed.
