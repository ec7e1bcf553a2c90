(** The regex matcher: unfolding equations, what a match consumes, and that the
    step budget suffices for well-formed patterns. *)
From Coq Require Import List Arith NArith Bool String Lia.
From Verif Require Import Py.Str Lark.Regex.
Import ListNotations.

Section Eqs.
  Variable E : pyenv.
  Variable top : re.
  Variable fuel : nat.
  Notation mt := (mt E top fuel).

  Lemma mt_eps d n s k : mt d REps n s k = k n s.
  Proof. destruct d; reflexivity. Qed.
  Lemma mt_set d c n s k : mt d (RSet c) n s k =
    match s with x :: s' => if cs_mem E c x then k (S n) s' else MFail | [] => MFail end.
  Proof. destruct d; reflexivity. Qed.
  Lemma mt_seq d a b n s k : mt d (RSeq a b) n s k = mt d a n s (fun n' s' => mt d b n' s' k).
  Proof. destruct d; reflexivity. Qed.
  Lemma mt_alt d a b n s k : mt d (RAlt a b) n s k =
    match mt d a n s k with MFail => mt d b n s k | res => res end.
  Proof. destruct d; reflexivity. Qed.
  Lemma mt_star d g a n s k : mt d (RStar g a) n s k = star_loop g (mt d a) k fuel n s.
  Proof. destruct d; reflexivity. Qed.
  Lemma mt_look d neg a n s k : mt d (RLook neg a) n s k =
    match mt d a n s MOk with
    | MFuel => MFuel
    | MFail => if neg then k n s else MFail
    | MOk _ _ => if neg then MFail else k n s
    end.
  Proof. destruct d; reflexivity. Qed.
  Lemma mt_atomic d a n s k : mt d (RAtomic a) n s k =
    match mt d a n s MOk with MOk n' s' => k n' s' | res => res end.
  Proof. destruct d; reflexivity. Qed.
  Lemma mt_rec_O n s k : mt O RRec n s k = MFuel.
  Proof. reflexivity. Qed.
  Lemma mt_rec_S d n s k : mt (S d) RRec n s k = mt d top n s k.
  Proof. reflexivity. Qed.

  (** The language of a pattern, lookaheads and atomicity ignored. *)
  Inductive lang : re -> str -> Prop :=
  | lang_eps : lang REps []
  | lang_set c x : cs_mem E c x = true -> lang (RSet c) [x]
  | lang_seq a b s t : lang a s -> lang b t -> lang (RSeq a b) (s ++ t)
  | lang_alt_l a b s : lang a s -> lang (RAlt a b) s
  | lang_alt_r a b s : lang b s -> lang (RAlt a b) s
  | lang_star_nil g a : lang (RStar g a) []
  | lang_star_cons g a s t : lang a s -> lang (RStar g a) t -> lang (RStar g a) (s ++ t)
  | lang_look neg a : lang (RLook neg a) []
  | lang_atomic a s : lang a s -> lang (RAtomic a) s
  | lang_rec s : lang top s -> lang RRec s.

  (** A match consumes a prefix that belongs to the pattern's language. *)
  Definition sound (d : nat) (r : re) : Prop := forall n s k n' rest,
    mt d r n s k = MOk n' rest ->
    exists c s1, s = c ++ s1 /\ lang r c /\ k (n + List.length c) s1 = MOk n' rest.

  Lemma star_sound d g a : sound d a -> forall i n s k n' rest,
    star_loop g (mt d a) k i n s = MOk n' rest ->
    exists c s1, s = c ++ s1 /\ lang (RStar g a) c /\ k (n + List.length c) s1 = MOk n' rest.
  Proof.
    intros Ha. induction i as [|i IH]; intros n s k n' rest H; cbn [star_loop] in H; [discriminate|].
    assert (Hbody : mt d a n s (star_loop g (mt d a) k i) = MOk n' rest ->
              exists c s1, s = c ++ s1 /\ lang (RStar g a) c /\ k (n + List.length c) s1 = MOk n' rest).
    { intros Hb. destruct (Ha _ _ _ _ _ Hb) as (c & s1 & -> & Hc & Hk).
      destruct (IH _ _ _ _ _ Hk) as (c2 & s2 & -> & Hc2 & Hk2).
      exists (c ++ c2), s2. rewrite app_assoc, app_length, Nat.add_assoc.
      repeat split; auto. constructor; assumption. }
    assert (Hnow : k n s = MOk n' rest ->
              exists c s1, s = c ++ s1 /\ lang (RStar g a) c /\ k (n + List.length c) s1 = MOk n' rest).
    { intros Hb. exists [], s. cbn [app List.length]. rewrite Nat.add_0_r. repeat split; auto. constructor. }
    destruct g.
    - destruct (mt d a n s (star_loop true (mt d a) k i)) eqn:Hb; try discriminate; auto.
    - destruct (k n s) eqn:Hk; try discriminate; auto.
  Qed.

  Lemma mt_sound d : forall r, sound d r.
  Proof.
    induction d as [|d IHd]; induction r as [|cs|a IHa b IHb|a IHa b IHb|g a IHa|neg a IHa|a IHa|];
      intros n s k n' rest H.
    1,9: rewrite mt_eps in H; exists [], s; cbn [app List.length]; rewrite Nat.add_0_r;
      repeat split; [constructor|exact H].
    1,8: rewrite mt_set in H; destruct s as [|x s]; [discriminate|];
      destruct (cs_mem E cs x) eqn:Hx; [|discriminate];
      exists [x], s; cbn [app List.length]; rewrite Nat.add_1_r; repeat split; [constructor; exact Hx|exact H].
    1,7: rewrite mt_seq in H; destruct (IHa _ _ _ _ _ H) as (c1 & s1 & -> & Hc1 & Hk1);
      cbv beta in Hk1; destruct (IHb _ _ _ _ _ Hk1) as (c2 & s2 & -> & Hc2 & Hk2);
      exists (c1 ++ c2), s2; rewrite app_assoc, app_length, Nat.add_assoc;
      repeat split; auto; constructor; assumption.
    1,6: rewrite mt_alt in H; destruct (mt _ a n s k) eqn:Ha; try discriminate;
      [destruct (IHb _ _ _ _ _ H) as (c & s1 & -> & Hc & Hk); exists c, s1; repeat split; auto;
       apply lang_alt_r; assumption
      |inversion H; subst; destruct (IHa _ _ _ _ _ Ha) as (c & s1 & -> & Hc & Hk); exists c, s1;
       repeat split; auto; apply lang_alt_l; assumption].
    1,5: rewrite mt_star in H; exact (star_sound _ _ _ IHa _ _ _ _ _ _ H).
    1,4: rewrite mt_look in H;
      assert (Hk : k n s = MOk n' rest) by (destruct (mt _ a n s MOk), neg; congruence);
      exists [], s; cbn [app List.length]; rewrite Nat.add_0_r; repeat split; [constructor|exact Hk].
    1,3: rewrite mt_atomic in H; destruct (mt _ a n s MOk) as [| |n1 s1] eqn:Ha; try discriminate;
      destruct (IHa _ _ _ _ _ Ha) as (c & s2 & -> & Hc & Hk); inversion Hk; subst;
      exists c, s1; repeat split; auto; constructor; assumption.
    - rewrite mt_rec_O in H. discriminate.
    - rewrite mt_rec_S in H. destruct (IHd _ _ _ _ _ _ H) as (c & s1 & -> & Hc & Hk).
      exists c, s1. repeat split; auto. constructor; assumption.
  Qed.

  (** ** Step budget *)
  (** May the pattern match without consuming anything? *)
  Fixpoint nullable (r : re) : bool :=
    match r with
    | REps | RStar _ _ | RLook _ _ => true
    | RSet _ | RRec => false
    | RSeq a b => nullable a && nullable b
    | RAlt a b => nullable a || nullable b
    | RAtomic a => nullable a
    end.
  (** May (?R) be reached before anything is consumed? *)
  Fixpoint leads (r : re) : bool :=
    match r with
    | REps | RSet _ => false
    | RSeq a b => leads a || (nullable a && leads b)
    | RAlt a b => leads a || leads b
    | RStar _ a | RLook _ a | RAtomic a => leads a
    | RRec => true
    end.
  (** No repetition of a pattern that may match the empty string. *)
  Fixpoint good (r : re) : bool :=
    match r with
    | REps | RSet _ | RRec => true
    | RSeq a b | RAlt a b => good a && good b
    | RStar _ a => good a && negb (nullable a)
    | RLook _ a | RAtomic a => good a
    end.

  Hypothesis top_good : good top = true.
  Hypothesis top_nn : nullable top = false.
  Hypothesis top_nl : leads top = false.

  Lemma lang_nonnull r c : lang r c -> nullable r = false -> c <> [].
  Proof.
    induction 1 as [|cs x Hx|a b s t Ha IHa Hb IHb|a b s Ha IHa|a b s Hb IHb|g a|g a s t Ha IHa Hb IHb|neg a|a s Ha IHa|s Ht IHt];
      cbn [nullable]; intros Hn; try discriminate.
    - apply andb_false_iff in Hn as [Hn|Hn]; [specialize (IHa Hn)|specialize (IHb Hn)];
        intros He; apply app_eq_nil in He as [? ?]; contradiction.
    - apply orb_false_iff in Hn as [Hn _]. auto.
    - apply orb_false_iff in Hn as [_ Hn]. auto.
    - auto.
    - auto.
  Qed.

  Definition depth_ok (d : nat) (r : re) (s : str) : Prop :=
    if leads r then List.length s < d else List.length s <= d.
  Definition shorter (r : re) (s' s : str) : Prop :=
    if nullable r then List.length s' <= List.length s else List.length s' < List.length s.
  Definition fuelled (d : nat) (r : re) : Prop := forall n s k,
    List.length s < fuel -> depth_ok d r s ->
    (forall n' s', shorter r s' s -> k n' s' <> MFuel) -> mt d r n s k <> MFuel.

  Lemma mok_fuel (n : nat) (s : str) : MOk n s <> MFuel.
  Proof. discriminate. Qed.

  Lemma star_fuelled d g a : nullable a = false -> fuelled d a -> forall i n s k,
    List.length s < i -> List.length s < fuel -> depth_ok d a s ->
    (forall n' s', List.length s' <= List.length s -> k n' s' <> MFuel) ->
    star_loop g (mt d a) k i n s <> MFuel.
  Proof.
    intros Hn Ha. induction i as [|i IH]; intros n s k Hi Hf Hd Hk; [lia|]. cbn [star_loop].
    assert (Hb : mt d a n s (star_loop g (mt d a) k i) <> MFuel).
    { apply Ha; auto. intros n' s' Hs. unfold shorter in Hs. rewrite Hn in Hs.
      apply IH; try lia.
      - unfold depth_ok in *. destruct (leads a); lia.
      - intros n2 s2 H2. apply Hk. lia. }
    assert (Hnow : k n s <> MFuel) by (apply Hk; lia).
    destruct g.
    - destruct (mt d a n s _) eqn:He; congruence.
    - destruct (k n s) eqn:He; congruence.
  Qed.

  Lemma mt_fuelled d : forall r, good r = true -> fuelled d r.
  Proof.
    induction d as [|d IHd]; induction r as [|cs|a IHa b IHb|a IHa b IHb|g a IHa|neg a IHa|a IHa|];
      intros Hg n s k Hf Hd Hk; cbn [good] in Hg.
    1,9: rewrite mt_eps; apply Hk; unfold shorter; cbn [nullable]; lia.
    1,8: rewrite mt_set; destruct s as [|x s]; [discriminate|]; destruct (cs_mem E cs x); [|discriminate];
      apply Hk; unfold shorter; cbn [nullable List.length]; lia.
    1,7: rewrite mt_seq; apply andb_true_iff in Hg as [Hga Hgb]; apply IHa; auto;
      [unfold depth_ok in *; cbn [leads] in Hd; destruct (leads a); cbn [orb] in Hd; [exact Hd|];
       destruct (nullable a && leads b); lia
      |intros n' s' Hs; apply IHb; auto;
       [unfold shorter in Hs; destruct (nullable a); lia
       |unfold depth_ok, shorter in *; cbn [leads] in Hd;
        destruct (leads a), (nullable a), (leads b); cbn [orb andb] in Hd; lia
       |intros n2 s2 Hs2; apply Hk; unfold shorter in *; cbn [nullable];
        destruct (nullable a), (nullable b); cbn [andb]; lia]].
    1,6: rewrite mt_alt; apply andb_true_iff in Hg as [Hga Hgb];
      assert (H1 : mt _ a n s k <> MFuel) by
       (apply IHa; auto;
        [unfold depth_ok in *; cbn [leads] in Hd; destruct (leads a), (leads b); cbn [orb] in Hd; lia
        |intros n' s' Hs; apply Hk; unfold shorter in *; cbn [nullable]; destruct (nullable a), (nullable b); cbn [orb]; lia]);
      assert (H2 : mt _ b n s k <> MFuel) by
       (apply IHb; auto;
        [unfold depth_ok in *; cbn [leads] in Hd; destruct (leads a), (leads b); cbn [orb] in Hd; lia
        |intros n' s' Hs; apply Hk; unfold shorter in *; cbn [nullable]; destruct (nullable a), (nullable b); cbn [orb]; lia]);
      destruct (mt _ a n s k); congruence.
    1,5: rewrite mt_star; apply andb_true_iff in Hg as [Hga Hn]; apply negb_true_iff in Hn;
      apply star_fuelled; auto.
    1,4: rewrite mt_look;
      assert (H1 : mt _ a n s MOk <> MFuel) by (apply IHa; auto; intros; discriminate);
      assert (H2 : k n s <> MFuel) by (apply Hk; unfold shorter; cbn [nullable]; lia);
      destruct (mt _ a n s MOk), neg; congruence.
    1,3: rewrite mt_atomic;
      assert (H1 : mt _ a n s MOk <> MFuel) by (apply IHa; auto; intros; discriminate);
      destruct (mt _ a n s MOk) as [| |n1 s1] eqn:He; try congruence;
      apply Hk; destruct (mt_sound _ _ _ _ _ _ _ He) as (c & s2 & -> & Hc & Heq); inversion Heq; subst;
      unfold shorter; cbn [nullable]; rewrite app_length; destruct (nullable a) eqn:Hna; [lia|];
      pose proof (lang_nonnull _ _ Hc Hna); destruct c; [contradiction|cbn [List.length]; lia].
    - unfold depth_ok in Hd. cbn [leads] in Hd. lia.
    - rewrite mt_rec_S. apply IHd; auto.
      + unfold depth_ok in *. cbn [leads] in Hd. rewrite top_nl. lia.
      + intros n' s' Hs. apply Hk. unfold shorter in *. cbn [nullable]. rewrite top_nn in Hs. exact Hs.
  Qed.
End Eqs.

(** [pattern.match] on a well-formed pattern: never out of steps, and a match is
    a prefix in the pattern's language. *)
Lemma re_run_fuel E top r s : good top = true -> nullable top = false -> leads top = false ->
  good r = true -> leads r = false -> re_run E top (S (List.length s)) r s <> MFuel.
Proof.
  intros H1 H2 H3 H4 H5. unfold re_run.
  apply (mt_fuelled E top (S (List.length s)) H1 H2 H3 (S (List.length s)) r H4).
  - lia.
  - unfold depth_ok. rewrite H5. lia.
  - intros; discriminate.
Qed.
Lemma re_run_sound E top f r s n rest : re_run E top f r s = MOk n rest ->
  exists c, s = (c ++ rest)%list /\ n = List.length c /\ lang E top r c.
Proof.
  unfold re_run. intros H. destruct (mt_sound E top f f r _ _ _ _ _ H) as (c & s1 & -> & Hc & Hk).
  inversion Hk; subst. eauto.
Qed.
