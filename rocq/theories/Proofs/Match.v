(** When a pattern matches a given text, and when it cannot. *)
From Coq Require Import List Arith NArith Bool String Lia.
From Verif Require Import Py.Str Py.Val Lark.Regex Lark.Terminals Lark.Lexer Spec.Lexemes Spec.Spelling
     Proofs.Base Proofs.Regex Proofs.Lexer Proofs.TokenForms.
Import ListNotations.

(** ** Impossible matches *)
(** May a match of [r] start with [x]?  ([\w] counts as every character.) *)
Definition set_may (c : cset) (x : N) : bool :=
  if cs_word c then true else xorb (cs_neg c) (existsb (fun r => in_range (fst r) (snd r) x) (cs_ranges c)).
Fixpoint first_may (r : re) (x : N) : bool :=
  match r with
  | REps | RLook _ _ => false
  | RSet c => set_may c x
  | RSeq a b => first_may a x || (nullable a && first_may b x)
  | RAlt a b => first_may a x || first_may b x
  | RStar _ a | RAtomic a => first_may a x
  | RRec => true
  end.
(** Texts one of which a match starts with; [true]: the match is just that. *)
Fixpoint pre (r : re) : list (str * bool) :=
  match r with
  | REps | RLook _ _ => [([], true)]
  | RSet c => match c with
              | {| cs_ranges := [(a, b)]; cs_word := false; cs_neg := false |} => if N.eqb a b then [([a], true)] else [([], false)]
              | _ => [([], false)]
              end
  | RSeq a b => flat_map (fun p : str * bool => if (snd p : bool) then map (fun q : str * bool => (fst p ++ fst q, snd q)) (pre b) else [p]) (pre a)
  | RAlt a b => pre a ++ pre b
  | RAtomic a => pre a
  | RStar _ _ | RRec => [([], false)]
  end.

Section Match.
  Variable E : pyenv.
  Variable top : re.

  Lemma lang_nil_nullable r c : nullable top = false -> lang E top r c -> c = [] -> nullable r = true.
  Proof.
    intros Ht H Hc. destruct (nullable r) eqn:Hn; [reflexivity|].
    exfalso. exact (lang_nonnull E top Ht r c H Hn Hc).
  Qed.
  Lemma set_may_mem c x : cs_mem E c x = true -> set_may c x = true.
  Proof.
    unfold cs_mem, set_may. destruct (cs_word c); [reflexivity|]. cbn [andb]. rewrite orb_false_r. auto.
  Qed.
  Lemma first_sound r w : nullable top = false -> lang E top r w -> forall x w', w = x :: w' -> first_may r x = true.
  Proof.
    intros Ht H. induction H as [|cs y Hy|a b s t Ha IHa Hb IHb|a b s Ha IHa|a b s Hb IHb|g a|g a s t Ha IHa Hb IHb|neg a|a s Ha IHa|s Hs IHs];
      intros x w' He; cbn [first_may]; try discriminate; try reflexivity.
    - inversion He; subst. apply set_may_mem. exact Hy.
    - destruct s as [|y s].
      + cbn [app] in He. rewrite (IHb _ _ He), (lang_nil_nullable _ _ Ht Ha eq_refl), orb_true_r. reflexivity.
      + inversion He; subst. rewrite (IHa _ _ eq_refl). reflexivity.
    - rewrite (IHa _ _ He). reflexivity.
    - rewrite (IHb _ _ He), orb_true_r. reflexivity.
    - destruct s as [|y s].
      + cbn [app] in He. cbn [first_may] in IHb. exact (IHb _ _ He).
      + inversion He; subst. exact (IHa _ _ eq_refl).
    - exact (IHa _ _ He).
  Qed.

  Definition starts_with (p w : str) : Prop := exists w', w = p ++ w'.
  Lemma pre_sound r w : lang E top r w -> exists p e, In (p, e) (pre r) /\ starts_with p w /\ (e = true -> w = p).
  Proof.
    assert (Hany : forall w, exists p e, In (p, e) [([], false)] /\ starts_with p w /\ (e = true -> w = p)).
    { intros v. exists [], false. split; [left; reflexivity|]. split; [exists v; reflexivity|discriminate]. }
    intros H. induction H as [|cs y Hy|a b s t Ha IHa Hb IHb|a b s Ha IHa|a b s Hb IHb|g a|g a s t Ha IHa Hb IHb|neg a|a s Ha IHa|s Hs IHs];
      cbn [pre]; auto.
    - exists [], true. split; [left; reflexivity|]. split; [exists []; reflexivity|reflexivity].
    - destruct cs as [[|[lo hi] [|r2 rs]] [|] [|]]; try apply Hany.
      destruct (N.eqb_spec lo hi) as [->|Hne]; [|apply Hany].
      apply single_set in Hy. subst y.
      exists [hi], true. split; [left; reflexivity|]. split; [exists []; reflexivity|reflexivity].
    - destruct IHa as (p & e & Hin & [w' Hw] & He). destruct e.
      + specialize (He eq_refl). clear Hw. subst s. destruct IHb as (q & e2 & Hin2 & [w2 Hw2] & He2).
        exists (p ++ q), e2. split; [|split].
        * apply in_flat_map. exists (p, true). split; [exact Hin|]. cbn [snd fst].
          apply in_map_iff. exists (q, e2). split; [reflexivity|exact Hin2].
        * exists w2. rewrite Hw2, app_assoc. reflexivity.
        * intros H2. rewrite (He2 H2). reflexivity.
      + exists p, false. split; [|split; [|discriminate]].
        * apply in_flat_map. exists (p, false). split; [exact Hin|]. left. reflexivity.
        * exists (w' ++ t). rewrite Hw, app_assoc. reflexivity.
    - destruct IHa as (p & e & Hin & H2). exists p, e. split; [apply in_app_iff; auto|exact H2].
    - destruct IHb as (p & e & Hin & H2). exists p, e. split; [apply in_app_iff; auto|exact H2].
    - exists [], true. split; [left; reflexivity|]. split; [exists []; reflexivity|reflexivity].
  Qed.

  (** No prefix of [s] is in the language of [r]. *)
  Definition nomatch (r : re) (s : str) : Prop := forall c rest, s = c ++ rest -> ~ lang E top r c.
  Lemma nomatch_first r x s : nullable top = false -> nullable r = false -> first_may r x = false -> nomatch r (x :: s).
  Proof.
    intros Ht Hn Hf c rest Hs Hl. destruct c as [|y c].
    - exact (lang_nonnull E top Ht _ _ Hl Hn eq_refl).
    - inversion Hs; subst. rewrite (first_sound _ _ Ht Hl _ _ eq_refl) in Hf. discriminate.
  Qed.
  Lemma nomatch_pre r s : (forall p, In p (map fst (pre r)) -> ~ starts_with p s) -> nomatch r s.
  Proof.
    intros H c rest Hs Hl. destruct (pre_sound _ _ Hl) as (p & e & Hin & [w Hw] & _).
    apply (H p); [apply in_map_iff; exists (p, e); auto|].
    exists (w ++ rest). rewrite Hs, Hw, app_assoc. reflexivity.
  Qed.

  Section Fuel.
    Variable fuel : nat.
    Notation mt := (mt E top fuel).

    (** ** Matches *)
    Lemma mt_lit d s n rest k : mt d (rc s) n (u s ++ rest) k = k (n + List.length (u s)) rest.
    Proof.
      unfold rc. revert n. induction (u s) as [|x l IH]; intros n; cbn [fold_right app List.length].
      - rewrite mt_eps, Nat.add_0_r. reflexivity.
      - rewrite mt_seq, mt_set. cbn [cs_mem]. unfold cs_mem. cbn [cs_ranges cs_word cs_neg existsb fst snd andb].
        unfold in_range. rewrite !N.leb_refl. cbn [andb orb xorb]. rewrite IH. f_equal. lia.
    Qed.
    Lemma mt_lit_fail d s n x k : ~ starts_with (u s) x -> mt d (rc s) n x k = MFail.
    Proof.
      unfold rc. revert n x. induction (u s) as [|y l IH]; intros n x H; cbn [fold_right].
      - exfalso. apply H. exists x. reflexivity.
      - rewrite mt_seq, mt_set. destruct x as [|z x]; [reflexivity|].
        destruct (cs_mem E {| cs_ranges := [(y, y)]; cs_word := false; cs_neg := false |} z) eqn:Hz; [|reflexivity].
        apply single_set in Hz. subst z. apply IH. intros [w Hw]. apply H. exists w. cbn [app]. rewrite Hw. reflexivity.
    Qed.
    Lemma star_set_ok d c k : forall v i n rest m r, Forall (fun x => cs_mem E c x = true) v ->
      ahead (cs_mem E c) rest = false -> List.length v < i -> k (n + List.length v) rest = MOk m r ->
      star_loop true (mt d (RSet c)) k i n (v ++ rest) = MOk m r.
    Proof.
      induction v as [|x v IH]; intros i n rest m r Hv Hr Hi Hk; (destruct i as [|i]; [cbn [List.length] in Hi; lia|]).
      - cbn [app star_loop]. rewrite mt_set. cbn [List.length] in Hk. rewrite Nat.add_0_r in Hk.
        destruct rest as [|y rest]; [exact Hk|]. cbn [ahead] in Hr. rewrite Hr. exact Hk.
      - inversion Hv; subst. cbn [app star_loop]. rewrite mt_set.
        match goal with H : cs_mem E c x = true |- _ => rewrite H end.
        rewrite (IH i (S n) rest m r); auto.
        + cbn [List.length] in Hi. lia.
        + rewrite <- Hk. cbn [List.length]. f_equal. lia.
    Qed.
    Lemma plus_set_ok d c k v n rest m r : v <> [] -> Forall (fun x => cs_mem E c x = true) v ->
      ahead (cs_mem E c) rest = false -> List.length v <= fuel -> k (n + List.length v) rest = MOk m r ->
      mt d (rplus (RSet c)) n (v ++ rest) k = MOk m r.
    Proof.
      intros Hne Hv Hr Hi Hk. destruct v as [|x v]; [contradiction|]. inversion Hv; subst.
      unfold rplus. rewrite mt_seq, mt_set. cbn [app].
      match goal with H : cs_mem E c x = true |- _ => rewrite H end.
      rewrite mt_star. apply star_set_ok; auto.
      rewrite <- Hk. cbn [List.length]. f_equal. lia.
    Qed.
    (** Repetition up to the first place where the continuation succeeds. *)
    Lemma lazy_any_ok d k : forall v i n rest m r,
      (forall a b, v = a ++ b -> b <> [] -> k (n + List.length a) (b ++ rest) = MFail) ->
      List.length v < i -> k (n + List.length v) rest = MOk m r ->
      star_loop false (mt d r_any) k i n (v ++ rest) = MOk m r.
    Proof.
      induction v as [|x v IH]; intros i n rest m r Hno Hi Hk; (destruct i as [|i]; [cbn [List.length] in Hi; lia|]).
      - cbn [app star_loop]. cbn [List.length] in Hk. rewrite Nat.add_0_r in Hk. rewrite Hk. reflexivity.
      - cbn [star_loop]. pose proof (Hno [] (x :: v) eq_refl) as H0. cbn [List.length] in H0. rewrite Nat.add_0_r in H0.
        rewrite H0 by discriminate. unfold r_any, rnot. rewrite mt_set. cbn [app].
        replace (cs_mem E _ x) with true by reflexivity.
        apply IH.
        + intros a b Hab Hb. specialize (Hno (x :: a) b). cbn [List.length] in Hno.
          rewrite <- (Hno (f_equal (cons x) Hab) Hb). f_equal. lia.
        + cbn [List.length] in Hi. lia.
        + rewrite <- Hk. cbn [List.length]. f_equal. lia.
    Qed.
    Lemma mt_look_ok d a n s k : mt d (RLook true a) n s k = match mt d a n s MOk with MFuel => MFuel | MFail => k n s | MOk _ _ => MFail end.
    Proof. rewrite mt_look. reflexivity. Qed.
  End Fuel.

  Lemma nomatch_fail r s : good top = true -> nullable top = false -> leads top = false ->
    good r = true -> leads r = false -> nomatch r s -> re_run E top (S (List.length s)) r s = MFail.
  Proof.
    intros H1 H2 H3 H4 H5 Hno. destruct (re_run E top (S (List.length s)) r s) as [| |n rest] eqn:Hr; [reflexivity| |].
    - exfalso. exact (re_run_fuel E top r s H1 H2 H3 H4 H5 Hr).
    - exfalso. destruct (re_run_sound _ _ _ _ _ _ _ Hr) as (c & Hs & _ & Hc). exact (Hno c rest Hs Hc).
  Qed.
  (** What the continuation does off the language of the pattern is immaterial. *)
  Definition ext (fuel d : nat) (r : re) : Prop := forall n s k k',
    (forall c s', s = c ++ s' -> lang E top r c -> k (n + List.length c) s' = k' (n + List.length c) s') ->
    mt E top fuel d r n s k = mt E top fuel d r n s k'.
  Lemma star_ext fuel d g a : ext fuel d a -> forall i n s k k',
    (forall c s', s = c ++ s' -> lang E top (RStar g a) c -> k (n + List.length c) s' = k' (n + List.length c) s') ->
    star_loop g (mt E top fuel d a) k i n s = star_loop g (mt E top fuel d a) k' i n s.
  Proof.
    intros Ha. induction i as [|i IH]; intros n s k k' H; [reflexivity|]. cbn [star_loop].
    assert (H0 : k n s = k' n s).
    { specialize (H [] s eq_refl (lang_star_nil _ _ _ _)). cbn [List.length] in H. rewrite Nat.add_0_r in H. exact H. }
    assert (Hb : mt E top fuel d a n s (star_loop g (mt E top fuel d a) k i) = mt E top fuel d a n s (star_loop g (mt E top fuel d a) k' i)).
    { apply Ha. intros c s' Hs Hc. apply IH. intros c2 s2 Hs2 Hc2.
      specialize (H (c ++ c2) s2). rewrite app_length, Nat.add_assoc in H. apply H; [rewrite Hs, Hs2, app_assoc; reflexivity|].
      constructor; assumption. }
    rewrite Hb, H0. reflexivity.
  Qed.
  Lemma mt_ext fuel d : forall r, ext fuel d r.
  Proof.
    induction d as [|d IHd]; induction r as [|cs|a IHa b IHb|a IHa b IHb|g a IHa|neg a IHa|a IHa|];
      intros n s k k' H.
    1,9: rewrite !mt_eps; specialize (H [] s eq_refl (lang_eps _ _)); cbn [List.length] in H; rewrite Nat.add_0_r in H; exact H.
    1,8: rewrite !mt_set; destruct s as [|x s]; [reflexivity|]; destruct (cs_mem E cs x) eqn:Hx; [|reflexivity];
      specialize (H [x] s eq_refl (lang_set _ _ _ _ Hx)); cbn [List.length] in H; rewrite Nat.add_1_r in H; exact H.
    1,7: rewrite !mt_seq; apply IHa; intros c s' Hs Hc; apply IHb; intros c2 s2 Hs2 Hc2;
      specialize (H (c ++ c2) s2); rewrite app_length, Nat.add_assoc in H;
      (apply H; [rewrite Hs, Hs2, app_assoc; reflexivity|constructor; assumption]).
    1,6: rewrite !mt_alt, (IHa n s k k'), (IHb n s k k'); [reflexivity| |];
      intros c s' Hs Hc; apply H; auto; [apply lang_alt_r|apply lang_alt_l]; assumption.
    1,5: rewrite !mt_star; apply star_ext; assumption.
    1,4: rewrite !mt_look; specialize (H [] s eq_refl (lang_look _ _ _ _)); cbn [List.length] in H; rewrite Nat.add_0_r in H;
      rewrite H; reflexivity.
    1,3: rewrite !mt_atomic; destruct (mt E top fuel _ a n s MOk) as [| |n1 s1] eqn:He; try reflexivity;
      destruct (mt_sound E top fuel _ _ _ _ _ _ _ He) as (c & s2 & Hs & Hc & Heq); inversion Heq; subst;
      apply H; [reflexivity|constructor; assumption].
    - reflexivity.
    - rewrite !mt_rec_S. apply IHd. intros c s' Hs Hc. apply H; [exact Hs|constructor; exact Hc].
  Qed.
  (** The same in the middle of a match. *)
  Lemma mt_nomatch fuel d r n s k : good top = true -> nullable top = false -> leads top = false ->
    good r = true -> List.length s < fuel -> depth_ok d r s -> nomatch r s -> mt E top fuel d r n s k = MFail.
  Proof.
    intros H1 H2 H3 H4 Hf Hd Hno.
    set (kf := fun (_ : nat) (_ : str) => MFail). rewrite (mt_ext fuel d r n s k kf).
    - destruct (mt E top fuel d r n s kf) as [| |n' s'] eqn:Hr; [reflexivity| |].
      + exfalso. apply (mt_fuelled E top fuel H1 H2 H3 d r H4 n s kf); auto. intros; discriminate.
      + destruct (mt_sound E top fuel d r _ _ _ _ _ Hr) as (c & s1 & _ & _ & Hk). discriminate.
    - intros c s' Hs Hc. exfalso. exact (Hno _ _ Hs Hc).
  Qed.
End Match.
