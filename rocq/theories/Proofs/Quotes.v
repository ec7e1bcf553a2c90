(** The pattern of quoted strings on the texts it is meant for. *)
From Coq Require Import List Arith NArith Bool String Lia.
From Verif Require Import Py.Str Py.Val Lark.Regex Lark.Terminals Lark.Lexer Spec.Lexemes Spec.Sentences Spec.Spelling
     Proofs.Base Proofs.Regex Proofs.Lexer Proofs.TokenForms Proofs.Match Proofs.Patterns.
Import ListNotations.
Local Open Scope string_scope.

Lemma no_triple_suffix a s : no_triple_on_line (a ++ s)%list -> ~ In 10%N a -> no_triple_on_line s.
Proof.
  intros H Ha x b Hx. destruct (in_app_or a x 10%N (H (a ++ x)%list b ltac:(rewrite Hx, <- !app_assoc; reflexivity))) as [Hin|Hin]; [contradiction|exact Hin].
Qed.

(** Code without quotes is ordinary text. *)
Lemma flat_code_content nested b s : code false b -> content nested s -> content nested (b ++ u "}" ++ s)%list.
Proof.
  intros Hb Hs. induction Hb as [|x b Hx Hb IH|c b Hn]; [| |congruence].
  - cbn [app]. constructor; [reflexivity|exact Hs].
  - cbn [app].
    assert (Hne : exists y w, (b ++ u "}" ++ s)%list = y :: w /\ is_char "'{" y = false).
    { destruct Hb as [|y b Hy Hb|c b Hn Hc Hb]; [| |congruence].
      - exists 125%N, s. split; reflexivity.
      - exists y, (b ++ u "}" ++ s)%list. split; [reflexivity|]. apply is_char_out. apply is_char_out in Hy.
        intros Hin. apply Hy. cbn in Hin |- *. intuition. }
    destruct Hne as (y & w & He & Hy). apply is_char_out in Hy. apply is_char_out in Hx.
    destruct (is_char "\" x) eqn:Hbs.
    + apply is_char_in in Hbs as [<-|[]]. rewrite He in *. apply con_backslash; [|exact IH].
      apply is_char_out. intros Hin. apply Hy. cbn in Hin |- *. intuition.
    + destruct (is_char "$" x) eqn:Hd.
      * apply is_char_in in Hd as [<-|[]]. rewrite He in *. apply con_dollar; [|exact IH].
        apply is_char_out. intros Hin. apply Hy. cbn in Hin |- *. intuition.
      * apply con_char; [|exact IH]. apply is_char_out. apply is_char_out in Hbs. apply is_char_out in Hd.
        intros Hin. cbn in Hin, Hx, Hbs, Hd. intuition.
Qed.
Definition not_code : cset := {| cs_ranges := [(125, 125); (39, 39); (123, 123)]%N; cs_word := false; cs_neg := true |}.
Lemma not_code_mem E x : cs_mem E not_code x = negb (is_char "'{}" x).
Proof.
  unfold cs_mem, not_code, is_char, in_range. cbn [cs_ranges cs_word cs_neg existsb fst snd andb u map].
  change (u "'{}") with [39; 123; 125]%N. cbn [existsb].
  assert (Hr : forall a, ((a <=? x) && (x <=? a))%N = (x =? a)%N).
  { intros a. destruct (N.eqb_spec x a) as [->|Hn]; [rewrite N.leb_refl; reflexivity|].
    destruct (N.leb_spec a x), (N.leb_spec x a); try reflexivity. lia. }
  rewrite !Hr. destruct (x =? 125)%N, (x =? 39)%N, (x =? 123)%N; reflexivity.
Qed.
Lemma code_split nested b : code nested b ->
  exists v w, b = (v ++ w)%list /\ Forall (fun x => is_char "'{}" x = false) v /\
    (w = [] \/ exists c w', nested = true /\ w = (quote c ++ w')%list /\ content nested c /\ code nested w').
Proof.
  induction 1 as [|x b Hx Hb (v & w & -> & Hv & Hw)|c b Hn Hc Hb _].
  - exists [], []. repeat split; auto.
  - exists (x :: v), w. repeat split; auto.
  - exists [], (quote c ++ b)%list. repeat split; auto. right. exists c, b. auto.
Qed.

Section Quotes.
  Variable E : pyenv.
  Variable alts_before alts_after : list re.
  Definition qtop : re := ralt (alts_before ++ r_QUOTED_INTERPOLATION :: alts_after)%list.
  Notation top := qtop.
  Hypothesis top_good : good top = true.
  Hypothesis top_nn : nullable top = false.
  Hypothesis top_nl : leads top = false.
  Hypothesis before_ok : forall r, In r alts_before -> good r = true /\ leads r = false /\ nullable r = false /\ first_may r 39%N = false.
  Variable F : nat.

  Definition C : re := RAlt (rplus (RSet not_code)) RRec.
  Definition A1 : re := RSeq (rc "${") (RSeq (RAtomic (RStar true C)) (rc "}")).
  Definition B : re := RAlt A1 (RAlt (rc "\'") (rnot [39%N])).
  Definition Look : re := RSeq (RStar true rdot) (rc "'''").
  Lemma qi_eq : r_QUOTED_INTERPOLATION = RSeq (RLook true Look) (RSeq (rc "'") (RSeq (RStar true B) (rc "'"))).
  Proof. reflexivity. Qed.
  Notation mt := (mt E top F).

  Lemma ralt_pick d n s k m r x after : forall before, (forall y, In y before -> mt d y n s k = MFail) ->
    mt d x n s k = MOk m r -> mt d (ralt (before ++ x :: after)%list) n s k = MOk m r.
  Proof.
    induction before as [|y before IH]; intros Hb Hx.
    - cbn [app]. destruct after as [|z after]; [exact Hx|]. cbn [ralt]. rewrite mt_alt, Hx. reflexivity.
    - cbn [app]. assert (Hs : ralt (y :: before ++ x :: after)%list = RAlt y (ralt (before ++ x :: after)%list)).
      { destruct before; reflexivity. }
      rewrite Hs, mt_alt, Hb by (left; reflexivity). apply IH; [|exact Hx]. intros z Hz. apply Hb. right. exact Hz.
  Qed.
  Lemma ralt_not_fail d n s k : forall l x, In x l -> mt d x n s k <> MFail -> mt d (ralt l) n s k <> MFail.
  Proof.
    induction l as [|y l IH]; intros x Hin Hx; [contradiction|].
    destruct l as [|z l].
    - destruct Hin as [<-|[]]. exact Hx.
    - change (ralt (y :: z :: l)) with (RAlt y (ralt (z :: l))). rewrite mt_alt.
      destruct (mt d y n s k) eqn:Hy; try discriminate. apply (IH x); [|exact Hx].
      destruct Hin as [<-|Hin]; [contradiction|exact Hin].
  Qed.

  Lemma look_nomatch s : no_triple_on_line s -> nomatch E top Look s.
  Proof.
    intros H c rest Hs Hl. unfold Look in Hl. inversion Hl as [| |a b x y Ha Hb Heq1 Heq2| | | | | | |]; subst.
    apply lang_rc_inv in Hb. subst y.
    assert (Hx : Forall (fun z => z <> 10%N) x).
    { unfold rdot, rnot in Ha. apply lang_star_set in Ha. rewrite Forall_forall in Ha |- *. intros z Hz He. subst z.
      specialize (Ha _ Hz). vm_compute in Ha. discriminate. }
    rewrite Forall_forall in Hx. apply (Hx 10%N); [|reflexivity]. apply (H x rest). rewrite <- app_assoc. reflexivity.
  Qed.

  (** Either the lexer's alternatives never start at a closing brace, or one of
      them is the closing brace and the code holds no quotes. *)
  Definition no_brace : Prop := forall r, In r (alts_before ++ r_QUOTED_INTERPOLATION :: alts_after)%list -> nullable r = false /\ first_may r 125%N = false.
  Definition brace : Prop := In (rc "}") (alts_before ++ r_QUOTED_INTERPOLATION :: alts_after)%list.
  Lemma no_brace_top s : no_brace -> nomatch E top top (125%N :: s).
  Proof.
    intros H. apply nomatch_first; auto.
    assert (Hg : forall l, (forall r, In r l -> nullable r = false /\ first_may r 125%N = false) -> first_may (ralt l) 125%N = false).
    { induction l as [|r l IH]; intros Hl; [reflexivity|]. destruct l as [|r2 l].
      - destruct (Hl r (or_introl eq_refl)) as [_ H2]. exact H2.
      - change (first_may (ralt (r :: r2 :: l)) 125%N) with (first_may r 125%N || first_may (ralt (r2 :: l)) 125%N)%bool.
        destruct (Hl r (or_introl eq_refl)) as [_ ->]. apply IH. intros r' Hr'. apply Hl. right. exact Hr'. }
    apply Hg. exact H.
  Qed.

  Lemma C_brace d n s k : no_brace -> List.length (125%N :: s) <= d -> List.length (125%N :: s) < F ->
    mt (S d) C n (125%N :: s) k = MFail.
  Proof.
    intros Hnb Hd HF. unfold C. rewrite mt_alt. unfold rplus. rewrite mt_seq, mt_set.
    replace (cs_mem E not_code 125%N) with false by (rewrite not_code_mem; reflexivity).
    rewrite mt_rec_S. apply mt_nomatch; auto.
    - unfold depth_ok. rewrite top_nl. exact Hd.
    - apply no_brace_top. exact Hnb.
  Qed.

  Definition fits_quote (d : nat) (c : str) : Prop := forall n rest k m r,
    List.length (quote c ++ rest)%list <= d -> List.length (quote c ++ rest)%list < F ->
    no_triple_on_line (quote c ++ rest)%list -> k (n + List.length (quote c)) rest = MOk m r ->
    mt d r_QUOTED_INTERPOLATION n (quote c ++ rest)%list k = MOk m r.
  Definition stars_content (d : nat) (c : str) : Prop := forall i n rest k m r,
    List.length c + S (List.length rest) <= d -> List.length c + S (List.length rest) < F -> List.length c < i ->
    no_triple_on_line (c ++ 39%N :: rest)%list -> k (n + List.length c) (39%N :: rest) = MOk m r ->
    star_loop true (mt d B) k i n (c ++ 39%N :: rest)%list = MOk m r.

  Lemma quote_of_content d c : stars_content d c -> fits_quote d c.
  Proof.
    intros H n rest k m r Hd HF Ht Hk. rewrite qi_eq, mt_seq, mt_look_ok.
    rewrite (mt_nomatch E top F d Look n (quote c ++ rest)%list MOk); auto.
    2: apply look_nomatch; exact Ht.
    unfold quote in *. cbn [app] in *. rewrite mt_seq.
    change (39%N :: (c ++ [39%N]) ++ rest)%list with (u "'" ++ ((c ++ [39%N]) ++ rest))%list. rewrite mt_lit, mt_seq, mt_star.
    rewrite <- app_assoc. cbn [app]. cbn [List.length] in Hd, HF. rewrite !app_length in Hd, HF. cbn [List.length] in Hd, HF.
    apply H.
    - lia.
    - lia.
    - lia.
    - apply (no_triple_suffix [39%N]); [|intros [Hx|[]]; discriminate]. cbn [app]. rewrite <- app_assoc in Ht. exact Ht.
    - change (39%N :: rest) with (u "'" ++ rest)%list. rewrite mt_lit, <- Hk.
      change (List.length (u "'")) with 1. cbn [List.length]. rewrite app_length. cbn [List.length]. f_equal. lia.
  Qed.
  Lemma top_quote d c n rest k m r : fits_quote d c ->
    List.length (quote c ++ rest)%list <= d -> List.length (quote c ++ rest)%list < F ->
    no_triple_on_line (quote c ++ rest)%list -> k (n + List.length (quote c)) rest = MOk m r ->
    mt d top n (quote c ++ rest)%list k = MOk m r.
  Proof.
    intros H Hd HF Ht Hk. unfold qtop. apply ralt_pick; [|apply H; assumption].
    intros y Hy. destruct (before_ok y Hy) as (H1 & H2 & H3 & H4). apply mt_nomatch; auto.
    - unfold depth_ok. rewrite H2. exact Hd.
    - unfold quote. cbn [app]. apply nomatch_first; assumption.
  Qed.

  (** With a closing brace among the alternatives, an interpolation is never read as one. *)
  Lemma star_never_brace d : brace -> forall i n s n' s', star_loop true (mt d C) MOk i n s = MOk n' s' -> forall y, s' <> 125%N :: y.
  Proof.
    intros Hb. induction i as [|i IH]; intros n s n' s' H y He; [discriminate|]. cbn [star_loop] in H.
    destruct (mt d C n s (star_loop true (mt d C) MOk i)) as [| |n1 s1] eqn:Hc.
    - inversion H; subst n' s'. subst s. unfold C in Hc at 1. rewrite mt_alt in Hc.
      unfold rplus in Hc. rewrite mt_seq, mt_set in Hc.
      replace (cs_mem E not_code 125%N) with false in Hc by (rewrite not_code_mem; reflexivity).
      destruct d as [|d]; [rewrite mt_rec_O in Hc; discriminate|]. rewrite mt_rec_S in Hc.
      revert Hc. apply (ralt_not_fail d n _ _ _ (rc "}")); [exact Hb|].
      change (125%N :: y) with (u "}" ++ y)%list. rewrite mt_lit. destruct i; cbn [star_loop]; [discriminate|].
      destruct (mt (S d) C _ y _); discriminate.
    - discriminate.
    - inversion H as [[H1 H2]]. destruct (mt_sound E top F d C _ _ _ _ _ Hc) as (c & s2 & _ & _ & Hk). rewrite H1, H2 in Hk.
      exact (IH _ _ _ _ Hk y He).
  Qed.

  Lemma A1_brace_fail d n s k : brace -> List.length s < d -> List.length s < F -> mt d A1 n (u "${" ++ s)%list k = MFail.
  Proof.
    intros Hb Hd HF. unfold A1. rewrite mt_seq, mt_lit, mt_seq, mt_atomic, mt_star.
    destruct (star_loop true (mt d C) MOk F (n + List.length (u "${")) s) as [| |n1 s1] eqn:Hs; auto.
    - exfalso. revert Hs. apply (star_fuelled E top F d true C); auto.
      + apply (mt_fuelled E top F top_good top_nn top_nl). reflexivity.
      + intros n' s' _. discriminate.
    - apply mt_lit_fail. intros [w Hw]. exact (star_never_brace d Hb _ _ _ _ _ Hs w Hw).
  Qed.

  Lemma B_char d x n s k : ~ starts_with (u "${") (x :: s) -> ~ starts_with (u "\'") (x :: s) -> x <> 39%N ->
    mt d B n (x :: s) k = k (S n) s.
  Proof.
    intros H1 H2 H3. unfold B. rewrite mt_alt. unfold A1. rewrite mt_seq, mt_lit_fail by exact H1.
    rewrite mt_alt, mt_lit_fail by exact H2. unfold rnot. rewrite mt_set.
    replace (cs_mem E _ x) with true; [reflexivity|]. unfold cs_mem. cbn [cs_ranges cs_word cs_neg existsb fst snd andb map].
    unfold in_range. destruct (N.leb_spec 39 x), (N.leb_spec x 39); try reflexivity. exfalso. apply H3. lia.
  Qed.
  Lemma B_end d n s k : mt d B n (39%N :: s) k = MFail.
  Proof.
    unfold B. rewrite mt_alt. unfold A1. rewrite mt_seq, mt_lit_fail by (intros [w Hw]; discriminate).
    rewrite mt_alt, mt_lit_fail by (intros [w Hw]; discriminate). unfold rnot. rewrite mt_set. reflexivity.
  Qed.

  Definition stars_code (d : nat) (b : str) : Prop := forall i n X,
    List.length b + S (List.length X) <= d -> List.length b + S (List.length X) < F -> List.length b < i ->
    no_triple_on_line (b ++ 125%N :: X)%list ->
    star_loop true (mt (S d) C) MOk i n (b ++ 125%N :: X)%list = MOk (n + List.length b) (125%N :: X).

  Lemma code_step N nested b : no_brace -> List.length b <= N -> code nested b -> ~ In 10%N b ->
    (forall c, List.length c < N -> content nested c -> ~ In 10%N c -> forall d, stars_content d c) ->
    (forall b', List.length b' < List.length b -> code nested b' -> ~ In 10%N b' -> forall d, stars_code d b') ->
    forall d, stars_code d b.
  Proof.
    intros Hnb HN Hc Hlf IHc IHb d i n X Hd HF Hi Ht.
    destruct (code_split nested b Hc) as (v & w & -> & Hv & Hw). destruct i as [|i]; [lia|]. cbn [star_loop].
    destruct v as [|x v].
    - cbn [app] in *. destruct Hw as [->|(c & w' & Hn & -> & Hcc & Hcw)].
      + cbn [app List.length] in *. rewrite C_brace; auto. rewrite Nat.add_0_r. reflexivity.
      + unfold C at 1. rewrite mt_alt. unfold rplus. rewrite mt_seq.
        rewrite app_length in Hd, HF, Hi. rewrite app_length in HN, IHb.
        assert (Hlen : List.length (quote c) = S (S (List.length c))).
        { unfold quote. cbn [app List.length]. rewrite app_length. cbn [List.length]. lia. }
        replace (mt (S d) (RSet not_code) n ((quote c ++ w') ++ 125%N :: X)%list _) with MFail.
        2: { rewrite mt_set. unfold quote. cbn [app]. rewrite not_code_mem. reflexivity. }
        rewrite mt_rec_S, <- app_assoc.
        rewrite (top_quote d c n (w' ++ 125%N :: X)%list _ (n + List.length (quote c ++ w')%list) (125%N :: X)); auto.
        * apply quote_of_content. apply IHc; auto; [lia|]. intros Hin. apply Hlf. apply in_app_iff. left. unfold quote. cbn [app In]. right. apply in_app_iff. left. exact Hin.
        * rewrite !app_length. cbn [List.length]. lia.
        * rewrite !app_length. cbn [List.length]. lia.
        * rewrite app_assoc. exact Ht.
        * rewrite (IHb w'); auto.
          -- f_equal. rewrite app_length. lia.
          -- lia.
          -- intros Hin. apply Hlf. apply in_app_iff. right. exact Hin.
          -- lia.
          -- lia.
          -- lia.
          -- apply (no_triple_suffix (quote c)); [rewrite app_assoc; exact Ht|].
             intros Hin. apply Hlf. apply in_app_iff. left. exact Hin.
    - rewrite <- app_assoc. unfold C at 1. rewrite mt_alt.
      assert (Hcw : code nested w).
      { destruct Hw as [->|(c & w' & Hn & -> & Hcc & Hcw)]; [constructor|]. apply code_quoted; assumption. }
      rewrite app_length in *. 
      rewrite (plus_set_ok E top F (S d) not_code _ (x :: v) n (w ++ 125%N :: X)%list (n + List.length ((x :: v) ++ w)%list) (125%N :: X)).
      + rewrite app_length. reflexivity.
      + discriminate.
      + rewrite Forall_forall in Hv |- *. intros y Hy. rewrite not_code_mem, (Hv y Hy). reflexivity.
      + destruct Hw as [->|(c & w' & Hn & -> & Hcc & _)]; cbn [app quote]; unfold ahead; cbn [app]; rewrite not_code_mem; reflexivity.
      + lia.
      + rewrite (IHb w); auto.
        * f_equal. rewrite app_length. lia.
        * cbn [List.length]. lia.
        * intros Hin. apply Hlf. apply in_app_iff. right. exact Hin.
        * cbn [List.length] in Hd. lia.
        * cbn [List.length] in HF. lia.
        * cbn [List.length] in Hi. lia.
        * apply (no_triple_suffix (x :: v)); [rewrite app_assoc; exact Ht|].
          intros Hin. apply Hlf. apply in_app_iff. left. exact Hin.
  Qed.

  Lemma content_stars nested : (no_brace \/ (brace /\ nested = false)) ->
    forall N c, List.length c <= N -> content nested c -> ~ In 10%N c -> forall d, stars_content d c.
  Proof.
    intros Hmode. induction N as [N IH] using lt_wf_ind. intros c HN Hc Hlf d i n rest k m r Hd HF Hi Ht Hk.
    destruct i as [|i]; [lia|]. cbn [star_loop].
    assert (Hnext : forall x s, c = x :: s -> content nested s -> star_loop true (mt d B) k i (S n) (s ++ 39%N :: rest)%list = MOk m r).
    { intros x s -> Hs. cbn [List.length] in *. apply (IH (List.length s)); auto; try lia.
      - intros Hin. apply Hlf. right. exact Hin.
      - apply (no_triple_suffix [x]); [exact Ht|]. intros [He|[]]. apply Hlf. left. exact He.
      - rewrite <- Hk. f_equal. lia. }
    destruct Hc as [|x s Hx Hs|x s Hx Hs|x s Hx Hs| |s Hs|b s Hb Hs].
    - cbn [app]. rewrite B_end. cbn [List.length] in Hk. rewrite Nat.add_0_r in Hk. exact Hk.
    - cbn [app]. apply is_char_out in Hx. rewrite B_char.
      + rewrite (Hnext x s eq_refl Hs). reflexivity.
      + intros [w Hw]. inversion Hw; subst. apply Hx. cbn. auto.
      + intros [w Hw]. inversion Hw; subst. apply Hx. cbn. auto.
      + intros ->. apply Hx. cbn. auto.
    - cbn [app]. apply is_char_out in Hx. rewrite B_char.
      + pose proof (Hnext 92%N (x :: s) eq_refl Hs) as H1. cbn [app] in H1. rewrite H1. reflexivity.
      + intros [w Hw]. discriminate.
      + intros [w Hw]. inversion Hw; subst. apply Hx. cbn. auto.
      + discriminate.
    - cbn [app]. apply is_char_out in Hx. rewrite B_char.
      + pose proof (Hnext 36%N (x :: s) eq_refl Hs) as H1. cbn [app] in H1. rewrite H1. reflexivity.
      + intros [w Hw]. inversion Hw; subst. apply Hx. cbn. auto.
      + intros [w Hw]. discriminate.
      + discriminate.
    - cbn [app]. rewrite B_char.
      + pose proof (Hnext 36%N [] eq_refl (con_end _)) as H1. cbn [app] in H1. rewrite H1. reflexivity.
      + intros [w Hw]. discriminate.
      + intros [w Hw]. discriminate.
      + discriminate.
    - change ((u "\'" ++ s) ++ 39%N :: rest)%list with (u "\'" ++ (s ++ 39%N :: rest))%list.
      unfold B at 1. rewrite mt_alt. unfold A1 at 1. rewrite mt_seq, mt_lit_fail by (intros [w Hw]; discriminate).
      rewrite mt_alt, mt_lit. change (List.length (u "\'" ++ s)%list) with (S (S (List.length s))) in *.
      rewrite (IH (List.length s) ltac:(lia) s ltac:(lia) Hs) with (m := m) (r := r); auto; try lia.
      + intros Hin. apply Hlf. cbn. auto.
      + apply (no_triple_suffix (u "\'")); [exact Ht|]. cbn. intros [He|[He|[]]]; discriminate.
      + rewrite <- Hk. change (List.length (u "\'")) with 2. f_equal. lia.
    - assert (Hlen : List.length (u "${" ++ b ++ u "}" ++ s)%list = 3 + List.length b + List.length s).
      { rewrite !app_length. change (List.length (u "${")) with 2. change (List.length (u "}")) with 1. lia. }
      rewrite Hlen in *.
      assert (Hlfb : ~ In 10%N b) by (intros Hin; apply Hlf; apply in_app_iff; right; apply in_app_iff; left; exact Hin).
      assert (Hlfs : ~ In 10%N s) by (intros Hin; apply Hlf; apply in_app_iff; right; apply in_app_iff; right; apply in_app_iff; right; exact Hin).
      replace ((u "${" ++ b ++ u "}" ++ s) ++ 39%N :: rest)%list with (u "${" ++ (b ++ 125%N :: (s ++ 39%N :: rest)))%list in *
        by (rewrite <- !app_assoc; reflexivity).
      destruct Hmode as [Hnb|[Hbr Hflat]].
      + unfold B at 1. rewrite mt_alt. unfold A1 at 1. rewrite mt_seq, mt_lit, mt_seq, mt_atomic, mt_star.
        destruct d as [|d]; [lia|].
        assert (Hcode : forall b', List.length b' <= List.length b -> code nested b' -> ~ In 10%N b' -> forall d', stars_code d' b').
        { intros b'. remember (List.length b') as L eqn:HL. revert b' HL.
          induction L as [L IHL] using lt_wf_ind. intros b' HL Hle Hcb Hlb d'.
          apply (code_step (List.length b) nested b'); auto; try lia.
          - intros c' Hc' Hcc Hlc d2. apply (IH (List.length c')); auto; lia.
          - intros b2 Hb2 Hcb2 Hlb2 d2. apply (IHL (List.length b2)); auto; lia. }
        rewrite (Hcode b (le_n _) Hb Hlfb d F).
        * change (125%N :: (s ++ 39%N :: rest))%list with (u "}" ++ (s ++ 39%N :: rest))%list. rewrite mt_lit.
          rewrite (IH (List.length s) ltac:(lia) s ltac:(lia) Hs Hlfs) with (m := m) (r := r); auto; try lia.
          -- apply (no_triple_suffix (u "${" ++ b ++ u "}")%list); [rewrite <- !app_assoc; exact Ht|].
             intros Hin. apply in_app_iff in Hin as [[He|[He|[]]]|Hin]; try discriminate.
             apply in_app_iff in Hin as [Hin|[He|[]]]; [contradiction|discriminate].
          -- rewrite <- Hk. f_equal. change (List.length (u "${")) with 2. change (List.length (u "}")) with 1. lia.
        * rewrite app_length. cbn [List.length]. lia.
        * rewrite app_length. cbn [List.length]. lia.
        * lia.
        * apply (no_triple_suffix (u "${")); [exact Ht|]. cbn. intros [He|[He|[]]]; discriminate.
      + unfold B at 1. rewrite mt_alt, A1_brace_fail; auto.
        2,3: rewrite app_length; cbn [List.length]; rewrite app_length; cbn [List.length]; lia.
        change (u "${" ++ (b ++ 125%N :: (s ++ 39%N :: rest)))%list with (36%N :: (123%N :: (b ++ 125%N :: (s ++ 39%N :: rest))))%list.
        rewrite mt_alt, mt_lit_fail by (intros [w Hw]; discriminate). unfold rnot. rewrite mt_set.
        replace (cs_mem E _ 36%N) with true by reflexivity.
        subst nested. pose proof (flat_code_content false b s Hb Hs) as Hflat.
        assert (Hc2 : content false (123%N :: b ++ u "}" ++ s)%list) by (constructor; [reflexivity|exact Hflat]).
        assert (Hl2 : List.length (123%N :: b ++ u "}" ++ s)%list = 2 + List.length b + List.length s).
        { cbn [List.length]. rewrite !app_length. change (List.length (u "}")) with 1. lia. }
        replace (123%N :: (b ++ 125%N :: (s ++ 39%N :: rest)))%list with ((123%N :: b ++ u "}" ++ s) ++ 39%N :: rest)%list
          by (cbn [app]; rewrite <- !app_assoc; reflexivity).
        rewrite (IH (2 + List.length b + List.length s) ltac:(lia) _ ltac:(rewrite Hl2; lia) Hc2) with (m := m) (r := r); auto; rewrite ?Hl2; try lia.
        * intros Hin. destruct Hin as [He|Hin]; [discriminate|]. apply in_app_iff in Hin as [Hin|[He|Hin]]; [contradiction|discriminate|contradiction].
        * apply (no_triple_suffix [36%N]); [|intros [He|[]]; discriminate].
          replace ([36%N] ++ ((123%N :: b ++ u "}" ++ s) ++ 39%N :: rest))%list with (u "${" ++ b ++ 125%N :: s ++ 39%N :: rest)%list; [exact Ht|].
          cbn [app u]. rewrite <- !app_assoc. reflexivity.
        * rewrite <- Hk. f_equal. lia.
  Qed.

  Lemma quoted_mt nested c d n rest k m r : (no_brace \/ (brace /\ nested = false)) -> content nested c -> ~ In 10%N c ->
    List.length (quote c ++ rest)%list <= d -> List.length (quote c ++ rest)%list < F ->
    no_triple_on_line (quote c ++ rest)%list -> k (n + List.length (quote c)) rest = MOk m r ->
    mt d r_QUOTED_INTERPOLATION n (quote c ++ rest)%list k = MOk m r.
  Proof.
    intros Hm Hc Hlf. apply quote_of_content. apply (content_stars nested Hm (List.length c)); auto.
  Qed.
End Quotes.
