(** The patterns written down in Lark/Terminals.v match like the pattern texts. *)
From Coq Require Import List Arith NArith Bool String Ascii Lia.
From Verif Require Import Py.Str Lark.Regex Lark.RegexText Proofs.Regex Proofs.Match.
Import ListNotations.

Section Guarded.
  Variable E : pyenv.
  Variable top : re.
  Variable fuel : nat.
  Notation mtg := (mtg E top fuel).
  Lemma mtg_eps d n s k : mtg d REps n s k = k n s.
  Proof. destruct d; reflexivity. Qed.
  Lemma mtg_set d c n s k : mtg d (RSet c) n s k = match s with x :: s' => if cs_mem E c x then k (S n) s' else MFail | [] => MFail end.
  Proof. destruct d; reflexivity. Qed.
  Lemma mtg_seq d a b n s k : mtg d (RSeq a b) n s k = mtg d a n s (fun n' s' => mtg d b n' s' k).
  Proof. destruct d; reflexivity. Qed.
  Lemma mtg_alt d a b n s k : mtg d (RAlt a b) n s k = match mtg d a n s k with MFail => mtg d b n s k | res => res end.
  Proof. destruct d; reflexivity. Qed.
  Lemma mtg_star d g a n s k : mtg d (RStar g a) n s k = star_guarded g (mtg d a) k fuel n s.
  Proof. destruct d; reflexivity. Qed.
  Lemma mtg_look d neg a n s k : mtg d (RLook neg a) n s k =
    match mtg d a n s MOk with MFuel => MFuel | MFail => if neg then k n s else MFail | MOk _ _ => if neg then MFail else k n s end.
  Proof. destruct d; reflexivity. Qed.
  Lemma mtg_atomic d a n s k : mtg d (RAtomic a) n s k = match mtg d a n s MOk with MOk n' s' => k n' s' | res => res end.
  Proof. destruct d; reflexivity. Qed.
End Guarded.

(** ** Sequences and alternatives as lists *)
Fixpoint cat (a b : re) : re :=
  match a with
  | REps => b
  | RSeq x y => RSeq x (cat y b)
  | _ => match b with REps => a | _ => RSeq a b end
  end.
Definition set_eqb (a b : cset) : bool :=
  (fix go (l l' : list (N * N)) := match l, l' with
     | [], [] => true
     | (x, y) :: l, (x', y') :: l' => N.eqb x x' && N.eqb y y' && go l l'
     | _, _ => false end) (cs_ranges a) (cs_ranges b) && Bool.eqb (cs_word a) (cs_word b) && Bool.eqb (cs_neg a) (cs_neg b).
Definition dot_set : cset := {| cs_ranges := [(10, 10)%N]; cs_word := false; cs_neg := true |}.
Definition lf_set : cset := {| cs_ranges := [(10, 10)%N]; cs_word := false; cs_neg := false |}.
Definition any_set : cset := {| cs_ranges := []; cs_word := false; cs_neg := true |}.
Definition either (a b : re) : re :=
  match a, b with
  | RSet c, RSet c' => if set_eqb c dot_set && set_eqb c' lf_set then RSet any_set else RAlt a b
  | _, _ => RAlt a b
  end.
Fixpoint norm (r : re) : re :=
  match r with
  | REps | RSet _ | RRec => r
  | RSeq a b => cat (norm a) (norm b)
  | RAlt a b => either (norm a) (norm b)
  | RStar g a => RStar g (norm a)
  | RLook n a => RLook n (norm a)
  | RAtomic a => RAtomic (norm a)
  end.
Lemma set_eqb_eq a b : set_eqb a b = true -> a = b.
Proof.
  destruct a as [ra wa na], b as [rb wb nb]. unfold set_eqb. cbn [cs_ranges cs_word cs_neg]. rewrite !andb_true_iff. intros [[Hr Hw] Hn].
  apply eqb_prop in Hw as <-. apply eqb_prop in Hn as <-. f_equal. revert rb Hr. induction ra as [|[x y] ra IH]; intros [|[x' y'] rb] H; try discriminate H; [reflexivity|].
  rewrite !andb_true_iff in H. destruct H as [[H1 H2] H3]. apply N.eqb_eq in H1 as <-. apply N.eqb_eq in H2 as <-. f_equal. apply IH. exact H3.
Qed.
Section Norm.
  Variable E : pyenv.
  Variable fuel : nat.
  Lemma mt_cat top d : forall a b n s k, mt E top fuel d (cat a b) n s k = mt E top fuel d (RSeq a b) n s k.
  Proof.
    assert (Hr : forall a b n s k, mt E top fuel d (match b with REps => a | _ => RSeq a b end) n s k = mt E top fuel d (RSeq a b) n s k).
    { intros a b n s k. destruct b; try reflexivity. rewrite mt_seq. apply mt_ext. intros c s' _ _. rewrite mt_eps. reflexivity. }
    induction a as [|cs|a IHa b IHb|a IHa b IHb|g a IHa|neg a IHa|a IHa|]; intros b' n s k; cbn [cat]; try apply Hr.
    - rewrite mt_seq, mt_eps. reflexivity.
    - rewrite !mt_seq. apply mt_ext. intros c s' _ _. rewrite IHb, mt_seq. reflexivity.
  Qed.
  Lemma any_mem x : cs_mem E any_set x = true. Proof. reflexivity. Qed.
  Lemma dot_mem x : cs_mem E dot_set x = negb (N.eqb x 10).
  Proof. unfold cs_mem, dot_set, in_range. cbn. destruct (N.eqb_spec x 10) as [->|H]; [reflexivity|]. destruct (N.leb_spec 10 x), (N.leb_spec x 10); try reflexivity. exfalso. lia. Qed.
  Lemma lf_mem x : cs_mem E lf_set x = N.eqb x 10.
  Proof. unfold cs_mem, lf_set, in_range. cbn. destruct (N.eqb_spec x 10) as [->|H]; [reflexivity|]. destruct (N.leb_spec 10 x), (N.leb_spec x 10); try reflexivity. exfalso. lia. Qed.
  Lemma mt_either top d a b n s k : mt E top fuel d (either a b) n s k = mt E top fuel d (RAlt a b) n s k.
  Proof.
    destruct a as [|ca| | | | | |]; try reflexivity. destruct b as [|cb| | | | | |]; try reflexivity. cbn [either].
    destruct (set_eqb ca dot_set && set_eqb cb lf_set) eqn:H; [|reflexivity]. apply andb_true_iff in H as [Ha Hb]. apply set_eqb_eq in Ha as ->. apply set_eqb_eq in Hb as ->.
    rewrite mt_alt, !mt_set. destruct s as [|x s]; [reflexivity|]. rewrite any_mem, dot_mem, lf_mem. destruct (N.eqb x 10); cbn [negb]; [reflexivity|]. destruct (k (S n) s); reflexivity.
  Qed.
  Lemma star_body (b b' : nat -> str -> (nat -> str -> mres) -> mres) g k : (forall n s k k', (forall n' s', k n' s' = k' n' s') -> b n s k = b' n s k') ->
    forall i n s, star_loop g b k i n s = star_loop g b' k i n s.
  Proof.
    intros H. induction i as [|i IH]; intros n s; [reflexivity|]. cbn [star_loop]. rewrite (H n s (star_loop g b k i) (star_loop g b' k i) IH). reflexivity.
  Qed.
  Lemma mt_norm top d : forall r n s k, mt E (norm top) fuel d (norm r) n s k = mt E top fuel d r n s k.
  Proof.
    induction d as [|d IHd]; induction r as [|cs|a IHa b IHb|a IHa b IHb|g a IHa|neg a IHa|a IHa|]; intros n s k; cbn [norm].
    1,9: rewrite !mt_eps; reflexivity.
    1,8: rewrite !mt_set; reflexivity.
    1,7: rewrite mt_cat, !mt_seq, IHa; apply mt_ext; intros c s' _ _; apply IHb.
    1,6: rewrite mt_either, !mt_alt, IHa, IHb; reflexivity.
    1,5: rewrite !mt_star; apply star_body; intros n' s' k1 k2 Hk; rewrite IHa; apply mt_ext; intros; apply Hk.
    1,4: rewrite !mt_look, IHa; reflexivity.
    1,3: rewrite !mt_atomic, IHa; reflexivity.
    - reflexivity.
    - rewrite !mt_rec_S. apply IHd.
  Qed.
End Norm.

(** ** Lines or anything, repeated: the first place where it can go on *)
Fixpoint first_place (K : nat -> str -> mres) (n : nat) (s : str) : mres :=
  match K n s with
  | MFail => match s with x :: s' => first_place K (S n) s' | [] => MFail end
  | res => res
  end.
Definition r_unit : re := RSeq (ropt (rchar 13)) (RSeq (rchar 10) REps).
(** As parsed from (?:(?:(?:(?:CR)?LF)+|.*?))+ *)
Definition r_lines : re := RSeq (rplus (RSeq (ropt (RSeq (rchar 13) REps)) (RSeq (rchar 10) REps))) REps.
Definition r_dots : re := RSeq (RStar false rdot) REps.
Definition r_either : re := RSeq (RAlt r_lines r_dots) REps.
Section Multi.
  Variable E : pyenv.
  Variable top : re.
  Variable fuel : nat.
  Variable d : nat.
  Notation mtg := (mtg E top fuel d).
  Lemma first_eq K n s : first_place K n s = match K n s with MFail => match s with x :: s' => first_place K (S n) s' | [] => MFail end | res => res end.
  Proof. destruct s; reflexivity. Qed.
  Lemma lazy_any top' d' K : forall i n s, List.length s < i -> star_loop false (mt E top' fuel d' (RSet any_set)) K i n s = first_place K n s.
  Proof.
    induction i as [|i IH]; intros n s Hi; [lia|]. cbn [star_loop]. rewrite first_eq. destruct (K n s); try reflexivity.
    rewrite mt_set. destruct s as [|x s]; [reflexivity|]. rewrite any_mem. apply IH. cbn [List.length] in Hi. lia.
  Qed.
  (** One line end. *)
  Definition unit_end (s : str) : option (nat * str) :=
    match s with
    | x :: s' => if N.eqb x 10 then Some (1, s') else
                 if N.eqb x 13 then match s' with y :: s'' => if N.eqb y 10 then Some (2, s'') else None | [] => None end else None
    | [] => None
    end.
  Lemma unit_len s j r : unit_end s = Some (j, r) -> List.length s = j + List.length r /\ 0 < j.
  Proof.
    destruct s as [|x s]; cbn [unit_end]; [discriminate|]. destruct (N.eqb x 10); [intros H; injection H as <- <-; cbn [List.length]; lia|].
    destruct (N.eqb x 13); [|discriminate]. destruct s as [|y s]; [discriminate|]. destruct (N.eqb y 10); [|discriminate]. intros H; injection H as <- <-. cbn [List.length]. lia.
  Qed.
  Lemma ch_mem c x : cs_mem E {| cs_ranges := [(c, c)]; cs_word := false; cs_neg := false |} x = N.eqb x c.
  Proof. unfold cs_mem, in_range. cbn. destruct (N.eqb_spec x c) as [->|H]; [rewrite N.leb_refl; reflexivity|]. destruct (N.leb_spec c x), (N.leb_spec x c); try reflexivity. exfalso. lia. Qed.
  Definition p_unit : re := RSeq (ropt (RSeq (rchar 13) REps)) (RSeq (rchar 10) REps).
  Lemma unit_mtg n s K : mtg p_unit n s K = match unit_end s with Some (j, r) => K (n + j) r | None => MFail end.
  Proof.
    unfold p_unit, ropt, rchar. rewrite mtg_seq, mtg_alt, !mtg_seq, mtg_set, mtg_eps, mtg_seq, mtg_set. destruct s as [|x s]; [reflexivity|]. rewrite !ch_mem. cbn [unit_end].
    destruct (N.eqb_spec x 13) as [->|H13].
    - change (N.eqb 13 10) with false. cbv iota. rewrite mtg_eps, mtg_seq, mtg_set. destruct s as [|y s]; [reflexivity|]. rewrite ch_mem. destruct (N.eqb y 10); [|reflexivity].
      rewrite mtg_eps. replace (n + 2) with (S (S n)) by lia. destruct (K (S (S n)) s); reflexivity.
    - destruct (N.eqb x 10); [rewrite mtg_eps; f_equal; lia|reflexivity].
  Qed.
  (** Line ends, as many as there are. *)
  Fixpoint line_run (K : nat -> str -> mres) (i n : nat) (s : str) : mres :=
    match i with
    | O => MFuel
    | S i' => match (match unit_end s with Some (j, r) => line_run K i' (n + j) r | None => MFail end) with MFail => K n s | res => res end
    end.
  Lemma run_mtg K : forall i n s, star_guarded true (mtg p_unit) K i n s = line_run K i n s.
  Proof.
    induction i as [|i IH]; intros n s; [reflexivity|]. cbn [star_guarded line_run]. rewrite unit_mtg. destruct (unit_end s) as [[j r]|] eqn:Hu; [|reflexivity].
    apply unit_len in Hu as [_ Hj]. destruct (Nat.eqb_spec (n + j) n); [lia|]. rewrite IH. reflexivity.
  Qed.
  Fixpoint dot_run (K : nat -> str -> mres) (n : nat) (s : str) : mres :=
    match K n s with
    | MFail => match s with x :: s' => if N.eqb x 10 then MFail else dot_run K (S n) s' | [] => MFail end
    | res => res
    end.
  Lemma dot_eq K n s : dot_run K n s = match K n s with MFail => match s with x :: s' => if N.eqb x 10 then MFail else dot_run K (S n) s' | [] => MFail end | res => res end.
  Proof. destruct s; reflexivity. Qed.
  Lemma dots_mtg K : forall i n s, List.length s < i -> star_guarded false (mtg rdot) K i n s = dot_run K n s.
  Proof.
    induction i as [|i IH]; intros n s Hi; [lia|]. cbn [star_guarded]. rewrite dot_eq. destruct (K n s); try reflexivity.
    unfold rdot, rnot. cbn [map]. rewrite mtg_set. destruct s as [|x s]; [reflexivity|]. change {| cs_ranges := [(10, 10)%N]; cs_word := false; cs_neg := true |} with dot_set. rewrite dot_mem.
    destruct (N.eqb x 10); cbn [negb]; [reflexivity|]. destruct (Nat.eqb_spec (S n) n); [lia|]. apply IH. cbn [List.length] in Hi. lia.
  Qed.
  (** One iteration. *)
  Definition one (K : nat -> str -> mres) (n : nat) (s : str) : mres :=
    match (match unit_end s with Some (j, r) => line_run K fuel (n + j) r | None => MFail end) with
    | MFail => dot_run K n s
    | res => res
    end.
  Lemma star_ext_g g (b : nat -> str -> (nat -> str -> mres) -> mres) K K' : (forall n s, K n s = K' n s) ->
    (forall n s k k', (forall n' s', k n' s' = k' n' s') -> b n s k = b n s k') ->
    forall i n s, star_guarded g b K i n s = star_guarded g b K' i n s.
  Proof.
    intros HK Hb. induction i as [|i IH]; intros n s; [reflexivity|]. cbn [star_guarded]. rewrite (HK n s).
    rewrite (Hb n s _ (fun n' s' => if Nat.eqb n' n then K' n' s' else star_guarded g b K' i n' s')); [reflexivity|].
    intros n' s'. rewrite HK, IH. reflexivity.
  Qed.
  Lemma line_run_ext K K' : (forall n s, K n s = K' n s) -> forall i n s, line_run K i n s = line_run K' i n s.
  Proof. intros H. induction i as [|i IH]; intros n s; [reflexivity|]. cbn [line_run]. rewrite H. destruct (unit_end s) as [[j r]|]; [rewrite IH|]; reflexivity. Qed.
  Lemma dot_run_ext K K' : (forall n s, K n s = K' n s) -> forall s n, dot_run K n s = dot_run K' n s.
  Proof. intros H. induction s as [|x s IH]; intros n; cbn [dot_run]; rewrite H; [reflexivity|]. rewrite IH. reflexivity. Qed.
  Lemma one_mtg K n s : List.length s < fuel -> mtg r_either n s K = one K n s.
  Proof.
    intros Hf. unfold r_either, r_lines, r_dots, rplus. fold p_unit. rewrite mtg_seq, mtg_alt, !mtg_seq, unit_mtg. unfold one.
    assert (Hl : match unit_end s with
                 | Some (j, r) => mtg (RStar true p_unit) (n + j) r (fun n' s' => mtg REps n' s' (fun n'0 s'0 => mtg REps n'0 s'0 K))
                 | None => MFail end = match unit_end s with Some (j, r) => line_run K fuel (n + j) r | None => MFail end).
    { destruct (unit_end s) as [[j r]|]; [|reflexivity]. rewrite mtg_star, run_mtg. apply line_run_ext. intros n' s'. rewrite !mtg_eps. reflexivity. }
    rewrite Hl, mtg_star, dots_mtg by exact Hf. rewrite (dot_run_ext _ K); [reflexivity|]. intros n' s'. rewrite !mtg_eps. reflexivity.
  Qed.
  (** The place is behind all line ends. *)
  Section Place.
    Variable K : nat -> str -> mres.
    Hypothesis K_lf : forall n s, K n (10%N :: s) = MFail.
    Hypothesis K_cr : forall n s, K n (13%N :: s) = MFail.
    Lemma unit_place n s j r : unit_end s = Some (j, r) -> first_place K n s = first_place K (n + j) r /\ K n s = MFail.
    Proof.
      destruct s as [|x s]; cbn [unit_end]; [discriminate|]. destruct (N.eqb_spec x 10) as [->|Hx].
      - intros H; injection H as <- <-. cbn [first_place]. rewrite K_lf. split; [f_equal; lia|reflexivity].
      - destruct (N.eqb_spec x 13) as [->|]; [|discriminate]. destruct s as [|y s]; [discriminate|]. destruct (N.eqb_spec y 10) as [->|]; [|discriminate].
        intros H; injection H as <- <-. cbn [first_place]. rewrite K_cr, K_lf. split; [f_equal; lia|reflexivity].
    Qed.
    Lemma first_fail n s : first_place K n s = MFail -> K n s = MFail /\ match s with x :: s' => first_place K (S n) s' = MFail | [] => True end.
    Proof. rewrite first_eq. destruct (K n s); try discriminate. destruct s; auto. Qed.
    (** One iteration, when going on behind it means the first place. *)
    Lemma one_place K' n s : (forall n' s', n < n' -> List.length s' < List.length s -> K' n' s' = first_place K n' s') ->
      K' n s = K n s \/ K' n s = first_place K n s -> List.length s < fuel ->
      one K' n s = first_place K n s.
    Proof.
      intros HK H0 Hf. unfold one.
      (* off the proper suffixes the continuation does not matter *)
      assert (Hrun : forall i n' s', n < n' -> List.length s' < i -> List.length s' < List.length s -> line_run K' i n' s' = first_place K n' s').
      { induction i as [|i IH]; intros n' s' Hn Hi Hs; [lia|]. cbn [line_run]. destruct (unit_end s') as [[j r]|] eqn:Hu.
        - destruct (unit_place n' s' j r Hu) as [Hp _]. apply unit_len in Hu as [Hl Hj]. rewrite (IH (n' + j) r) by lia. rewrite (HK n' s' Hn Hs), Hp. destruct (first_place K (n' + j) r); reflexivity.
        - apply HK; assumption. }
      assert (Hdot : forall s' n', n < n' -> List.length s' < List.length s -> dot_run K' n' s' = first_place K n' s').
      { induction s' as [|x s' IH]; intros n' Hn Hs; rewrite dot_eq, (HK n' _ Hn Hs).
        - destruct (first_place K n' []); reflexivity.
        - destruct (first_place K n' (x :: s')) eqn:Hp; try reflexivity. destruct (N.eqb x 10); [reflexivity|]. apply first_fail in Hp as [_ Hp]. rewrite IH; [exact Hp|lia|cbn [List.length] in Hs; lia]. }
      assert (Hd : K n s = MFail -> first_place K n s = MFail -> dot_run K' n s = MFail).
      { intros Hk Hp. rewrite dot_eq. assert (K' n s = MFail) as -> by (destruct H0 as [->| ->]; assumption). destruct s as [|x s']; [reflexivity|]. destruct (N.eqb x 10); [reflexivity|].
        apply first_fail in Hp as [_ Hp]. rewrite Hdot; [exact Hp|lia|cbn [List.length]; lia]. }
      destruct (unit_end s) as [[j r]|] eqn:Hu.
      - destruct (unit_place n s j r Hu) as [Hp Hk]. apply unit_len in Hu as [Hl Hj]. rewrite (Hrun fuel (n + j) r) by lia. rewrite <- Hp.
        destruct (first_place K n s) eqn:Hq; try reflexivity. apply Hd; [exact Hk|reflexivity].
      - rewrite dot_eq. destruct s as [|x s'].
        + assert (Hk0 : K' n [] = K n []) by (destruct H0 as [H0|H0]; [exact H0|rewrite H0; cbn [first_place]; destruct (K n []); reflexivity]).
          rewrite Hk0. cbn [first_place]. destruct (K n []); reflexivity.
        + assert (Hx : N.eqb x 10 = false) by (cbn [unit_end] in Hu; destruct (N.eqb x 10); [discriminate Hu|reflexivity]).
          rewrite Hx. destruct H0 as [H0|H0]; rewrite H0.
          * cbn [first_place]. destruct (K n (x :: s')); try reflexivity. apply Hdot; [lia|cbn [List.length]; lia].
          * destruct (first_place K n (x :: s')) eqn:Hq; try reflexivity. apply first_fail in Hq as [_ Hq]. rewrite Hdot; [exact Hq|lia|cbn [List.length]; lia].
    Qed.
    Lemma loop_place : forall i n s, List.length s < i -> List.length s < fuel -> star_guarded true (mtg r_either) K i n s = first_place K n s.
    Proof.
      induction i as [|i IH]; intros n s Hi Hf; [lia|]. cbn [star_guarded]. rewrite one_mtg by exact Hf.
      rewrite (one_place _ n s).
      - destruct (first_place K n s) eqn:Hp; try reflexivity. apply first_fail in Hp as [Hp _]. exact Hp.
      - intros n' s' Hn Hs. destruct (Nat.eqb_spec n' n); [lia|]. apply IH; lia.
      - left. rewrite Nat.eqb_refl. reflexivity.
      - exact Hf.
    Qed.
    Lemma plus_place n s : List.length s < fuel -> mtg (rplus r_either) n s K = first_place K n s.
    Proof.
      intros Hf. unfold rplus. rewrite mtg_seq, one_mtg by exact Hf. apply one_place; [| |exact Hf].
      - intros n' s' _ Hs. rewrite mtg_star. apply loop_place; lia.
      - right. rewrite mtg_star. apply loop_place; assumption.
    Qed.
  End Place.
End Multi.

(** ** The whole pattern *)
Fixpoint re_eqb (a b : re) : bool :=
  match a, b with
  | REps, REps | RRec, RRec => true
  | RSet c, RSet c' => set_eqb c c'
  | RSeq x y, RSeq x' y' | RAlt x y, RAlt x' y' => re_eqb x x' && re_eqb y y'
  | RStar g x, RStar g' x' => Bool.eqb g g' && re_eqb x x'
  | RLook g x, RLook g' x' => Bool.eqb g g' && re_eqb x x'
  | RAtomic x, RAtomic x' => re_eqb x x'
  | _, _ => false
  end.
Lemma re_eqb_eq a : forall b, re_eqb a b = true -> a = b.
Proof.
  induction a as [|cs|a IHa b IHb|a IHa b IHb|g a IHa|neg a IHa|a IHa|]; intros [|cs'|a' b'|a' b'|g' a'|neg' a'|a'|] H; cbn [re_eqb] in H; try discriminate H;
    rewrite ?andb_true_iff in H; try reflexivity; f_equal; try (apply set_eqb_eq; exact H); try (apply eqb_prop; tauto); (apply IHa || apply IHb); tauto.
Qed.
Definition quote_set : cset := {| cs_ranges := [(39, 39)%N]; cs_word := false; cs_neg := false |}.
Definition quote_next (r : re) : bool := match r with RSeq (RSet c) _ => set_eqb c quote_set | _ => false end.
(** Lines or anything, in front of a quote, is anything. *)
Fixpoint elim (r : re) : re :=
  match r with
  | REps | RSet _ | RRec => r
  | RSeq a b => if re_eqb a (rplus r_either) && quote_next b then RSeq (RStar false (RSet any_set)) (elim b) else RSeq (elim a) (elim b)
  | RAlt a b => RAlt (elim a) (elim b)
  | RStar g a => RStar g (elim a)
  | RLook n a => RLook n (elim a)
  | RAtomic a => RAtomic (elim a)
  end.
Section Elim.
  Variable E : pyenv.
  Variable top : re.
  Variable fuel : nat.
  Hypothesis top_good : good (elim top) = true.
  Hypothesis top_nn : nullable (elim top) = false.
  Lemma first_ext K K' : forall s n, (forall n' s', List.length s' <= List.length s -> K n' s' = K' n' s') -> first_place K n s = first_place K' n s.
  Proof. induction s as [|x s IH]; intros n H; cbn [first_place]; rewrite H by lia; [reflexivity|]. rewrite IH; [reflexivity|]. intros n' s' Hs. apply H. cbn [List.length]. lia. Qed.
  Lemma star_elim d g a a' k : (forall n s k, List.length s < fuel -> mtg E top fuel d a n s k = mt E (elim top) fuel d a' n s k) -> nullable a' = false ->
    forall i n s, List.length s < fuel -> star_guarded g (mtg E top fuel d a) k i n s = star_loop g (mt E (elim top) fuel d a') k i n s.
  Proof.
    intros Ha Hn. induction i as [|i IH]; intros n s Hf; [reflexivity|]. cbn [star_guarded star_loop]. rewrite Ha by exact Hf.
    rewrite (mt_ext E (elim top) fuel d a' n s _ (star_loop g (mt E (elim top) fuel d a') k i)); [reflexivity|].
    intros c s' Hs Hc. pose proof (lang_nonnull E (elim top) top_nn _ _ Hc Hn) as Hc0. destruct (Nat.eqb_spec (n + List.length c) n) as [He|_].
    - destruct c; [contradiction|cbn [List.length] in He; lia].
    - apply IH. rewrite Hs, app_length in Hf. lia.
  Qed.
  Lemma mtg_elim : forall d r n s k, good (elim r) = true -> List.length s < fuel -> mtg E top fuel d r n s k = mt E (elim top) fuel d (elim r) n s k.
  Proof.
    induction d as [|d IHd]; induction r as [|cs|a IHa b IHb|a IHa b IHb|g a IHa|neg a IHa|a IHa|]; intros n s k Hg Hf; cbn [elim] in Hg |- *.
    1,9: rewrite mtg_eps, mt_eps; reflexivity.
    1,8: rewrite mtg_set, mt_set; reflexivity.
    1,7: destruct (re_eqb a (rplus r_either) && quote_next b) eqn:Hm;
      [apply andb_true_iff in Hm as [Ha Hq]; apply re_eqb_eq in Ha as ->; cbn [good] in Hg; apply andb_true_iff in Hg as [_ Hg];
       rewrite mtg_seq, mt_seq, mt_star, lazy_any by exact Hf;
       rewrite plus_place; [|intros n' s'; destruct b as [|cs|[|c| | | | | |] b| | | | |]; try discriminate Hq; apply set_eqb_eq in Hq as ->; rewrite mtg_seq, mtg_set; reflexivity..|exact Hf];
       apply first_ext; intros n' s' Hs; apply IHb; [exact Hg|lia]
      |cbn [good] in Hg; apply andb_true_iff in Hg as [Hga Hgb]; rewrite mtg_seq, mt_seq, IHa by assumption;
       apply mt_ext; intros c s' Hs _; apply IHb; [exact Hgb|rewrite Hs, app_length in Hf; lia]].
    1,6: cbn [good] in Hg; apply andb_true_iff in Hg as [Hga Hgb]; rewrite mtg_alt, mt_alt, IHa, IHb by assumption; reflexivity.
    1,5: cbn [good] in Hg; apply andb_true_iff in Hg as [Hga Hgn]; apply negb_true_iff in Hgn; rewrite mtg_star, mt_star; apply star_elim; [intros; apply IHa; assumption|exact Hgn|exact Hf].
    1,4: cbn [good] in Hg; rewrite mtg_look, mt_look, IHa by assumption; reflexivity.
    1,3: cbn [good] in Hg; rewrite mtg_atomic, mt_atomic, IHa by assumption; reflexivity.
    - reflexivity.
    - rewrite mt_rec_S. apply IHd; assumption.
  Qed.
End Elim.
