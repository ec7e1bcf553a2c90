(** Derivations of the compiled grammar are sentences of the EBNF grammar. *)
From Coq Require Import List Arith NArith PArith Bool String Lia.
From Verif Require Import Py.Str Py.Val Lark.Ebnf Lark.BicepGrammar Lark.Driver Lark.Shape Proofs.Base Proofs.Parse Proofs.Grammar Spec.Sentences.
Import ListNotations.

Fixpoint ebnf_eqb (a b : ebnf) : bool :=
  let fix all l l' := match l, l' with [], [] => true | x :: t, y :: t' => ebnf_eqb x y && all t t' | _, _ => false end in
  match a, b with
  | ETerm x, ETerm y | EStr x, EStr y | ERe x, ERe y | ENT x, ENT y => String.eqb x y
  | ESeq l, ESeq l' | EAlt l, EAlt l' => all l l'
  | EOpt x, EOpt y | EMaybe x, EMaybe y | EStar x, EStar y | EPlus x, EPlus y => ebnf_eqb x y
  | ERep x i j, ERep y i' j' => ebnf_eqb x y && Nat.eqb i i' && Nat.eqb j j'
  | _, _ => false
  end.
Lemma ebnf_ind' (P : ebnf -> Prop) : (forall n, P (ETerm n)) -> (forall n, P (EStr n)) -> (forall n, P (ERe n)) -> (forall n, P (ENT n)) ->
  (forall l, Forall P l -> P (ESeq l)) -> (forall l, Forall P l -> P (EAlt l)) -> (forall e, P e -> P (EOpt e)) -> (forall e, P e -> P (EMaybe e)) ->
  (forall e, P e -> P (EStar e)) -> (forall e, P e -> P (EPlus e)) -> (forall e i j, P e -> P (ERep e i j)) -> forall e, P e.
Proof.
  intros H1 H2 H3 H4 Hs Ha Ho Hm Hst Hp Hr. fix IH 1. intros [n|n|n|n|l|l|e|e|e|e|e i j].
  - apply H1.
  - apply H2.
  - apply H3.
  - apply H4.
  - apply Hs. induction l as [|x l IHl]; constructor; [apply IH|exact IHl].
  - apply Ha. induction l as [|x l IHl]; constructor; [apply IH|exact IHl].
  - apply Ho, IH.
  - apply Hm, IH.
  - apply Hst, IH.
  - apply Hp, IH.
  - apply Hr, IH.
Qed.
Lemma ebnf_eqb_eq : forall a b, ebnf_eqb a b = true -> a = b.
Proof.
  induction a as [n|n|n|n|l IH|l IH|e IH|e IH|e IH|e IH|e i j IH] using ebnf_ind'; intros b H; destruct b; try discriminate H; cbn [ebnf_eqb] in H;
    try (apply String.eqb_eq in H; congruence); try (f_equal; apply IH; exact H).
  - f_equal. revert l0 H. induction IH as [|x l Hx Hl IHl]; intros [|y l'] H; try discriminate H; [reflexivity|].
    apply andb_true_iff in H as [H H']. f_equal; [apply Hx; exact H|apply IHl; exact H'].
  - f_equal. revert l0 H. induction IH as [|x l Hx Hl IHl]; intros [|y l'] H; try discriminate H; [reflexivity|].
    apply andb_true_iff in H as [H H']. f_equal; [apply Hx; exact H|apply IHl; exact H'].
  - apply andb_true_iff in H as [H H3]. apply andb_true_iff in H as [H H2]. apply Nat.eqb_eq in H2, H3. f_equal; auto.
Qed.

(** ** Compilation is sound, for any grammar whose helper names are unambiguous *)
Definition is_rep (n : string) : bool := String.prefix "__rep " n.
Fixpoint refs_ok (e : ebnf) : bool :=
  match e with
  | ENT n => negb (is_rep n)
  | ESeq l | EAlt l => forallb refs_ok l
  | EOpt e | EMaybe e | EStar e | EPlus e | ERep e _ _ => refs_ok e
  | _ => true
  end.
Lemma In_nub {A} (eqb : A -> A -> bool) x : forall l, In x (nub eqb l) -> In x l.
Proof. induction l as [|y l IH]; cbn [nub]; [auto|]. intros [->|H]; [left; reflexivity|]. apply filter_In in H as [H _]. right. auto. Qed.

Section Compile.
  Variable g : list ruledef.
  Notation derives := (derives g).
  Notation derives_seq := (derives_seq g).
  Let bodies : list ebnf := flat_map (fun r => flat_map (fun a => reps (fst a)) (r_alts r)) g.
  Hypothesis rep_inj : forall e e', In e bodies -> In e' bodies -> rep_name e = rep_name e' -> e = e'.
  Hypothesis rule_refs : forall r a, In r g -> In a (r_alts r) -> refs_ok (fst a) = true.
  Hypothesis rule_name : forall r, In r g -> is_rep (r_name r) = false.
  Lemma rep_is_rep e : is_rep (rep_name e) = true.
  Proof. unfold is_rep, rep_name. cbn. destruct (show e); reflexivity. Qed.

  Definition means (s : sym) (w : list string) : Prop :=
    match s with
    | T n => w = [n]
    | NT n => (exists r, In r g /\ r_name r = n /\ derives (ENT n) w) \/
              (exists e, In e bodies /\ n = rep_name e /\ derives (EPlus e) w)
    end.
  Definition means_all (raw : list rawsym) (ws : list (list string)) : Prop := Forall2 means (flat_map sym_of raw) ws.

  Lemma seq_app l l' w w' : derives_seq l w -> derives_seq l' w' -> derives_seq (l ++ l') (w ++ w').
  Proof. intros H H'. induction H; [exact H'|]. cbn [app]. rewrite <- app_assoc. constructor; assumption. Qed.

  Lemma cross_in a b raw : In raw (cross a b) -> exists x y, In x a /\ In y b /\ raw = (x ++ y)%list.
  Proof. unfold cross. intros H. apply in_flat_map in H as (x & Hx & H). apply in_map_iff in H as (y & <- & Hy). eauto. Qed.
  Lemma means_app a b ws : means_all (a ++ b) ws -> exists w1 w2, ws = (w1 ++ w2)%list /\ means_all a w1 /\ means_all b w2.
  Proof. unfold means_all. rewrite flat_map_app. intros H. apply Forall2_app_inv_l in H as (w1 & w2 & H1 & H2 & ->). eauto. Qed.
  Definition sound_for (e : ebnf) (alts : list (list rawsym)) : Prop :=
    forall raw ws, In raw alts -> means_all raw ws -> derives e (List.concat ws).
  Lemma power_sound e a : sound_for e a -> forall n raw ws, In raw (power n a) -> means_all raw ws -> derives_seq (repeat e n) (List.concat ws).
  Proof.
    intros Ha. induction n as [|n IH]; intros raw ws Hin Hm; cbn [power repeat] in *.
    - destruct Hin as [<-|[]]. inversion Hm; subst. constructor.
    - apply cross_in in Hin as (x & y & Hx & Hy & ->). apply means_app in Hm as (w1 & w2 & -> & H1 & H2). rewrite concat_app.
      constructor; [exact (Ha _ _ Hx H1)|exact (IH _ _ Hy H2)].
  Qed.
  Lemma dd_in raw l : In raw (dd l) -> In raw l.
  Proof. apply In_nub. Qed.
  Lemma hole_means n ws : means_all (repeat Hole n) ws -> ws = [].
  Proof. unfold means_all. replace (flat_map sym_of (repeat Hole n)) with (@nil sym); [inversion 1; reflexivity|]. induction n; auto. Qed.

  Lemma expand_sound k : forall e, refs_ok e = true -> incl (reps e) bodies -> sound_for e (expand k e).
  Proof.
    induction e as [n|n|n|n|l IH|l IH|e IH|e IH|e IH|e IH|e i j IH] using ebnf_ind'; intros Hr Hb raw ws Hin Hm; cbn [expand refs_ok reps] in *.
    - destruct Hin as [<-|[]]. inversion Hm as [|? ? ? ? H1 H2]; subst. inversion H2; subst. cbn in H1. subst. constructor.
    - destruct Hin as [<-|[]]. inversion Hm as [|? ? ? ? H1 H2]; subst. inversion H2; subst. cbn in H1. subst. constructor.
    - destruct Hin as [<-|[]]. inversion Hm as [|? ? ? ? H1 H2]; subst. inversion H2; subst. cbn in H1. subst. constructor.
    - destruct Hin as [<-|[]]. inversion Hm as [|? ? ? ? H1 H2]; subst. inversion H2; subst. cbn [List.concat]. rewrite app_nil_r.
      destruct H1 as [(r & _ & _ & Hd)|(e & _ & -> & _)]; [exact Hd|]. rewrite rep_is_rep in Hr. discriminate.
    - apply dd_in in Hin. constructor. revert raw ws Hr Hb Hin Hm. induction IH as [|e l He Hl IHl]; intros raw ws Hr Hb Hin Hm.
      + destruct Hin as [<-|[]]. inversion Hm; subst. constructor.
      + cbn [forallb] in Hr. apply andb_true_iff in Hr as [Hr1 Hr2]. apply cross_in in Hin as (x & y & Hx & Hy & ->).
        apply means_app in Hm as (w1 & w2 & -> & H1 & H2). rewrite concat_app. constructor.
        * apply (He Hr1 (fun z Hz => Hb z (in_or_app _ _ _ (or_introl Hz))) x w1 Hx H1).
        * exact (IHl y w2 Hr2 (fun z Hz => Hb z (in_or_app _ _ _ (or_intror Hz))) Hy H2).
    - apply dd_in in Hin. assert (Hex : exists e, In e l /\ derives e (List.concat ws)).
      { revert Hr Hb Hin. induction IH as [|e l He Hl IHl]; intros Hr Hb Hin; [destruct Hin|]. cbn [forallb] in Hr. apply andb_true_iff in Hr as [Hr1 Hr2].
        apply in_app_or in Hin as [Hin|Hin].
        - exists e. split; [left; reflexivity|]. exact (He Hr1 (fun z Hz => Hb z (in_or_app _ _ _ (or_introl Hz))) raw ws Hin Hm).
        - destruct (IHl Hr2 (fun z Hz => Hb z (in_or_app _ _ _ (or_intror Hz))) Hin) as (e' & He' & Hd). exists e'. split; [right; exact He'|exact Hd]. }
      destruct Hex as (e & He & Hd). exact (d_alt g l e _ He Hd).
    - apply dd_in, in_app_or in Hin as [Hin|[<-|[]]]; [apply d_opt; exact (IH Hr Hb _ _ Hin Hm)|]. inversion Hm; subst. apply d_opt_no.
    - apply dd_in, in_app_or in Hin as [Hin|[<-|[]]]; [apply d_maybe; exact (IH Hr Hb _ _ Hin Hm)|]. rewrite (hole_means _ _ Hm). apply d_maybe_no.
    - destruct Hin as [<-|[<-|[]]].
      + inversion Hm as [|? ? ? ? H1 H2]; subst. inversion H2; subst. cbn [List.concat]. rewrite app_nil_r.
        destruct H1 as [(r & Hr1 & Hr2 & _)|(e' & He' & Hn & Hd)].
        * pose proof (rule_name r Hr1) as Hx. rewrite Hr2, rep_is_rep in Hx. discriminate.
        * rewrite <- (rep_inj e e' (Hb e ltac:(apply in_or_app; right; left; reflexivity)) He' Hn) in Hd. inversion Hd; subst. exact (d_star g e _ _ H0).
      + inversion Hm; subst. exact (d_star g e 0 [] (ds_nil g)).
    - destruct Hin as [<-|[]]. inversion Hm as [|? ? ? ? H1 H2]; subst. inversion H2; subst. cbn [List.concat]. rewrite app_nil_r.
      destruct H1 as [(r & Hr1 & Hr2 & _)|(e' & He' & Hn & Hd)].
      + pose proof (rule_name r Hr1) as Hx. rewrite Hr2, rep_is_rep in Hx. discriminate.
      + rewrite <- (rep_inj e e' (Hb e ltac:(apply in_or_app; right; left; reflexivity)) He' Hn) in Hd. exact Hd.
    - apply dd_in, in_flat_map in Hin as (n & Hn & Hin). apply in_seq in Hn. apply (d_rep g e i j n); [lia|lia|].
      exact (power_sound e _ (fun raw ws => IH Hr Hb raw ws) n raw ws Hin Hm).
  Qed.

  Lemma reps_refs : forall e, refs_ok e = true -> forall b, In b (reps e) -> refs_ok b = true /\ incl (reps b) (reps e).
  Proof.
    induction e as [n|n|n|n|l IH|l IH|e IH|e IH|e IH|e IH|e i j IH] using ebnf_ind'; intros Hr b Hb; cbn [reps refs_ok] in *; try contradiction; auto.
    - revert Hr Hb. induction IH as [|e l He Hl IHl]; intros Hr Hb; [destruct Hb|]. cbn [forallb] in Hr. apply andb_true_iff in Hr as [Hr1 Hr2].
      apply in_app_or in Hb as [Hb|Hb].
      + destruct (He Hr1 b Hb) as [H1 H2]. split; [exact H1|]. intros z Hz. apply in_or_app. left. auto.
      + destruct (IHl Hr2 Hb) as [H1 H2]. split; [exact H1|]. intros z Hz. apply in_or_app. right. auto.
    - revert Hr Hb. induction IH as [|e l He Hl IHl]; intros Hr Hb; [destruct Hb|]. cbn [forallb] in Hr. apply andb_true_iff in Hr as [Hr1 Hr2].
      apply in_app_or in Hb as [Hb|Hb].
      + destruct (He Hr1 b Hb) as [H1 H2]. split; [exact H1|]. intros z Hz. apply in_or_app. left. auto.
      + destruct (IHl Hr2 Hb) as [H1 H2]. split; [exact H1|]. intros z Hz. apply in_or_app. right. auto.
    - apply in_app_or in Hb as [Hb|[<-|[]]].
      + destruct (IH Hr b Hb) as [H1 H2]. split; [exact H1|]. intros z Hz. apply in_or_app. left. auto.
      + split; [exact Hr|]. intros z Hz. apply in_or_app. left. exact Hz.
    - apply in_app_or in Hb as [Hb|[<-|[]]].
      + destruct (IH Hr b Hb) as [H1 H2]. split; [exact H1|]. intros z Hz. apply in_or_app. left. auto.
      + split; [exact Hr|]. intros z Hz. apply in_or_app. left. exact Hz.
  Qed.
  Lemma body_in r a : In r g -> In a (r_alts r) -> incl (reps (fst a)) bodies.
  Proof. intros Hr Ha b Hb. apply in_flat_map. exists r. split; [exact Hr|]. apply in_flat_map. eauto. Qed.
  Lemma body_ok b : In b bodies -> refs_ok b = true /\ incl (reps b) bodies.
  Proof.
    intros Hb. apply in_flat_map in Hb as (r & Hr & Hb). apply in_flat_map in Hb as (a & Ha & Hb).
    destruct (reps_refs _ (rule_refs r a Hr Ha) b Hb) as [H1 H2]. split; [exact H1|]. intros z Hz. exact (body_in r a Hr Ha z (H2 z Hz)).
  Qed.
  (** One step of a derivation. *)
  Lemma compile_sound p ws : In p (compile g) -> Forall2 means (p_rhs p) ws -> means (NT (p_lhs p)) (List.concat ws).
  Proof.
    intros Hin Hm. apply in_app_or in Hin as [Hin|Hin].
    - apply in_flat_map in Hin as (r & Hr & Hin). apply in_flat_map in Hin as (a & Ha & Hin). apply in_map_iff in Hin as (raw & <- & Hraw).
      cbn [p_lhs]. left. exists r. split; [exact Hr|]. split; [reflexivity|]. destruct a as [e al].
      apply (d_rule g (r_name r) r e al); auto. exact (expand_sound _ e (rule_refs r _ Hr Ha) (body_in r _ Hr Ha) raw ws Hraw Hm).
    - apply in_flat_map in Hin as (e & He & Hin). apply In_nub in He. change (In e bodies) in He.
      apply in_map_iff in Hin as (raw & <- & Hraw). cbn [p_lhs]. right. exists e. split; [exact He|]. split; [reflexivity|].
      destruct (body_ok e He) as [H1 H2]. apply dd_in, in_app_or in Hraw as [Hraw|Hraw].
      + apply (d_plus g e 0). cbn [repeat]. rewrite <- (app_nil_r (List.concat ws)). constructor; [|constructor]. exact (expand_sound _ e H1 H2 raw ws Hraw Hm).
      + apply in_map_iff in Hraw as (raw' & <- & Hraw'). inversion Hm as [|? w ? ws' Hw Hws]; subst. cbn [List.concat].
        destruct Hw as [(r & Hr1 & Hr2 & _)|(e' & He' & Hn & Hd)].
        * pose proof (rule_name r Hr1) as Hx. rewrite Hr2, rep_is_rep in Hx. discriminate.
        * rewrite <- (rep_inj e e' He He' Hn) in Hd. inversion Hd as [| | | | | | | | | | |? n ? Hs|]; subst.
          apply (d_plus g e (S n)). replace (repeat e (S (S n))) with (repeat e (S n) ++ [e])%list.
          -- apply seq_app; [exact Hs|]. rewrite <- (app_nil_r (List.concat ws')). constructor; [|constructor]. exact (expand_sound _ e H1 H2 raw' ws' Hraw' Hws).
          -- clear. change (S (S n)) with (1 + S n). rewrite Nat.add_comm, repeat_app. reflexivity.
  Qed.
End Compile.

(** ** The grammar of bicep.lark *)
Definition bicep_bodies : list ebnf := flat_map (fun r => flat_map (fun a => reps (fst a)) (r_alts r)) bicep_rules.
Lemma bicep_inj : forallb (fun e => forallb (fun e' => negb (String.eqb (rep_name e) (rep_name e')) || ebnf_eqb e e') bicep_bodies) bicep_bodies = true.
Proof. vm_compute. reflexivity. Qed.
Lemma bicep_refs : forallb (fun r => negb (is_rep (r_name r)) && forallb (fun a => refs_ok (fst a)) (r_alts r)) bicep_rules = true.
Proof. vm_compute. reflexivity. Qed.
Lemma bicep_compiled : bicep_prods = compile bicep_rules.
Proof. vm_compute. reflexivity. Qed.
Lemma wf_means : forall c s, wf s c -> means bicep_rules s (map fst (leaves c)).
Proof.
  fix IH 1. intros c s Hw. destruct c as [n t|p cs].
  - inversion Hw; subst. reflexivity.
  - inversion Hw as [|p' cs' Hin Hall]; subst. cbn [leaves].
    rewrite flat_map_concat_map, concat_map, map_map. apply (compile_sound bicep_rules).
    + intros e e' He He' Hn. pose proof bicep_inj as H. rewrite forallb_forall in H. specialize (H e He). rewrite forallb_forall in H. specialize (H e' He').
      rewrite Hn, String.eqb_refl in H. apply ebnf_eqb_eq. exact H.
    + intros r a Hr Ha. pose proof bicep_refs as H. rewrite forallb_forall in H. specialize (H r Hr). apply andb_true_iff in H as [_ H]. rewrite forallb_forall in H. exact (H a Ha).
    + intros r Hr. pose proof bicep_refs as H. rewrite forallb_forall in H. specialize (H r Hr). apply andb_true_iff in H as [H _]. apply negb_true_iff in H. exact H.
    + rewrite <- bicep_compiled. exact Hin.
    + clear Hw Hin. revert Hall. generalize (p_rhs (the_prod p)). revert cs.
      fix IHcs 1. intros [|c cs] rhs Hall; inversion Hall; subst; cbn [map]; constructor; [apply (IH c); assumption|apply (IHcs cs); assumption].
Qed.
Lemma wf_derives n c : wf (NT n) c -> existsb (fun r => String.eqb (r_name r) n) bicep_rules = true -> derives bicep_rules (ENT n) (map fst (leaves c)).
Proof.
  intros Hw Hr. destruct (wf_means c _ Hw) as [(r & _ & _ & Hd)|(e & _ & -> & _)]; [exact Hd|].
  apply existsb_exists in Hr as (r & Hin & Hr). apply String.eqb_eq in Hr.
  pose proof bicep_refs as H. rewrite forallb_forall in H. specialize (H r Hin). apply andb_true_iff in H as [H _]. rewrite Hr, rep_is_rep in H. discriminate.
Qed.
