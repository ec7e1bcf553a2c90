(** Types and references: proofs about the template matcher. *)
From Coq Require Import List Arith NArith ZArith Bool String Lia.
From Verif Require Import Py.Str Py.Val Lark.Tree Pycep.Transformer Spec.Types Proofs.Base Proofs.EndToEnd.
Import ListNotations.
Local Open Scope string_scope.
Arguments u : simpl never.

Definition pc (x : segment) : piece := match x with Fixed l => Lit (u l) | Run c => Plus c end.
(** Whatever follows a run starts outside its class. *)
Fixpoint good (tpl : list segment) : Prop :=
  match tpl with
  | [] => True
  | Fixed _ :: tpl' => good tpl'
  | Run c :: tpl' => match tpl' with
                     | [] => True
                     | Fixed l :: _ => exists x l', u l = x :: l' /\ c x = false
                     | Run _ :: _ => False
                     end /\ good tpl'
  end.
Definition try_run (ps : list piece) (s : str) : nat -> option (list str) :=
  fix try (n : nat) := match n with
    | O => None
    | Datatypes.S n' => match re_match ps (skipn n s) with Some gs => Some (firstn n s :: gs) | None => try n' end
    end.
Lemma re_match_plus c ps s : re_match (Plus c :: ps) s = try_run ps s (List.length (span c s)).
Proof. reflexivity. Qed.
Lemma span_spec c s : exists r, s = (span c s ++ r)%list /\ Forall (fun x => c x = true) (span c s) /\ (forall x r', r = x :: r' -> c x = false).
Proof.
  induction s as [|x s IH]; cbn [span].
  - exists []. repeat split; [constructor|discriminate].
  - destruct (c x) eqn:Hx.
    + destruct IH as (r & Hr & Hf & Hn). exists r. split; [cbn [app]; congruence|]. split; [constructor; assumption|exact Hn].
    + exists (x :: s). split; [reflexivity|]. split; [constructor|]. intros y r' [= <- _]. exact Hx.
Qed.
Lemma span_app c g s : Forall (fun x => c x = true) g -> (forall x s', s = x :: s' -> c x = false) -> span c (g ++ s)%list = g.
Proof.
  induction 1 as [|x g Hx Hg IH]; intros Hs; cbn [app span].
  - destruct s as [|y s]; [reflexivity|]. cbn [span]. rewrite (Hs y s eq_refl). reflexivity.
  - rewrite Hx, IH; [reflexivity|exact Hs].
Qed.
Lemma try_some ps s : forall n res, try_run ps s n = Some res -> exists k gs, 1 <= k <= n /\ re_match ps (skipn k s) = Some gs /\ res = firstn k s :: gs /\
  forall j, k < j <= n -> re_match ps (skipn j s) = None.
Proof.
  induction n as [|n IH]; intros res H; [discriminate|]. cbn [try_run] in H.
  destruct (re_match ps (skipn (Datatypes.S n) s)) as [gs|] eqn:Hm.
  - injection H as <-. exists (Datatypes.S n), gs. split; [lia|]. split; [exact Hm|]. split; [reflexivity|lia].
  - destruct (IH res H) as (k & gs & Hk & Hm' & Hr & Hj). exists k, gs. split; [lia|]. split; [exact Hm'|]. split; [exact Hr|].
    intros j Hjj. destruct (Nat.eq_dec j (Datatypes.S n)) as [->|]; [exact Hm|]. apply Hj. lia.
Qed.
Lemma re_match_spec tpl : good tpl -> forall s gs, re_match (map pc tpl) s = Some gs <-> exists r, matches tpl s gs r.
Proof.
  induction tpl as [|[l|c] tpl IH]; intros Hg s gs; cbn [map pc].
  - cbn [re_match]. split; [intros [= <-]; exists s; constructor|]. intros (r & H). inversion H. reflexivity.
  - cbn [re_match]. cbn [good] in Hg. split.
    + destruct (starts_with (u l) s) eqn:Hs; [|discriminate]. apply starts_with_app in Hs as (s' & ->).
      rewrite skipn_app, skipn_all, Nat.sub_diag. cbn [skipn app]. intros H. apply (IH Hg) in H as (r & H). exists r. constructor. exact H.
    + intros (r & H). inversion H as [|l' tpl' s' gs' r' Hm| ]; subst.
      assert (Hs : starts_with (u l) (u l ++ s')%list = true) by (apply starts_with_app; eauto). rewrite Hs.
      rewrite skipn_app, skipn_all, Nat.sub_diag. cbn [skipn app]. apply (IH Hg). eauto.
  - rewrite re_match_plus. destruct Hg as [Hf Hg]. destruct (span_spec c s) as (r0 & Hs & Hall & Hnext). set (g := span c s) in *.
    assert (Hsk : skipn (List.length g) s = r0).
    { rewrite Hs at 1. rewrite skipn_app, skipn_all, Nat.sub_diag. reflexivity. }
    assert (Hfi : firstn (List.length g) s = g).
    { rewrite Hs at 1. rewrite firstn_app, firstn_all, Nat.sub_diag. cbn [firstn]. apply app_nil_r. }
    split.
    + intros H. apply try_some in H as (k & gs' & Hk & Hm & -> & Hj).
      assert (k = List.length g) as ->.
      { destruct (Nat.eq_dec k (List.length g)) as [He|Hne]; [exact He|exfalso].
        assert (Hin : exists x y, skipn k s = x :: y /\ c x = true).
        { rewrite Hs. rewrite skipn_app. destruct (skipn k g) as [|x y] eqn:Hx.
          - apply (f_equal (@List.length N)) in Hx. rewrite skipn_length in Hx. cbn in Hx. lia.
          - exists x, (y ++ skipn (k - List.length g) r0)%list. split; [reflexivity|]. rewrite Forall_forall in Hall. apply Hall.
            rewrite <- (firstn_skipn k g), Hx. apply in_or_app. right. left. reflexivity. }
        destruct Hin as (x & y & Hin & Hx).
        destruct tpl as [|[l|c'] tpl]; [|cbn [map pc re_match] in Hm|contradiction].
        - (* last run: the longest attempt comes first *)
          specialize (Hj (List.length g) ltac:(lia)). discriminate Hj.
        - rewrite Hin in Hm. destruct Hf as (x' & l' & Hl & Hc). rewrite Hl in Hm. cbn [starts_with] in Hm.
          destruct (N.eqb_spec x' x) as [->|]; [congruence|discriminate]. }
      rewrite Hfi. rewrite Hsk in Hm. apply (IH Hg) in Hm as (r & Hm). exists r. rewrite Hs. constructor; try assumption.
      intros Hg0. rewrite Hg0 in Hk. cbn in Hk. lia.
    + intros (r & H). inversion H as [| |c' tpl' g' s' gs' r' Hne Hall' Hn' Hm Ec Es Egs Er]. subst c' tpl' gs r'.
      assert (Hgg : g = g') by (unfold g; rewrite <- Es; apply span_app; assumption).
      assert (r0 = s') as Hr0 by (rewrite Hs, Hgg in Es; apply app_inv_head in Es; congruence).
      assert (Hr : exists r, matches tpl s' gs' r) by eauto. apply (IH Hg) in Hr. rewrite <- Hr0, <- Hsk in Hr. rewrite ?Es, <- Hgg.
      destruct (List.length g) as [|n] eqn:Hl; [rewrite Hgg in Hl; destruct g'; [congruence|discriminate]|]. cbn [try_run].
      rewrite Hr, Hfi. reflexivity.
Qed.

Lemma matches_count tpl s gs r : matches tpl s gs r -> List.length gs = List.length (filter (fun x => match x with Run _ => true | _ => false end) tpl).
Proof. induction 1; cbn [filter List.length]; congruence. Qed.
Lemma matches_render tpl s gs r : matches tpl s gs r -> s = (render tpl gs ++ r)%list.
Proof.
  induction 1 as [s|l tpl s gs r H IH|c tpl g s gs r Hg Hf Hn H IH]; cbn [render app]; [reflexivity| |]; rewrite IH at 1; rewrite app_assoc; reflexivity.
Qed.
Lemma fixed_inv l tpl s gs r : matches (Fixed l :: tpl) s gs r -> exists s', s = (u l ++ s')%list /\ matches tpl s' gs r.
Proof. remember (Fixed l :: tpl) as t eqn:Ht. destruct 1; try discriminate. injection Ht as -> ->. eauto. Qed.
Lemma run_inv c tpl s gs r : matches (Run c :: tpl) s gs r -> exists g s' gs', gs = g :: gs' /\ s = (g ++ s')%list /\ g <> [] /\
  Forall (fun x => c x = true) g /\ matches tpl s' gs' r.
Proof. remember (Run c :: tpl) as t eqn:Ht. destruct 1; try discriminate. injection Ht as -> ->. do 3 eexists. repeat split; eassumption || reflexivity. Qed.
Lemma matches_begins l tpl s gs r : matches (Fixed l :: tpl) s gs r -> begins l s.
Proof. inversion 1. eexists. reflexivity. Qed.
Lemma re_match_none tpl s : good tpl -> re_match (map pc tpl) s = None <-> forall gs r, ~ matches tpl s gs r.
Proof.
  intros Hg. split.
  - intros H gs r Hm. assert (Hs : exists r, matches tpl s gs r) by eauto. apply (re_match_spec tpl Hg) in Hs. congruence.
  - intros H. destruct (re_match (map pc tpl) s) as [gs|] eqn:Hm; [|reflexivity]. apply (re_match_spec tpl Hg) in Hm as (r & Hm).
    destruct (H gs r Hm).
Qed.
Lemma begins_dec l s : starts_with (u l) s = true <-> begins l s.
Proof. rewrite starts_with_app. reflexivity. Qed.
Lemma begins_not l s : starts_with (u l) s = false <-> ~ begins l s.
Proof. rewrite <- begins_dec. destruct (starts_with (u l) s); intuition congruence. Qed.

Section Refs.
  Variable E : pyenv.
  Ltac solve_good := cbn [good]; repeat split; try (eexists; eexists; split; [reflexivity|reflexivity]).
  Lemma good_public : good (public_ref E).
  Proof. solve_good. Qed.
  Lemma good_private : good (private_ref E).
  Proof. solve_good. Qed.
  Lemma good_alias : good (alias_ref E).
  Proof. solve_good. Qed.
  Lemma good_spec : good (spec_ref E).
  Proof. solve_good. Qed.
  Lemma good_spec_alias : good (spec_alias_ref E).
  Proof. solve_good. Qed.

  Lemma run_dot (a b x y : str) : Forall (fun c => wordc E c = true) a -> Forall (fun c => wordc E c = true) b ->
    (a ++ 46%N :: x)%list = (b ++ 46%N :: y)%list -> x = y.
  Proof.
    intros Ha. revert b. induction Ha as [|c a Hc Ha IH]; intros b Hb He.
    - destruct Hb as [|d b Hd Hb]; [cbn in He; congruence|]. cbn [app] in He. injection He as <- _. discriminate Hd.
    - destruct Hb as [|d b Hd Hb]; cbn [app] in He.
      + injection He as -> _. discriminate Hc.
      + injection He as _ He. exact (IH b Hb He).
  Qed.
  Lemma not_both s gs r gs' r' : matches (public_ref E) s gs r -> matches (private_ref E) s gs' r' -> False.
  Proof.
    intros H1 H2. apply fixed_inv in H1 as (s1 & -> & _). apply fixed_inv in H2 as (s2 & He & H2).
    apply run_inv in H2 as (g & s3 & gs2 & _ & -> & _ & Hg & H2). apply fixed_inv in H2 as (s4 & -> & _).
    change (u "br:" ++ u "mcr" ++ u ".microsoft.com/" ++ s1 = u "br:" ++ g ++ u ".azurecr.io/" ++ s4)%list in He.
    apply app_inv_head in He.
    change (u "mcr" ++ 46%N :: u "microsoft.com/" ++ s1 = g ++ 46%N :: u "azurecr.io/" ++ s4)%list in He.
    apply run_dot in He; [discriminate|repeat constructor|exact Hg].
  Qed.

  (** What the callback computes is the specified outcome. *)
  Lemma three tpl s gs r : matches tpl s gs r -> good tpl -> re_match (map pc tpl) s = Some gs.
  Proof. intros H Hg. apply (re_match_spec tpl Hg). eauto. Qed.
  Lemma path_spec s r v : py_str E v = (39%N :: s ++ [39%N])%list -> referenced E s r -> cb_module_path E [v] = r.
  Proof.
    intros Hv Hr. unfold cb_module_path. cbn [arg_at nth_error bind]. rewrite Hv. unfold slice_1_m1. cbn [tl]. rewrite removelast_last.
    change (PUBLIC_BICEP_REGISTRY_PATTERN E) with (map pc (public_ref E)). change (PRIVATE_BICEP_REGISTRY_PATTERN E) with (map pc (private_ref E)).
    change (BICEP_REGISTRY_ALIAS_PATTERN E) with (map pc (alias_ref E)). change (TEMPLATE_SPEC_PATTERN E) with (map pc (spec_ref E)).
    change (TEMPLATE_SPEC_ALIAS_PATTERN E) with (map pc (spec_alias_ref E)).
    destruct Hr as [path tag r Hm|reg path tag r Hm|Hb H1 H2|alias path tag r Hm|Hb H1|sub rg name ver r Hm|Hb H1|alias path tag r Hm|Hb H1|Hb1 Hb2 Hb3 Hb4].
    - rewrite (three _ _ _ _ Hm good_public). apply matches_begins in Hm as (x & ->). reflexivity.
    - rewrite (three _ _ _ _ Hm good_private).
      assert (Hn : re_match (map pc (public_ref E)) s = None).
      { apply (re_match_none _ _ good_public). intros gs r' Hm'. exact (not_both _ _ _ _ _ Hm' Hm). }
      rewrite Hn. apply matches_begins in Hm as (x & ->). reflexivity.
    - apply (re_match_none _ _ good_public) in H1. apply (re_match_none _ _ good_private) in H2. rewrite H1, H2. destruct Hb as (x & ->). reflexivity.
    - rewrite (three _ _ _ _ Hm good_alias). apply matches_begins in Hm as (x & ->). reflexivity.
    - apply (re_match_none _ _ good_alias) in H1. rewrite H1. destruct Hb as (x & ->). reflexivity.
    - rewrite (three _ _ _ _ Hm good_spec). apply matches_begins in Hm as (x & ->). reflexivity.
    - apply (re_match_none _ _ good_spec) in H1. rewrite H1. destruct Hb as (x & ->). reflexivity.
    - rewrite (three _ _ _ _ Hm good_spec_alias). apply matches_begins in Hm as (x & ->). reflexivity.
    - apply (re_match_none _ _ good_spec_alias) in H1. rewrite H1. destruct Hb as (x & ->). reflexivity.
    - apply begins_not in Hb1, Hb2, Hb3, Hb4. rewrite Hb1, Hb2, Hb3, Hb4. reflexivity.
  Qed.
  Ltac groups Hm := pose proof (matches_count _ _ _ _ Hm) as Hc; cbn [filter public_ref private_ref alias_ref spec_ref spec_alias_ref List.length] in Hc;
    match type of Hc with List.length ?l = _ =>
      destruct l as [|? [|? [|? [|? [|? ?]]]]]; cbn [List.length] in Hc; try discriminate Hc end.
  Ltac found Hm := groups Hm; eexists; match goal with
    | _ : matches (public_ref _) _ _ _ |- _ => eapply ref_public; exact Hm
    | _ : matches (private_ref _) _ _ _ |- _ => eapply ref_private; exact Hm
    | _ : matches (alias_ref _) _ _ _ |- _ => eapply ref_alias; exact Hm
    | _ : matches (spec_ref _) _ _ _ |- _ => eapply ref_spec; exact Hm
    | _ : matches (spec_alias_ref _) _ _ _ |- _ => eapply ref_spec_alias; exact Hm end.
  Lemma path_total s : exists r, referenced E s r.
  Proof.
    assert (D : forall tpl, good tpl -> (exists gs r, matches tpl s gs r) \/ forall gs r, ~ matches tpl s gs r).
    { intros tpl Hg. destruct (re_match (map pc tpl) s) as [gs|] eqn:Hm.
      - apply (re_match_spec tpl Hg) in Hm as (r & Hm). left. eauto.
      - right. apply (re_match_none tpl s Hg). exact Hm. }
    destruct (starts_with (u "br:") s) eqn:H1; [apply begins_dec in H1|apply begins_not in H1].
    { destruct (D _ good_public) as [(gs & r & Hm)|Hn1]; [found Hm|]. destruct (D _ good_private) as [(gs & r & Hm)|Hn2]; [found Hm|].
      eexists. apply ref_bad_registry; assumption. }
    destruct (starts_with (u "br/") s) eqn:H2; [apply begins_dec in H2|apply begins_not in H2].
    { destruct (D _ good_alias) as [(gs & r & Hm)|Hn1]; [found Hm|]. eexists. apply ref_bad_alias; assumption. }
    destruct (starts_with (u "ts:") s) eqn:H3; [apply begins_dec in H3|apply begins_not in H3].
    { destruct (D _ good_spec) as [(gs & r & Hm)|Hn1]; [found Hm|]. eexists. apply ref_bad_spec; assumption. }
    destruct (starts_with (u "ts/") s) eqn:H4; [apply begins_dec in H4|apply begins_not in H4].
    { destruct (D _ good_spec_alias) as [(gs & r & Hm)|Hn1]; [found Hm|]. eexists. apply ref_bad_spec_alias; assumption. }
    eexists. apply ref_local; assumption.
  Qed.
End Refs.
