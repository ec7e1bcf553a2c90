(** What stands behind a part of a derivation: a reduction is only made in front
    of a token the tables allow for its production. *)
From Coq Require Import List Arith NArith PArith Bool String Lia.
From Verif Require Import Py.Str Py.Val Lark.Regex Lark.Terminals Lark.Lexer Lark.Ebnf
     Lark.Lalr Lark.BicepGrammar Lark.BicepTables Lark.Driver Proofs.Base Proofs.Regex Proofs.LR Proofs.Lexer Proofs.Parse Spec.Sentences.
Import ListNotations.

(** Per production the terminals in front of which some state reduces by it. *)
#[local] Transparent bicep_tables.
Definition reduced_before : PM.t (list positive) := Eval vm_compute in
  fold_left (fun m e => fold_left (fun m f =>
      match snd f with
      | Shift _ => m
      | Reduce p =>
          let l := match PM.find p m with Some l => l | None => [] end in
          if existsb (Pos.eqb (fst f)) l then m else PM.add p (fst f :: l) m
      end) (PM.elements (snd e)) m) (PM.elements (tb_action bicep_tables)) (PM.empty (list positive)).
Definition can_reduce (p t : positive) : bool :=
  match PM.find p reduced_before with Some l => existsb (Pos.eqb t) l | None => false end.
Definition act_reduce_ok (s t : positive) (a : act) : bool := match a with Shift _ => true | Reduce p => can_reduce p t end.
Lemma acts_reduce_ok : forallb (fun e => forallb (fun e' => act_reduce_ok (fst e) (fst e') (snd e')) (PM.elements (snd e)))
   (PM.elements (tb_action bicep_tables)) = true.
Proof. vm_compute. reflexivity. Qed.
#[local] Opaque bicep_tables.
Lemma action_can_reduce s t p : action s t = Some (Reduce p) -> can_reduce p t = true.
Proof.
  unfold action. intros H. destruct (PM.find s (tb_action bicep_tables)) as [row|] eqn:Hs; [|discriminate].
  exact (forallb2_lift act_reduce_ok _ acts_reduce_ok s row t _ Hs H).
Qed.

(** The terminal behind something, given the tokens up to the terminal [t]. *)
Definition behind (l : list (string * token)) (t : positive) : positive := match l with [] => t | e :: _ => term_id (fst e) end.
Lemma behind_app a b t : behind (a ++ b) t = behind a (behind b t).
Proof. destruct a; reflexivity. Qed.
(** [fol t c]: in front of [t], every reduction of [c] was allowed. *)
Inductive fol : positive -> cst -> Prop :=
| fol_leaf t n k : fol t (Leaf n k)
| fol_br t p cs : can_reduce p t = true -> fols t cs -> fol t (Br p cs)
with fols : positive -> list cst -> Prop :=
| fols_nil t : fols t []
| fols_cons t c cs : fol (behind (flat_map leaves cs) t) c -> fols t cs -> fols t (c :: cs).

Lemma fols_app a : forall t b, fols t (a ++ b) <-> fols (behind (flat_map leaves b) t) a /\ fols t b.
Proof.
  induction a as [|c a IH]; intros t b; cbn [app].
  - split; [intros H; split; [constructor|exact H]|intros [_ H]; exact H].
  - split.
    + intros H. inversion H as [|? ? ? H1 H2]; subst. apply IH in H2 as [H2 H3]. split; [|exact H3]. constructor; [|exact H2].
      rewrite flat_map_app, behind_app in H1. exact H1.
    + intros [H H2]. inversion H as [|? ? ? H0 H1]; subst. constructor; [|apply IH; split; assumption].
      rewrite flat_map_app, behind_app. assumption.
Qed.

Definition values (st : stack) : list cst := map snd (rev st).
Lemma values_cons s v st : values ((s, v) :: st) = (values st ++ [v])%list.
Proof. unfold values. cbn [rev]. rewrite map_app. reflexivity. Qed.
Lemma pop_values n : forall st acc cs st', pop n st acc = Some (cs, st') -> (values st ++ acc = values st' ++ cs)%list.
Proof.
  induction n as [|n IH]; intros st acc cs st' H; cbn [pop] in H.
  - inversion H; reflexivity.
  - destruct st as [|[s v] st]; [discriminate|]. rewrite <- (IH _ _ _ _ H). rewrite values_cons, <- app_assoc. reflexivity.
Qed.
Lemma reduce_fols p st st' t : action (top_state st) t = Some (Reduce p) -> reduce p st = Some st' ->
  fols t (values st) -> fols t (values st').
Proof.
  intros Ha. unfold reduce. destruct (PM.find p prod_info) as [[[x rhs] k]|]; [|discriminate].
  destruct (pop (List.length rhs) st []) as [[cs st0]|] eqn:Hp; [|discriminate].
  destruct (goto (top_state st0) x); [|discriminate]. intros H Hf. inversion H; subst. rewrite values_cons.
  apply pop_values in Hp. rewrite app_nil_r in Hp. rewrite Hp in Hf. apply fols_app in Hf as [H1 H2].
  apply fols_app. cbn [flat_map leaves]. rewrite app_nil_r. split; [exact H1|].
  constructor; [|constructor]. cbn [flat_map behind]. constructor; [exact (action_can_reduce _ _ _ Ha)|exact H2].
Qed.
(** After a shift the top of the stack is a leaf, so nothing is asked of what comes next. *)
Lemma feed_fols fuel : forall st n k st', feed fuel st (term_id n) (Some (Leaf n k)) = FShift st' ->
  fols (term_id n) (values st) -> forall t, fols t (values st').
Proof.
  induction fuel as [|fuel IH]; intros st n k st' H Hf t; cbn [feed] in H; [discriminate|].
  destruct (action (top_state st) (term_id n)) as [[s'|p]|] eqn:Ha; [| |discriminate].
  - inversion H; subst. rewrite values_cons. apply fols_app. cbn [flat_map leaves app behind fst]. split; [exact Hf|].
    constructor; constructor.
  - destruct (reduce p st) as [st1|] eqn:Hr; [|discriminate].
    apply (IH st1 n k); [destruct st1; exact H|]. exact (reduce_fols _ _ _ _ Ha Hr Hf).
Qed.
Lemma feed_end_fols fuel : forall st xs v, stk st xs -> feed fuel st 1 None = FDone v -> fols 1 (values st) -> fol 1 v.
Proof.
  induction fuel as [|fuel IH]; intros st xs v Hst H Hf; cbn [feed] in H; [discriminate|].
  destruct (action (top_state st) 1) as [[s'|p]|] eqn:Ha; [discriminate| |discriminate].
  destruct (reduce_sound _ _ _ _ Hst Ha) as (x & rhs & k & s' & cs & st0 & xs0 & Hp & Hr & Hst' & Hpop & Hg & _).
  rewrite Hr in H. pose proof (reduce_fols _ _ _ _ Ha Hr Hf) as Hf'. fold final in H.
  destruct (Pos.eqb_spec s' final) as [->|Hne].
  - inversion H; subst. rewrite values_cons in Hf'. apply fols_app in Hf' as [_ Hf']. inversion Hf'; subst. assumption.
  - exact (IH _ _ _ Hst' H Hf').
Qed.

Lemma run_fol E fuel : forall st xs s line c, stk st xs -> top_state st <> final -> (forall t, fols t (values st)) ->
  run E fuel st s line = Ok c -> fol 1 c.
Proof.
  induction fuel as [|fuel IH]; intros st xs s line c Hst Hfin Hf; [discriminate|].
  cbn [run]. unfold lex_next. destruct (lexer_of_form (top_state st)) as [acc Hacc].
  rewrite Hacc. pose proof (next_token_spec E _ (make_lexer_ok acc) (Datatypes.S (List.length s)) s line (Nat.lt_succ_diag_r _)) as Hlex.
  destruct (next_token E (Datatypes.S (List.length s)) (make_lexer acc) s line) as [n t rest line'|line'|rest line'|].
  - destruct Hlex as (ig & n0 & r & Hig & Hs & Hl1 & Hl2 & Hl3 & Hne & Hty & Hin & Hni & Hn & Hla & _).
    assert (Htok : tok_ok E n (tval t)) by (rewrite Hn; eapply lexed_tok_ok; eassumption).
    pose proof (feed_shift_sound (feed_fuel st) st xs _ n t Hst eq_refl (tok_ok_id _ _ _ Htok) Hfin (measure_feed_fuel _ _ Hst)) as [(st' & xs' & Hfd & Hst' & Hfin')|Hfd]; rewrite Hfd; [|discriminate].
    apply (IH st' xs'); [exact Hst'|exact Hfin'|]. exact (feed_fols _ _ _ _ _ Hfd (Hf _)).
  - rewrite g_end_1. destruct (feed (feed_fuel st) st 1 None) as [st'|v| | |] eqn:Hfd; try discriminate.
    intros H. inversion H; subst. exact (feed_end_fols _ _ _ _ Hst Hfd (Hf _)).
  - destruct (scan E root_lexer rest) as [[x|]|]; discriminate.
  - discriminate.
Qed.
Theorem parse_fol E text c : parse_cst E text = Ok c -> fol 1 c.
Proof.
  unfold parse_cst. apply (run_fol E _ [] []); [constructor| |].
  - apply Pos.eqb_neq. exact init_not_final.
  - intros t. constructor.
Qed.
