(** Soundness of the LALR driver: every value it builds is a derivation of the
    grammar, it never gets stuck, and its step budget is never exhausted.  The
    tables are validated once by computation; the rest is induction. *)
From Coq Require Import List Arith NArith PArith Bool String Lia.
From Verif Require Import Py.Str Py.Val Lark.Regex Lark.Terminals Lark.Lexer Lark.Ebnf
     Lark.Lalr Lark.BicepGrammar Lark.BicepTables Lark.Driver.
Import ListNotations.
Local Open Scope positive_scope.

(** Derivations: [wfn x c]: [c] derives from the (numbered) symbol [x]. *)
Inductive wfn : positive -> cst -> Prop :=
| wfn_leaf n t : wfn (term_id n) (Leaf n t)
| wfn_br p x rhs k cs : PM.find p prod_info = Some (x, rhs, k) -> Forall2 wfn rhs cs -> wfn x (Br p cs).

Definition items_of (s : positive) : list item :=
  match PM.find s (tb_items bicep_tables) with Some l => l | None => [] end.
Definition rhs_id (p : positive) : list positive :=
  match PM.find p prod_info with Some (_, r, _) => r | None => [] end.
Definition has_item (p : positive) (d : nat) (l : list item) : bool :=
  existsb (fun i => (it_p i =? p) && (it_d i =? N.of_nat d)%N) l.

(** ** Validation of the tables *)
Definition trans_ok (s x s' : positive) : bool :=
  forallb (fun i =>
    match N.to_nat (it_d i) with
    | O => true
    | Datatypes.S d =>
        match nth_error (rhs_id (it_p i)) d with
        | Some y => (y =? x) && has_item (it_p i) d (items_of s)
        | None => false
        end
    end) (items_of s').
Definition final : positive := tb_final bicep_tables.
Definition start_sym : positive := Lalr.g_start bicep_gram.

Definition action_ok (s t : positive) (a : act) : bool :=
  match a with
  | Shift s' => trans_ok s t s' && negb (s' =? final) && ((s =? final) || negb (t =? 1))
  | Reduce p =>
      match PM.find p prod_info with
      | Some (x, rhs, _) =>
          has_item p (List.length rhs) (items_of s) && negb (p =? g_root bicep_gram)
          && (negb (x =? start_sym) || (t =? 1))
      | None => false
      end
  end.
Definition goto_ok (s x s' : positive) : bool :=
  trans_ok s x s' && (negb (s' =? final) || (x =? start_sym)).
Definition closed_ok (s : positive) : bool :=
  forallb (fun i =>
    match N.to_nat (it_d i) with
    | O => (it_p i =? g_root bicep_gram) ||
           match PM.find (it_p i) prod_info with
           | Some (x, _, _) => match goto s x with Some _ => true | None => false end
           | None => true
           end
    | _ => true
    end) (items_of s).

Definition all_actions_ok : bool :=
  forallb (fun e => forallb (fun f => action_ok (fst e) (fst f) (snd f)) (PM.elements (snd e)))
          (PM.elements (tb_action bicep_tables)).
Definition all_gotos_ok : bool :=
  forallb (fun e => forallb (fun f => goto_ok (fst e) (fst f) (snd f)) (PM.elements (snd e)))
          (PM.elements (tb_goto bicep_tables)).
Definition all_closed_ok : bool :=
  forallb (fun e => closed_ok (fst e)) (PM.elements (tb_items bicep_tables)).
Definition init_ok : bool :=
  forallb (fun i => (it_d i =? 0)%N) (items_of (tb_init bicep_tables))
  && negb (tb_init bicep_tables =? final).

Lemma all_actions_ok_true : all_actions_ok = true.
Proof. vm_compute. reflexivity. Qed.
Lemma all_gotos_ok_true : all_gotos_ok = true.
Proof. vm_compute. reflexivity. Qed.
Lemma all_closed_ok_true : all_closed_ok = true.
Proof. vm_compute. reflexivity. Qed.
Lemma init_ok_true : init_ok = true.
Proof. vm_compute. reflexivity. Qed.

(** Ranking for termination: length of the longest chain of unit reductions that
    can start from a symbol; unit reductions decrease it. *)
Definition rank_step (m : PM.t N) : PM.t N :=
  fold_left (fun m e =>
    let '(_, (x, rhs, _)) := e in
    match rhs with
    | [y] =>
        if x =? y then m
        else let rx := match PM.find x m with Some n => n | None => 0%N end in
             let ry := match PM.find y m with Some n => n | None => 0%N end in
             PM.add y (N.max ry (N.succ rx)) m
    | _ => m
    end) (PM.elements prod_info) m.
Definition rank_map : PM.t N := Eval vm_compute in Nat.iter 20 rank_step (PM.empty N).
Definition rank (x : positive) : nat := match PM.find x rank_map with Some n => N.to_nat n | None => O end.
Definition reduce_ok (s t : positive) (a : act) : bool :=
  match a with
  | Shift _ => true
  | Reduce p =>
      match PM.find p prod_info with
      | Some (x, [y], _) => Nat.ltb (rank x) (rank y)
      | Some (x, [], _) =>
          match goto s x with
          | Some s' => (s' =? final) || match action s' t with Some (Shift _) => true | _ => false end
          | None => false
          end
      | _ => true
      end
  end.
Definition all_reduces_ok : bool :=
  forallb (fun e => forallb (fun f => reduce_ok (fst e) (fst f) (snd f)) (PM.elements (snd e)))
          (PM.elements (tb_action bicep_tables)).
Lemma all_reduces_ok_true : all_reduces_ok = true.
Proof. vm_compute. reflexivity. Qed.
Lemma all_ranks_small : forallb (fun e => (snd e <? 50)%N) (PM.elements rank_map) = true.
Proof. vm_compute. reflexivity. Qed.

#[global] Opaque bicep_tables prod_info bicep_gram rank_map.

(** ** Lifting the checks *)
Lemma In_elements_find {A} (m : PM.t A) k v : PM.find k m = Some v -> In (k, v) (PM.elements m).
Proof. intros H. apply PM.elements_correct. exact H. Qed.

Lemma forallb2_lift {A} (f : positive -> positive -> A -> bool) (m : PM.t (PM.t A)) :
  forallb (fun e => forallb (fun g => f (fst e) (fst g) (snd g)) (PM.elements (snd e))) (PM.elements m) = true ->
  forall s row t a, PM.find s m = Some row -> PM.find t row = Some a -> f s t a = true.
Proof.
  intros H s row t a Hs Ht.
  rewrite forallb_forall in H. specialize (H _ (In_elements_find _ _ _ Hs)). cbn [fst snd] in H.
  rewrite forallb_forall in H. specialize (H _ (In_elements_find _ _ _ Ht)). exact H.
Qed.

Lemma action_checked s t a : action s t = Some a -> action_ok s t a = true.
Proof.
  unfold action. intros H. destruct (PM.find s (tb_action bicep_tables)) as [row|] eqn:Hs; [|discriminate].
  exact (forallb2_lift action_ok _ all_actions_ok_true s row t a Hs H).
Qed.
Lemma goto_checked s x s' : goto s x = Some s' -> goto_ok s x s' = true.
Proof.
  unfold goto. intros H. destruct (PM.find s (tb_goto bicep_tables)) as [row|] eqn:Hs; [|discriminate].
  exact (forallb2_lift goto_ok _ all_gotos_ok_true s row x s' Hs H).
Qed.
Lemma closed_checked s : closed_ok s = true.
Proof.
  destruct (PM.find s (tb_items bicep_tables)) as [l|] eqn:Hs.
  - pose proof all_closed_ok_true as H. unfold all_closed_ok in H. rewrite forallb_forall in H.
    exact (H _ (In_elements_find _ _ _ Hs)).
  - unfold closed_ok, items_of. rewrite Hs. reflexivity.
Qed.

(** A transition of the automaton. *)
Definition trans (s x s' : positive) : Prop := action s x = Some (Shift s') \/ goto s x = Some s'.
Lemma trans_checked s x s' : trans s x s' -> trans_ok s x s' = true.
Proof.
  intros [H|H].
  - apply action_checked in H. unfold action_ok in H.
    apply andb_true_iff in H as [H _]. apply andb_true_iff in H as [H _]. exact H.
  - apply goto_checked in H. unfold goto_ok in H. apply andb_true_iff in H as [H _]. exact H.
Qed.

Lemma has_item_In p d l : has_item p d l = true ->
  exists i, In i l /\ it_p i = p /\ it_d i = N.of_nat d.
Proof.
  unfold has_item. rewrite existsb_exists. intros [i [Hi H]].
  apply andb_true_iff in H as [H1 H2]. apply Pos.eqb_eq in H1. apply N.eqb_eq in H2. eauto.
Qed.

(** ** The stack invariant *)
Inductive stk : stack -> list positive -> Prop :=
| stk_nil : stk [] []
| stk_cons s v st x xs : stk st xs -> trans (top_state st) x s -> wfn x v -> stk ((s, v) :: st) (x :: xs).

Lemma firstn_S_nth {A} (l : list A) d x : nth_error l d = Some x -> firstn (Datatypes.S d) l = (firstn d l ++ [x])%list.
Proof.
  revert l. induction d as [|d IH]; intros [|y l] H; cbn in H; try discriminate.
  - inversion H; reflexivity.
  - cbn [firstn app]. rewrite <- (IH l H). reflexivity.
Qed.

(** Walking back from an item. *)
Lemma walk_back d : forall st xs p, stk st xs ->
  has_item p d (items_of (top_state st)) = true ->
  forall acc, exists cs st' xs',
    pop d st acc = Some (cs ++ acc, st')%list /\ stk st' xs' /\
    has_item p 0 (items_of (top_state st')) = true /\
    Forall2 wfn (firstn d (rhs_id p)) cs /\ (d <= List.length (rhs_id p))%nat.
Proof.
  induction d as [|d IH]; intros st xs p Hst Hit acc.
  - exists [], st, xs. cbn [pop firstn app]. repeat split; auto. lia.
  - destruct Hst as [|s v st x xs Hst Htr Hwf].
    + exfalso. cbn [top_state] in Hit. apply has_item_In in Hit as (i & Hi & _ & Hd).
      pose proof init_ok_true as H. unfold init_ok in H. apply andb_true_iff in H as [H _].
      rewrite forallb_forall in H. specialize (H i Hi). apply N.eqb_eq in H. lia.
    + cbn [top_state] in Hit. pose proof (trans_checked _ _ _ Htr) as Hok.
      apply has_item_In in Hit as (i & Hi & Hp & Hd).
      unfold trans_ok in Hok. rewrite forallb_forall in Hok. specialize (Hok i Hi).
      cbv beta in Hok. rewrite Hd, Nnat.Nat2N.id, Hp in Hok.
      destruct (nth_error (rhs_id p) d) as [y|] eqn:Hn; [|discriminate].
      apply andb_true_iff in Hok as [Hy Hprev]. apply Pos.eqb_eq in Hy. subst y.
      destruct (IH st xs p Hst Hprev (v :: acc)) as (cs & st' & xs' & Hpop & Hst' & H0 & Hall & Hlen).
      assert (Hlt : (d < List.length (rhs_id p))%nat)
        by (apply nth_error_Some; rewrite Hn; discriminate).
      exists (cs ++ [v])%list, st', xs'. cbn [pop]. rewrite <- app_assoc. cbn [app].
      repeat split; auto; try lia.
      rewrite (firstn_S_nth _ _ _ Hn). apply Forall2_app; [exact Hall|]. constructor; [exact Hwf|constructor].
Qed.

Lemma rank_bound x : (rank x < 50)%nat.
Proof.
  unfold rank. destruct (PM.find x rank_map) as [n|] eqn:H; [|lia].
  pose proof all_ranks_small as Hall. rewrite forallb_forall in Hall.
  specialize (Hall _ (In_elements_find _ _ _ H)). cbn [snd] in Hall. apply N.ltb_lt in Hall. lia.
Qed.
Lemma reduce_checked s t a : action s t = Some a -> reduce_ok s t a = true.
Proof.
  unfold action at 1. intros H. destruct (PM.find s (tb_action bicep_tables)) as [row|] eqn:Hs; [|discriminate].
  exact (forallb2_lift reduce_ok _ all_reduces_ok_true s row t a Hs H).
Qed.

(** One reduction preserves the invariant. *)
Lemma reduce_sound st xs t p : stk st xs -> action (top_state st) t = Some (Reduce p) ->
  exists x rhs k s' cs st0 xs0,
    PM.find p prod_info = Some (x, rhs, k) /\
    reduce p st = Some ((s', Br p cs) :: st0) /\ stk ((s', Br p cs) :: st0) (x :: xs0) /\
    pop (List.length rhs) st [] = Some (cs, st0) /\ goto (top_state st0) x = Some s' /\
    (s' = final -> x = start_sym) /\ (x = start_sym -> t = 1).
Proof.
  intros Hst Ha. pose proof (action_checked _ _ _ Ha) as Hok. cbn [action_ok] in Hok.
  destruct (PM.find p prod_info) as [[[x rhs] k]|] eqn:Hp; [|discriminate].
  apply andb_true_iff in Hok as [Hok Hstart]. apply andb_true_iff in Hok as [Hit Hroot].
  assert (Hr : rhs_id p = rhs) by (unfold rhs_id; rewrite Hp; reflexivity).
  destruct (walk_back _ _ _ _ Hst Hit []) as (cs & st0 & xs0 & Hpop & Hst0 & H0 & Hall & _).
  rewrite app_nil_r in Hpop. rewrite Hr, firstn_all in Hall.
  pose proof (closed_checked (top_state st0)) as Hcl. unfold closed_ok in Hcl.
  apply has_item_In in H0 as (i & Hi & Hip & Hid).
  rewrite forallb_forall in Hcl. specialize (Hcl i Hi). cbv beta in Hcl.
  rewrite Hid, Hip, Hp in Hcl. cbn [N.to_nat N.of_nat] in Hcl.
  apply orb_true_iff in Hcl as [Hcl|Hcl];
    [rewrite Hcl in Hroot; discriminate|].
  destruct (goto (top_state st0) x) as [s'|] eqn:Hg; [|discriminate].
  exists x, rhs, k, s', cs, st0, xs0. unfold reduce. rewrite Hp, Hpop, Hg.
  assert (Hfin : s' = final -> x = start_sym).
  { intros ->. apply goto_checked in Hg. unfold goto_ok in Hg.
    apply andb_true_iff in Hg as [_ Hg]. rewrite Pos.eqb_refl in Hg. cbn [negb orb] in Hg.
    apply Pos.eqb_eq in Hg. exact Hg. }
  repeat split; auto.
  - constructor; [exact Hst0|right; exact Hg|]. econstructor; [exact Hp|exact Hall].
  - intros ->. rewrite Pos.eqb_refl in Hstart. cbn [negb orb] in Hstart.
    apply Pos.eqb_eq in Hstart. exact Hstart.
Qed.

Lemma pop_length n : forall st acc cs st', pop n st acc = Some (cs, st') -> List.length st = (n + List.length st')%nat.
Proof.
  induction n as [|n IH]; intros st acc cs st' H; cbn [pop] in H.
  - inversion H; reflexivity.
  - destruct st as [|[s v] st]; [discriminate|]. cbn [List.length]. rewrite (IH _ _ _ _ H). lia.
Qed.

(** Feeding a token (not $END): the result is a shift that preserves the
    invariant, or "no action"; never stuck, never out of steps. *)
Definition measure (st : stack) (xs : list positive) : nat :=
  (50 * List.length st + match xs with [] => 0 | x :: _ => rank x end + 2)%nat.

Lemma stk_length st xs : stk st xs -> List.length st = List.length xs.
Proof. induction 1; cbn [List.length]; congruence. Qed.

Lemma reduce_measure st xs t p x rhs k s' cs st0 xs0 :
  stk st xs -> action (top_state st) t = Some (Reduce p) ->
  PM.find p prod_info = Some (x, rhs, k) ->
  pop (List.length rhs) st [] = Some (cs, st0) -> goto (top_state st0) x = Some s' ->
  stk ((s', Br p cs) :: st0) (x :: xs0) ->
  (measure ((s', Br p cs) :: st0) (x :: xs0) < measure st xs)%nat \/
  (s' = final \/ exists s2, action s' t = Some (Shift s2)).
Proof.
  intros Hst Ha Hp Hpop Hg Hst'. pose proof (reduce_checked _ _ _ Ha) as Hok.
  cbn [reduce_ok] in Hok. rewrite Hp in Hok. pose proof (pop_length _ _ _ _ _ Hpop) as Hl.
  pose proof (rank_bound x) as Hrx.
  destruct rhs as [|y [|z rhs]].
  - right. cbn [pop List.length] in Hpop. inversion Hpop; subst cs st0. rewrite Hg in Hok.
    apply orb_true_iff in Hok as [Hok|Hok]; [left; apply Pos.eqb_eq; exact Hok|].
    right. destruct (action s' t) as [[s2|]|]; try discriminate. eauto.
  - left. unfold measure. cbn [List.length] in *. apply Nat.ltb_lt in Hok.
    destruct Hst as [|s v st x1 xs Hst Htr Hwf]; [cbn in Hl; discriminate|].
    (* the popped symbol is y *)
    pose proof (action_checked _ _ _ Ha) as Hact. cbn [action_ok] in Hact. rewrite Hp in Hact.
    apply andb_true_iff in Hact as [Hact _]. apply andb_true_iff in Hact as [Hit _].
    cbn [List.length top_state] in Hit. apply has_item_In in Hit as (i & Hi & Hip & Hid).
    pose proof (trans_checked _ _ _ Htr) as Htk. unfold trans_ok in Htk. rewrite forallb_forall in Htk.
    specialize (Htk i Hi). cbv beta in Htk. rewrite Hid, Hip, Nnat.Nat2N.id in Htk.
    unfold rhs_id in Htk. rewrite Hp in Htk. cbn [nth_error] in Htk.
    apply andb_true_iff in Htk as [Hy _]. apply Pos.eqb_eq in Hy. subst x1.
    cbn [List.length] in Hl |- *. lia.
  - left. unfold measure. cbn [List.length] in *. destruct xs; lia.
Qed.

Lemma feed_shift_sound fuel : forall st xs t n tok, stk st xs -> t = term_id n -> t <> 1 ->
  top_state st <> final ->
  (measure st xs <= fuel)%nat ->
  (exists st' xs', feed fuel st t (Some (Leaf n tok)) = FShift st' /\ stk st' xs' /\ top_state st' <> final)
  \/ feed fuel st t (Some (Leaf n tok)) = FNoAction.
Proof.
  induction fuel as [|fuel IH]; intros st xs t n tok Hst Ht Hne Hfin Hfuel; [unfold measure in Hfuel; lia|].
  cbn [feed]. destruct (action (top_state st) t) as [[s'|p]|] eqn:Ha.
  - left. exists ((s', Leaf n tok) :: st), (t :: xs). split; [reflexivity|].
    pose proof (action_checked _ _ _ Ha) as Hok. cbn [action_ok] in Hok.
    apply andb_true_iff in Hok as [Hok _]. apply andb_true_iff in Hok as [_ Hok].
    split.
    + constructor; [exact Hst|left; exact Ha|subst t; constructor].
    + cbn [top_state]. intros ->. rewrite Pos.eqb_refl in Hok. discriminate.
  - destruct (reduce_sound _ _ _ _ Hst Ha) as (x & rhs & k & s' & cs & st0 & xs0 & Hp & Hr & Hst' & Hpop & Hg & Hf & Hs).
    rewrite Hr. assert (Hnf : s' <> final) by (intros ->; apply Hne, Hs, Hf; reflexivity).
    destruct (reduce_measure _ _ _ _ _ _ _ _ _ _ _ Hst Ha Hp Hpop Hg Hst') as [Hm|[Hff|[s2 Hs2]]].
    + apply (IH _ (x :: xs0)); auto; lia.
    + contradiction.
    + destruct fuel as [|fuel]; [unfold measure in Hfuel; lia|].
      cbn [feed top_state]. rewrite Hs2. left.
      eexists _, (t :: x :: xs0). split; [reflexivity|].
      pose proof (action_checked _ _ _ Hs2) as Hok. cbn [action_ok] in Hok.
      apply andb_true_iff in Hok as [Hok _]. apply andb_true_iff in Hok as [_ Hok].
      split.
      * constructor; [exact Hst'|left; exact Hs2|subst t; constructor].
      * cbn [top_state]. intros ->. rewrite Pos.eqb_refl in Hok. discriminate.
  - right. reflexivity.
Qed.

(** Feeding $END: the derivation of the start symbol, or "no action". *)
Lemma feed_end_sound fuel : forall st xs, stk st xs -> top_state st <> final ->
  (measure st xs <= fuel)%nat ->
  (exists v, feed fuel st 1 None = FDone v /\ wfn start_sym v) \/ feed fuel st 1 None = FNoAction.
Proof.
  induction fuel as [|fuel IH]; intros st xs Hst Hfin Hfuel; [unfold measure in Hfuel; lia|].
  cbn [feed]. destruct (action (top_state st) 1) as [[s'|p]|] eqn:Ha.
  - exfalso. pose proof (action_checked _ _ _ Ha) as Hok. cbn [action_ok] in Hok.
    apply andb_true_iff in Hok as [_ Hok]. cbn [negb] in Hok. rewrite orb_false_r in Hok.
    apply Pos.eqb_eq in Hok. contradiction.
  - destruct (reduce_sound _ _ _ _ Hst Ha) as (x & rhs & k & s' & cs & st0 & xs0 & Hp & Hr & Hst' & Hpop & Hg & Hf & Hs).
    rewrite Hr. fold final.
    assert (Hwf : wfn x (Br p cs)) by (inversion Hst'; assumption).
    destruct (Pos.eqb_spec s' final) as [Heq|Hnf].
    + left. exists (Br p cs). split; [reflexivity|]. rewrite <- (Hf Heq). exact Hwf.
    + destruct (reduce_measure _ _ _ _ _ _ _ _ _ _ _ Hst Ha Hp Hpop Hg Hst') as [Hm|[Hff|[s2 Hs2]]].
      * apply (IH _ (x :: xs0)); auto. lia.
      * contradiction.
      * exfalso. pose proof (action_checked _ _ _ Hs2) as Hok. cbn [action_ok] in Hok.
        apply andb_true_iff in Hok as [_ Hok]. cbn [negb] in Hok. rewrite orb_false_r in Hok.
        apply Pos.eqb_eq in Hok. contradiction.
  - right. reflexivity.
Qed.

Lemma measure_feed_fuel st xs : stk st xs -> (measure st xs <= feed_fuel st)%nat.
Proof.
  intros H. unfold measure, feed_fuel. destruct xs as [|x xs]; [lia|]. pose proof (rank_bound x). lia.
Qed.
