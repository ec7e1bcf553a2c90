(** Whatever the parser has read begins a sentence of the grammar. *)
From Coq Require Import List Arith NArith PArith Bool String Lia.
From Verif Require Import Py.Str Py.Val Lark.Tree Lark.Ebnf Lark.Lalr Lark.BicepGrammar Lark.BicepTables Lark.Driver
     Spec.Sentences Proofs.Base Proofs.LR Proofs.Parse Proofs.Grammar Proofs.Sentences.
Import ListNotations.

#[local] Transparent prod_info bicep_gram bicep_tables.
(** ** Every symbol derives something *)
Definition is_terminal (x : positive) : bool := match sym_named x with Some (T n) => Pos.eqb (term_id n) x | _ => false end.
Definition known (m : PM.t unit) (x : positive) : bool := is_terminal x || mem m x.
Definition productive_step (m : PM.t unit) : PM.t unit :=
  fold_left (fun m e => let '(_, (x, rhs, _)) := e in if forallb (known m) rhs then PM.add x tt m else m) (PM.elements prod_info) m.
Definition productive : PM.t unit := Eval vm_compute in Nat.iter 30 productive_step (PM.empty unit).
Lemma productive_eq : productive = Nat.iter 30 productive_step (PM.empty unit).
Proof. vm_compute. reflexivity. Qed.
Lemma all_productive : forallb (fun e => let '(_, (_, rhs, _)) := e in forallb (known productive) rhs) (PM.elements prod_info) = true.
Proof. vm_compute. reflexivity. Qed.
(** ** Why a symbol is expected in a state *)
Definition lhs_id (p : positive) : positive := match PM.find p prod_info with Some (x, _, _) => x | None => 1%positive end.
Definition next_of (i : item) : option positive := nth_error (rhs_id (it_p i)) (N.to_nat (it_d i)).
Definition in_kernel (i : item) : bool := if Pos.eqb (it_p i) root_id then N.eqb (it_d i) 0 else negb (N.eqb (it_d i) 0).
Definition expect_step (s : positive) (m : PM.t unit) : PM.t unit :=
  fold_left (fun m i => if in_kernel i || (N.eqb (it_d i) 0 && mem m (lhs_id (it_p i)))
                        then match next_of i with Some y => PM.add y tt m | None => m end else m) (items_of s) m.
Definition expected (s : positive) : PM.t unit := Nat.iter 20 (expect_step s) (PM.empty unit).
Lemma all_expected : forallb (fun e => let m := expected (fst e) in
  forallb (fun i => negb (N.eqb (it_d i) 0) || Pos.eqb (it_p i) root_id || mem m (lhs_id (it_p i))) (items_of (fst e))) (PM.elements (tb_items bicep_tables)) = true.
Proof. vm_compute. reflexivity. Qed.
(** ** States *)
Definition going (s x s' : positive) : bool :=
  negb (Pos.eqb s' (tb_init bicep_tables)) && (Pos.eqb x 1 || Pos.eqb s' final || existsb (fun i => negb (N.eqb (it_d i) 0) && negb (Pos.eqb (it_p i) root_id)) (items_of s')).
Definition going_act (s x : positive) (a : act) : bool := match a with Shift s' => going s x s' | Reduce _ => true end.
Lemma all_going : forallb (fun e => forallb (fun f => going_act (fst e) (fst f) (snd f)) (PM.elements (snd e))) (PM.elements (tb_action bicep_tables)) = true.
Proof. vm_compute. reflexivity. Qed.
Lemma all_going_to : forallb (fun e => forallb (fun f => going (fst e) (fst f) (snd f)) (PM.elements (snd e))) (PM.elements (tb_goto bicep_tables)) = true.
Proof. vm_compute. reflexivity. Qed.
Lemma root_items : forallb (fun e => forallb (fun i => negb (N.eqb (it_d i) 0 && Pos.eqb (it_p i) root_id) || Pos.eqb (fst e) (tb_init bicep_tables)) (items_of (fst e))) (PM.elements (tb_items bicep_tables)) = true.
Proof. vm_compute. reflexivity. Qed.
Lemma root_first : nth_error (rhs_id root_id) 0 = Some start_sym.
Proof. vm_compute. reflexivity. Qed.
Lemma init_root : existsb (fun i => N.eqb (it_d i) 0 && Pos.eqb (it_p i) root_id) (items_of (tb_init bicep_tables)) = true.
Proof. vm_compute. reflexivity. Qed.
Lemma end_named : sym_named 1 = Some (T "$END"%string).
Proof. vm_compute. reflexivity. Qed.
Lemma end_terminal : forallb (fun e => let '(_, (x, _, _)) := e in negb (Pos.eqb x 1)) (PM.elements prod_info) = true.
Proof. vm_compute. reflexivity. Qed.
Lemma start_productive : known productive start_sym = true.
Proof. vm_compute. reflexivity. Qed.
#[local] Opaque prod_info bicep_gram bicep_tables.

Lemma mem_add m x y : mem (PM.add x tt m) y = true -> y = x \/ mem m y = true.
Proof.
  unfold mem. destruct (Pos.eq_dec x y) as [->|Hne]; [auto|]. intros H. right. rewrite PM.gso in H; [exact H|congruence].
Qed.
Lemma mem_empty x : mem (PM.empty unit) x = false.
Proof. unfold mem. rewrite PM.gempty. reflexivity. Qed.

(** Trees for a list of symbols. *)
Definition derived (x : positive) (c : cst) : Prop := wfn x c /\ Forall leaf_named (leaves c).
Definition all_derived (xs : list positive) (cs : list cst) : Prop := Forall2 wfn xs cs /\ Forall leaf_named (flat_map leaves cs).
Lemma derived_all m xs : (forall x, mem m x = true -> exists c, derived x c) -> forallb (known m) xs = true -> exists cs, all_derived xs cs.
Proof.
  intros Hm. induction xs as [|x xs IH]; intros H; [exists []; split; constructor|]. cbn [forallb] in H. apply andb_true_iff in H as [Hx H].
  destruct (IH H) as (cs & Hcs & Hn). assert (Hc : exists c, derived x c).
  { unfold known in Hx. apply orb_true_iff in Hx as [Hx|Hx]; [|auto]. unfold is_terminal in Hx. destruct (sym_named x) as [[n|n]|] eqn:Hs; try discriminate Hx.
    apply Pos.eqb_eq in Hx. subst x. set (t := {| ttype := []; tval := []; tline := 0; tend := 0 |}%N). exists (Leaf n t). split; [constructor|]. constructor; [exact Hs|constructor]. }
  destruct Hc as (c & Hc & Hcn). exists (c :: cs). split; [constructor; assumption|]. cbn [flat_map]. apply Forall_app. split; assumption.
Qed.
Lemma productive_derived x : mem productive x = true -> exists c, derived x c.
Proof.
  rewrite productive_eq. generalize 30. intros n. revert x. induction n as [|n IH]; intros x; cbn [Nat.iter nat_rect]; [rewrite mem_empty; discriminate|].
  change (nat_rect (fun _ => PM.t unit) (PM.empty unit) (fun _ => productive_step) n) with (Nat.iter n productive_step (PM.empty unit)).
  unfold productive_step at 1. revert IH. generalize (Nat.iter n productive_step (PM.empty unit)).
  assert (Hin : forall e, In e (PM.elements prod_info) -> In e (PM.elements prod_info)) by auto. revert Hin. generalize (PM.elements prod_info) at 1 3.
  intros l. induction l as [|[p [[y rhs] k]] l IHl]; intros Hin m Hm; [exact (Hm x)|]. cbn [fold_left]. apply IHl; [intros e He; apply Hin; right; exact He|].
  destruct (forallb (known m) rhs) eqn:Hr; [|exact Hm]. intros z Hz. apply mem_add in Hz as [->|Hz]; [|auto].
  destruct (derived_all m rhs Hm Hr) as (cs & Hcs & Hn). exists (Br p cs). split; [|exact Hn].
  specialize (Hin _ (or_introl eq_refl)). apply PM.elements_complete in Hin. econstructor; eassumption.
Qed.
Lemma rhs_derived p l r : rhs_id p = (l ++ r)%list -> exists cs, all_derived r cs.
Proof.
  unfold rhs_id. destruct (PM.find p prod_info) as [[[x rhs] k]|] eqn:Hp; intros H.
  - pose proof all_productive as Ha. rewrite forallb_forall in Ha. specialize (Ha _ (In_elements_find _ _ _ Hp)). cbv beta iota in Ha. subst rhs. rewrite forallb_app in Ha. apply andb_true_iff in Ha as [_ Ha].
    exact (derived_all _ _ productive_derived Ha).
  - symmetry in H. apply app_eq_nil in H as [_ ->]. exists []. split; constructor.
Qed.

Inductive reason (s : positive) : positive -> Prop :=
| reason_kernel i x : In i (items_of s) -> in_kernel i = true -> next_of i = Some x -> reason s x
| reason_step i x : In i (items_of s) -> it_d i = 0%N -> reason s (lhs_id (it_p i)) -> next_of i = Some x -> reason s x.
Lemma expected_reason s x : mem (expected s) x = true -> reason s x.
Proof.
  unfold expected. generalize 20. intros n. revert x. induction n as [|n IH]; intros x; cbn [Nat.iter nat_rect]; [rewrite mem_empty; discriminate|].
  change (nat_rect (fun _ => PM.t unit) (PM.empty unit) (fun _ => expect_step s) n) with (Nat.iter n (expect_step s) (PM.empty unit)).
  unfold expect_step at 1. revert IH. generalize (Nat.iter n (expect_step s) (PM.empty unit)).
  assert (Hin : forall e, In e (items_of s) -> In e (items_of s)) by auto. revert Hin. generalize (items_of s) at 1 3.
  intros l. induction l as [|i l IHl]; intros Hin m Hm; [exact (Hm x)|]. cbn [fold_left]. apply IHl; [intros e He; apply Hin; right; exact He|].
  specialize (Hin _ (or_introl eq_refl)). destruct (in_kernel i || (it_d i =? 0)%N && mem m (lhs_id (it_p i))) eqn:Hc; [|exact Hm].
  destruct (next_of i) as [y|] eqn:Hy; [|exact Hm]. intros z Hz. apply mem_add in Hz as [->|Hz]; [|auto].
  apply orb_true_iff in Hc as [Hc|Hc]; [eapply reason_kernel; eassumption|]. apply andb_true_iff in Hc as [Hd Hc]. apply N.eqb_eq in Hd. eapply reason_step; eauto.
Qed.
Lemma item_reason s p : p <> root_id -> has_item p 0 (items_of s) = true -> reason s (lhs_id p).
Proof.
  intros Hp Hi. apply has_item_In in Hi as (i & Hi & Hip & Hid). apply expected_reason.
  pose proof all_expected as H. rewrite forallb_forall in H. unfold items_of in Hi. destruct (PM.find s (tb_items bicep_tables)) as [l|] eqn:Hs; [|destruct Hi].
  specialize (H _ (In_elements_find _ _ _ Hs)). cbv zeta in H. cbn [fst] in H. rewrite forallb_forall in H. unfold items_of in H at 1. rewrite Hs in H. specialize (H i Hi).
  rewrite Hid, Hip in H. cbn [N.of_nat N.eqb negb orb] in H. apply orb_true_iff in H as [H|H]; [apply Pos.eqb_eq in H; contradiction|exact H].
Qed.

Lemma trans_going s x s' : trans s x s' -> going s x s' = true.
Proof.
  intros [H|H].
  - unfold action in H. destruct (PM.find s (tb_action bicep_tables)) as [row|] eqn:Hs; [|discriminate H].
    exact (forallb2_lift going_act _ all_going s row x _ Hs H).
  - unfold goto in H. destruct (PM.find s (tb_goto bicep_tables)) as [row|] eqn:Hs; [|discriminate H].
    exact (forallb2_lift going _ all_going_to s row x s' Hs H).
Qed.
Lemma init_bottom st xs i : stk st xs -> In i (items_of (top_state st)) -> it_d i = 0%N -> it_p i = root_id -> st = [].
Proof.
  intros Hst Hi Hd Hp. destruct Hst as [|s v st x xs Hst Ht Hw]; [reflexivity|]. exfalso. cbn [top_state] in Hi.
  apply trans_going in Ht. unfold going in Ht. apply andb_true_iff in Ht as [Ht _]. apply negb_true_iff, Pos.eqb_neq in Ht. apply Ht.
  pose proof root_items as H. rewrite forallb_forall in H. pose proof Hi as Hi'. unfold items_of in Hi. destruct (PM.find s (tb_items bicep_tables)) as [l|] eqn:Hs; [|destruct Hi].
  specialize (H _ (In_elements_find _ _ _ Hs)). cbn [fst] in H. rewrite forallb_forall in H. specialize (H i Hi'). rewrite Hd, Hp, Pos.eqb_refl in H. cbn [N.eqb andb negb orb] in H.
  apply Pos.eqb_eq. exact H.
Qed.

(** ** Completion *)
Definition completes (ls : list (string * token)) : Prop := exists v more, wfn start_sym v /\ leaves v = (ls ++ more)%list /\ Forall leaf_named more.
Lemma nth_split_rhs p d x : nth_error (rhs_id p) d = Some x -> rhs_id p = (firstn d (rhs_id p) ++ x :: skipn (Datatypes.S d) (rhs_id p))%list.
Proof.
  generalize (rhs_id p). intros l H. rewrite <- (firstn_skipn d l) at 1. f_equal. revert l H. induction d as [|d IH]; intros [|y l] H; cbn in H |- *; try discriminate H; [congruence|]. apply IH. exact H.
Qed.
Lemma rhs_found p l x : rhs_id p = (l ++ [x])%list \/ (exists r, rhs_id p = (l ++ x :: r)%list) -> exists k, PM.find p prod_info = Some (lhs_id p, rhs_id p, k).
Proof.
  unfold rhs_id, lhs_id. destruct (PM.find p prod_info) as [[[y rhs] k]|]; [eauto|]. intros [H|[r H]]; symmetry in H; apply app_eq_nil in H as [_ H]; discriminate H.
Qed.
Lemma item_root s p : has_item p 0 (items_of s) = true -> exists i, In i (items_of s) /\ it_d i = 0%N /\ it_p i = p.
Proof. intros H. apply has_item_In in H as (i & Hi & Hp & Hd). eauto. Qed.

Lemma complete_sym n : forall st xs x c, List.length st <= n -> stk st xs -> Forall leaf_named (st_leaves st) -> reason (top_state st) x -> wfn x c -> Forall leaf_named (leaves c) -> completes (st_leaves st ++ leaves c).
Proof.
  induction n as [n IH] using lt_wf_ind. intros st xs x c Hn Hst Hsn Hr. revert c. induction Hr as [i x Hi Hk Hx|i x Hi Hd Hr IHr Hx]; intros c Hc Hcn.
  - unfold next_of in Hx. pose proof (nth_split_rhs _ _ _ Hx) as Hs. destruct (rhs_found (it_p i) _ x (or_intror (ex_intro _ _ Hs))) as [k Hp].
    destruct (Pos.eqb_spec (it_p i) root_id) as [Hroot|Hroot]; unfold in_kernel in Hk.
    + rewrite Hroot, Pos.eqb_refl in Hk. apply N.eqb_eq in Hk. rewrite Hroot, Hk in Hx. change (N.to_nat 0) with 0 in Hx. rewrite root_first in Hx. injection Hx as <-.
      rewrite (init_bottom _ _ i Hst Hi Hk Hroot). exists c, []. rewrite app_nil_r. split; [exact Hc|]. split; [reflexivity|constructor].
    + apply Pos.eqb_neq in Hroot as Hrb. rewrite Hrb in Hk. apply negb_true_iff, N.eqb_neq in Hk.
      assert (Hs' : rhs_id (it_p i) = ((firstn (N.to_nat (it_d i)) (rhs_id (it_p i)) ++ [x]) ++ skipn (Datatypes.S (N.to_nat (it_d i))) (rhs_id (it_p i)))%list) by (rewrite <- app_assoc; exact Hs).
      destruct (rhs_derived _ _ _ Hs') as (cs2 & Hcs2 & Hn2).
      assert (Hit : has_item (it_p i) (N.to_nat (it_d i)) (items_of (top_state st)) = true).
      { unfold has_item. apply existsb_exists. exists i. split; [exact Hi|]. rewrite Pos.eqb_refl, Nnat.N2Nat.id, N.eqb_refl. reflexivity. }
      destruct (walk_back _ _ _ _ Hst Hit []) as (cs & st0 & xs0 & Hpop & Hst0 & H0 & Hall & _). rewrite app_nil_r in Hpop.
      pose proof (pop_length _ _ _ _ _ Hpop) as Hlen. pose proof (pop_leaves _ _ _ _ _ Hpop) as Hlv. cbn [flat_map] in Hlv. rewrite app_nil_r in Hlv.
      assert (Hw : wfn (lhs_id (it_p i)) (Br (it_p i) (cs ++ c :: cs2))).
      { econstructor; [exact Hp|]. rewrite Hs. apply Forall2_app; [exact Hall|]. constructor; assumption. }
      assert (Hcn' : Forall leaf_named (flat_map leaves cs) -> Forall leaf_named (leaves (Br (it_p i) (cs ++ c :: cs2)))).
      { intros Hcs. cbn [leaves]. rewrite flat_map_app. cbn [flat_map]. rewrite !Forall_app. auto. }
      assert (Hreason : reason (top_state st0) (lhs_id (it_p i))) by (apply item_reason; assumption).
      rewrite Hlv, Forall_app in Hsn. destruct Hsn as [Hsn Hcs].
      destruct (IH (List.length st0) ltac:(lia) st0 xs0 _ _ (le_n _) Hst0 Hsn Hreason Hw (Hcn' Hcs)) as (v & more & Hv & Hl & Hm).
      exists v, (flat_map leaves cs2 ++ more). split; [exact Hv|]. split; [|apply Forall_app; auto]. rewrite Hl, Hlv. cbn [leaves]. rewrite flat_map_app. cbn [flat_map]. rewrite <- !app_assoc. reflexivity.
  - unfold next_of in Hx. rewrite Hd in Hx. change (N.to_nat 0) with 0 in Hx. pose proof (nth_split_rhs _ _ _ Hx) as Hs. destruct (rhs_found (it_p i) _ x (or_intror (ex_intro _ _ Hs))) as [k Hp].
    cbn [firstn app] in Hs. change (x :: skipn 1 (rhs_id (it_p i))) with ([x] ++ skipn 1 (rhs_id (it_p i))) in Hs. destruct (rhs_derived _ _ _ Hs) as (cs2 & Hcs2 & Hn2).
    assert (Hw : wfn (lhs_id (it_p i)) (Br (it_p i) (c :: cs2))).
    { econstructor; [exact Hp|]. rewrite Hs. cbn [app]. constructor; assumption. }
    assert (Hcn' : Forall leaf_named (leaves (Br (it_p i) (c :: cs2)))) by (cbn [leaves flat_map]; apply Forall_app; auto).
    destruct (IHr _ Hw Hcn') as (v & more & Hv & Hl & Hm). exists v, (flat_map leaves cs2 ++ more). split; [exact Hv|]. split; [|apply Forall_app; auto].
    rewrite Hl. cbn [leaves flat_map]. rewrite <- !app_assoc. reflexivity.
Qed.

Theorem viable st xs : stk st xs -> top_state st <> final -> Forall leaf_named (st_leaves st) -> Forall (fun e => fst e <> "$END"%string) (st_leaves st) -> completes (st_leaves st).
Proof.
  intros Hst Hfin Hn He. destruct Hst as [|s v st x xs Hst Ht Hw].
  - pose proof start_productive as Hp. destruct (derived_all productive [start_sym] productive_derived) as (cs & Hcs & Hcn); [cbn [forallb]; rewrite Hp; reflexivity|].
    inversion Hcs as [|? c ? ? Hc Hcs']; subst. inversion Hcs'; subst. cbn [flat_map] in Hcn. rewrite app_nil_r in Hcn. exists c, (leaves c). repeat split; assumption.
  - cbn [top_state] in Hfin. pose proof (trans_going _ _ _ Ht) as Hg. unfold going in Hg. apply andb_true_iff in Hg as [_ Hg]. rewrite st_leaves_cons in *.
    assert (Hx : x <> 1%positive).
    { intros ->. inversion Hw as [n t Hid|p x' rhs k cs Hp]; subst.
      - cbn [leaves] in *. apply Forall_app in Hn as [_ Hn]. apply Forall_app in He as [_ He]. inversion Hn as [|? ? Hn1]; subst. inversion He as [|? ? He1]; subst. unfold leaf_named in Hn1. cbn [fst] in *.
        change (term_id n) with (term_id n) in Hn1. rewrite Hid, end_named in Hn1. injection Hn1 as <-. contradiction He1. reflexivity.
      - pose proof end_terminal as Het. rewrite forallb_forall in Het. specialize (Het _ (In_elements_find _ _ _ Hp)). discriminate Het. }
    apply Pos.eqb_neq in Hx. apply Pos.eqb_neq in Hfin. rewrite Hx, Hfin in Hg. cbn [orb] in Hg. apply existsb_exists in Hg as (i & Hi & Hg). apply andb_true_iff in Hg as [Hd Hp].
    apply negb_true_iff, N.eqb_neq in Hd. apply negb_true_iff, Pos.eqb_neq in Hp.
    assert (Hst' : stk ((s, v) :: st) (x :: xs)) by (constructor; assumption).
    assert (Hit : has_item (it_p i) (N.to_nat (it_d i)) (items_of (top_state ((s, v) :: st))) = true).
    { unfold has_item. apply existsb_exists. exists i. split; [exact Hi|]. rewrite Pos.eqb_refl, Nnat.N2Nat.id, N.eqb_refl. reflexivity. }
    destruct (walk_back _ _ _ _ Hst' Hit []) as (cs & st0 & xs0 & Hpop & Hst0 & H0 & Hall & Hle). rewrite app_nil_r in Hpop.
    pose proof (pop_leaves _ _ _ _ _ Hpop) as Hlv. cbn [flat_map] in Hlv. rewrite app_nil_r, st_leaves_cons in Hlv.
    destruct (rhs_derived (it_p i) _ _ (eq_sym (firstn_skipn (N.to_nat (it_d i)) _))) as (cs2 & Hcs2 & Hn2).
    assert (Hf : exists k, PM.find (it_p i) prod_info = Some (lhs_id (it_p i), rhs_id (it_p i), k)).
    { unfold rhs_id, lhs_id in *. destruct (PM.find (it_p i) prod_info) as [[[y rhs] k]|]; [eauto|]. cbn [List.length] in Hle. lia. }
    destruct Hf as [k Hf].
    assert (Hw' : wfn (lhs_id (it_p i)) (Br (it_p i) (cs ++ cs2))).
    { econstructor; [exact Hf|]. rewrite <- (firstn_skipn (N.to_nat (it_d i)) (rhs_id (it_p i))). apply Forall2_app; assumption. }
    rewrite Hlv, Forall_app in Hn. destruct Hn as [Hsn Hcs].
    assert (Hcn : Forall leaf_named (leaves (Br (it_p i) (cs ++ cs2)))) by (cbn [leaves]; rewrite flat_map_app; apply Forall_app; auto).
    destruct (complete_sym (List.length st0) st0 xs0 _ _ (le_n _) Hst0 Hsn (item_reason _ _ Hp H0) Hw' Hcn) as (t & more & Ht' & Hl & Hm).
    exists t, (flat_map leaves cs2 ++ more). split; [exact Ht'|]. split; [|apply Forall_app; auto]. rewrite Hl, Hlv. cbn [leaves]. rewrite flat_map_app, <- !app_assoc. reflexivity.
Qed.

(** In terms of bicep.lark. *)
Theorem viable_sentence E st xs : stk st xs -> top_state st <> final -> Forall (known_tok E) (st_leaves st) -> Forall (fun e => fst e <> "$END"%string) (st_leaves st) ->
  exists more, derives bicep_rules (ENT "start") (map fst (st_leaves st) ++ more).
Proof.
  intros Hst Hfin Hk He. assert (Hn : Forall leaf_named (st_leaves st)) by (revert Hk; apply Forall_impl; intros [n t]; apply known_name).
  destruct (viable st xs Hst Hfin Hn He) as (v & more & Hv & Hl & Hm).
  destruct (wfn_wf_named v start_sym Hv) as (s & Hs & Hwf); [rewrite Hl; apply Forall_app; auto|rewrite start_named; discriminate|].
  rewrite start_named in Hs. injection Hs as <-. exists (map fst more). rewrite <- map_app, <- Hl. apply wf_derives; [exact Hwf|reflexivity].
Qed.
