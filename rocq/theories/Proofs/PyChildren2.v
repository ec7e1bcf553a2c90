(** pycep/transformer.py, process_child_resource: running its text is calling the model's. *)
From Coq Require Import List Arith NArith ZArith Bool String Lia.
From Verif Require Import Py.Str Py.Val Python.Syntax Python.Eval Python.Program Proofs.Base Proofs.PyHeap Proofs.PyRun Proofs.PyLoops Proofs.PyMethods.
From Verif Require Import Pycep.Utils Lark.Tree.
From Verif Require Pycep.Transformer.
Import ListNotations.
Local Open Scope string_scope.

From Verif Require Import Proofs.PyChildren.

(** ** Parts of a dict *)
Lemma repd_pop h k p : forall d q F, repd h d q F -> aget k q = Some p ->
  exists v G F', aget k d = Some v /\ rep h v p G /\ repd h (adel k d) (adel k q) F' /\ forall l, cnt G l + cnt F' l <= cnt F l.
Proof.
  induction d as [|[k' v] d IH]; intros q F R A; inversion R as [|? ? p0 F0 ? q0 G0 Hv Hd]; subst; cbn [aget adel] in *; [discriminate|].
  destruct (str_eqb k k').
  - injection A as ->. exists v, F0, G0. repeat split; try assumption. intros l. rewrite cnt_app. lia.
  - destruct (IH _ _ Hd A) as (w & G & F' & A1 & A2 & A3 & A4). exists w, G, (F0 ++ F')%list. repeat split; try assumption; [now constructor|]. intros l. specialize (A4 l). rewrite !cnt_app. lia.
Qed.
Lemma repd_focus h k p : forall d q F, repd h d q F -> aget k q = Some p ->
  exists v G H, aget k d = Some v /\ rep h v p G /\ (forall l, cnt G l + cnt H l <= cnt F l) /\
    forall h' p' G', keeps h h' H -> rep h' v p' G' -> exists F', repd h' d (aset k p' q) F' /\ forall l, cnt F' l <= cnt G' l + cnt H l.
Proof.
  induction d as [|[k' v] d IH]; intros q F R A; inversion R as [|? ? p0 F0 ? q0 G0 Hv Hd]; subst; cbn [aget aset] in *; [discriminate|].
  destruct (str_eqb k k') eqn:Hk.
  - injection A as ->. exists v, F0, G0. repeat split; try assumption; [intros l; rewrite cnt_app; lia|].
    intros h' p' G' K Rv. exists (G' ++ G0)%list. split; [constructor; [exact Rv|]|intros l; rewrite cnt_app; lia].
    exact (proj2 (proj2 (rep_keeps h h')) _ _ _ Hd K).
  - destruct (IH _ _ Hd A) as (w & G & H & A1 & A2 & A3 & A4). exists w, G, (F0 ++ H)%list. repeat split; try assumption; [intros l; specialize (A3 l); rewrite !cnt_app; lia|].
    intros h' p' G' K Rv. destruct (A4 h' p' G') as (F' & B1 & B2); [intros l Hl; apply K; rewrite cnt_app; lia|exact Rv|].
    exists (F0 ++ F')%list. split; [constructor; [|exact B1]|intros l; specialize (B2 l); rewrite !cnt_app; lia].
    refine (proj1 (rep_keeps h h') _ _ _ Hv _). intros l Hl. apply K. rewrite cnt_app. lia.
Qed.

Lemma reps_app h vs ps F ws qs G : reps h vs ps F -> reps h ws qs G -> reps h (vs ++ ws) (ps ++ qs) (F ++ G).
Proof.
  revert ps F. induction vs as [|v vs IH]; intros ps F R Q; inversion R; subst; cbn [app]; [exact Q|]. rewrite <- app_assoc. constructor; auto.
Qed.

(** ** Children *)
Definition RK := u "__child_resource__".
(** What the callback child_resource stores in a config, down the family. *)
Inductive fam : list (str * pyval) -> Prop :=
| fam_none q : aget RK q = None -> fam q
| fam_child q dch cn dat ct dcc : aget RK q = Some (PDict dch) -> aget (u "__name__") dch = Some cn -> aget (u "__attrs__") dch = Some (PDict dat) ->
    aget (u "type") dat = Some ct -> aget (u "config") dat = Some (PDict dcc) -> fam dcc -> fam q.
Lemma fam_eq q q' : aget RK q' = aget RK q -> fam q -> fam q'.
Proof. intros H F. inversion F; subst; [apply fam_none; congruence|]. eapply fam_child; try eassumption. congruence. Qed.
Lemma depth_in k d v : aget k d = Some v -> Transformer.pv_depth v < Transformer.pv_depth (PDict d).
Proof.
  intros H. cbn [Transformer.pv_depth]. apply -> Nat.lt_succ_r. induction d as [|[k' v'] d IH]; [discriminate|]. cbn [fold_right snd aget] in *.
  destruct (str_eqb k k'); [injection H as ->; lia|]. specialize (IH H). lia.
Qed.
Definition enough (fuel : nat) (q : list (str * pyval)) : Prop := forall c, aget RK q = Some c -> Transformer.pv_depth c < fuel.

Definition one (a b : nat) : nat := if Nat.eqb a b then 1 else 0.
Lemma cnt_cons x F l : cnt (x :: F) l = one x l + cnt F l. Proof. reflexivity. Qed.
Lemma cnt_nil l : cnt [] l = 0. Proof. reflexivity. Qed.
Lemma one_refl a : one a a = 1. Proof. unfold one. now rewrite Nat.eqb_refl. Qed.
Lemma one_off a b : a <> b -> one a b = 0. Proof. unfold one. destruct (Nat.eqb_spec a b); congruence. Qed.
Lemma one_zero a b : one a b = 0 -> a <> b. Proof. intros H ->. now rewrite one_refl in H. Qed.
Lemma cnt_off a F l : cnt (a :: F) l = 0 -> l <> a. Proof. intros H ->. rewrite cnt_cons, one_refl in H. lia. Qed.
Ltac at_cell k := repeat match goal with C : forall l : nat, _ <= _ |- _ => let D := fresh in pose proof (C k) as D; clear C end.
Ltac counts := rewrite ?cnt_app, ?cnt_cons, ?cnt_nil, ?cnt_app in *; rewrite ?cnt_cons, ?cnt_nil in *; rewrite ?one_refl in *; lia.
Ltac differ := let e := fresh in intros e; match type of e with ?a = ?b => at_cell b; rewrite ?e in *; counts end.
Ltac known B := apply B; match goal with |- 1 <= cnt _ ?k => at_cell k end; counts.

Section R.
  Variable E : pyenv.
  Variable rt : Pycep.Main.path -> result str.
  Notation pcr := (pcr E rt).
  Lemma pcr_run : forall fuel n h ls ln li lc vc pname lp dp pty papi lcfg d q F, fam q -> enough fuel q -> fuel <= n ->
    self_is h ls ln li lc -> get h lc = Some (OList vc) -> get h lp = Some (ODict dp) -> aget (u "type") dp = Some (VStr pty) -> aget (u "api_version") dp = Some (VStr papi) ->
    get h lcfg = Some (ODict d) -> repd h d q F -> own h (ls :: lc :: lp :: lcfg :: F) ->
    match Transformer.process_child_resource E fuel pname pty papi (PDict q) with
    | Ok (cfg, new) => exists h' q' d' vnew F1 F2, pcr (S n) ls pname lp lcfg h = Got (VNone, h') /\ cfg = PDict q' /\ get h' lcfg = Some (ODict d') /\ repd h' d' q' F1 /\
        get h' lc = Some (OList (vc ++ vnew)) /\ reps h' vnew new F2 /\ next h <= next h' /\
        (forall k, k < next h -> cnt (lc :: lcfg :: F) k = 0 -> get h' k = get h k) /\ fits h h' F (F1 ++ F2)
    | Err e => pcr (S n) ls pname lp lcfg h = Exn e
    end.
  Proof.
    induction fuel as [|fuel IH]; intros n h ls ln li lc vc pname lp dp pty papi lcfg d q F Hf He Hn Hself Hlc Hlp Hty Hapi Hcfg R O.
    { (* no fuel: no child *)
      inversion Hf; subst; [|specialize (He _ H); lia]. pose proof (repd_aget h RK d q F R) as A. rewrite H in A. cbn [Transformer.process_child_resource Transformer.has_key bind]. change (u "__child_resource__") with RK. rewrite H. cbn [negb].
      exists h, q, d, [], F, []. rewrite app_nil_r. repeat split; try assumption; try reflexivity; [now apply pcr_none with (d := d)|constructor|].
      intros l. rewrite app_nil_r. specialize (O l). rewrite !cnt_cons in O. destruct (Nat.ltb l (next h)); lia. }
    inversion Hf as [? Hnone|? qch cn qat ct qcc Hc Hcn Hca Hct Hcc Hfam]; subst.
    { pose proof (repd_aget h RK d q F R) as A. rewrite Hnone in A. cbn [Transformer.process_child_resource Transformer.has_key bind]. change (u "__child_resource__") with RK. rewrite Hnone. cbn [negb].
      exists h, q, d, [], F, []. rewrite app_nil_r. repeat split; try assumption; try reflexivity; [now apply pcr_none with (d := d)|constructor|].
      intros l. rewrite app_nil_r. specialize (O l). rewrite !cnt_cons in O. destruct (Nat.ltb l (next h)); lia. }
    destruct n as [|n]; [lia|].
    assert (O1 : forall l, cnt (ls :: lc :: lp :: lcfg :: F) l <= 1) by (intros l; specialize (O l); destruct (Nat.ltb l (next h)); lia).
    assert (B := own_below _ _ O).
    destruct (repd_pop h RK _ d q F R Hc) as (v & G & F' & Ad & Rv & Rd & C1).
    inversion Rv as [| | | | | | | |lch dch ? Gch Hgch Rch]; subst.
    pose proof (repd_aget h (u "__name__") dch qch Gch Rch) as A. rewrite Hcn in A. destruct A as (vn & Gn & Avn & Rvn & Cn).
    set (h1 := set h lcfg (ODict (adel RK d))).
    set (name := (pname ++ u "__" ++ py_str E cn)%list).
    assert (S1 : str_of E h1 vn = Some (py_str E cn)).
    { apply str_of_rep with (F := Gn).
      - refine (proj1 (rep_keeps h h1) _ _ _ Rvn _). intros k Hk. unfold h1. apply get_set_other. differ.
      - intros k. unfold h1. rewrite next_set. specialize (O k). at_cell k. destruct (Nat.ltb k (next h)); counts. }
    destruct (repd_aset h (u "__name__") (VStr name) (PStr name) [] (r_str h name) dch qch Gch Rch) as (Fch & Rch1 & C2).
    assert (Hca1 : aget (u "__attrs__") (aset (u "__name__") (PStr name) qch) = Some (PDict qat)) by (rewrite aget_aset; exact Hca).
    destruct (repd_focus h (u "__attrs__") _ _ _ _ Rch1 Hca1) as (va & Ga & H1 & Ava & Rva & C3 & K1).
    inversion Rva as [| | | | | | | |lat dat ? Gat Hgat Rat]; subst.
    rewrite aget_aset in Ava. change (aget (u "__attrs__") dch = Some (VRef lat)) in Ava.
    pose proof (repd_aget h (u "type") dat qat Gat Rat) as A. rewrite Hct in A. destruct A as (vt & Gt & Avt & Rvt & Ct).
    set (h1' := set h1 lch (ODict (aset (u "__name__") (VStr name) dch))).
    assert (S2 : str_of E h1' vt = Some (py_str E ct)).
    { apply str_of_rep with (F := Gt).
      - refine (proj1 (rep_keeps h h1') _ _ _ Rvt _). intros k Hk. unfold h1', h1. rewrite get_set_other by differ. apply get_set_other. differ.
      - intros k. unfold h1', h1. rewrite !next_set. specialize (O k). at_cell k. destruct (Nat.ltb k (next h)); counts. }
    set (ty := (pty ++ u "/" ++ py_str E ct)%list).
    destruct (repd_aset h (u "type") (VStr ty) (PStr ty) [] (r_str h ty) dat qat Gat Rat) as (Fat0 & Rat0 & C4).
    destruct (repd_aset h (u "api_version") (VStr papi) (PStr papi) [] (r_str h papi) _ _ _ Rat0) as (Fat & Rat1 & C5).
    assert (Hcc1 : aget (u "config") (aset (u "api_version") (PStr papi) (aset (u "type") (PStr ty) qat)) = Some (PDict qcc)) by (rewrite !aget_aset; exact Hcc).
    destruct (repd_focus h (u "config") _ _ _ _ Rat1 Hcc1) as (vcc & Gcc & H2 & Avc & Rvc & C6 & K2).
    inversion Rvc as [| | | | | | | |lcc dcc ? Gc Hgcc Rcc]; subst.
    rewrite !aget_aset in Avc. change (aget (u "config") dat = Some (VRef lcc)) in Avc.
    (* the model *)
    cbn [Transformer.process_child_resource Transformer.has_key bind]. change (u "__child_resource__") with RK. rewrite Hc. cbn [negb].
    unfold py_getitem at 1. rewrite Hcn. cbn [bind py_setitem]. fold name. unfold py_getitem at 1. rewrite Hca1. cbn [bind]. unfold py_getitem at 1. rewrite Hct. cbn [bind py_setitem]. fold ty.
    unfold py_getitem at 1. rewrite Hcc1. cbn [bind].
    assert (Fin : forall h2 lp2 lent ldo dcc2 qcc2 vdo2 Fc2,
      pcr (S (S n)) ls pname lp lcfg h = match pcr (S n) ls name lp2 lcc h2 with Got (_, h3) => Got (VNone, h3) | Exn e => Exn e | Stuck => Stuck end ->
      self_is h2 ls ln li lc -> get h2 lc = Some (OList (vc ++ [VRef lent])) -> get h2 lp2 = Some (ODict [(u "type", VStr ty); (u "api_version", VStr papi)]) ->
      get h2 lcfg = Some (ODict (adel RK d)) -> get h2 lch = Some (ODict (aset (u "__name__") (VStr name) dch)) ->
      get h2 lat = Some (ODict (aset (u "api_version") (VStr papi) (aset (u "type") (VStr ty) dat))) ->
      get h2 lcc = Some (ODict dcc2) -> get h2 ldo = Some (OList vdo2) -> get h2 lent = Some (ODict [(u "resources", VRef lch)]) ->
      next h <= lp2 -> next h <= lent -> lp2 < lent -> lent < next h2 ->
      (forall k, k < next h -> k <> lc -> k <> lcfg -> k <> lch -> k <> lat -> k <> lcc -> cnt Gc k = 0 -> get h2 k = get h k) ->
      repd h2 dcc2 qcc2 Fc2 -> aget RK qcc2 = aget RK qcc ->
      (forall l, l < next h -> cnt Fc2 l <= cnt Gc l) -> (forall l, next h <= l -> cnt Fc2 l = 0 \/ (cnt Fc2 l <= 1 /\ l < lent /\ lp2 < l)) ->
      match (let* (cconfig, more) := Transformer.process_child_resource E fuel name ty papi (PDict qcc2) in
             let* attrs := py_setitem (PDict (aset (u "api_version") (PStr papi) (aset (u "type") (PStr ty) qat))) (u "config") cconfig in
             let* child := py_setitem (PDict (aset (u "__name__") (PStr name) qch)) (u "__attrs__") attrs in
             Ok (PDict (adel RK q), PDict [(u "resources", child)] :: more)) with
      | Ok (cfg, new) => exists h' q' d' vnew F1 F2, pcr (S (S n)) ls pname lp lcfg h = Got (VNone, h') /\ cfg = PDict q' /\ get h' lcfg = Some (ODict d') /\ repd h' d' q' F1 /\
          get h' lc = Some (OList (vc ++ vnew)) /\ reps h' vnew new F2 /\ next h <= next h' /\
          (forall k, k < next h -> cnt (lc :: lcfg :: F) k = 0 -> get h' k = get h k) /\ fits h h' F (F1 ++ F2)
      | Err e => pcr (S (S n)) ls pname lp lcfg h = Exn e
      end).
    { intros h2 lp2 lent ldo dcc2 qcc2 vdo2 Fc2 Hrun Iself Ilc Ilp Icfg Ich Iat Icc Ido Ient L1 L2 L3 L4 Fr R2 Hk D1 D2.
      assert (Bls : ls < next h) by known B. assert (Blc : lc < next h) by known B. assert (Blcc : lcc < next h) by known B.
      assert (Blch : lch < next h) by known B. assert (Blat : lat < next h) by known B. assert (Blcfg : lcfg < next h) by known B.
      assert (O2 : own h2 (ls :: lc :: lp2 :: lcc :: Fc2)).
      { intros k. destruct (Nat.ltb_spec k (next h2)) as [Hk2|Hk2].
        - destruct (Nat.ltb_spec k (next h)) as [Hkh|Hkh].
          + specialize (D1 k Hkh). at_cell k. pose proof (one_off lp2 k ltac:(lia)). counts.
          + specialize (D2 k Hkh). clear - D2 Hkh Hk2 Bls Blc Blcc L1. rewrite !cnt_cons. unfold one. repeat match goal with |- context [Nat.eqb ?a ?b] => destruct (Nat.eqb_spec a b) end; lia.
        - assert (next h <= k) by lia. specialize (D2 k H). clear - D2 H Hk2 Bls Blc Blcc L1 L2 L3 L4. rewrite !cnt_cons. unfold one. repeat match goal with |- context [Nat.eqb ?a ?b] => destruct (Nat.eqb_spec a b) end; lia. }
      specialize (IH n h2 ls ln li lc (vc ++ [VRef lent])%list name lp2 [(u "type", VStr ty); (u "api_version", VStr papi)] ty papi lcc dcc2 qcc2 Fc2 (fam_eq _ _ Hk Hfam)).
      assert (En : enough fuel qcc2).
      { intros c Hcr. rewrite Hk in Hcr. apply depth_in in Hcr. apply depth_in in Hcc. apply depth_in in Hca. specialize (He _ Hc). lia. }
      specialize (IH En ltac:(lia) Iself Ilc Ilp eq_refl eq_refl Icc R2 O2).
      rewrite Hrun. destruct (Transformer.process_child_resource E fuel name ty papi (PDict qcc2)) as [[cfg new]|e]; cbn [bind]; [|rewrite IH; reflexivity].
      destruct IH as (h3 & q3 & d3 & vnew & F1 & F2 & Hrec & -> & Jcc & J1 & Jlc & J2 & Jn & Jf & Jfit). rewrite Hrec. cbn [py_setitem bind].
      assert (Same : forall k, k < next h -> cnt (lc :: lcc :: Gc) k = 0 -> get h3 k = get h2 k).
      { intros k Hkn Hz. apply Jf; [lia|]. specialize (D1 k Hkn). clear - Hz D1. counts. }
      assert (Same2 : forall k, k < next h -> cnt (lc :: lcfg :: lch :: lat :: lcc :: Gc) k = 0 -> get h3 k = get h k).
      { intros k Hkn Hz. rewrite Same; [|exact Hkn|clear - Hz; counts]. clear - Fr Hkn Hz. apply Fr; try exact Hkn; try (intros e; rewrite e in *); clear Fr; counts. }
      assert (Kp : forall H, (forall l, cnt H l + cnt (lc :: lcfg :: lch :: lat :: lcc :: Gc) l <= 1) -> (forall l, cnt H l <= cnt F l) -> keeps h h3 H).
      { intros H X1 X2 k Hk1. apply Same2; [apply B; specialize (X2 k); clear - X2 Hk1; counts|specialize (X1 k); clear - X1 Hk1; lia]. }
      assert (K3 : keeps h h3 H2) by (apply Kp; intros l; at_cell l; counts).
      assert (K4 : keeps h h3 H1) by (apply Kp; intros l; at_cell l; counts).
      assert (K5 : keeps h h3 F') by (apply Kp; intros l; at_cell l; counts).
      destruct (K2 h3 (PDict q3) (lcc :: F1) K3 (r_dict h3 lcc d3 q3 F1 Jcc J1)) as (Fat3 & Rat3 & C7).
      assert (Jat : get h3 lat = Some (ODict (aset (u "api_version") (VStr papi) (aset (u "type") (VStr ty) dat)))).
      { rewrite Same; [exact Iat|exact Blat|]. at_cell lat. counts. }
      destruct (K1 h3 _ (lat :: Fat3) K4 (r_dict h3 lat _ _ Fat3 Jat Rat3)) as (Fch3 & Rch3 & C8).
      assert (Jch : get h3 lch = Some (ODict (aset (u "__name__") (VStr name) dch))).
      { rewrite Same; [exact Ich|exact Blch|]. at_cell lch. counts. }
      assert (Jent : get h3 lent = Some (ODict [(u "resources", VRef lch)])).
      { rewrite Jf; [exact Ient|exact L4|]. specialize (D2 lent L2). clear - D2 L2 L4 Bls Blc Blcc. rewrite !cnt_cons, (one_off lc), (one_off lcc) by lia. lia. }
      assert (Jcfg : get h3 lcfg = Some (ODict (adel RK d))).
      { rewrite Same; [exact Icfg|exact Blcfg|]. at_cell lcfg. counts. }
      exists h3, (adel RK q), (adel RK d), (VRef lent :: vnew), F', ((lent :: (lch :: Fch3) ++ []) ++ F2)%list.
      split; [reflexivity|]. split; [reflexivity|]. split; [exact Jcfg|]. split; [exact (proj2 (proj2 (rep_keeps h h3)) _ _ _ Rd K5)|].
      split; [rewrite Jlc, <- app_assoc; reflexivity|]. split.
      { constructor; [|exact J2]. econstructor; [exact Jent|]. constructor; [|constructor]. econstructor; [exact Jch|exact Rch3]. }
      split; [lia|]. split.
      { intros k Hkn Hz. apply Same2; [exact Hkn|]. at_cell k. counts. }
      assert (Z0 : forall k, next h <= k -> cnt (ls :: lc :: lp :: lcfg :: F) k = 0) by (intros k Hk0; specialize (B k); lia).
      intros k. specialize (Jfit k). destruct (Nat.ltb_spec k (next h)) as [Hkh|Hkh].
      - destruct (Nat.ltb_spec k (next h2)); [|lia]. specialize (D1 k Hkh). pose proof (one_off lent k ltac:(lia)).
        clear - C1 C2 C3 C4 C5 C6 C7 C8 H0 D1 Jfit. at_cell k. counts.
      - specialize (D2 k Hkh). specialize (Z0 k Hkh). pose proof (one_off lent k) as Y.
        assert (X : cnt (F' ++ (lent :: (lch :: Fch3) ++ []) ++ F2) k <= one lent k + cnt (F1 ++ F2) k).
        { clear - C1 C2 C3 C4 C5 C6 C7 C8 Z0. at_cell k. counts. }
        assert (X1 : one lent k <= 1) by (unfold one; destruct (Nat.eqb lent k); lia).
        clear - X X1 Y D2 Jfit L1 L2 L3 L4 Jn Hkh.
        destruct (Nat.ltb_spec k (next h2)), (Nat.ltb_spec k (next h3)); try lia.
      }
    assert (Bls : ls < next h) by known B. assert (Blc : lc < next h) by known B. assert (Blcc : lcc < next h) by known B. assert (Blp : lp < next h) by known B.
    assert (Blch : lch < next h) by known B. assert (Blat : lat < next h) by known B. assert (Blcfg : lcfg < next h) by known B.
    assert (N1 : ne ls lc) by (unfold ne; differ).
    assert (N2 : ne ls lp) by (unfold ne; differ).
    assert (N3 : ne ls lcfg) by (unfold ne; differ).
    assert (N4 : ne ls lch) by (unfold ne; differ).
    assert (N5 : ne ls lat) by (unfold ne; differ).
    assert (N6 : ne ls lcc) by (unfold ne; differ).
    assert (N7 : ne lc lp) by (unfold ne; differ).
    assert (N8 : ne lc lcfg) by (unfold ne; differ).
    assert (N9 : ne lc lch) by (unfold ne; differ).
    assert (N10 : ne lc lat) by (unfold ne; differ).
    assert (N11 : ne lc lcc) by (unfold ne; differ).
    assert (N12 : ne lp lcfg) by (unfold ne; differ).
    assert (N13 : ne lp lch) by (unfold ne; differ).
    assert (N14 : ne lp lat) by (unfold ne; differ).
    assert (N15 : ne lp lcc) by (unfold ne; differ).
    assert (N16 : ne lcfg lch) by (unfold ne; differ).
    assert (N17 : ne lcfg lat) by (unfold ne; differ).
    assert (N18 : ne lcfg lcc) by (unfold ne; differ).
    assert (N19 : ne lch lat) by (unfold ne; differ).
    assert (N20 : ne lch lcc) by (unfold ne; differ).
    assert (N21 : ne lat lcc) by (unfold ne; differ).
    unfold Transformer.append_depends_on at 1. pose proof (repd_aget h (u "depends_on") dcc qcc Gc Rcc) as Ado.
    destruct (aget (u "depends_on") qcc) as [pdo|] eqn:Hdo.
    2: { cbn [bind].
      destruct (pcr_new E rt (S n) h ls ln li lc vc pname lp dp pty papi lcfg d lch dch vn (py_str E cn) lat dat vt (py_str E ct) lcc dcc
        Hself Hlc Hlp Hty Hapi Hcfg Ad Hgch Avn S1 Ava Hgat Avt S2 Avc Hgcc Ado Bls Blc Blp Blcfg Blch Blat Blcc N1 N2 N3 N4 N5 N6 N7 N8 N9 N10 N11 N12 N13 N14 N15 N16 N17 N18 N19 N20 N21) as (h2 & lp2 & lent & ldo & Q1 & Q2 & Q3 & Q4 & Q5 & Q6 & Q7 & Q8 & Q9 & Q10 & Q11 & Q12 & Q13 & Q14 & Q15 & Q16 & Q17 & Q18).
      assert (Rcc2 : repd h2 dcc qcc Gc).
      { refine (proj2 (proj2 (rep_keeps h h2)) _ _ _ Rcc _). intros k Hk1. apply Q18; [known B|differ..]. }
      assert (Rdo : rep h2 (VRef ldo) (PList [PElem pname]) [ldo]).
      { change [ldo] with (ldo :: ([] ++ []))%list. econstructor; [exact Q9|]. repeat constructor. }
      destruct (repd_aset h2 (u "depends_on") _ _ _ Rdo _ _ _ Rcc2) as (Fc2 & R2 & C7).
      refine (Fin h2 lp2 lent ldo _ _ _ Fc2 Q1 Q2 Q3 Q4 Q5 Q6 Q7 Q8 Q9 Q10 _ _ _ _ _ R2 _ _ _); try lia.
      - intros k Hk1 ? ? ? ? ? _. now apply Q18.
      - rewrite aget_aset. reflexivity.
      - intros l Hl. specialize (C7 l). pose proof (one_off ldo l ltac:(lia)). clear - C7 H. counts.
      - intros l Hl. specialize (C7 l). assert (Z : cnt (ls :: lc :: lp :: lcfg :: F) l = 0) by (specialize (B l); lia).
        assert (cnt Fc2 l <= one ldo l) by (clear - C1 C2 C3 C4 C5 C6 C7 Z; at_cell l; counts). pose proof (one_off ldo l) as Y.
        destruct (Nat.eq_dec ldo l) as [e|e]; [right; subst; rewrite one_refl in *; lia|left; specialize (Y e); lia]. }
    destruct (repd_focus h (u "depends_on") _ _ _ _ Rcc Hdo) as (vdo & Gd & H3 & Avdo & Rvdo & C7 & K3).
    assert (Lx : forall x, vdo = VRef x -> x < next h /\ ne x lcfg /\ ne x lch /\ ne x lat /\ ne x lcc).
    { intros x ->. assert (X : 1 <= cnt Gd x) by (inversion Rvdo; subst; rewrite cnt_cons, one_refl; lia).
      split; [apply B; at_cell x; counts|]. unfold ne. repeat split; differ. }
    assert (Bad : (forall x, pdo <> PList x) -> pcr (S (S n)) ls pname lp lcfg h = Exn EAttributeError).
    { intros Np. exact (pcr_bad E rt (S n) h ls ln li lc vc pname lp dp pty papi lcfg d lch dch vn (py_str E cn) lat dat vt (py_str E ct) lcc dcc vdo pdo Gd
        Hself Hlc Hlp Hty Hapi Hcfg Ad Hgch Avn S1 Ava Hgat Avt S2 Avc Hgcc Avdo Bls Blc Blp Blcfg Blch Blat Blcc
        N1 N2 N3 N4 N5 N6 N7 N8 N9 N10 N11 N12 N13 N14 N15 N16 N17 N18 N19 N20 N21 Rvdo Np Lx). }
    destruct pdo as [| | | | | |ldop| |]; try (cbn [bind]; apply Bad; discriminate). clear Bad.
    cbn [bind]. inversion Rvdo as [| | | | | | |ldo vdo0 ? Gl Hgdo Rl|]; subst.
    assert (Bldo : ldo < next h) by known B.
    assert (M1 : ne ls ldo) by (unfold ne; differ).
    assert (M2 : ne lc ldo) by (unfold ne; differ).
    assert (M3 : ne lp ldo) by (unfold ne; differ).
    assert (M4 : ne lcfg ldo) by (unfold ne; differ).
    assert (M5 : ne lch ldo) by (unfold ne; differ).
    assert (M6 : ne lat ldo) by (unfold ne; differ).
    assert (M7 : ne lcc ldo) by (unfold ne; differ).
    destruct (pcr_old E rt (S n) h ls ln li lc vc pname lp dp pty papi lcfg d lch dch vn (py_str E cn) lat dat vt (py_str E ct) lcc dcc ldo vdo0
        Hself Hlc Hlp Hty Hapi Hcfg Ad Hgch Avn S1 Ava Hgat Avt S2 Avc Hgcc Avdo Hgdo Bls Blc Blp Blcfg Blch Blat Blcc Bldo N1 N2 N3 N4 N5 N6 M1 N7 N8 N9 N10 N11 M2 N12 N13 N14 N15 M3 N16 N17 N18 M4 N19 N20 M5 N21 M6 M7) as (h2 & lp2 & lent & Q1 & Q2 & Q3 & Q4 & Q5 & Q6 & Q7 & Q8 & Q9 & Q10 & Q15 & Q16 & Q17 & Q17' & Q18).
    assert (Kl : forall H, (forall l, cnt H l + one ldo l <= cnt Gc l) -> keeps h h2 H).
    { intros H X k Hk1. apply Q18; [known B|differ..]. }
    assert (Rl2 : reps h2 (vdo0 ++ [VElem pname]) (ldop ++ [PElem pname]) (Gl ++ ([] ++ []))).
    { apply reps_app; [|repeat constructor]. refine (proj1 (proj2 (rep_keeps h h2)) _ _ _ Rl _). apply Kl. intros l. at_cell l. counts. }
    destruct (K3 h2 (PList (ldop ++ [PElem pname])) (ldo :: Gl ++ ([] ++ [])) (Kl H3 ltac:(intros l; at_cell l; counts)) (r_list h2 ldo _ _ _ Q9 Rl2)) as (Fc2 & R2 & C8).
    assert (C9 : forall l, cnt Fc2 l <= cnt Gc l) by (intros l; clear - C7 C8; at_cell l; counts).
    refine (Fin h2 lp2 lent ldo _ _ _ Fc2 Q1 Q2 Q3 Q4 Q5 Q6 Q7 Q8 Q9 Q10 _ _ _ _ _ R2 _ _ _); try lia.
    - intros k Hk1 ? ? ? ? ? ?. apply Q18; try assumption. differ.
    - rewrite aget_aset. reflexivity.
    - intros l Hl. apply C9.
    - intros l Hl. left. assert (Z : cnt (ls :: lc :: lp :: lcfg :: F) l = 0) by (specialize (B l); lia). clear - C1 C2 C3 C4 C5 C6 C9 Z. at_cell l. counts.
  Qed.
End R.
