(** pycep/transformer.py, resource: running its text is calling the model's callback. *)
From Coq Require Import List Arith NArith ZArith Bool String Lia.
From Verif Require Import Py.Str Py.Val Python.Syntax Python.Eval Python.Program Proofs.Base Proofs.PyHeap Proofs.PyRun Proofs.PyLoops Proofs.PyMethods Proofs.PyChildren Proofs.PyChildren2.
From Verif Require Import Pycep.Utils Lark.Tree.
From Verif Require Pycep.Transformer.
Import ListNotations.
Local Open Scope string_scope.

Section R.
  Variable E : pyenv.
  Variable rt : Pycep.Main.path -> result str.
  Lemma resource_run m h h1 ls ln li lc mt l v1 v2 v4 p1 p2 p4 G1 G2 G4 lp dp ty api lcfg cfg Gc :
    self_is h ls ln li lc -> get h l = Some (OList [v1; v2; VRef lp; v4; VRef lcfg]) -> rep h v2 p2 G2 -> own h G2 ->
    pcall E rt m "BicepToJson.process_child_resource" [VRef ls] [("parent_resource_name", VStr (py_str E p2)); ("parent_type_api_pair", VRef lp); ("config", VRef lcfg)] h = Got (VNone, h1) ->
    self_is h1 ls ln li lc -> rep h1 v1 p1 G1 -> rep h1 v4 p4 G4 -> rep h1 (VRef lcfg) cfg Gc -> own h1 (G1 ++ Gc)%list -> below h1 G4 -> ls < next h1 -> lp < next h1 ->
    get h1 lp = Some (ODict dp) -> aget (u "type") dp = Some (VStr ty) -> aget (u "api_version") dp = Some (VStr api) ->
    gives h1 (G1 ++ Gc)%list (let* attrs := Transformer.with_lines ln mt [(u "decorators", Transformer.or_empty p1); (u "type", PStr ty); (u "api_version", PStr api); (u "existing", PBool (truthy p4)); (u "config", cfg)] in
        Ok (Transformer.response "resources" (PStr (py_str E p2)) attrs)) (pcall E rt (S m) "BicepToJson.resource" [VRef ls; VMeta mt; VRef l] [] h).
  Proof.
    unfold self_is. intros Hs Hl R2 O2 HP Hs1 R1 R4 Rc O1 B4 L1 L2 Hp Ht Ha. pose proof (str_of_rep E h v2 p2 G2 R2 O2) as S2.
    pose proof (truth_rep h1 v1 p1 G1 R1) as T1. pose proof (truth_rep h1 v4 p4 G4 R4) as T4.
    pose proof (truth_rep _ v4 p4 G4 (rep_ext h1 (push h1 (OList [])) v4 p4 G4 B4 (ext_push h1 _) R4)) as T4'.
    clear R4 R2 O2.
    lits. unfold Transformer.or_empty. destruct ln; [destruct mt as [[? ?]|]|]; destruct (truthy p1); cbn [Transformer.with_lines bind]; enter; run2.
    all: dicts; done_tac.
  Qed.
  Lemma resource_exn m h ls ln li lc mt l v1 v2 v4 p2 G2 lp lcfg e :
    self_is h ls ln li lc -> get h l = Some (OList [v1; v2; VRef lp; v4; VRef lcfg]) -> rep h v2 p2 G2 -> own h G2 ->
    pcall E rt m "BicepToJson.process_child_resource" [VRef ls] [("parent_resource_name", VStr (py_str E p2)); ("parent_type_api_pair", VRef lp); ("config", VRef lcfg)] h = Exn e ->
    pcall E rt (S m) "BicepToJson.resource" [VRef ls; VMeta mt; VRef l] [] h = Exn e.
  Proof.
    unfold self_is. intros Hs Hl R2 O2 HP. pose proof (str_of_rep E h v2 p2 G2 R2 O2) as S2. clear R2 O2. enter. run2. reflexivity.
  Qed.

  Lemma text_resource n h ls ln li lc vc mt l vs F dec nm tq ex cq ty api : self_is h ls ln li lc -> get h lc = Some (OList vc) -> get h l = Some (OList vs) ->
    reps h vs [dec; nm; PDict tq; ex; PDict cq] F -> own h (ls :: lc :: l :: F) -> aget (u "type") tq = Some (PStr ty) -> aget (u "api_version") tq = Some (PStr api) ->
    fam cq -> Transformer.pv_depth (PDict cq) <= n ->
    match Transformer.cb_resource E ln mt [dec; nm; PDict tq; ex; PDict cq] with
    | Ok (p, cs) => exists v h' F1 vnew F2, pcall E rt (S (S n)) "BicepToJson.resource" [VRef ls; VMeta mt; VRef l] [] h = Got (v, h') /\ rep h' v p F1 /\
        get h' lc = Some (OList (vc ++ vnew)) /\ reps h' vnew cs F2 /\ next h <= next h' /\
        (forall k, k < next h -> cnt (lc :: F) k = 0 -> get h' k = get h k) /\ fits h h' F (F1 ++ F2)
    | Err e => pcall E rt (S (S n)) "BicepToJson.resource" [VRef ls; VMeta mt; VRef l] [] h = Exn e
    end.
  Proof.
    intros Hs Hlc Hl R O Ht Ha Hf Hn.
    inversion R as [|v1 ? G1 vs1 ? H1 R1 Ra]; subst. inversion Ra as [|v2 ? G2 vs2 ? H2 R2 Rb]; subst. inversion Rb as [|v3 ? G3 vs3 ? H3 R3 Rc]; subst.
    inversion Rc as [|v4 ? G4 vs4 ? H4 R4 Rd]; subst. inversion Rd as [|v5 ? G5 vs5 ? H5 R5 Re]; subst. inversion Re; subst. clear R Ra Rb Rc Rd Re.
    inversion R3 as [| | | | | | | |lp dp ? Gp Hgp Rp]; subst. inversion R5 as [| | | | | | | |lcfg dcf ? Gf Hgf Rf]; subst.
    pose proof (repd_aget h (u "type") dp tq Gp Rp) as A1. rewrite Ht in A1. destruct A1 as (w1 & ? & At & Rw1 & _). inversion Rw1; subst.
    pose proof (repd_aget h (u "api_version") dp tq Gp Rp) as A2. rewrite Ha in A2. destruct A2 as (w2 & ? & Aa & Rw2 & _). inversion Rw2; subst.
    assert (O1 : forall k, cnt (ls :: lc :: l :: G1 ++ G2 ++ (lp :: Gp) ++ G4 ++ (lcfg :: Gf) ++ []) k <= 1) by (intros k; specialize (O k); destruct (Nat.ltb k (next h)); lia).
    assert (B := own_below _ _ O).
    assert (O2 : own h (ls :: lc :: lp :: lcfg :: Gf)). { eapply own_sub; [exact O|]. intros k. clear. counts. }
    pose proof (pcr_run E rt (Transformer.pv_depth (PDict cq)) n h ls ln li lc vc (py_str E nm) lp dp ty api lcfg dcf cq Gf Hf (fun c Hc => depth_in _ _ _ Hc) Hn Hs Hlc Hgp At Aa Hgf Rf O2) as P.
    unfold Transformer.cb_resource. unfold py_getitem. rewrite Ht, Ha. cbn [bind py_str]. 
    destruct (Transformer.process_child_resource E (Transformer.pv_depth (PDict cq)) (py_str E nm) ty api (PDict cq)) as [[cfg new]|e]; cbn [bind].
    2: { eapply resource_exn; try eassumption. eapply own_sub; [exact O|]. intros k. clear. counts. }
    destruct P as (h1 & q' & d' & vnew & F1 & F2 & P1 & -> & P2 & P3 & P4 & P5 & P6 & P7 & P8).
    assert (Bls : ls < next h) by known B. assert (Blp : lp < next h) by known B. assert (Blc : lc < next h) by known B.
    assert (K : forall H, (forall k, cnt H k + cnt (lc :: lcfg :: Gf) k <= 1) -> below h H -> keeps h h1 H).
    { intros H X1 X2 k Hk. apply P7; [apply X2, Hk|]. specialize (X1 k). lia. }
    assert (Bel : forall H, (forall k, cnt H k <= cnt (ls :: lc :: l :: G1 ++ G2 ++ (lp :: Gp) ++ G4 ++ (lcfg :: Gf) ++ []) k) -> below h H) by (intros H X k Hk; apply B; specialize (X k); lia).
    assert (R1' : rep h1 v1 dec G1). { refine (proj1 (rep_keeps h h1) _ _ _ R1 _). apply K; [intros k; at_cell k; counts|apply Bel; intros k; clear; counts]. }
    assert (B4 : below h G4) by (apply Bel; intros k; clear; counts).
    assert (R4' : rep h1 v4 ex G4). { refine (proj1 (rep_keeps h h1) _ _ _ R4 _). apply K; [intros k; at_cell k; counts|exact B4]. }
    assert (Hs1 : self_is h1 ls ln li lc). { unfold self_is in *. rewrite P7; [exact Hs|exact Bls|]. at_cell ls. counts. }
    assert (Hp1 : get h1 lp = Some (ODict dp)). { rewrite P7; [exact Hgp|exact Blp|]. at_cell lp. counts. }
    assert (Z0 : forall k, next h <= k -> cnt (ls :: lc :: l :: G1 ++ G2 ++ (lp :: Gp) ++ G4 ++ (lcfg :: Gf) ++ []) k = 0) by (intros k Hk; specialize (B k); lia).
    assert (Oc : own h1 (G1 ++ lcfg :: F1)).
    { intros k. specialize (P8 k). destruct (Nat.ltb_spec k (next h)).
      - destruct (Nat.ltb_spec k (next h1)); [|lia]. clear - O1 P8. at_cell k. counts.
      - specialize (Z0 k H). clear - Z0 P8. destruct (Nat.ltb k (next h1)); counts. }
    assert (O2n : own h G2) by (eapply own_sub; [exact O|]; intros k; clear; counts).
    pose proof (resource_run (S n) h h1 ls ln li lc mt l v1 v2 v4 dec nm ex G1 G2 G4 lp dp ty api lcfg (PDict q') (lcfg :: F1) Hs Hl R2 O2n P1 Hs1 R1' R4' (r_dict h1 lcfg d' q' F1 P2 P3) Oc
      ltac:(intros k Hk; specialize (B4 k Hk); lia) ltac:(lia) ltac:(lia) Hp1 At Aa) as G.
    destruct (let* attrs := Transformer.with_lines ln mt _ in Ok (Transformer.response "resources" (PStr (py_str E nm)) attrs)) as [p|e] eqn:Ew.
    2: { destruct (Transformer.with_lines ln mt _); cbn [bind] in *; [discriminate|]. injection Ew as ->. exact G. }
    destruct (Transformer.with_lines ln mt _) as [attrs|]; cbn [bind] in *; [|discriminate]. injection Ew as <-.
    destruct G as (v & h2 & F' & G1' & G2' & G3' & G4').
    exists v, h2, F', vnew, F2. split; [exact G1'|]. split; [exact G2'|]. destruct G3' as [X1 X2].
    split; [rewrite X2 by lia; exact P4|]. split.
    { refine (reps_ext h1 h2 _ _ _ _ (conj X1 X2) P5). intros k Hk. specialize (P8 k). rewrite cnt_app in P8. destruct (Nat.ltb_spec k (next h)), (Nat.ltb_spec k (next h1)); lia. }
    split; [lia|]. split.
    { intros k Hk Hz. rewrite X2 by lia. apply P7; [exact Hk|]. clear - Hz. counts. }
    intros k. specialize (G4' k). specialize (P8 k). destruct (Nat.ltb_spec k (next h)).
    - destruct (Nat.ltb_spec k (next h1)); [|lia]. clear - O1 P8 G4'. at_cell k. counts.
    - specialize (Z0 k H). clear - Z0 P8 G4' X1 P6 H. destruct (Nat.ltb_spec k (next h1)), (Nat.ltb_spec k (next h2)); counts.
  Qed.
End R.
