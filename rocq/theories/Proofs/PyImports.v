(** pycep/transformer.py, custom_import: running its text is calling the model's callback. *)
From Coq Require Import List Arith NArith ZArith Bool String Lia.
From Verif Require Import Py.Str Py.Val Python.Syntax Python.Eval Python.Program Proofs.Base Proofs.PyHeap Proofs.PyRun Proofs.PyLoops Proofs.PyMethods Proofs.PyChildren Proofs.PyChildren2.
From Verif Require Import Pycep.Utils Lark.Tree.
From Verif Require Pycep.Transformer.
Import ListNotations.
Local Open Scope string_scope.

(** What a round of the loop does: it appends to self.imports, at [li]. *)
Definition new_only (h h' : heap) (F : list nat) : Prop := forall k, cnt F k <= if Nat.ltb k (next h) then 0 else if Nat.ltb k (next h') then 1 else 0.
Definition appends (h : heap) (li : nat) (vi : list val) (h' : heap) (vnew : list val) (new : list pyval) : Prop :=
  exists F, get h' li = Some (OList (vi ++ vnew)) /\ reps h' vnew new F /\ next h <= next h' /\ (forall k, k < next h -> k <> li -> get h' k = get h k) /\ new_only h h' F.
Lemma appends_nil h li vi : get h li = Some (OList vi) -> appends h li vi h [] [].
Proof. intros H. exists []. rewrite app_nil_r. repeat split; try assumption; try constructor. intros k. cbn. lia. Qed.
Lemma appends_trans h li vi h1 v1 p1 h2 v2 p2 : li < next h -> appends h li vi h1 v1 p1 -> appends h1 li (vi ++ v1) h2 v2 p2 -> appends h li vi h2 (v1 ++ v2) (p1 ++ p2).
Proof.
  intros Hli (F1 & A1 & B1 & C1 & D1 & E1) (F2 & A2 & B2 & C2 & D2 & E2). exists (F1 ++ F2)%list.
  split; [rewrite A2, app_assoc; reflexivity|]. split.
  { apply reps_app; [|exact B2]. refine (proj1 (proj2 (rep_keeps h1 h2)) _ _ _ B1 _). intros k Hk. specialize (E1 k).
    destruct (Nat.ltb_spec k (next h)), (Nat.ltb_spec k (next h1)); try lia. apply D2; lia. }
  split; [lia|]. split; [intros k Hk Hn; rewrite D2 by lia; now apply D1|].
  intros k. specialize (E1 k). specialize (E2 k). rewrite cnt_app. destruct (Nat.ltb_spec k (next h)), (Nat.ltb_spec k (next h1)), (Nat.ltb_spec k (next h2)); lia.
Qed.
Lemma rd_flat h k v p d q : rep h v p [] -> repd h d q [] -> repd h ((k, v) :: d) ((k, p) :: q) [].
Proof. intros A B. exact (rd_cons h k v p [] d q [] A B). Qed.
Lemma appends_one h li vi h' nm d q :
  get h' li = Some (OList (vi ++ [VRef (S (S (next h)))])) -> get h' (S (S (next h))) = Some (ODict [(u "imports", VRef (S (next h)))]) ->
  get h' (S (next h)) = Some (ODict [(u "__name__", nm); (u "__attrs__", VRef (next h))]) -> get h' (next h) = Some (ODict d) -> repd h' d q [] ->
  next h' = S (S (S (next h))) -> (forall k, k < next h -> k <> li -> get h' k = get h k) -> forall pn, rep h' nm pn [] -> appends h li vi h' [VRef (S (S (next h)))] [Transformer.response "imports" pn q].
Proof.
  intros A B C D R N K pn Rn. exists ((S (S (next h)) :: (S (next h) :: [] ++ (next h :: []) ++ []) ++ []) ++ [])%list. split; [exact A|]. split.
  { constructor; [|constructor]. econstructor; [exact B|]. constructor; [|constructor]. econstructor; [exact C|]. constructor; [exact Rn|]. constructor; [|constructor]. econstructor; [exact D|exact R]. }
  split; [lia|]. split; [exact K|]. intros k. rewrite N. cbn [cnt app]. repeat match goal with |- context [Nat.eqb ?a ?b] => destruct (Nat.eqb_spec a b) | |- context [Nat.ltb ?a ?b] => destruct (Nat.ltb_spec a b) end; lia.
Qed.
Definition named (p : pyval) : Prop := exists q nm, p = PDict q /\ aget (u "name") q = Some nm.
Lemma loop_imports (f : val -> state -> out (flow * state)) (I : locals -> Prop) E ln mt t ls li lc :
  (forall env h vi lna dn q nm G, I env -> self_is h ls ln li lc -> get h li = Some (OList vi) -> get h lna = Some (ODict dn) -> repd h dn q G -> own h (ls :: li :: lna :: G) -> aget (u "name") q = Some nm ->
     match Transformer.import_entry E ln mt (PTok t) (PDict q) with
     | Ok e => exists env' h' ve, f (VRef lna) (env, h) = Got (Next, (env', h')) /\ I env' /\ appends h li vi h' [ve] [e]
     | Err e => f (VRef lna) (env, h) = Exn e
     end) ->
  forall vs nas F env h vi, I env -> self_is h ls ln li lc -> get h li = Some (OList vi) -> reps h vs nas F -> own h (ls :: li :: F) -> Forall named nas ->
  match Transformer.import_entries E ln mt (PTok t) nas with
  | Ok es => exists env' h' vnew, for_loop f vs (env, h) = Got (Next, (env', h')) /\ appends h li vi h' vnew es
  | Err e => for_loop f vs (env, h) = Exn e
  end.
Proof.
  intros Hf. induction vs as [|v vs IH]; intros nas F env h vi Hi Hs Hl R O Hn; inversion R as [|? p F0 ? ps G0 Rv Rs]; subst; cbn [Transformer.import_entries for_loop].
  - exists env, h, []. split; [reflexivity|now apply appends_nil].
  - inversion Hn as [|? ? (q & nm & -> & Ha) Hn']; subst. inversion Rv as [| | | | | | | |lna dn ? G Hg Rd]; subst.
    assert (O0 : own h (ls :: li :: lna :: G)). { eapply own_sub; [exact O|]. intros k. clear. counts. }
    specialize (Hf env h vi lna dn q nm G Hi Hs Hl Hg Rd O0 Ha).
    destruct (Transformer.import_entry E ln mt (PTok t) (PDict q)) as [e|e]; cbn [bind]; [|rewrite Hf; reflexivity].
    destruct Hf as (env1 & h1 & ve & -> & Hi1 & A). pose proof A as (F1 & A1 & _ & A3 & A4 & _).
    assert (O1 : forall k, cnt (ls :: li :: (lna :: G) ++ G0) k <= 1) by (intros k; specialize (O k); destruct (Nat.ltb k (next h)); lia).
    assert (B := own_below _ _ O). assert (ls < next h) by known B. assert (li < next h) by known B.
    assert (Hne : ls <> li) by differ.
    assert (Hs1 : self_is h1 ls ln li lc) by (unfold self_is in *; rewrite A4; assumption).
    assert (R1 : reps h1 vs ps G0).
    { refine (proj1 (proj2 (rep_keeps h h1)) _ _ _ Rs _). intros k Hk. apply A4; [apply B; clear - Hk; counts|]. differ. }
    assert (O' : own h1 (ls :: li :: G0)).
    { intros k. specialize (O k). assert (X : cnt (ls :: li :: G0) k <= cnt (ls :: li :: (lna :: G) ++ G0) k) by (clear; counts). destruct (Nat.ltb_spec k (next h)), (Nat.ltb_spec k (next h1)); lia. }
    specialize (IH ps G0 env1 h1 (vi ++ [ve])%list Hi1 Hs1 A1 R1 O' Hn').
    destruct (Transformer.import_entries E ln mt (PTok t) ps) as [es|e']; cbn [bind]; [|exact IH].
    destruct IH as (env2 & h2 & vnew & -> & A'). exists env2, h2, (ve :: vnew). split; [reflexivity|].
    change (ve :: vnew) with ([ve] ++ vnew)%list. change (e :: es) with ([e] ++ es)%list. eapply appends_trans; eassumption.
Qed.

  Ltac frame_tac := intros; repeat first [rewrite get_set_other by (first [assumption | repeat first [rewrite next_set | rewrite next_push]; lia]) | rewrite get_push_old by (repeat first [rewrite next_set | rewrite next_push]; lia)]; reflexivity.
  Ltac appended := eapply appends_one; [cell|cell|cell|cell| |repeat first [rewrite next_set | rewrite next_push]; reflexivity|frame_tac|constructor];
    cbv [aset str_eqb N.eqb Pos.eqb]; repeat (apply rd_flat; [first [constructor | match goal with R : forall h, rep h _ _ [] |- _ => apply R end]|]); constructor.
  Ltac step3 := let r := now_of in let x := head r in
    first [lazymatch x with
           | truth _ ?v => match goal with T : truth ?h0 v = _ |- _ => change x with (truth h0 v); rewrite T end
           | str_of _ _ ?v => match goal with T : str_of ?E0 ?h0 v = _ |- _ => change x with (str_of E0 h0 v); rewrite T end
           end; lengths; crunch; rewrite ?app_nil_r
          |step2].
  Ltac run3 := lengths; crunch; repeat step3.
Section R.
  Variable E : pyenv.
  Variable rt : Pycep.Main.path -> result str.
  Definition free_of (env : locals) (ls : nat) (mt : meta) (t : token) : Prop :=
    assoc "self" env = Some (VRef ls) /\ assoc "meta" env = Some (VMeta mt) /\ assoc "file_path" env = Some (VTok t) /\ assoc "str" env = None /\ assoc "transform_string_token" env = None.
  (** utils.py, transform_string_token *)
  Definition tok_val (t : token) : val := match transform_string_token (PTok t) with Ok (PStr s) => VStr s | Ok (PElem s) => VElem s | _ => VNone end.
  Lemma tst n t : forall h, pcall E rt (S (S n)) "transform_string_token" [VTok t] [] h = Got (tok_val t, h).
  Proof.
    intros h. destruct t as [tt tv tl te]. assert (St : str_of E h (VTok {| ttype := tt; tval := tv; tline := tl; tend := te |}) = Some tv) by exact (str_of_rep E h _ (PTok {| ttype := tt; tval := tv; tline := tl; tend := te |}) [] (r_tok h _) (fun l => Nat.le_0_l _)). unfold tok_val, transform_string_token. cbn [ttype tval].
    destruct (str_eqb tt (u "MULTI_LINE_STRING")) eqn:E1; [|destruct (str_eqb tt (u "QUOTED_STRING")) eqn:E2; [|destruct (str_eqb tt (u "QUOTED_INTERPOLATION")) eqn:E3]]; cbn [orb negb]; lits; enter; run2.
    all: try reflexivity.
  Qed.
  Lemma tok_ok t : exists p, transform_string_token (PTok t) = Ok p /\ forall h, rep h (tok_val t) p [].
  Proof. unfold tok_val, transform_string_token. destruct (str_eqb _ _); [eexists; split; [reflexivity|constructor]|]. destruct (negb _); eexists; (split; [reflexivity|constructor]). Qed.
  Lemma import_round n (f := fun x s => let! sa := ptarget E rt (S (S (S n))) (EName "name_alias") x s in pblock E rt (S (S (S n)))
      match entry_of pycep "BicepToJson.custom_import" with Some (Function _ _ (_ :: _ :: SFor _ _ b :: _)) => b | _ => [] end sa) ln mt t ls li lc :
    forall env h vi lna dn q nm G, free_of env ls mt t -> self_is h ls ln li lc -> get h li = Some (OList vi) -> get h lna = Some (ODict dn) -> repd h dn q G -> own h (ls :: li :: lna :: G) -> aget (u "name") q = Some nm ->
     match Transformer.import_entry E ln mt (PTok t) (PDict q) with
     | Ok e => exists env' h' ve, f (VRef lna) (env, h) = Got (Next, (env', h')) /\ free_of env' ls mt t /\ appends h li vi h' [ve] [e]
     | Err e => f (VRef lna) (env, h) = Exn e
     end.
  Proof.
    intros env h vi lna dn q nm G Hi Hs Hli Hg Rd O Ha.
    assert (O1 : forall k, cnt (ls :: li :: lna :: G) k <= 1) by (intros k; specialize (O k); destruct (Nat.ltb k (next h)); lia).
    assert (B := own_below _ _ O). assert (Lls : ls < next h) by known B. assert (Lli : li < next h) by known B. assert (Ll : lna < next h) by known B.
    assert (N1 : ne ls li) by (unfold ne; differ). assert (N2 : ne ls lna) by (unfold ne; differ). assert (N3 : ne li lna) by (unfold ne; differ).
    assert (Od : own h G) by (eapply own_sub; [exact O|]; intros k; clear; counts). clear O O1 B.
    pose proof (tst (S n) t) as HT. destruct (tok_ok t) as (pt & Ht & Rt). remember (tok_val t) as vt eqn:Evt. clear Evt.
    pose proof (repd_aget h (u "name") dn q G Rd) as A1. rewrite Ha in A1. destruct A1 as (vn & Gn & An & Rn & Cn).
    pose proof (str_of_rep E h vn nm Gn Rn (own_sub _ _ _ Od Cn)) as Sn.
    pose proof (repd_aget h (u "alias") dn q G Rd) as A2.
    unfold Transformer.import_entry. unfold py_getitem, py_get. rewrite Ha, Ht. cbn [bind].
    unfold f. destruct Hi as (I1 & I2 & I3 & I4 & I5). unfold self_is in Hs.
    match goal with |- context [match entry_of pycep ?x with Some _ => _ | None => _ end] => let b := eval vm_compute in (match entry_of pycep x with Some (Function _ _ (_ :: _ :: SFor _ _ b :: _)) => b | _ => [] end) in
      replace (match entry_of pycep x with Some (Function _ _ (_ :: _ :: SFor _ _ b0 :: _)) => b0 | _ => [] end) with b by (vm_cast_no_check (eq_refl b)) end.
    cbv beta iota zeta delta [assoc String.eqb Ascii.eqb Bool.eqb] in I1, I2, I3, I4, I5.
    set (h2 := push (push h (ODict [(u "file_path", vt)])) (ODict [(u "__name__", VStr (py_str E nm)); (u "__attrs__", VRef (next h))])).
    assert (X2 : ext h h2) by (apply ext_push', ext_push).
    destruct (aget (u "alias") q) as [pa|] eqn:Hal.
    - destruct A2 as (va & Ga & Aa & Ra & Ca). assert (Oa := own_sub _ _ _ Od Ca). assert (Ra2 := rep_ext h h2 va pa Ga (own_below _ _ Oa) X2 Ra). 
      pose proof (truth_rep _ _ _ _ Ra2) as Ta. pose proof (str_of_rep E h2 va pa Ga Ra2 (own_ext _ _ _ Oa X2)) as Sa. clear Ra Ra2 Rn Rd. unfold h2 in Ta, Sa. clear h2 X2.
      destruct (truthy pa); destruct ln; [destruct mt as [[? ?]|]| |destruct mt as [[? ?]|]|]; cbn [Transformer.with_lines bind]; lits.
      all: try (run3; reflexivity).
      all: (eexists _, _, _; split; [run3; reflexivity|]).
      all: split; [repeat split; assumption|].
      all: appended.
    - clear Rn Rd h2 X2. destruct ln; [destruct mt as [[? ?]|]|]; cbn [Transformer.with_lines bind]; lits.
      all: try (run3; reflexivity).
      all: (eexists _, _, _; split; [run3; reflexivity|]).
      all: split; [repeat split; assumption|].
      all: appended.
  Qed.
End R.
