(** pycep/transformer.py: running its text is calling the model's callbacks.
    Part 7: custom_func. *)
From Coq Require Import List NArith ZArith Bool String Ascii Lia.
From Verif Require Import Py.Str Py.Val Python.Syntax Python.Eval Python.Program Proofs.Base Proofs.PyHeap Proofs.PyRun Proofs.PyLoops Proofs.PyMethods.
From Verif Require Import Pycep.Utils Lark.Tree.
From Verif Require Import Proofs.PyCallbacks3.
From Verif Require Pycep.Transformer.
Import ListNotations.
Local Open Scope string_scope.

(** [zip(it, it, strict=True)] *)
Fixpoint twos (vs : list val) : option (list (val * val)) :=
  match vs with [] => Some [] | [_] => None | a :: b :: r => match twos r with Some l => Some ((a, b) :: l) | None => None end end.
Lemma zip_two it : forall n vs h, List.length vs < n -> get h it = Some (OIter vs) ->
  match twos vs with
  | Some l => exists h', zip_strict n [VRef it; VRef it] h = Got (map (fun ab => VTup [fst ab; snd ab]) l, h') /\ next h' = next h /\ forall k, k <> it -> get h' k = get h k
  | None => zip_strict n [VRef it; VRef it] h = Exn ve
  end.
Proof.
  induction n as [|n IH]; intros vs h Hl Hg; [lia|]. destruct vs as [|a [|b vs]].
  - cbn. rewrite Hg. cbn. rewrite Hg. cbn. exists h. now repeat split.
  - cbn [twos zip_strict zip_round]. rewrite Hg. now rewrite get_set_same.
  - cbn [twos]. cbn [zip_strict zip_round]. rewrite Hg, get_set_same.
    specialize (IH vs (set (set h it (OIter (b :: vs))) it (OIter vs)) ltac:(cbn in Hl; lia) (get_set_same _ _ _)).
    destruct (twos vs) as [l|].
    + destruct IH as (h' & -> & A & B). exists h'. repeat split; [now rewrite A|]. intros k Hk. rewrite B by exact Hk. now rewrite !get_set_other by exact Hk.
    + now rewrite IH.
Qed.
Section C.
  Variable E : pyenv.
  Variable rt : Pycep.Main.path -> result str.
  Lemma rev_last {h v vs qs F q} : reps h (v :: vs) qs F -> last qs PNone = q -> rev qs = q :: rev (removelast qs).
  Proof. intros R <-. inversion R; subst. apply (rev_removelast p ps PNone). Qed.
  Lemma comp_pairs (I : locals -> Prop) (f : val -> state -> out (option (str * val) * state)) h :
    (forall a p G b env, rep h a p G -> own h G -> I env ->
       exists env', f (VTup [a; b]) (env, h) = Got (Some (py_str E p, b), (env', h)) /\ I env') ->
    forall n vs ps F, List.length vs < n -> reps h vs ps F -> own h F ->
    match Transformer.zip_pairs E ps with
    | Ok qs => exists l d F', twos vs = Some l /\ repd h d qs F' /\ (forall l, cnt F' l <= cnt F l) /\
        forall d0 env, I env -> exists env', comp_dict f (map (fun ab => VTup [fst ab; snd ab]) l) d0 (env, h) = Got (merge d0 d, (env', h)) /\ I env'
    | Err e => twos vs = None /\ e = ve
    end.
  Proof.
    intros Hf. induction n as [|n IH]; intros vs ps F Hn R O; [lia|].
    inversion R as [|a p F0 vs1 ps1 G0 Ha R1]; subst; cbn [Transformer.zip_pairs twos].
    - exists [], [], []. repeat split; [constructor|intros; cbn; lia|]. intros d0 env Hi. exists env. now split.
    - inversion R1 as [|b q F1 vs2 ps2 G1 Hb R2]; subst; [now split|].
      specialize (IH vs2 ps2 G1 ltac:(cbn in Hn; lia) R2 ltac:(eapply own_app_r, own_app_r; exact O)).
      destruct (Transformer.zip_pairs E ps2) as [qs|e]; cbn [bind].
      + destruct IH as (l & d & F' & -> & B & C & D). exists ((a, b) :: l), ((py_str E p, b) :: d), (F1 ++ F')%list. repeat split.
        * now constructor.
        * intros j. rewrite !cnt_app. specialize (C j). lia.
        * intros d0 env Hi. cbn [map fst snd comp_dict]. destruct (Hf a p F0 b env Ha (own_app_l _ _ _ O) Hi) as (env1 & -> & Hi1).
          destruct (D (aset (py_str E p) b d0) env1 Hi1) as (env2 & -> & Hi2). now exists env2.
      + destruct IH as [-> ->]. now split.
  Qed.
  Lemma twos_zip : forall n vs ps h F, List.length vs < n -> reps h vs ps F ->
    match Transformer.zip_pairs E ps with Ok _ => exists l, twos vs = Some l | Err e => twos vs = None /\ e = ve end.
  Proof.
    induction n as [|n IH]; intros vs ps h F Hn R; [lia|].
    inversion R as [|a p F0 vs1 ps1 G0 Ha R1]; subst; cbn [Transformer.zip_pairs twos]; [eauto|].
    inversion R1 as [|b q F1 vs2 ps2 G1 Hb R2]; subst; [now split|].
    specialize (IH vs2 ps2 h G1 ltac:(cbn in Hn; lia) R2). destruct (Transformer.zip_pairs E ps2) as [qs|e]; cbn [bind]; [destruct IH as [l ->]; eauto|destruct IH as [-> ->]; now split].
  Qed.
  Lemma text_custom_func : mcb_like E rt "custom_func" (fun ln => Transformer.cb_custom_func E ln).
  Proof.
    let vs := fresh "vs" in intros n h ln ls mt l vs ps F Hs Hl R O; assert (Ll := own_head _ _ _ O); method_name; enter.
    destruct Hs as (? & Hs & Hb).
    args 2; [now finish|now finish|]. unfold Transformer.cb_custom_func.
    destruct vs as [|va vs].
    { apply reps_nil in R2 as [-> ->]. cbn [rev]. finish. }
    destruct (reps_snoc h _ _ _ R2 ltac:(discriminate)) as (w & q & G1 & H1 & E1 & E2 & Rw & Rm & B).
    assert (Hz : rev (va :: vs) = w :: rev (removelast (va :: vs))) by (rewrite (rev_removelast va vs VNone), E2; reflexivity).
    assert (Hp : rev qs0 = q :: rev (removelast qs0)) by (apply (rev_last R2 E1)).
    rewrite Hp. remember (va :: vs) as zs eqn:Ez. remember (removelast zs) as ys eqn:Ey. remember (removelast qs0) as yq eqn:Eyq.
    clear Hp Ez Ey Eyq E1 E2 va vs. 
    destruct ys as [|va vs].
    { apply reps_nil in Rm as [-> ->]. cbn [rev]. run.
      done_tac. }
    destruct (reps_snoc h _ _ _ Rm ltac:(discriminate)) as (w' & q' & G2 & H2 & E1 & E2 & Rw' & Rm' & B').
    assert (Hz' : rev (va :: vs) = w' :: rev (removelast (va :: vs))) by (rewrite (rev_removelast va vs VNone), E2; reflexivity).
    assert (Hp : rev yq = q' :: rev (removelast yq)) by (apply (rev_last Rm E1)).
    rewrite Hp, rev_involutive. remember (va :: vs) as us eqn:Ez. remember (removelast us) as ts eqn:Ey. remember (removelast yq) as tq eqn:Eyq.
    clear Hp Ez Ey Eyq E1 E2 va vs.
    assert (Tz := twos_zip (S (List.length ts)) ts tq h H2 ltac:(lia) Rm').
    remember (Transformer.zip_pairs E tq) as zp eqn:Ezp.
    run; rewrite ?rev_involutive;
    (match goal with |- context [zip_strict ?fu [VRef ?it; VRef ?it] ?h0] =>
      let Z := fresh "Z" in let Hfu := fresh "Hfu" in
      eassert (Hfu : fu = S (List.length ts + (List.length ts + 0))) by (repeat (let H := fresh in match goal with |- context [get ?h ?l] => eassert (H : get h l = Some _) by cell; rewrite H; clear H; rewrite ?rev_involutive; cbv beta iota end); reflexivity);
      assert (Z := zip_two it fu ts h0 ltac:(rewrite Hfu; lia) ltac:(cell)); clear Hfu;
      destruct zp as [qs|e]; [destruct Tz as [zl Tz]; rewrite Tz in Z; destruct Z as (h' & Z & Nx & K); rewrite Z; clear Z |destruct Tz as [Tz ->]; rewrite Tz in Z; rewrite Z; reflexivity]
    end).
    all: ((remember (map (fun ab => VTup [fst ab; snd ab]) zl) as items eqn:Ei; run);
      (assert (X : ext h h') by (split; [rewrite Nx; lt_tac|intros k Hk; rewrite K by lt_tac; rewrite !get_push_old by lt_tac; reflexivity]));
      (assert (Rt : reps h' ts tq H2) by (refine (reps_ext _ _ _ _ _ _ X Rm'); below_tac); assert (Ot : own h' H2) by (refine (own_ext _ _ _ _ X); own_tac));
      (match goal with |- context [comp_dict ?f ?items [] (?env, ?hh)] =>
      assert (Cp := fun Hf => comp_pairs (free ["str"]) f h' Hf (S (List.length ts)) ts tq H2 ltac:(lia) Rt Ot); rewrite <- Ezp in Cp;
      destruct Cp as (l' & d & Fd & Tz' & Rd & Cd & Dd); [intros ? ? ? ? ? ? ? ?; norm_free; body|];
      rewrite Tz in Tz'; injection Tz' as <-; rewrite <- Ei in Dd; destruct (Dd [] env ltac:(free_tac)) as (env' & Cc & _) end);
      (match type of Cc with _ = ?r => match goal with |- context [comp_dict ?f ?items ?d0 ?st] => replace (comp_dict f items d0 st) with r by (symmetry; exact Cc) end end);
      (clear Cc Dd);
      (destruct (repd_merge h' _ _ _ _ _ _ Rd (rd_nil h')) as (G' & M & BM); change (merge [] qs) with (dict_of qs) in M);
      (assert (Oh : own h' (l :: G ++ G0 ++ H0)) by (eapply own_ext; eassumption));
      (assert (Hs' : get h' ls = Some (OInst "BicepToJson" (("add_line_numbers", VBool ln) :: x))) by (rewrite (proj2 X) by assumption; exact Hs));
      (remember (dict_of qs) as dq eqn:Edq; remember (merge [] d) as md eqn:Emd; clear Edq Emd);
      (destruct ln; [destruct mt as [[? ?]|]|]; run)).
    all: done_tac.
  Qed.
End C.
