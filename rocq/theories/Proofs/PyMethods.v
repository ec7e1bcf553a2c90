(** The methods of BicepToJson: what is said of running their text, and the tactics
    for it. *)
From Coq Require Import List NArith ZArith Bool String Lia.
From Verif Require Import Py.Str Py.Val Python.Syntax Python.Eval Python.Program Proofs.Base Proofs.PyHeap Proofs.PyRun Proofs.PyLoops.
From Verif Require Import Pycep.Utils Lark.Tree.
From Verif Require Pycep.Transformer.
Import ListNotations.
Local Open Scope string_scope.

(** A method that gets the list of arguments. *)
Definition cb_like (E : pyenv) (rt : Pycep.Main.path -> result str) (f : string) (m : list pyval -> result pyval) : Prop :=
  forall n h ls l vs ps F, get h l = Some (OList vs) -> reps h vs ps F -> own h (l :: F) ->
  gives h (l :: F) (m ps) (pcall E rt (S (S (S (S n)))) ("BicepToJson." ++ f) [VRef ls; VRef l] [] h).
(** The object [self]. *)
Definition self_at (h : heap) (ls : nat) (ln : bool) : Prop :=
  exists attrs, get h ls = Some (OInst "BicepToJson" (("add_line_numbers", VBool ln) :: attrs)) /\ ls < next h.
(** A method that gets Meta and the list of arguments (v_args(meta=True)). *)
Definition mcb_like (E : pyenv) (rt : Pycep.Main.path -> result str) (f : string) (m : bool -> meta -> list pyval -> result pyval) : Prop :=
  forall n h ln ls mt l vs ps F, self_at h ls ln -> get h l = Some (OList vs) -> reps h vs ps F -> own h (l :: F) ->
  gives h (l :: F) (m ln mt ps) (pcall E rt (S (S (S (S n)))) ("BicepToJson." ++ f) [VRef ls; VMeta mt; VRef l] [] h).

Ltac method_name := lazymatch goal with |- context [("BicepToJson." ++ ?f)%string] => let r := eval compute in ("BicepToJson." ++ f)%string in change ("BicepToJson." ++ f)%string with r end.
Ltac cb0 := let vs := fresh "vs" in intros n h ls l vs ps F Hl R O; assert (Ll := own_head _ _ _ O); method_name; enter.
Ltac args d := lazymatch goal with _ : reps _ ?vs _ _ |- _ => split_args d vs end.
Ltac cb d := cb0; args d; finish.
Ltac mcb0 := let vs := fresh "vs" in intros n h ln ls mt l vs ps F Hs Hl R O; assert (Ll := own_head _ _ _ O); method_name; enter;
  destruct Hs as (? & Hs & Hb); destruct ln; [destruct mt as [[? ?]|]|].
Ltac mcb d := mcb0; args d; finish.

(** The values of two keys of a dict. *)
Ltac two_keys k1 k2 := try match goal with RD : repd ?h ?d ?q ?F |- _ =>
  let A1 := fresh "A" in let A2 := fresh "A" in
  let x1 := eval compute in (u k1) in let x2 := eval compute in (u k2) in
  destruct (aget x1 q) eqn:A1; [destruct (aget x2 q) eqn:A2; [destruct (repd_two h x1 x2 _ _ eq_refl d q F RD A1 A2) as (? & ? & ? & ? & ? & ? & ? & ? & ?)|]|] end.

(** Numbered operands. *)
Ltac num_cb d pre k st i :=
  cb0; args d;
  [..|let key := eval cbv -[dec_Z app Z.add] in (fun z : Z => (u pre ++ dec_Z (k z))%list) in
      let pre' := eval cbv in (u pre) in
      run; [comp_step key; run; rewrite ?merge_nil; num_model;
            match goal with Q : reps _ _ _ _ |- _ => num_have Q key pre' i st end; done_tac]];
  finish.

(** Names that are not local. *)
Fixpoint free (xs : list string) (env : locals) : Prop :=
  match xs with [] => True | x :: r => assoc x env = None /\ free r env end.
Ltac free_tac := cbn [free assoc String.eqb Ascii.eqb Bool.eqb]; repeat split; try assumption; try reflexivity.
Ltac norm_free := lazymatch goal with H : free _ ?env |- _ => pose proof H as Hfree; cbn [free] in Hfree;
  cbv beta iota zeta delta [assoc String.eqb Ascii.eqb Bool.eqb] in Hfree; repeat match type of Hfree with _ /\ _ => let H1 := fresh "Hf" in destruct Hfree as [H1 Hfree] end; clear Hfree;
  cbn [free] in H; repeat match type of H with _ /\ _ => let H1 := fresh "Hg" in destruct H as [H1 H] end; clear H end.
Ltac body := cbv beta; eexists; split; [run; rewrite ?app_nil_r; reflexivity|free_tac].
Ltac comp_g x key g Q :=
  lazymatch goal with |- context [comp_dict ?f (enum ?i ?vs) ?d ?st] =>
    lazymatch type of Q with reps ?h0 _ ?ps ?F =>
    let e := fresh "env" in let C := fresh "C" in let Qr := fresh "Q" in let Qo := fresh "Q" in
    lazymatch st with (?env, ?h) =>
      assert (Qr : reps h vs ps F) by (apply (reps_ext h0 h vs ps F); [below_tac|ext_tac|exact Q]);
      assert (Qo : own h F) by (apply (own_ext h0 h F); [own_tac|ext_tac]);
      destruct (fun K => comp_dict_g (free x) f key g h K vs ps F Qr Qo i d env ltac:(free_tac)) as (e & C & _) end;
      [clear Qr Qo; intros ? ? ? ? ? ? ? ?; norm_free; body
      |lazymatch type of C with _ = ?r => replace (comp_dict f (enum i vs) d st) with r by (symmetry; exact C) end; clear C Qr Qo] end
  end.
Ltac list_g x g Q :=
  lazymatch goal with |- context [comp_list ?f ?vs ?st] =>
    lazymatch type of Q with reps ?h0 _ ?ps ?F =>
    let e := fresh "env" in let C := fresh "C" in let Qr := fresh "Q" in let Qo := fresh "Q" in
    lazymatch st with (?env, ?h) =>
      assert (Qr : reps h vs ps F) by (apply (reps_ext h0 h vs ps F); [below_tac|ext_tac|exact Q]);
      assert (Qo : own h F) by (apply (own_ext h0 h F); [own_tac|ext_tac]);
      destruct (fun K => comp_list_g (free x) f g h K vs ps F Qr Qo env ltac:(free_tac)) as (e & C & _) end;
      [clear Qr Qo; intros ? ? ? ? ? ? ?; norm_free; cbv beta
      |lazymatch type of C with _ = ?r => replace (comp_list f vs st) with r by (symmetry; exact C) end; clear C Qr Qo] end
  end.
Ltac merge_have M :=
  lazymatch type of M with repd ?h ?e ?r _ =>
    let D := fresh "D" in let F' := fresh "F" in let M' := fresh "M" in let B := fresh "B" in
    match goal with |- context [merge ?d e] =>
      lazymatch goal with |- context [merge ?q r] =>
        eassert (D : repd h d q _) by rep_tac; destruct (repd_merge h _ _ _ _ _ _ M D) as (F' & M' & B) end end
  end.

Ltac aset_have M R :=
  lazymatch type of M with repd ?h ?d ?q _ => lazymatch type of R with rep h ?v ?p ?G =>
    let F' := fresh "F" in let M' := fresh "M" in let B := fresh "B" in
    lazymatch goal with |- context [aset ?k v d] =>
      destruct (repd_aset h k v p G R d q _ M) as (F' & M' & B) end end
  end.
