(** Comprehensions and loops over values of the model. *)
From Coq Require Import List NArith ZArith Bool String Lia.
From Verif Require Import Py.Str Py.Val Python.Syntax Python.Eval Python.Program Proofs.Base Proofs.PyHeap Proofs.PyRun.
Import ListNotations.
Local Open Scope string_scope.

(** [I]: what is kept of the local names. *)
Lemma comp_dict_g (I : locals -> Prop) (f : val -> state -> out (option (str * val) * state)) key g h :
  (forall i v p G env, rep h v p G -> own h G -> I env ->
     exists env', f (VTup [VInt i; v]) (env, h) = Got (match g v p with Some w => Some (key i, w) | None => None end, (env', h)) /\ I env') ->
  forall vs ps F, reps h vs ps F -> own h F -> forall i d env, I env ->
  exists env', comp_dict f (enum i vs) d (env, h) = Got (merge d (vnumo key g i vs ps), (env', h)) /\ I env'.
Proof.
  intros Hf. induction vs as [|v vs IH]; intros ps F R O i d env Hi; inversion R as [|? p F0 ? ps' G0 Hv Hs]; subst; cbn [enum comp_dict vnumo]; [now exists env|].
  destruct (Hf i v p F0 env Hv (own_app_l _ _ _ O) Hi) as (env1 & -> & Hi1).
  destruct (g v p) as [w|].
  - destruct (IH ps' G0 Hs (own_app_r _ _ _ O) (i + 1)%Z (aset (key i) w d) env1 Hi1) as (env2 & -> & Hi2). now exists env2.
  - destruct (IH ps' G0 Hs (own_app_r _ _ _ O) (i + 1)%Z d env1 Hi1) as (env2 & -> & Hi2). now exists env2.
Qed.
Lemma comp_list_g (I : locals -> Prop) (f : val -> state -> out (option val * state)) (g : val -> pyval -> val) h :
  (forall v p G env, rep h v p G -> own h G -> I env -> exists env', f v (env, h) = Got (Some (g v p), (env', h)) /\ I env') ->
  forall vs ps F, reps h vs ps F -> own h F -> forall env, I env ->
  exists env', comp_list f vs (env, h) = Got (vmap g vs ps, (env', h)) /\ I env'.
Proof.
  intros Hf. induction vs as [|v vs IH]; intros ps F R O env Hi; inversion R as [|? p F0 ? ps' G0 Hv Hs]; subst; cbn [comp_list vmap]; [now exists env|].
  destruct (Hf v p F0 env Hv (own_app_l _ _ _ O) Hi) as (env1 & -> & Hi1).
  destruct (IH ps' G0 Hs (own_app_r _ _ _ O) env1 Hi1) as (env2 & -> & Hi2). now exists env2.
Qed.
Definition key_from (key : Z -> str) (pre : str) (i : Z) (n : N) : Prop := forall j, key (i + Z.of_N j)%Z = (pre ++ dec (n + j))%list.
Lemma key_from_here key pre i n : key_from key pre i n -> key i = (pre ++ dec n)%list.
Proof. intros K. specialize (K 0%N). now rewrite Z.add_0_r, N.add_0_r in K. Qed.
Lemma key_from_next key pre i n : key_from key pre i n -> key_from key pre (i + 1) (N.succ n).
Proof. intros K j. replace (i + 1 + Z.of_N j)%Z with (i + Z.of_N (N.succ j))%Z by lia. rewrite K. f_equal. f_equal. lia. Qed.
Lemma repd_truthy h key pre : forall vs ps F i n, reps h vs ps F -> key_from key pre i n ->
  exists F', repd h (vnumo key (fun v p => if truthy p then Some v else None) i vs ps) (filter (fun kv => truthy (snd kv)) (numbered pre n ps)) F' /\ forall l, cnt F' l <= cnt F l.
Proof.
  induction vs as [|v vs IH]; intros ps F i n R K; inversion R as [|? p F0 ? ps' G0 Hv Hs]; subst; cbn [vnumo numbered filter snd]; [exists []; split; [constructor|reflexivity]|].
  destruct (IH ps' G0 (i + 1)%Z (N.succ n) Hs (key_from_next _ _ _ _ K)) as (F' & A & B).
  replace (n + 1)%N with (N.succ n) in * by lia.
  destruct (truthy p).
  - rewrite (key_from_here _ _ _ _ K). exists (F0 ++ F')%list. split; [now constructor|]. intros l. rewrite !cnt_app. specialize (B l). lia.
  - exists F'. split; [exact A|]. intros l. rewrite cnt_app. specialize (B l). lia.
Qed.
Lemma repd_strs E h key pre : forall vs ps F i n, reps h vs ps F -> key_from key pre i n ->
  repd h (vnumo key (fun v p => Some (VStr (py_str E p))) i vs ps) (numbered pre n (map (fun p => PStr (py_str E p)) ps)) [].
Proof.
  induction vs as [|v vs IH]; intros ps F i n R K; inversion R as [|? p F0 ? ps' G0 Hv Hs]; subst; cbn [vnumo numbered map]; [constructor|].
  rewrite (key_from_here _ _ _ _ K). change (@nil nat) with (@nil nat ++ [])%list. constructor; [constructor|]. eapply IH; [exact Hs|]. apply key_from_next, K.
Qed.

Lemma for_fold {A} (f : val -> state -> out (flow * state)) (next : A -> A) (I : A -> state -> Prop) :
  (forall a x st, I a st -> exists st', f x st = Got (Next, st') /\ I (next a) st') ->
  forall vs a st, I a st -> exists st', for_loop f vs st = Got (Next, st') /\ I (fold_left (fun a _ => next a) vs a) st'.
Proof.
  intros Hf. induction vs as [|v vs IH]; intros a st Hi; cbn [for_loop fold_left]; [now exists st|].
  destruct (Hf a v st Hi) as (st1 & -> & Hi1). apply IH, Hi1.
Qed.
Lemma reps_length h vs ps F : reps h vs ps F -> List.length vs = List.length ps.
Proof. revert ps F. induction vs; intros ps F R; inversion R; subst; [reflexivity|]. cbn. f_equal. eauto. Qed.
Lemma fold_same {A B C} (g : A -> A) : forall (l : list B) (l' : list C) a, List.length l = List.length l' -> fold_left (fun a _ => g a) l a = fold_left (fun a _ => g a) l' a.
Proof. induction l as [|x l IH]; intros [|y l'] a H; try discriminate; [reflexivity|]. cbn. apply IH. now injection H. Qed.
