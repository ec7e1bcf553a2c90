(** Programs with the layout of Spec/Syntax.v are programs as Spec/Reading.v reads them. *)
From Coq Require Import List Arith Bool.
From Verif Require Import Py.Str Spec.Types Spec.Syntax Spec.Reading Proofs.SyntaxInd.
Import ListNotations.

Lemma forallb_imp {A} (f g : A -> bool) (P : A -> Prop) l : Forall P l -> (forall x, P x -> f x = true -> g x = true) -> forallb f l = true -> forallb g l = true.
Proof. intros HF H. induction HF as [|x l Hx HF IH]; cbn [forallb]; [reflexivity|]. rewrite !andb_true_iff. intros [? ?]; auto. Qed.
Lemma items_some rows : items_ok rows = true -> forallb (fun r => negb (is_child (fst r)) || some (snd r)) rows = true.
Proof.
  induction rows as [|[i brs] rows IH]; cbn [items_ok forallb fst snd]; [reflexivity|]. rewrite !andb_true_iff. intros [H1 H2]. split; [|auto].
  destruct brs; [|apply orb_true_r]. cbn [some orb] in H1. apply andb_true_iff in H1 as [_ H1]. destruct i; [reflexivity|discriminate].
Qed.
Lemma forallb_both {A} (f g : A -> bool) l : forallb f l = true -> forallb g l = true -> forallb (fun x => f x && g x) l = true.
Proof. induction l; cbn [forallb]; [reflexivity|]. rewrite !andb_true_iff. intros [? ?] [? ?]; auto. Qed.
Lemma wf_shaped : forall e, wf e = true -> shaped e = true.
Proof.
  apply (expr_induction (fun e => wf e = true -> shaped e = true) (fun i => item_wf i = true -> item_shaped i = true)).
  all: intros; cbn [wf shaped item_wf item_shaped] in *; auto; rewrite ?andb_true_iff in *;
    repeat match goal with H : _ /\ _ |- _ => destruct H end; repeat match goal with H : _ /\ _ |- _ => destruct H end; auto 10.
  - eapply forallb_imp; [eassumption| |eassumption]. intros [[x xs] brs] [IHx IHxs]. cbn [fst snd] in *. rewrite !andb_true_iff. intros [[? ?] ?]. repeat split; auto.
    eapply forallb_imp; [exact IHxs| |eassumption]. cbv beta. intros y IHy. rewrite !andb_true_iff. intros [? ?]. auto.
  - apply forallb_both; [|apply items_some; assumption]. eapply forallb_imp; [eassumption| |eassumption]. cbv beta. auto.
  - split.
    + destruct first; rewrite ?andb_true_iff in *; repeat match goal with H : _ /\ _ |- _ => destruct H end; auto.
      rewrite !orb_true_iff. auto.
    + eapply forallb_imp; [eassumption| |eassumption]. cbv beta. intros y IHy. rewrite !andb_true_iff. intros [[? ?] ?]. auto.
  - repeat split; auto.
    + destruct first; rewrite ?andb_true_iff in *; repeat match goal with H : _ /\ _ |- _ => destruct H end; auto.
    + eapply forallb_imp; [eassumption| |eassumption]. cbv beta. intros y IHy. rewrite !andb_true_iff. intros [? ?]. auto.
  - repeat split; auto. eapply forallb_imp; [eassumption| |eassumption]. cbv beta. intros z IHz. rewrite !andb_true_iff. intros [? ?]. auto.
  - repeat split; auto. rewrite orb_true_iff, !andb_true_iff in *. rewrite orb_true_iff. tauto.
  - repeat split; auto. destruct cond; rewrite ?andb_true_iff in *; repeat match goal with H : _ /\ _ |- _ => destruct H end; auto.
  - repeat split; auto. eapply forallb_imp; [eassumption| |eassumption]. cbv beta. intros [[k' v'] q'] IHv. cbn [fst snd] in *. rewrite !andb_true_iff. intros [? ?]. auto.
Qed.
Lemma value_ok_shaped e : value_ok e = true -> value_shaped e = true.
Proof. unfold value_ok, value_shaped. rewrite !andb_true_iff. intros [? ?]. auto using wf_shaped. Qed.
Lemma deco_wf_shaped d : deco_wf d = true -> deco_shaped d = true.
Proof.
  unfold deco_wf, deco_shaped. rewrite !andb_true_iff. intros [H1 H2]. split; [|exact H2].
  destruct (d_arg d); [|rewrite H1; reflexivity]. apply andb_true_iff in H1 as [H1 _]. apply value_ok_shaped, H1.
Qed.
Lemma forallb_mono {A} (f g : A -> bool) l : (forall x, f x = true -> g x = true) -> forallb f l = true -> forallb g l = true.
Proof. intros H. apply (forallb_imp f g (fun _ => True)); [apply Forall_forall; auto|auto]. Qed.
Lemma decl_wf_shaped d : decl_wf d = true -> decl_shaped d = true.
Proof.
  destruct d; cbn [decl_wf decl_shaped]; auto; rewrite ?andb_true_iff; intros; repeat match goal with H : _ /\ _ |- _ => destruct H end; repeat split;
    eauto using wf_shaped, value_ok_shaped, (forallb_mono deco_wf deco_shaped _ deco_wf_shaped), (forallb_mono value_ok value_shaped _ value_ok_shaped).
  - destruct config as [[]|]; auto; try discriminate. apply wf_shaped. assumption.
  - destruct default; auto using value_ok_shaped.
Qed.
