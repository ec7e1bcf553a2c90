(** Tokens and blanks start with ASCII characters. *)
From Coq Require Import List Arith NArith ZArith Bool String Lia.
From Verif Require Import Py.Str Py.Val Spec.Text Spec.Lexemes Spec.Sentences Spec.Spelling Spec.Reading Spec.Errors Proofs.Base.
Import ListNotations.
Local Open Scope string_scope.

Definition ascii_first (s : str) : Prop := exists x r, s = x :: r /\ (x < 128)%N.
Lemma ascii_app a b : ascii_first a -> ascii_first (a ++ b)%list.
Proof. intros (x & r & -> & H). exists x, (r ++ b)%list. split; [reflexivity|exact H]. Qed.
Lemma alnum_ascii c : alnum c = true -> (c < 128)%N.
Proof. unfold alnum, is_alpha, is_lower, is_upper, is_digit, in_range. rewrite ?orb_true_iff, ?andb_true_iff, ?N.leb_le. lia. Qed.
Lemma plain_first n : plain_name n -> ascii_first n.
Proof. intros [Hn Hf]. destruct n as [|x r]; [contradiction|]. inversion Hf; subst. exists x, r. split; [reflexivity|apply alnum_ascii; assumption]. Qed.
Lemma feeds_first f : feeds f -> ascii_first f.
Proof. induction 1; [eexists _, _; split; [reflexivity|vm_compute; reflexivity]..|]. apply ascii_app. assumption. Qed.
Lemma u_first s : Forall (fun c => c < 128)%N (u s) -> u s <> [] -> ascii_first (u s).
Proof. intros Hf Hn. destruct (u s) as [|x r]; [contradiction|]. inversion Hf; subst. exists x, r. split; [reflexivity|assumption]. Qed.
Definition asciib (s : string) : bool := match u s with [] => false | x :: _ => (x <? 128)%N end.
Lemma in_first s l : In s l -> forallb asciib l = true -> ascii_first (u s).
Proof. intros Hi Hb. rewrite forallb_forall in Hb. specialize (Hb s Hi). unfold asciib in Hb. destruct (u s) as [|x r]; [discriminate Hb|]. exists x, r. split; [reflexivity|apply N.ltb_lt; exact Hb]. Qed.
Lemma token_first E w : token_ok E w -> ascii_first (text w).
Proof.
  destruct w; cbn [token_ok text].
  - intros H. apply (in_first _ _ H). vm_compute. reflexivity.
  - intros H. apply (in_first _ _ H). vm_compute. reflexivity.
  - intros _. eexists _, _. split; [reflexivity|vm_compute; reflexivity].
  - intros (c & r & -> & Hl & _). exists c, r. split; [reflexivity|]. unfold letter, is_alpha, is_lower, is_upper, in_range in Hl. rewrite ?orb_true_iff, ?andb_true_iff, ?N.leb_le, ?N.eqb_eq in Hl. lia.
  - intros (c & r & -> & Hl & _). exists c, r. split; [reflexivity|]. unfold letter, is_alpha, is_lower, is_upper, in_range in Hl. rewrite ?orb_true_iff, ?andb_true_iff, ?N.leb_le, ?N.eqb_eq in Hl. lia.
  - intros (c & r & -> & Hl & _). exists c, r. split; [reflexivity|]. unfold letter, is_alpha, is_lower, is_upper, in_range in Hl. rewrite ?orb_true_iff, ?andb_true_iff, ?N.leb_le, ?N.eqb_eq in Hl. lia.
  - intros [Hn Hf]. destruct v as [|x r]; [contradiction|]. inversion Hf as [|? ? Hd]; subst. exists x, r. split; [reflexivity|]. unfold is_digit, in_range in Hd. rewrite andb_true_iff, !N.leb_le in Hd. lia.
  - intros _. eexists _, _. split; [reflexivity|vm_compute; reflexivity].
  - intros _. eexists _, _. split; [reflexivity|vm_compute; reflexivity].
  - intros (ns & n & -> & Hi & Hn). apply ascii_app. destruct Hi as [<-|[<-|[<-|[]]]]; [apply plain_first; exact Hn|eexists _, _; split; [reflexivity|vm_compute; reflexivity]..].
  - intros [Hn Hf]. destruct v as [|x r]; [contradiction|]. inversion Hf as [|? ? Hd]; subst. exists x, r. split; [reflexivity|]. apply alnum_ascii. unfold alnum. rewrite Hd. reflexivity.
  - intros (ns & n & -> & Hi & Hn). destruct Hi as [<-|[<-|[]]]; [apply plain_first; exact Hn|eexists _, _; split; [reflexivity|vm_compute; reflexivity]].
  - intros [f Hf|body f _ _]; [apply feeds_first; exact Hf|eexists _, _; split; [reflexivity|vm_compute; reflexivity]].
  - apply feeds_first.
Qed.
Lemma piece_first a : blank_piece a -> ascii_first a.
Proof. intros []; (eexists _, _; split; [reflexivity|vm_compute; reflexivity]). Qed.
Lemma blank_first b : blank b -> b = [] \/ ascii_first b.
Proof. intros [|a s Ha _]; [left; reflexivity|right]. apply ascii_app, piece_first. exact Ha. Qed.
Lemma reads_first E ts s : reads_as E ts s -> s = [] \/ ascii_first s.
Proof.
  intros [b Hb|b t ts' rest Hb Ht _]; [apply blank_first; exact Hb|right]. destruct (blank_first b Hb) as [->|H]; [|apply ascii_app; exact H].
  cbn [app]. apply ascii_app, (token_first E). exact Ht.
Qed.
Lemma ascii_not x r : ascii_first (x :: r) -> (x < 128)%N.
Proof. intros (y & r' & H & Hy). injection H as <- _. exact Hy. Qed.
