(** The tokens of the tree are tokens of the text. *)
From Coq Require Import List Arith NArith PArith Bool String Lia.
From Verif Require Import Py.Str Py.Val Lark.Regex Lark.Terminals Lark.Lexer Lark.Ebnf Lark.Tree
     Lark.Lalr Lark.BicepGrammar Lark.BicepTables Lark.Driver Lark.Shape
     Spec.Text Spec.Trees Spec.Schema
     Proofs.Base Proofs.Regex Proofs.LR Proofs.Lexer Proofs.Parse Proofs.Grammar.
Import ListNotations.

Lemma subseq_refl {A} (l : list A) : subseq l l.
Proof. induction l; constructor; assumption. Qed.
Lemma subseq_app {A} (a a' b b' : list A) : subseq a a' -> subseq b b' -> subseq (a ++ b) (a' ++ b').
Proof.
  intros Ha Hb. induction Ha as [l|x a a' Ha IH|x a a' Ha IH]; cbn [app].
  - induction l as [|x l IH]; cbn [app]; [exact Hb|constructor; exact IH].
  - constructor. exact IH.
  - constructor. exact IH.
Qed.
Lemma subseq_drop_l {A} (a b c : list A) : subseq a c -> subseq a (b ++ c).
Proof. intros H. exact (subseq_app [] b a c (sub_nil b) H). Qed.
Lemma subseq_in {A} (a b : list A) x : subseq a b -> In x a -> In x b.
Proof.
  intros H. induction H; intros Hin; [contradiction| |right; auto].
  destruct Hin as [->|Hin]; [left; reflexivity|right; auto].
Qed.

Definition tree_toks (v : sval) : list token := toks (sv_tree v).
Lemma select_toks raw : forall vs ls, Forall2 (fun v l => subseq (tree_toks v) l) vs ls ->
  subseq (flat_map toks (select raw vs)) (List.concat ls).
Proof.
  induction raw as [|r raw IH]; intros vs ls H; cbn [select]; [constructor|].
  destruct r as [|x sl].
  - cbn [flat_map toks app]. apply IH. exact H.
  - destruct H as [|v l vs ls Hv H]; [constructor|]. cbn [List.concat]. destruct sl.
    + cbn [flat_map]. apply subseq_app; [exact Hv|auto].
    + apply subseq_drop_l. auto.
    + rewrite flat_map_app. apply subseq_app; [|auto].
      unfold spliced, tree_toks in *. destruct (sv_tree v) as [l0 m cs|t|]; [exact Hv|constructor|constructor].
Qed.
Lemma build_toks p cs : toks (build_node p cs) = flat_map toks cs.
Proof.
  unfold build_node. destruct (p_expand1 p), (p_alias p), cs as [|c [|d cs]]; try reflexivity.
  cbn [flat_map]. rewrite app_nil_r. reflexivity.
Qed.
Lemma propagate_toks raw t : tree_toks (propagate raw t) = toks t.
Proof. destruct t; reflexivity. Qed.

Lemma shape_toks : forall c, subseq (tree_toks (shape c)) (map snd (leaves c)).
Proof.
  fix IH 1. intros [n t|p cs].
  - apply subseq_refl.
  - cbn [shape leaves]. rewrite propagate_toks, build_toks, (flat_map_concat_map leaves), concat_map, map_map.
    apply select_toks. induction cs as [|c cs IHcs]; cbn [map]; constructor; [apply IH|exact IHcs].
Qed.

Lemma reads_contains E ts s line n t : reads E ts s line -> In (n, t) ts ->
  exists a b, s = (a ++ tval t ++ b)%list /\ tline t = (line + count_nl a)%N /\
              tend t = (line + count_nl (a ++ tval t))%N.
Proof.
  intros H. induction H as [s line Hb|ig n' t' ts rest line Hig Hok Hne Hty Hl1 Hl2 Hr IH]; intros Hin; [contradiction|].
  destruct Hin as [Heq|Hin].
  - inversion Heq; subst. exists ig, rest. repeat split; [exact Hl1|]. rewrite Hl2, Hl1, count_nl_app. lia.
  - destruct (IH Hin) as (a & b & Hs & H1 & H2). exists (ig ++ tval t' ++ a), b. subst rest.
    rewrite <- !app_assoc. split; [reflexivity|]. rewrite H1, H2, Hl2, Hl1, !count_nl_app. lia.
Qed.

Lemma lark_parse_toks E text t : lark_parse E text = Ok t ->
  exists ts, reads E ts text 1 /\ subseq (toks t) (map snd ts).
Proof.
  unfold lark_parse. destruct (parse_cst E text) as [c|e] eqn:Hc; cbn [bind]; [|discriminate].
  intros H. injection H as <-. apply parse_cst_wf in Hc as [_ Hr]. exists (leaves c). split; [exact Hr|]. apply shape_toks.
Qed.
Lemma lark_parse_tok_in E text t tok : lark_parse E text = Ok t -> In tok (toks t) ->
  exists a b, text = (a ++ tval tok ++ b)%list /\ tline tok = (1 + count_nl a)%N /\
              tend tok = (1 + count_nl (a ++ tval tok))%N.
Proof.
  intros H Hin. destruct (lark_parse_toks _ _ _ H) as (ts & Hr & Hs).
  apply (subseq_in _ _ _ Hs) in Hin. apply in_map_iff in Hin as ([n tok'] & <- & Hin).
  exact (reads_contains _ _ _ _ _ _ Hr Hin).
Qed.

Lemma clean_toks : forall t, (forall tok, In tok (toks t) -> tval tok <> reserved_key) -> clean t = true.
Proof.
  fix IH 1. intros [l m cs|tok|] H; [|reflexivity|reflexivity]. cbn [clean]. apply andb_true_iff. split.
  - destruct l; try reflexivity. destruct cs as [|[l' m' cs'|tok|] [|c cs]]; try reflexivity.
    apply negb_true_iff, str_eqb_neq, H. left. reflexivity.
  - cbn [toks] in H. induction cs as [|c cs IHcs]; [reflexivity|]. cbn [forallb flat_map] in *.
    apply andb_true_iff. split; [apply IH|apply IHcs]; intros tok Hin; apply H, in_app_iff; auto.
Qed.
Lemma lark_parse_clean E text t : lark_parse E text = Ok t -> ~ contains reserved_key text -> clean t = true.
Proof.
  intros H Hno. apply clean_toks. intros tok Hin Hk. apply Hno.
  destruct (lark_parse_tok_in _ _ _ _ H Hin) as (a & b & Hs & _). rewrite Hk in Hs. exists a, b. exact Hs.
Qed.
