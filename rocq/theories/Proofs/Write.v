(** Every text that writes a well-formed program is parsed as that program. *)
From Coq Require Import List Arith NArith PArith Bool String Lia.
From Verif Require Import Py.Str Py.Val Lark.Regex Lark.Terminals Lark.Lexer Lark.Tree Lark.Ebnf Lark.Lalr Lark.BicepGrammar Lark.BicepTables Lark.Driver
     Lark.Shape Spec.Lexemes Spec.Sentences Spec.Schema Spec.Trees Spec.Numbering Spec.Types Spec.Spelling Spec.Syntax
     Proofs.Base Proofs.LR Proofs.Refine Proofs.Complete Proofs.Match Proofs.Patterns Proofs.Quotes Proofs.Lexable Proofs.Scan Proofs.Parse Proofs.Tokens Proofs.Accept
     Proofs.Generate Proofs.Derive Proofs.DerivePrograms.
Import ListNotations.
Local Open Scope string_scope.

Lemma placed_labels E prev ts s line w : placed E prev ts s line w -> labels ts w.
Proof.
  induction 1 as [|prev b t ts rest line w a e Hb Hf Ha He Hp IH]; [constructor|]. constructor; [|exact IH].
  split; [exact (fits_legal _ _ _ _ Hf)|]. eexists. split; [reflexivity|]. split; reflexivity.
Qed.
Lemma rderiv_leaves : (forall s c ys, rderiv s c ys -> leaves c = flat_map (fun y => leaves (snd y)) ys) /\
  (forall l cs ys, rderivs l cs ys -> flat_map leaves cs = flat_map (fun y => leaves (snd y)) ys).
Proof.
  apply rderiv_mutind.
  - intros. reflexivity.
  - intros. assumption.
  - reflexivity.
  - intros s l c cs ys zs _ H1 _ H2. cbn [flat_map]. rewrite flat_map_app, H1, H2. reflexivity.
Qed.
Lemma labels_leaves ts w : labels ts w -> map (fun l => tval (snd l)) (flat_map (fun y => leaves (snd y)) w) = map text ts.
Proof.
  induction 1 as [|t y ts w (Hl & k & -> & H1 & H2) Hw IH]; [reflexivity|]. cbn [flat_map map snd leaves app]. rewrite H2, IH. reflexivity.
Qed.

#[local] Transparent bicep_tables.
Lemma feed_empty : match feed (feed_fuel []) [] 1%positive None with FDone v => sv_tree (shape v) = TNode L_start None [] /\ leaves v = [] | _ => False end.
Proof. vm_compute. split; reflexivity. Qed.
#[local] Opaque bicep_tables.
Lemma accept_empty E b : skipped b [] -> exists c, parse_cst E b = Ok c /\ sv_tree (shape c) = TNode L_start None [] /\ leaves c = [].
Proof.
  intros Hb. unfold parse_cst. cbn [run]. unfold lex_next. destruct (lexer_of_form (top_state [])) as [acc Hacc].
  rewrite (next_end E _ acc Hacc (lexer_skips _) b 1%N _ Hb (Nat.lt_succ_diag_r _)), g_end_1.
  pose proof feed_empty as H. destruct (feed (feed_fuel []) [] 1 None) as [|v| | |]; try contradiction. exists v. split; [reflexivity|exact H].
Qed.

(** The identifier the tool reserves for itself is not used. *)
Theorem written E p s : program_wf false p = true -> writes E p s -> exists t, lark_parse E s = Ok t /\ same_tree t (program_tree p) /\
  (~ In Schema.reserved_key (map text (program_tokens p)) -> clean t = true).
Proof.
  intros Hw Hs. destruct p as [|l p].
  - unfold writes in Hs. inversion Hs as [prev b Hb|]; subst. destruct (accept_empty E s Hb) as (c & Hc & Ht & _).
    exists (sv_tree (shape c)). unfold lark_parse. rewrite Hc. cbn [bind]. rewrite Ht. split; [reflexivity|]. split; [constructor; constructor|reflexivity].
  - destruct (placed_exists E _ _ _ Hs 1%N) as [w Hpl]. pose proof (placed_labels _ _ _ _ _ _ Hpl) as Hl.
    destruct (gen_program (l :: p) Hw ltac:(discriminate) w Hl) as (c & Hd & Ht). specialize (Hd 255%N eq_refl).
    exists (sv_tree (shape c)). unfold lark_parse. rewrite (accept E _ _ _ _ Hpl Hd). cbn [bind]. split; [reflexivity|]. split; [exact Ht|].
    intros Hno. apply clean_toks. intros tok Hin Hk. apply Hno. rewrite <- Hk, <- (labels_leaves _ _ Hl), <- (proj1 rderiv_leaves _ _ _ Hd).
    apply (subseq_in _ _ _ (shape_toks c)) in Hin. apply in_map_iff in Hin as (x & <- & Hin). apply (in_map (fun l => tval (snd l))). exact Hin.
Qed.
