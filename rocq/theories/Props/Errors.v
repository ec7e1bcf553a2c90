(** C46: places of syntax errors. *)
From Coq Require Import List Arith NArith ZArith Bool String Lia.
From Verif Require Import Py.Str Py.Val Lark.Tree Lark.Shape Lark.Terminals Lark.Lexer Lark.Driver Lark.Located
  Pycep.Utils Pycep.Transformer Pycep.Main Pycep.Bicep
  Spec.Calls Spec.Text Spec.Lexemes Spec.Sentences Spec.Spelling Spec.Reading Spec.Errors
  Proofs.Base Proofs.Quotes Proofs.Parse Proofs.EndToEnd Proofs.Located Proofs.UnparseText Proofs.FirstChar
  Props.Calls Props.Numbering.
Import ListNotations.
Local Open Scope string_scope.

(** ** C46 *)
Lemma locate_lark E t :
  match locate E t with
  | Parsed v => exists x, lark_parse E t = Ok x
  | AtToken n v pos line column => lark_parse E t = Err EUnexpectedToken /\ bad_token E t n v pos line column
  | AtCharacters pos line column => lark_parse E t = Err EUnexpectedCharacters /\ bad_character E t pos line column
  | EscapedEof | Exhausted => False
  end.
Proof.
  pose proof (locate_agree E t) as H. unfold lark_parse. destruct (locate E t); [rewrite H; cbn [bind]; eauto| | |exact H|exact H];
    destruct H as [H1 H2]; rewrite H1; (split; [reflexivity|exact H2]).
Qed.

(** An unexpected token: the exception holds a place, and there is a token there,
    behind the beginning of a sentence. *)
Theorem C46_unexpected_token : forall E fs text fp t, source fs text fp t -> bicep_create_tree E fs text fp = Err EUnexpectedToken ->
  exists n v pos line column, locate E t = AtToken n v pos line column /\ bad_token E t n v pos line column.
Proof.
  intros E fs text fp t S H. rewrite (tree_source E fs _ _ _ S) in H. destruct (is_valid t); [|discriminate H].
  pose proof (locate_lark E t) as L. destruct (locate E t) as [v|n v pos line column|pos line column| |]; [| | |contradiction|contradiction].
  - destruct L as [x L]. rewrite L in H. discriminate H.
  - destruct L as [_ L]. eauto 10.
  - destruct L as [L _]. rewrite L in H. discriminate H.
Qed.
(** Unexpected characters: no token starts with the character at the place, and the
    beginning of a sentence is in front of it. *)
Theorem C46_unexpected_characters : forall E fs text fp t, source fs text fp t -> bicep_create_tree E fs text fp = Err EUnexpectedCharacters ->
  exists pos line column, locate E t = AtCharacters pos line column /\ bad_character E t pos line column.
Proof.
  intros E fs text fp t S H. rewrite (tree_source E fs _ _ _ S) in H. destruct (is_valid t); [|discriminate H].
  pose proof (locate_lark E t) as L. destruct (locate E t) as [v|n v pos line column|pos line column| |]; [| | |contradiction|contradiction].
  - destruct L as [x L]. rewrite L in H. discriminate H.
  - destruct L as [L _]. rewrite L in H. discriminate H.
  - destruct L as [_ L]. eauto 10.
Qed.
(** Both functions fail at the same place, and a place belongs to a failure. *)
Theorem C46_same_place : forall E fs ln text fp t, source fs text fp t -> balanced t ->
  match locate E t with
  | Parsed _ => exists o, bicep_create_tree E fs text fp = Ok o
  | AtToken _ _ _ _ _ => bicep_create_tree E fs text fp = Err EUnexpectedToken /\ bicep_parse E fs ln text fp = Err EUnexpectedToken
  | AtCharacters _ _ _ => bicep_create_tree E fs text fp = Err EUnexpectedCharacters /\ bicep_parse E fs ln text fp = Err EUnexpectedCharacters
  | EscapedEof | Exhausted => False
  end.
Proof.
  intros E fs ln text fp t S B. assert (V : is_valid t = true) by (destruct B as (k & Hk & He); rewrite (is_valid_occurs _ _ Hk); apply Nat.even_spec; exact He).
  rewrite (tree_source E fs _ _ _ S), (parse_source E fs ln _ _ _ S), V.
  pose proof (locate_lark E t) as L. destruct (locate E t) as [v|n v pos line column|pos line column| |]; [| | |exact L|exact L].
  - destruct L as [x ->]. cbn [bind]. eauto.
  - destruct L as [-> _]. split; reflexivity.
  - destruct L as [-> _]. split; reflexivity.
Qed.
(** A text that starts with a character beyond ASCII is rejected there. *)
Theorem C46_first_character : forall E fs ln text fp x rest, source fs text fp (x :: rest) -> balanced (x :: rest) -> (128 <= x)%N ->
  locate E (x :: rest) = AtCharacters 0 1 1 /\
  bicep_create_tree E fs text fp = Err EUnexpectedCharacters /\ bicep_parse E fs ln text fp = Err EUnexpectedCharacters.
Proof.
  intros E fs ln text fp x rest S B Hx. assert (No : ~ ascii_first (x :: rest)) by (intros H; apply ascii_not in H; lia).
  assert (Front : forall ts a r, x :: rest = (a ++ r)%list -> reads_as E ts a -> a = [])
    by (intros ts a r H Ha; destruct (reads_first E ts a Ha) as [Hn|Hn]; [exact Hn|]; exfalso; apply No; rewrite H; apply ascii_app; exact Hn).
  assert (L : locate E (x :: rest) = AtCharacters 0 1 1).
  { pose proof (locate_lark E (x :: rest)) as L. destruct (locate E (x :: rest)) as [v|n v pos line column|pos line column| |]; [| | |contradiction|contradiction].
    - exfalso. destruct L as [v' L]. apply accepted_program in L as (p & _ & Hr & _). destruct (reads_first _ _ _ Hr) as [Hn|Hn]; [discriminate Hn|exact (No Hn)].
    - exfalso. destruct L as [_ (a & w & r & ks & Ht & (Ha & _) & Hw & _)]. pose proof (Front _ _ _ Ht Ha) as ->. cbn [app] in Ht. apply No. rewrite Ht. apply ascii_app, (token_first E). exact Hw.
    - destruct L as [_ (a & y & r & ks & Ht & (Ha & _) & _ & (-> & -> & y' & (x' & Hy & _ & _) & ->))]. pose proof (Front _ _ _ Ht Ha) as ->. symmetry in Hy. apply app_eq_nil in Hy as [_ ->]. reflexivity. }
  split; [exact L|]. pose proof (C46_same_place E fs ln _ _ _ S B) as H. rewrite L in H. exact H.
Qed.
Example C46_first_ex : let t := (8220%N :: u "var x = 1")%list in
  source ex_fs (Some t) None t /\ balanced t /\ locate env0 t = AtCharacters 0 1 1.
Proof.
  split; [|split]; [| |vm_compute; reflexivity].
  - constructor; [exists 8220%N, (u "var x = 1"); reflexivity|intros (p & H & _); discriminate H].
  - exists 0. split; [|exists 0; reflexivity]. repeat (apply occ_skip; [intros s' H; discriminate H|]). apply occ_nil.
Qed.
(** The second [=], the character after the line with a comment, and the [=] a
    value is missing behind. *)
Example C46_ex :
  let second := (u "param a string /* b */" ++ [10%N] ++ u "var b = = 2")%list in
  let strange := (u "# first line" ++ [10; 10; 9]%N ++ u "var b = $")%list in
  let missing := u "var x =  " in
  locate env0 second = AtToken "=" (u "=") 31 2 9 /\ bicep_create_tree env0 ex_fs (Some second) None = Err EUnexpectedToken /\
  locate env0 strange = AtCharacters 23 3 10 /\ bicep_create_tree env0 ex_fs (Some strange) None = Err EUnexpectedCharacters /\
  locate env0 missing = AtToken "$END" [] 6 1 7 /\ bicep_create_tree env0 ex_fs (Some missing) None = Err EUnexpectedToken.
Proof. vm_compute. repeat split. Qed.
Definition C46_all := (C46_unexpected_token, C46_unexpected_characters, C46_same_place, C46_first_character, C46_first_ex, C46_ex).
Print Assumptions C46_all.
