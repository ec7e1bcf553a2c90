(** What the tokens look like, and how the declarations of a program are laid
    out in its text. *)
From Coq Require Import List NArith Bool String.
From Verif Require Import Py.Str Py.Val Lark.Tree Lark.Ebnf Spec.Text Spec.Lexemes Spec.Sentences.
Import ListNotations.
Local Open Scope string_scope.

(** The terminals with more than one text. *)
Definition open_terminals : list string :=
  ["STRING"; "QUOTED_INTERPOLATION"; "QUOTED_STRING"; "MULTI_LINE_STRING"; "INT"; "FUNCTION"; "DECO_NAME"; "LIST_FUNC_NAME";
   "STAR_RE"; "EXISTING"; "_NEWLINE"; "_CPP_COMMENT_NL"].
(** The texts of a terminal; a keyword or punctuation is named after its text. *)
Inductive lexeme (E : pyenv) : string -> str -> Prop :=
| lx_fixed n : existsb (String.eqb n) open_terminals = false -> lexeme E n (u n)
| lx_name s : ident E s -> lexeme E "STRING" s
| lx_quoted b : lexeme E "QUOTED_INTERPOLATION" (quote b)
| lx_simple b : lexeme E "QUOTED_STRING" (quote b)
| lx_lines b : lexeme E "MULTI_LINE_STRING" (triple_quote b)
| lx_int s : digits s -> lexeme E "INT" s
| lx_function ns n : ns = [] \/ ns = u "sys." \/ ns = u "az." -> plain_name n -> lexeme E "FUNCTION" (ns ++ n ++ u "(")%list
| lx_decorator ns n : ns = [] \/ ns = u "sys." -> plain_name n -> lexeme E "DECO_NAME" (ns ++ n)%list
| lx_list_function s : s <> [] -> Forall (fun c => is_alpha c = true) s -> lexeme E "LIST_FUNC_NAME" s
| lx_star : lexeme E "STAR_RE" (u "*")
| lx_existing : lexeme E "EXISTING" (u "existing")
| lx_newline s : feeds s -> lexeme E "_NEWLINE" s
| lx_break s : line_break s -> lexeme E "_CPP_COMMENT_NL" s.

(** [piece_of e a ts x]: the text [x], starting on line [a], spells the tokens
    [ts], which are a sentence of [e]. *)
Record piece_of (E : pyenv) (g : list ruledef) (e : ebnf) (a : N) (ts : list (string * token)) (x : str) : Prop := {
  pc_spelled : spelled a ts x;
  pc_lexemes : Forall (fun k => lexeme E (fst k) (tval (snd k))) ts;
  pc_derives : derives g e (map fst ts)
}.

Local Close Scope string_scope.
(** [r] is a rule whose nodes are named [l]. *)
Definition makes (r : ruledef) (l : label) : Prop :=
  exists e al, In (e, al) (r_alts r) /\ label_name l = u (match al with Some a => a | None => r_name r end).

(** [stands text e m t]: the tree [t] is that of a piece of [text] that spells a
    sentence of [e]; it has the named tokens of the piece, and [m] are the lines on
    which the piece starts and ends. *)
Definition stands (E : pyenv) (g : list ruledef) (text : str) (e : ebnf) (m : N * N) (t : ptree) : Prop :=
  exists before x after ts, text = (before ++ x ++ after)%list /\ piece_of E g e (1 + count_nl before)%N ts x /\
    named_toks t = named_of ts /\ m = (1 + count_nl before, 1 + count_nl (before ++ x))%N.

(** A text read as a list of declarations from line [line] on: between them
    gaps; each declaration is a piece of text that spells a sentence of the rule
    [element], its tree has all its named tokens, and the lines in the tree are
    those of the piece. *)
Inductive laid_out (E : pyenv) (g : list ruledef) : N -> list ptree -> str -> Prop :=
| lo_end line s : gap s -> laid_out E g line [] s
| lo_declaration line b x rest l kids cs ts : gap b -> piece_of E g (ENT "element"%string) (line + count_nl b)%N ts x ->
    named_toks (TNode l (Some (line + count_nl b, line + count_nl (b ++ x))%N) kids) = named_of ts ->
    laid_out E g (line + count_nl (b ++ x))%N cs rest ->
    laid_out E g line (TNode l (Some (line + count_nl b, line + count_nl (b ++ x))%N) kids :: cs) (b ++ x ++ rest)%list.
