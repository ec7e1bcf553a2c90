(** Specification: sentences of an EBNF grammar (the text of bicep.lark as
    transcribed in Lark/BicepGrammar.v), without going through Lark's
    compilation of it; and how a text spells a sequence of tokens. *)
From Coq Require Import List NArith Bool String.
From Verif Require Import Py.Str Py.Val Lark.Tree Lark.Ebnf.
Import ListNotations.

Section Derives.
  Variable g : list ruledef.
  (** [derives e w]: the terminals [w] are a sentence of [e]. *)
  Inductive derives : ebnf -> list string -> Prop :=
  | d_term n : derives (ETerm n) [n]
  | d_str s : derives (EStr s) [s]
  | d_re n : derives (ERe n) [n]
  | d_rule n r e al w : In r g -> r_name r = n -> In (e, al) (r_alts r) -> derives e w -> derives (ENT n) w
  | d_seq l w : derives_seq l w -> derives (ESeq l) w
  | d_alt l e w : In e l -> derives e w -> derives (EAlt l) w
  | d_opt_no e : derives (EOpt e) []
  | d_opt e w : derives e w -> derives (EOpt e) w
  | d_maybe_no e : derives (EMaybe e) []
  | d_maybe e w : derives e w -> derives (EMaybe e) w
  | d_star e n w : derives_seq (repeat e n) w -> derives (EStar e) w
  | d_plus e n w : derives_seq (repeat e (S n)) w -> derives (EPlus e) w
  | d_rep e lo hi n w : lo <= n -> n <= hi -> derives_seq (repeat e n) w -> derives (ERep e lo hi) w
  with derives_seq : list ebnf -> list string -> Prop :=
  | ds_nil : derives_seq [] []
  | ds_cons e l w w' : derives e w -> derives_seq l w' -> derives_seq (e :: l) (w ++ w').
End Derives.

(** Text that counts as nothing: blanks, tabs, /* */ and # comments. *)
Inductive blank_piece : str -> Prop :=
| blank_space : blank_piece [32%N]
| blank_tab : blank_piece [9%N]
| blank_c_comment body : blank_piece (u "/*" ++ body ++ u "*/")
| blank_sh_comment body : ~ In 10%N body -> blank_piece (u "#" ++ body).
Inductive blank : str -> Prop :=
| blank_nil : blank []
| blank_cons a s : blank_piece a -> blank s -> blank (a ++ s).

(** A line break: perhaps a // comment, then line feeds, each perhaps after a
    carriage return. *)
Inductive feeds : str -> Prop :=
| feeds_lf : feeds [10%N]
| feeds_crlf : feeds [13%N; 10%N]
| feeds_more a b : feeds a -> feeds b -> feeds (a ++ b).
Inductive line_break : str -> Prop :=
| break_plain f : feeds f -> line_break f
| break_comment body f : ~ In 10%N body -> feeds f -> line_break (u "//" ++ body ++ f).
(** What may stand between declarations. *)
Inductive gap : str -> Prop :=
| gap_nil : gap []
| gap_blank a s : blank_piece a -> gap s -> gap (a ++ s)
| gap_break a s : line_break a -> gap s -> gap (a ++ s).

(** [spelled ts x]: [x] is the texts of the tokens [ts] with blanks in between
    (none in front, none behind); [a] is the line on which [x] starts. *)
Inductive spelled : N -> list (string * token) -> str -> Prop :=
| sp_one a n t : ttype t = u n -> tval t <> [] -> tline t = a -> tend t = (a + count_nl (tval t))%N ->
    spelled a [(n, t)] (tval t)
| sp_more a n t b ts x : ttype t = u n -> tval t <> [] -> tline t = a -> tend t = (a + count_nl (tval t))%N -> blank b ->
    spelled (tend t + count_nl b)%N ts x -> spelled a ((n, t) :: ts) (tval t ++ b ++ x).

(** Tokens a tree keeps: all but the keywords and punctuation of the rules and
    the line breaks. *)
Definition named_terminals : list string :=
  ["STRING"; "QUOTED_INTERPOLATION"; "QUOTED_STRING"; "MULTI_LINE_STRING"; "INT"; "FUNCTION"; "DECO_NAME"; "LIST_FUNC_NAME"; "STAR_RE"; "EXISTING"]%string.
Definition is_named (n : string) : bool := existsb (String.eqb n) named_terminals.
Definition named_of (ts : list (string * token)) : list token :=
  map snd (filter (fun e => is_named (fst e)) ts).
Definition named_toks (t : ptree) : list token :=
  filter (fun k => existsb (fun n => str_eqb (ttype k) (u n)) named_terminals) (
    (fix toks (t : ptree) : list token :=
       match t with TNode _ _ cs => flat_map toks cs | TTok k => [k] | TNone => [] end) t).
