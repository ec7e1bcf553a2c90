(** Terminals of bicep.lark (lines 63, 95, 100, 171-195) and Lark's contextual
    lexer (lark/lexer.py: BasicLexer, ContextualLexer, Scanner). *)
From Coq Require Import List NArith PArith ZArith Bool String Ascii.
From Verif Require Import Py.Str Py.Val Lark.Regex Lark.Ebnf Lark.BicepGrammar Lark.BicepTables Lark.Lalr.
Import ListNotations.
Local Open Scope string_scope.

(** A terminal: its pattern, priority, and for regexps the source text (its
    length is a sort key) and the maximal match width ([None]: unbounded). *)
Inductive pattern :=
| PatStr (s : string)
| PatRe (src : string) (r : re) (maxw : option N).
Record terminal := { t_name : string; t_prio : N; t_pat : pattern }.

Definition az : re := rset [("a", "z"); ("A", "Z")].
(** common.lark NEWLINE: (CR? LF)+ *)
Definition r_newline : re := rplus (RSeq (ropt (rchar 13)) (rchar 10)).
(** common.lark CPP_COMMENT: /\/\/[^\n]*/ *)
Definition r_cpp_comment : re := RSeq (rc "//") (RStar true (rnot [10%N])).
Definition r_any : re := rnot [].

(** bicep.lark:100  FUNCTION.1: /((sys|az)\.)?[a-zA-Z0-9]+/ "(" *)
Definition r_FUNCTION : re :=
  rseq [ropt (RSeq (RAlt (rc "sys") (rc "az")) (rc "."));
        rplus (rset [("a", "z"); ("A", "Z"); ("0", "9")]); rc "("].
(** bicep.lark:175  STRING: /(?!(sys|az)\.)[a-zA-Z_]([\w_])*/ *)
Definition r_STRING : re :=
  rseq [RLook true (RSeq (RAlt (rc "sys") (rc "az")) (rc "."));
        rset [("a", "z"); ("A", "Z"); ("_", "_")]; RStar true (rset_w "_")].
(** bicep.lark:176  QUOTED_STRING: "'" /[a-zA-Z_]([\w_.])*/ "'" *)
Definition r_QUOTED_STRING : re :=
  rseq [rc "'"; rset [("a", "z"); ("A", "Z"); ("_", "_")]; RStar true (rset_w "_."); rc "'"].
(** bicep.lark:178  QUOTED_INTERPOLATION:
    /(?!.*''')'(\${(?:[^}'{]+|(?R))*+}|\\'|[^'])*'/ *)
Definition r_QUOTED_INTERPOLATION : re :=
  rseq [RLook true (RSeq (RStar true rdot) (rc "'''"));
        rc "'";
        RStar true (ralt [rseq [rc "${";
                                RAtomic (RStar true (RAlt (rplus (rnot [125%N; 39%N; 123%N])) RRec));
                                rc "}"];
                          rc "\'";
                          rnot [39%N]]);
        rc "'"].
(** bicep.lark:179  LIST_FUNC_NAME.2: /(?=([Ll]ist[A-za-z]*|getSecret)\()([A-Za-z]+)/ *)
Definition r_LIST_FUNC_NAME : re :=
  RSeq (RLook false (RSeq (RAlt (rseq [rset [("L", "L"); ("l", "l")]; rc "ist";
                                       RStar true (rset [("A", "z"); ("a", "z")])])
                                (rc "getSecret"))
                          (rc "(")))
       (rplus (rset [("A", "Z"); ("a", "z")])).
(** bicep.lark:181  MULTI_LINE_STRING: "'''" (/.*?/ | NEWLINE)+ "'''"
    Compiled by Lark to '''(?:(?:(?:(?:\r)?\n)+|.*?))+'''; every character can be
    consumed and the closing quotes are tried first at each position, so this is
    the lazy repetition of any character (Proofs/RegexText.v [plus_place]). *)
Definition r_MULTI_LINE_STRING : re :=
  rseq [rc "'''"; RStar false r_any; rc "'''"].

(** The regexp terminals.  [src] is the pattern text Lark compiles (line ends and
    tabs are characters by then).  That it comes from bicep.lark and means [r] is
    proved in Props/GrammarFile.v. *)
Definition cr : string := String "013" "".
Definition lf : string := String "010" "".
Definition tab : string := String "009" "".
Definition src_newline : string := "(?:(?:" ++ cr ++ ")?" ++ lf ++ ")+".
Definition re_terminals : list terminal :=
  [ {| t_name := "FUNCTION"; t_prio := 1;
       t_pat := PatRe "((sys|az)\.)?[a-zA-Z0-9]+\(" r_FUNCTION None |};
    {| t_name := "STRING"; t_prio := 0;
       t_pat := PatRe "(?!(sys|az)\.)[a-zA-Z_]([\w_])*" r_STRING None |};
    {| t_name := "QUOTED_STRING"; t_prio := 0;
       t_pat := PatRe "'[a-zA-Z_]([\w_.])*'" r_QUOTED_STRING None |};
    {| t_name := "QUOTED_INTERPOLATION"; t_prio := 0;
       t_pat := PatRe "(?!.*''')'(\${(?:[^}'{]+|(?R))*+}|\\'|[^'])*'" r_QUOTED_INTERPOLATION None |};
    {| t_name := "LIST_FUNC_NAME"; t_prio := 2;
       t_pat := PatRe "(?=([Ll]ist[A-za-z]*|getSecret)\()([A-Za-z]+)" r_LIST_FUNC_NAME None |};
    {| t_name := "MULTI_LINE_STRING"; t_prio := 0;
       t_pat := PatRe ("'''(?:(?:" ++ src_newline ++ "|.*?))+'''") r_MULTI_LINE_STRING None |};
    (* bicep.lark:183 *)
    {| t_name := "_NEWLINE"; t_prio := 0; t_pat := PatRe src_newline r_newline None |};
    (* bicep.lark:184 *)
    {| t_name := "_CPP_COMMENT_NL"; t_prio := 0;
       t_pat := PatRe ("(?:\/\/[^" ++ lf ++ "]*)?" ++ src_newline) (RSeq (ropt r_cpp_comment) r_newline) None |};
    (* common.lark *)
    {| t_name := "INT"; t_prio := 0; t_pat := PatRe "(?:[0-9])+" (rplus (rset [("0", "9")])) None |};
    {| t_name := "C_COMMENT"; t_prio := 0;
       t_pat := PatRe ("/\*(.|" ++ lf ++ ")*?\*/") (rseq [rc "/*"; RStar false r_any; rc "*/"]) None |};
    {| t_name := "SH_COMMENT"; t_prio := 0;
       t_pat := PatRe ("#[^" ++ lf ++ "]*") (RSeq (rc "#") (RStar true (rnot [10%N]))) None |};
    {| t_name := "WS_INLINE"; t_prio := 0;
       t_pat := PatRe ("(?:(?:\ |" ++ tab ++ "))+") (rplus (RAlt (rchar 32) (rchar 9))) None |};
    (* bicep.lark:63 *)
    {| t_name := "STAR_RE"; t_prio := 0; t_pat := PatRe "\*" (rc "*") (Some 1%N) |};
    (* bicep.lark:95 *)
    {| t_name := "DECO_NAME"; t_prio := 0;
       t_pat := PatRe "(sys\.)?[a-zA-Z0-9]+"
                  (RSeq (ropt (rc "sys.")) (rplus (rset [("a", "z"); ("A", "Z"); ("0", "9")]))) None |} ].

(** bicep.lark:193-195 %ignore *)
Definition ignored : list string := ["C_COMMENT"; "SH_COMMENT"; "WS_INLINE"].

(** bicep.lark:173 EXISTING is the one named string terminal. *)
Definition existing_terminal : terminal :=
  {| t_name := "EXISTING"; t_prio := 0; t_pat := PatStr "existing" |}.

Definition terminal_named (n : string) : terminal :=
  match List.find (fun t => String.eqb (t_name t) n) (existing_terminal :: re_terminals) with
  | Some t => t
  | None => {| t_name := n; t_prio := 0; t_pat := PatStr n |}
  end.
(** All terminals in use: those of the productions and the ignored ones. *)
Definition all_terminals : list terminal :=
  map terminal_named (tl term_names ++ ignored)%list.

(** BasicLexer.__init__: terminals.sort(key=lambda x: (-x.priority,
    -x.pattern.max_width, -len(x.pattern.value), x.name)). *)
Definition pat_width (p : pattern) : option N :=
  match p with PatStr s => Some (N.of_nat (String.length s)) | PatRe _ _ w => w end.
Definition pat_len (p : pattern) : N :=
  match p with PatStr s | PatRe s _ _ => N.of_nat (String.length s) end.
Definition width_cmp (a b : option N) : comparison :=
  match a, b with
  | None, None => Eq | None, Some _ => Gt | Some _, None => Lt
  | Some x, Some y => N.compare x y
  end.
Fixpoint string_leb (a b : string) : bool :=
  match a, b with
  | EmptyString, _ => true
  | String _ _, EmptyString => false
  | String x a', String y b' =>
      match N.compare (N_of_ascii x) (N_of_ascii y) with
      | Lt => true | Gt => false | Eq => string_leb a' b'
      end
  end.
Definition term_before (a b : terminal) : bool :=
  match N.compare (t_prio a) (t_prio b) with
  | Gt => true | Lt => false
  | Eq =>
      match width_cmp (pat_width (t_pat a)) (pat_width (t_pat b)) with
      | Gt => true | Lt => false
      | Eq =>
          match N.compare (pat_len (t_pat a)) (pat_len (t_pat b)) with
          | Gt => true | Lt => false
          | Eq => string_leb (t_name a) (t_name b)
          end
      end
  end.
Fixpoint insert_term (t : terminal) (l : list terminal) : list terminal :=
  match l with
  | [] => [t]
  | x :: l' => if term_before t x then t :: l else x :: insert_term t l'
  end.
Definition sorted_terminals : list terminal := Eval vm_compute in fold_right insert_term [] all_terminals.

(** An environment to evaluate patterns on ASCII text. *)
Definition env0 : pyenv :=
  {| uword_rx := fun _ => false; uword_re := fun _ => false; udigit_re := fun _ => false;
     uprintable := fun _ => false; udecimal := fun _ => None; uspace := fun _ => false |}.

(** The regexp of a terminal. *)
Definition pat_re (p : pattern) : re := match p with PatStr s => rc s | PatRe _ r _ => r end.

(** lexer.py _create_unless: string terminals fully matched by a regexp terminal
    of the same priority are removed from the scanner; the token type is decided
    by the matched text instead.  (All strings are ASCII, so [env0] is no loss;
    none of the regexps involved recurses.) *)
Definition full_match (r : re) (s : string) : bool :=
  match re_run env0 r 100 r (u s) with MOk _ [] => true | _ => false end.
Definition embedded_pairs : list (string * string) :=   (* regexp terminal, string terminal *)
  Eval vm_compute in
  flat_map (fun a => match t_pat a with
    | PatStr _ => []
    | PatRe _ r _ =>
        flat_map (fun b => match t_pat b with
          | PatStr s => if N.eqb (t_prio a) (t_prio b) && full_match r s then [(t_name a, t_name b)] else []
          | PatRe _ _ _ => [] end) sorted_terminals
    end) sorted_terminals.

(** A scanner: the alternatives in order (terminal name, its regexp) and, per
    regexp terminal, the texts that change the type of the token. *)
Record lexer := {
  lx_alts : list (string * re);
  lx_unless : list (string * (str * string))      (* (regexp terminal, (text, new type)) *)
}.
Definition mem_str (n : string) (l : list string) : bool := existsb (String.eqb n) l.
Definition str_of_term (n : string) : str :=
  match t_pat (terminal_named n) with PatStr s => u s | PatRe _ _ _ => [] end.
Definition make_lexer (accepts : list string) : lexer :=
  let inlex n := mem_str n accepts || mem_str n ignored in
  let emb := filter (fun p => inlex (fst p) && inlex (snd p)) embedded_pairs in
  {| lx_alts := flat_map (fun t => if inlex (t_name t) && negb (mem_str (t_name t) (map snd emb))
                                   then [(t_name t, pat_re (t_pat t))] else []) sorted_terminals;
     lx_unless := map (fun p => (fst p, (str_of_term (snd p), snd p))) emb |}.

(** ContextualLexer.__init__: one lexer per parser state, accepting the
    terminals with an action in that state; plus the root lexer with all. *)
Definition term_name_of (t : positive) : string :=
  nth (pred (Pos.to_nat t)) term_names "".
Definition state_lexers : PM.t lexer :=
  PM.map (fun row => make_lexer (map (fun e => term_name_of (fst e)) (PM.elements row)))
         (tb_action bicep_tables).
Definition root_lexer : lexer := make_lexer (map t_name all_terminals).
