(** Where syntax errors are found: lark/lexer.py LineCounter, the positions of
    tokens (BasicLexer.next_token), ContextualLexer.lex and
    parsers/lalr_parser.py parse_from_state again, with the attributes of the
    exceptions they raise (lark/exceptions.py UnexpectedToken and
    UnexpectedCharacters: token, pos_in_stream, line, column).  Models the
    library.  Lark/Driver.v is the same without columns and positions, and with
    one way to count lines; Proofs/Located.v shows that they agree. *)
From Coq Require Import List NArith PArith Bool String.
From Verif Require Import Py.Str Py.Val Lark.Regex Lark.Terminals Lark.Lexer Lark.Ebnf
     Lark.Lalr Lark.BicepGrammar Lark.BicepTables Lark.Driver.
Import ListNotations.
Local Open Scope string_scope.

(** LineCounter *)
Record counter := { char_pos : N; c_line : N; c_column : N; line_start : N }.
Definition counter0 : counter := {| char_pos := 0; c_line := 1; c_column := 1; line_start := 0 |}.
(** [v.rindex('\n')], for a text with a line feed. *)
Fixpoint rindex_nl (v : str) : N :=
  match v with
  | [] => 0
  | _ :: v' => if N.eqb (count_nl v') 0 then 0 else N.succ (rindex_nl v')
  end%N.
Definition feed_counter (c : counter) (v : str) (test_newline : bool) : counter :=
  let newlines := if test_newline then count_nl v else 0%N in
  let line := (c_line c + newlines)%N in
  let start := if N.eqb newlines 0 then line_start c else (char_pos c + rindex_nl v + 1)%N in
  let pos := (char_pos c + N.of_nat (List.length v))%N in
  {| char_pos := pos; c_line := line; c_column := (pos - start + 1)%N; line_start := start |}.

(** lexer.py _regexp_has_newline, and newline_types of BasicLexer.__init__. *)
Fixpoint starts_with (p s : string) : bool :=
  match p, s with
  | EmptyString, _ => true
  | String a p', String b s' => Ascii.eqb a b && starts_with p' s'
  | _, _ => false
  end.
Fixpoint has_sub (p s : string) : bool :=
  starts_with p s || match s with EmptyString => false | String _ s' => has_sub p s' end.
Definition regexp_has_newline (r : string) : bool := has_sub lf r || has_sub "\n" r || has_sub "\s" r || has_sub "[^" r || (has_sub "(?s" r && has_sub "." r).
Definition pat_source (p : pattern) : string := match p with PatStr s | PatRe s _ _ => s end.
Definition newline_types : list string :=
  Eval vm_compute in map t_name (filter (fun t => regexp_has_newline (pat_source (t_pat t))) sorted_terminals).

(** A token with its start_pos and column. *)
Record placed := { p_name : string; p_token : token; p_pos : N; p_column : N }.
Inductive lexed :=
| ATok (t : placed) (rest : str) (c : counter)
| AEof
| ABad (rest : str) (c : counter)
| AFuel.

(** What the parser ends with: a tree, UnexpectedToken (type and text of the
    token, pos_in_stream, line, column), UnexpectedCharacters, or an EOFError
    that escapes from the lexer (proved impossible). *)
Inductive located :=
| Parsed (c : cst)
| AtToken (n : string) (v : str) (pos line column : N)
| AtCharacters (pos line column : N)
| EscapedEof
| Exhausted.

Section Located.
  Variable E : pyenv.

  Fixpoint next_placed (fuel : nat) (lx : lexer) (s : str) (c : counter) : lexed :=
    match fuel with
    | O => AFuel
    | Datatypes.S f =>
        match s with
        | [] => AEof
        | _ =>
            match scan E lx s with
            | None => AFuel
            | Some None => ABad s c
            | Some (Some (n, k, rest)) =>
                let v := firstn k s in
                let c' := feed_counter c v (mem_str n newline_types) in
                if mem_str n ignored then next_placed f lx rest c'
                else let n' := retype (lx_unless lx) n v in
                     ATok {| p_name := n'; p_token := {| ttype := u n'; tval := v; tline := c_line c; tend := c_line c' |};
                             p_pos := char_pos c; p_column := c_column c |} rest c'
            end
        end
    end.

  Definition at_token (t : placed) : located := AtToken (p_name t) (tval (p_token t)) (p_pos t) (tline (p_token t)) (p_column t).
  (** Token.new_borrow_pos('$END', '', token), or Token('$END', '', 0, 1, 1). *)
  Definition at_end (last : option placed) : located :=
    match last with
    | Some t => AtToken "$END" [] (p_pos t) (tline (p_token t)) (p_column t)
    | None => AtToken "$END" [] 0 1 1
    end.

  Fixpoint run_located (fuel : nat) (st : stack) (s : str) (c : counter) (last : option placed) : located :=
    match fuel with
    | O => Exhausted
    | Datatypes.S f =>
        match next_placed (Datatypes.S (List.length s)) (lexer_of (top_state st)) s c with
        | AFuel => Exhausted
        | ABad rest c' =>
            match next_placed (Datatypes.S (List.length rest)) root_lexer rest c' with
            | AFuel => Exhausted
            | ATok t _ _ => at_token t
            | ABad _ _ => AtCharacters (char_pos c') (c_line c') (c_column c')
            | AEof => EscapedEof
            end
        | ATok t rest c' =>
            match feed (feed_fuel st) st (term_id (p_name t)) (Some (Leaf (p_name t) (p_token t))) with
            | FShift st' => run_located f st' rest c' (Some t)
            | FNoAction => at_token t
            | FDone _ | FStuck | FFuel => Exhausted
            end
        | AEof =>
            match feed (feed_fuel st) st (g_end bicep_gram) None with
            | FDone v => Parsed v
            | FNoAction => at_end last
            | FShift _ | FStuck | FFuel => Exhausted
            end
        end
    end.
  Definition locate (text : str) : located := run_located (Datatypes.S (List.length text)) [] text counter0 None.
End Located.
