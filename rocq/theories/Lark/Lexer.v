(** Running a scanner on text: lark/lexer.py Scanner.match, BasicLexer.next_token,
    LineCounter.  Models the library; the tables come from Lark/Terminals.v. *)
From Coq Require Import List NArith Bool String.
From Verif Require Import Py.Str Py.Val Lark.Regex Lark.Terminals.
Import ListNotations.

(** Outcome of asking for the next token. *)
Inductive lexres :=
| LTok (n : string) (t : token) (rest : str) (line : N)
                                               (* terminal, token, what follows, the line there *)
| LEof (line : N)
| LBad (rest : str) (line : N)                 (* no terminal matches here *)
| LFuel.

Section Lexer.
  Variable E : pyenv.

  (** The whole alternation, which is what (?R) refers to. *)
  Definition lx_top (lx : lexer) : re := ralt (map snd (lx_alts lx)).

  (** Scanner.match: the first alternative that matches wins (nothing follows
      the alternation, so there is no backtracking into it). *)
  Fixpoint scan_alts (top : re) (alts : list (string * re)) (s : str) : option (option (string * nat * str)) :=
    match alts with
    | [] => Some None
    | (n, r) :: alts' =>
        match re_run E top (Datatypes.S (List.length s)) r s with
        | MOk k rest => Some (Some (n, k, rest))
        | MFail => scan_alts top alts' s
        | MFuel => None
        end
    end.
  Definition scan (lx : lexer) (s : str) : option (option (string * nat * str)) :=
    scan_alts (lx_top lx) (lx_alts lx) s.

  (** UnlessCallback: keyword texts change the type of the token. *)
  Fixpoint retype (tbl : list (string * (str * string))) (n : string) (v : str) : string :=
    match tbl with
    | [] => n
    | (n', (v', new)) :: tbl' => if String.eqb n n' && str_eqb v v' then new else retype tbl' n v
    end.

  (** BasicLexer.next_token.  Simplification: LineCounter counts line feeds only
      in terminals whose pattern text mentions them; the others cannot match a
      line feed, so counting always gives the same lines (Proofs/Located.v,
      [next_agree]). *)
  Fixpoint next_token (fuel : nat) (lx : lexer) (s : str) (line : N) : lexres :=
    match fuel with
    | O => LFuel
    | Datatypes.S f =>
        match s with
        | [] => LEof line
        | _ =>
            match scan lx s with
            | None => LFuel
            | Some None => LBad s line
            | Some (Some (n, k, rest)) =>
                let v := firstn k s in
                let line' := (line + count_nl v)%N in
                if mem_str n ignored then next_token f lx rest line'
                else let n' := retype (lx_unless lx) n v in
                     LTok n' {| ttype := u n'; tval := v; tline := line; tend := line' |} rest line'
            end
        end
    end.
End Lexer.
