(** The LALR driver: lark/parsers/lalr_parser.py, lalr_parser_state.py
    (feed_token), lexer.py ContextualLexer.lex.  Models the library. *)
From Coq Require Import List NArith PArith Bool String.
From Verif Require Import Py.Str Py.Val Lark.Regex Lark.Terminals Lark.Lexer Lark.Ebnf
     Lark.Lalr Lark.BicepGrammar Lark.BicepTables.
Import ListNotations.

(** Concrete syntax trees: the reductions made.  Simplification: Lark builds the
    final tree node at every reduction; here reductions are recorded and
    Lark/Shape.v builds the nodes afterwards (the builders are pure). *)
Inductive cst :=
| Leaf (name : string) (t : token)
| Br (p : positive) (cs : list cst).

Definition action (s t : positive) : option act :=
  match PM.find s (tb_action bicep_tables) with Some row => PM.find t row | None => None end.
Definition goto (s x : positive) : option positive :=
  match PM.find s (tb_goto bicep_tables) with Some row => PM.find x row | None => None end.
(** Right-hand-side length and left-hand side of a production. *)
Definition prod_info : PM.t (positive * list positive * N) := Eval vm_compute in prod_map bicep_gram.
Definition lexer_of (s : positive) : lexer :=
  match PM.find s state_lexers with Some lx => lx | None => make_lexer [] end.

(** State and value stacks together; top first.  The initial state sits below. *)
Definition stack := list (positive * cst).
Definition top_state (st : stack) : positive :=
  match st with [] => tb_init bicep_tables | (s, _) :: _ => s end.

(** Take [n] entries off the stack; the popped values in reading order. *)
Fixpoint pop (n : nat) (st : stack) (acc : list cst) : option (list cst * stack) :=
  match n with
  | O => Some (acc, st)
  | Datatypes.S n' =>
      match st with
      | [] => None
      | (_, v) :: st' => pop n' st' (v :: acc)
      end
  end.

(** One reduction by production [p]. *)
Definition reduce (p : positive) (st : stack) : option stack :=
  match PM.find p prod_info with
  | None => None
  | Some (lhs, rhs, _) =>
      match pop (List.length rhs) st [] with
      | None => None
      | Some (cs, st') =>
          match goto (top_state st') lhs with
          | None => None
          | Some s' => Some ((s', Br p cs) :: st')
          end
      end
  end.

(** Outcome of feeding one token. *)
Inductive fed :=
| FShift (st : stack)
| FDone (v : cst)             (* only at $END *)
| FNoAction                   (* UnexpectedToken *)
| FStuck                      (* an assertion or index error inside Lark: proved impossible *)
| FFuel.

(** feed_token: reduce until the token can be shifted ([leaf = Some]) or, at
    $END ([leaf = None]), until the start symbol has been reduced. *)
Fixpoint feed (fuel : nat) (st : stack) (t : positive) (leaf : option cst) : fed :=
  match fuel with
  | O => FFuel
  | Datatypes.S f =>
      match action (top_state st) t with
      | None => FNoAction
      | Some (Shift s') =>
          match leaf with
          | Some c => FShift ((s', c) :: st)
          | None => FStuck
          end
      | Some (Reduce p) =>
          match reduce p st with
          | None => FStuck
          | Some st' =>
              match leaf, st' with
              | None, (s', v) :: _ =>
                  if Pos.eqb s' (tb_final bicep_tables) then FDone v else feed f st' t leaf
              | _, _ => feed f st' t leaf
              end
          end
      end
  end.

Definition term_id (n : string) : positive := sym_id (T n).

(** Steps allowed for one token; enough for every stack (Proofs/Driver). *)
Definition feed_fuel (st : stack) : nat := Nat.mul 100 (Datatypes.S (Datatypes.S (List.length st))).

Section Parse.
  Variable E : pyenv.

  Definition lex_next (st : stack) (s : str) (line : N) : lexres :=
    next_token E (Datatypes.S (List.length s)) (lexer_of (top_state st)) s line.

  (** parse_from_state: lex a token with the scanner of the current state, feed
      it, repeat; then feed $END.  When no terminal of the state matches, the
      root lexer decides between UnexpectedToken and UnexpectedCharacters
      (ContextualLexer.lex). *)
  Fixpoint run (fuel : nat) (st : stack) (s : str) (line : N) : result cst :=
    match fuel with
    | O => Err EFuel
    | Datatypes.S f =>
        match lex_next st s line with
        | LFuel => Err EFuel
        | LBad rest _ =>
            match scan E root_lexer rest with
            | None => Err EFuel
            | Some None => Err EUnexpectedCharacters
            | Some (Some _) => Err EUnexpectedToken
            end
        | LTok n t rest line' =>
            match feed (feed_fuel st) st (term_id n) (Some (Leaf n t)) with
            | FShift st' => run f st' rest line'
            | FNoAction => Err EUnexpectedToken
            | FDone _ | FStuck | FFuel => Err EFuel
            end
        | LEof _ =>
            match feed (feed_fuel st) st (g_end bicep_gram) None with
            | FDone v => Ok v
            | FNoAction => Err EUnexpectedToken
            | FShift _ | FStuck | FFuel => Err EFuel
            end
        end
    end.

  Definition parse_cst (text : str) : result cst :=
    run (Datatypes.S (List.length text)) [] text 1.
End Parse.
