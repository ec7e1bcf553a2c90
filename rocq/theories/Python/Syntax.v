(** The part of Python's syntax pycep is written in: tokens with indentation,
    expressions, statements (The Python Language Reference, chapters 2, 6, 7, 8).
    [None]: not in this part.  Annotations are read and dropped. *)
From Coq Require Import List NArith Bool String Ascii.
From Verif Require Import Py.Str Lark.RegexText Lark.Loader.
Import ListNotations.
Local Open Scope string_scope.

Notation "'do' x <- m ; k" := (match m with Some x => k | None => None end)
  (at level 200, x pattern, m at level 100, k at level 200).

(** ** Tokens *)
Inductive ptok :=
| TName (s : string) | TNum (n : N) | TStr (s : string)
| TFStr (s : list ascii)      (* f"...": text between the quotes *)
| TOp (s : string)
| TNewline | TIndent | TDedent.

(** Text up to the closing quotes; a backslash takes the next character along. *)
Fixpoint until (fuel : nat) (close : string) (l : list ascii) : option (list ascii * list ascii) :=
  match fuel with
  | O => None
  | S n =>
      match after close l with
      | Some rest => Some ([], rest)
      | None =>
          match l with
          | x :: l1 =>
              if is_ch "\" x then
                match l1 with
                | y :: l2 => do (a, b) <- until n close l2; Some (x :: y :: a, b)
                | [] => None
                end
              else do (a, b) <- until n close l1; Some (x :: a, b)
          | [] => None
          end
      end
  end.
(** Behind a prefix: the text between the quotes, single or triple. *)
Definition quoted (fuel : nat) (l : list ascii) : option (list ascii * list ascii) :=
  match after """""""" l with
  | Some l1 => until fuel """""""" l1
  | None =>
      match l with
      | x :: l1 => if is_ch """'" x then until fuel (to_string [x]) l1 else None
      | [] => None
      end
  end.
(** Escape sequences of a string that is not raw. *)
Fixpoint unescape (l : list ascii) : option (list ascii) :=
  match l with
  | [] => Some []
  | x :: l1 =>
      if is_ch "\" x then
        match l1 with
        | y :: l2 =>
            do z <- (if is_ch "n" y then Some nl else if is_ch "\'""" y then Some y else None);
            do s <- unescape l2; Some (z :: s)
        | [] => None
        end
      else do s <- unescape l1; Some (x :: s)
  end.
Definition operators : list string :=
  ["..."; "->"; ":="; "=="; "!="; ">="; "<="; "**"; "("; ")"; "["; "]"; "{"; "}"; ","; ":"; "."; "="; "<"; ">"; "+"; "-"; "*"; "/"; "%"; "|"; "@"].
Fixpoint operator_at (ops : list string) (l : list ascii) : option (string * list ascii) :=
  match ops with
  | [] => None
  | o :: ops' => match after o l with Some rest => Some (o, rest) | None => operator_at ops' l end
  end.
Definition depth_after (o : string) (d : nat) : nat :=
  if existsb (String.eqb o) ["("; "["; "{"] then S d else if existsb (String.eqb o) [")"; "]"; "}"] then pred d else d.
Definition in_line (c : ascii) : bool := negb (Ascii.eqb c nl).
(** Blocks that end when a line begins at column [col]. *)
Fixpoint dedents (col : nat) (stack : list nat) : list nat * list ptok :=
  match stack with
  | c :: stack' => if Nat.ltb col c then let '(s, ts) := dedents col stack' in (s, TDedent :: ts) else (stack, [])
  | [] => ([], [])
  end.
Definition quote_next (l : list ascii) : bool := match l with x :: _ => is_ch """'" x | [] => false end.
(** [depth]: open brackets (line ends inside do not count); [stack]: columns of the
    open blocks; [bol]: at the beginning of a line. *)
Fixpoint lex (fuel depth : nat) (stack : list nat) (bol : bool) (l : list ascii) : option (list ptok) :=
  match fuel with
  | O => None
  | S n =>
      if bol then
        let '(spaces, rest) := take_while (is_ch " ") l in
        match rest with
        | [] => Some (snd (dedents 0 stack))
        | x :: rest1 =>
            if Ascii.eqb x nl then lex n depth stack true rest1
            else if is_ch "#" x then lex n depth stack true (snd (take_while in_line rest))
            else
              let col := List.length spaces in
              if Nat.ltb (hd 0 stack) col then do ts <- lex n depth (col :: stack) false rest; Some (TIndent :: ts)
              else let '(stack', ds) := dedents col stack in do ts <- lex n depth stack' false rest; Some (ds ++ ts)%list
        end
      else
        let emit t l' := do ts <- lex n depth stack false l'; Some (t :: ts) in
        match l with
        | [] => Some (TNewline :: snd (dedents 0 stack))
        | x :: l1 =>
            if Ascii.eqb x nl then
              (if Nat.eqb depth 0 then do ts <- lex n depth stack true l1; Some (TNewline :: ts) else lex n depth stack false l1)
            else if is_ch " " x then lex n depth stack false l1
            else if is_ch "#" x then lex n depth stack false (snd (take_while in_line l))
            else if is_ch """'" x then do (s, rest) <- quoted n l; do s' <- unescape s; emit (TStr (to_string s')) rest
            else if is_ch "r" x && quote_next l1 then do (s, rest) <- quoted n l1; emit (TStr (to_string s)) rest
            else if is_ch "f" x && quote_next l1 then do (s, rest) <- quoted n l1; if existsb (is_ch "\") s then None else emit (TFStr s) rest
            else if Py.Str.is_digit (code x) then let '(d, rest) := take_while (fun c => Py.Str.is_digit (code c)) l in emit (TNum (number d)) rest
            else if name_char x then let '(w, rest) := take_while name_char l in emit (TName (to_string w)) rest
            else do (o, rest) <- operator_at operators l; do ts <- lex n (depth_after o depth) stack false rest; Some (TOp o :: ts)
        end
  end.
Definition tokens (text : list ascii) : option (list ptok) := lex (S (List.length text)) 0 [] true text.

(** ** Abstract syntax *)
Inductive expr :=
| EName (x : string) | ENum (n : N) | EStr (s : string) | EEllipsis
| EFmt (parts : list (string + expr))
| EAttr (e : expr) (x : string) | ESub (e i : expr) | ESlice (e : expr) (lo hi : option expr)
| ECall (f : expr) (args : list arg)
| EDict (items : list (option expr * expr))        (* without key: ** *)
| EList (l : list expr) | ETup (l : list expr) | ESet (l : list expr)
| EStar (e : expr)                                  (* in displays and targets *)
| EBin (op : string) (a b : expr) | ECmp (op : string) (a b : expr)
| ENot (e : expr) | ENeg (e : expr) | EAnd (a b : expr) | EOr (a b : expr)
| ECond (test a b : expr)                           (* a if test else b *)
| EWalrus (x : string) (e : expr)
| EListComp (elt : expr) (target : expr) (iter : expr) (cond : option expr)     (* also generators *)
| EDictComp (k v : expr) (target : expr) (iter : expr) (cond : option expr)
with arg := APos (e : expr) | AStar (e : expr) | AKw (x : string) (e : expr).

Inductive stmt :=
| SExpr (e : expr) | SAssign (target e : expr) | SIf (test : expr) (yes no : list stmt)
| SFor (target iter : expr) (body : list stmt) | SReturn (e : expr) | SRaise (e : expr) | SContinue | SPass
| SImport
| SDef (decorators : list expr) (name : string) (params : list (string * option expr)) (body : list stmt)
| SClass (name : string) (bases : list arg) (body : list stmt).

(** ** Parser *)
Definition is_op (o : string) (t : ptok) : bool := match t with TOp o' => String.eqb o o' | _ => false end.
Definition is_word (w : string) (t : ptok) : bool := match t with TName w' => String.eqb w w' | _ => false end.
Definition expect (p : ptok -> bool) (ts : list ptok) : option (list ptok) :=
  match ts with t :: r => if p t then Some r else None | [] => None end.
Definition next_is (p : ptok -> bool) (ts : list ptok) : bool := match ts with t :: _ => p t | [] => false end.
Definition keywords : list string := ["if"; "else"; "elif"; "for"; "in"; "not"; "and"; "or"; "is"; "return"; "raise"; "def"; "class"; "import"; "from"; "continue"; "pass"; "lambda"; "while"; "try"; "with"].
(** Levels: 0 walrus and conditional, 1 or, 2 and, 3 not, 4 comparison, 5 |, 6 + -,
    7 * / %, 8 unary minus, 9 primary. *)
Definition binary (lvl : nat) (ts : list ptok) : option ((expr -> expr -> expr) * list ptok) :=
  match lvl, ts with
  | 1, TName "or" :: r => Some (EOr, r)
  | 2, TName "and" :: r => Some (EAnd, r)
  | 5, TOp "|" :: r => Some (EBin "|", r)
  | 6, TOp "+" :: r => Some (EBin "+", r)
  | 6, TOp "-" :: r => Some (EBin "-", r)
  | 7, TOp "*" :: r => Some (EBin "*", r)
  | 7, TOp "/" :: r => Some (EBin "/", r)
  | 7, TOp "%" :: r => Some (EBin "%", r)
  | _, _ => None
  end.
Definition comparison (ts : list ptok) : option (string * list ptok) :=
  match ts with
  | TOp "==" :: r => Some ("==", r)
  | TOp "!=" :: r => Some ("!=", r)
  | TOp ">=" :: r => Some (">=", r)
  | TOp "<=" :: r => Some ("<=", r)
  | TOp ">" :: r => Some (">", r)
  | TOp "<" :: r => Some ("<", r)
  | TName "in" :: r => Some ("in", r)
  | TName "not" :: TName "in" :: r => Some ("not in", r)
  | _ => None
  end.
(** The parts of a formatted string: texts and the tokens of expressions. *)
Fixpoint fmt_parts (fuel : nat) (l : list ascii) : option (list (string + list ptok)) :=
  match fuel with
  | O => None
  | S n =>
      match l with
      | [] => Some []
      | x :: l1 =>
          if is_ch "{" x then
            do (e, rest) <- until n "}" l1; do ts <- tokens e; do ps <- fmt_parts n rest; Some (inr ts :: ps)
          else if is_ch "}" x then None
          else let '(s, rest) := take_while (fun c => negb (is_ch "{}" c)) l in do ps <- fmt_parts n rest; Some (inl (to_string s) :: ps)
      end
  end.
Definition tuple_or_one (l : list expr) (comma : bool) : expr :=
  match l, comma with [e], false => e | _, _ => ETup l end.

Fixpoint pexp (fuel lvl : nat) (ts : list ptok) {struct fuel} : option (expr * list ptok) :=
  match fuel with
  | O => None
  | S n =>
      match lvl with
      | 0 =>
          match ts with
          | TName x :: TOp ":=" :: r => do (e, r1) <- pexp n 0 r; Some (EWalrus x e, r1)
          | _ =>
              do (a, r) <- pexp n 1 ts;
              if next_is (is_word "if") r then
                do (c, r1) <- pexp n 1 (tl r); do r2 <- expect (is_word "else") r1; do (b, r3) <- pexp n 0 r2; Some (ECond c a b, r3)
              else Some (a, r)
          end
      | 3 =>
          match ts with
          | TName "not" :: r => do (e, r1) <- pexp n 3 r; Some (ENot e, r1)
          | _ => pexp n 4 ts
          end
      | 4 =>
          do (a, r) <- pexp n 5 ts;
          match comparison r with
          | Some (o, r1) => do (b, r2) <- pexp n 5 r1; Some (ECmp o a b, r2)
          | None => Some (a, r)
          end
      | 8 =>
          match ts with
          | TOp "-" :: r => do (e, r1) <- pexp n 8 r; Some (ENeg e, r1)
          | _ => pexp n 9 ts
          end
      | 9 => do (a, r) <- patom n ts; ptrail n a r
      | _ => do (a, r) <- pexp n (S lvl) ts; pbin n lvl a r
      end
  end
with pbin (fuel lvl : nat) (a : expr) (ts : list ptok) {struct fuel} : option (expr * list ptok) :=
  match fuel with
  | O => None
  | S n =>
      match binary lvl ts with
      | Some (mk, r) => do (b, r1) <- pexp n (S lvl) r; pbin n lvl (mk a b) r1
      | None => Some (a, ts)
      end
  end
with ptrail (fuel : nat) (a : expr) (ts : list ptok) {struct fuel} : option (expr * list ptok) :=
  match fuel with
  | O => None
  | S n =>
      match ts with
      | TOp "." :: TName x :: r => ptrail n (EAttr a x) r
      | TOp "(" :: r => do (args, r1) <- pargs n r; ptrail n (ECall a args) r1
      | TOp "[" :: r =>
          do (lo, r1) <- (if next_is (is_op ":") r then Some (None, r) else do (l, c, r1) <- plist n 0 "]" r; Some (Some (tuple_or_one l c), r1));
          if next_is (is_op ":") r1 then
            do (hi, r2) <- (if next_is (is_op "]") (tl r1) then Some (None, tl r1) else do (e, r2) <- pexp n 0 (tl r1); Some (Some e, r2));
            do r3 <- expect (is_op "]") r2; ptrail n (ESlice a lo hi) r3
          else do r2 <- expect (is_op "]") r1; do i <- lo; ptrail n (ESub a i) r2
      | _ => Some (a, ts)
      end
  end
(** Expressions (and *expressions) separated by commas, up to [close] or the end;
    was there a comma behind the first? *)
with plist (fuel lvl : nat) (close : string) (ts : list ptok) {struct fuel} : option (list expr * bool * list ptok) :=
  match fuel with
  | O => None
  | S n =>
      if next_is (is_op close) ts then Some ([], false, ts)
      else
        do (e, r) <- (match ts with TOp "*" :: r => do (e, r1) <- pexp n 5 r; Some (EStar e, r1) | _ => pexp n lvl ts end);
        if next_is (is_op ",") r then
          (match tl r with
           | TOp "=" :: _ | TNewline :: _ | TName "in" :: _ => Some ([e], true, tl r)
           | r1 => do (l, _, r2) <- plist n lvl close r1; Some (e :: l, true, r2)
           end)
        else Some ([e], false, r)
  end
with patom (fuel : nat) (ts : list ptok) {struct fuel} : option (expr * list ptok) :=
  match fuel with
  | O => None
  | S n =>
      match ts with
      | TName x :: r => if existsb (String.eqb x) keywords then None else Some (EName x, r)
      | TNum k :: r => Some (ENum k, r)
      | TStr s :: r => Some (EStr s, r)
      | TFStr s :: r => do ps <- fmt_parts n s; do es <- pparts n ps; Some (EFmt es, r)
      | TOp "..." :: r => Some (EEllipsis, r)
      | TOp "(" :: r => do (l, c, r1) <- plist n 0 ")" r; do r2 <- expect (is_op ")") r1; Some (tuple_or_one l c, r2)
      | TOp "[" :: r =>
          do (l, c, r1) <- plist n 0 "]" r;
          match l, next_is (is_word "for") r1 with
          | [e], true => do (t, i, c, r2) <- pfor n r1; do r3 <- expect (is_op "]") r2; Some (EListComp e t i c, r3)
          | _, false => do r2 <- expect (is_op "]") r1; Some (EList l, r2)
          | _, _ => None
          end
      | TOp "{" :: r => pbrace n [] r
      | _ => None
      end
  end
(** The rest of a dict or set display; [acc]: items so far, reversed. *)
with pbrace (fuel : nat) (acc : list (option expr * expr)) (ts : list ptok) {struct fuel} : option (expr * list ptok) :=
  match fuel with
  | O => None
  | S n =>
      match ts with
      | TOp "}" :: r => Some (EDict (rev acc), r)
      | TOp "**" :: r => do (e, r1) <- pexp n 5 r; pcomma n ((None, e) :: acc) r1
      | _ =>
          do (k, r) <- pexp n 0 ts;
          if next_is (is_op ":") r then
            do (v, r1) <- pexp n 0 (tl r);
            if next_is (is_word "for") r1 then
              do (t, i, c, r2) <- pfor n r1; do r3 <- expect (is_op "}") r2;
              match acc with [] => Some (EDictComp k v t i c, r3) | _ => None end
            else pcomma n ((Some k, v) :: acc) r1
          else
            match acc with
            | [] => do (l, _, r1) <- plist n 0 "}" ts; do r2 <- expect (is_op "}") r1; Some (ESet l, r2)
            | _ => None
            end
      end
  end
with pcomma (fuel : nat) (acc : list (option expr * expr)) (ts : list ptok) {struct fuel} : option (expr * list ptok) :=
  match fuel with
  | O => None
  | S n => if next_is (is_op ",") ts then pbrace n acc (tl ts) else do r <- expect (is_op "}") ts; Some (EDict (rev acc), r)
  end
(** for target in iterable [if condition] *)
with pfor (fuel : nat) (ts : list ptok) {struct fuel} : option (expr * expr * option expr * list ptok) :=
  match fuel with
  | O => None
  | S n =>
      do r <- expect (is_word "for") ts; do (l, c, r1) <- plist n 5 "" r; do r2 <- expect (is_word "in") r1; do (i, r3) <- pexp n 1 r2;
      if next_is (is_word "if") r3 then do (e, r4) <- pexp n 1 (tl r3); Some (tuple_or_one l c, i, Some e, r4)
      else Some (tuple_or_one l c, i, None, r3)
  end
with pargs (fuel : nat) (ts : list ptok) {struct fuel} : option (list arg * list ptok) :=
  match fuel with
  | O => None
  | S n =>
      match ts with
      | TOp ")" :: r => Some ([], r)
      | _ =>
          do (a, r) <-
            (match ts with
             | TOp "*" :: r => do (e, r1) <- pexp n 0 r; Some (AStar e, r1)
             | TName x :: TOp "=" :: r => do (e, r1) <- pexp n 0 r; Some (AKw x e, r1)
             | _ => do (e, r1) <- pexp n 0 ts;
                    if next_is (is_word "for") r1 then do (t, i, c, r2) <- pfor n r1; Some (APos (EListComp e t i c), r2) else Some (APos e, r1)
             end);
          if next_is (is_op ",") r then do (l, r1) <- pargs n (tl r); Some (a :: l, r1)
          else do r1 <- expect (is_op ")") r; Some ([a], r1)
      end
  end
with pparts (fuel : nat) (ps : list (string + list ptok)) {struct fuel} : option (list (string + expr)) :=
  match fuel with
  | O => None
  | S n =>
      match ps with
      | [] => Some []
      | inl s :: r => do es <- pparts n r; Some (inl s :: es)
      | inr ts :: r => do (e, r1) <- pexp n 0 ts; match r1 with [TNewline] => do es <- pparts n r; Some (inr e :: es) | _ => None end
      end
  end.

(** Parameters; defaults are kept, a lone star is dropped. *)
Fixpoint pparams (fuel : nat) (ts : list ptok) : option (list (string * option expr) * list ptok) :=
  match fuel with
  | O => None
  | S n =>
      match ts with
      | TOp ")" :: r => Some ([], r)
      | TOp "*" :: TOp "," :: r => pparams n r
      | TName x :: r =>
          do r1 <- (if next_is (is_op ":") r then do (_, r1) <- pexp n 1 (tl r); Some r1 else Some r);
          do (d, r2) <- (if next_is (is_op "=") r1 then do (e, r2) <- pexp n 1 (tl r1); Some (Some e, r2) else Some (None, r1));
          if next_is (is_op ",") r2 then do (l, r3) <- pparams n (tl r2); Some ((x, d) :: l, r3)
          else do r3 <- expect (is_op ")") r2; Some ([(x, d)], r3)
      | _ => None
      end
  end.
Fixpoint to_newline (ts : list ptok) : list ptok := match ts with TNewline :: r => r | _ :: r => to_newline r | [] => [] end.
Definition newline (ts : list ptok) : option (list ptok) := expect (fun t => match t with TNewline => true | _ => false end) ts.

(** One statement, with the decorators read so far; a block. *)
Fixpoint pstmt (fuel : nat) (decos : list expr) (ts : list ptok) {struct fuel} : option (stmt * list ptok) :=
  match fuel with
  | O => None
  | S n =>
      match ts with
      | TName "import" :: r | TName "from" :: r => Some (SImport, to_newline r)
      | TName "continue" :: r => do r1 <- newline r; Some (SContinue, r1)
      | TName "pass" :: r => do r1 <- newline r; Some (SPass, r1)
      | TName "return" :: r =>
          if next_is (fun t => match t with TNewline => true | _ => false end) r then Some (SReturn (EName "None"), tl r)
          else do (l, c, r1) <- plist n 0 "" r; do r2 <- newline r1; Some (SReturn (tuple_or_one l c), r2)
      | TName "raise" :: r => do (e, r1) <- pexp n 0 r; do r2 <- newline r1; Some (SRaise e, r2)
      | TName "if" :: r | TName "elif" :: r =>
          do (c, r1) <- pexp n 0 r; do (b, r2) <- pblock n r1;
          match r2 with
          | TName "elif" :: _ => do (s, r3) <- pstmt n [] r2; Some (SIf c b [s], r3)
          | TName "else" :: r3 => do (b', r4) <- pblock n r3; Some (SIf c b b', r4)
          | _ => Some (SIf c b [], r2)
          end
      | TName "for" :: r =>
          do (l, c, r1) <- plist n 5 "" r; do r2 <- expect (is_word "in") r1; do (i, r3) <- pexp n 0 r2; do (b, r4) <- pblock n r3;
          Some (SFor (tuple_or_one l c) i b, r4)
      | TOp "@" :: r => do (e, r1) <- pexp n 0 r; do r2 <- newline r1; pstmt n (decos ++ [e])%list r2
      | TName "def" :: TName f :: TOp "(" :: r =>
          do (ps, r1) <- pparams n r;
          do r2 <- (if next_is (is_op "->") r1 then do (_, r2) <- pexp n 1 (tl r1); Some r2 else Some r1);
          do (b, r3) <- pblock n r2; Some (SDef decos f ps b, r3)
      | TName "class" :: TName c :: r =>
          do (bs, r1) <- (match r with TOp "(" :: r1 => pargs n r1 | _ => Some ([], r) end);
          do (b, r2) <- pblock n r1; Some (SClass c bs b, r2)
      | _ =>
          do (l, c, r) <- plist n 0 "" ts;
          let t := tuple_or_one l c in
          do r1 <- (if next_is (is_op ":") r then do (_, r1) <- pexp n 1 (tl r); Some r1 else Some r);
          if next_is (is_op "=") r1 then do (l', c', r2) <- plist n 0 "" (tl r1); do r3 <- newline r2; Some (SAssign t (tuple_or_one l' c'), r3)
          else do r2 <- newline r1; Some (SExpr t, r2)
      end
  end
with pblock (fuel : nat) (ts : list ptok) {struct fuel} : option (list stmt * list ptok) :=
  match fuel with
  | O => None
  | S n =>
      match ts with
      | TOp ":" :: TNewline :: TIndent :: r => pstmts n r
      | _ => None
      end
  end
with pstmts (fuel : nat) (ts : list ptok) {struct fuel} : option (list stmt * list ptok) :=
  match fuel with
  | O => None
  | S n =>
      match ts with
      | [] => Some ([], [])
      | TDedent :: r => Some ([], r)
      | _ => do (s, r) <- pstmt n [] ts; do (l, r1) <- pstmts n r; Some (s :: l, r1)
      end
  end.
Definition parse_module (pieces : list string) : option (list stmt) :=
  let text := List.concat (map list_ascii_of_string pieces) in
  do ts <- tokens text; do (l, r) <- pstmts (10 * List.length ts + 100) ts; match r with [] => Some l | _ => None end.
