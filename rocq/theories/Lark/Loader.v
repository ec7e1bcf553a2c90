(** Reading a grammar file (lark/load_grammar.py): tokens, rules, terminals, and
    the patterns of terminals.  Models the part of Lark's grammar syntax that
    bicep.lark uses; [None]: not in this part. *)
From Coq Require Import List NArith Bool String Ascii.
From Verif Require Import Py.Str Lark.Regex Lark.Ebnf Lark.RegexText.
Import ListNotations.
Local Open Scope string_scope.

(** ** Tokens (load_grammar.py TERMINALS) *)
Inductive gtok :=
| GRule (s : string) | GTerm (s : string) | GStr (s : string) | GRe (s : string) | GNum (n : N)
| GOp (c : ascii)          (* ? * + *)
| GMod (s : string)        (* ? ! in front of a rule *)
| GP (s : string)          (* ( ) [ ] : | . .. ~ -> *)
| GImport | GIgnore | GNl.

Definition to_string (l : list ascii) : string := string_of_list_ascii l.
Definition name_char (c : ascii) : bool := is_word_ascii (code c).
Definition nl : ascii := "010"%char.
Fixpoint take_while (p : ascii -> bool) (l : list ascii) : list ascii * list ascii :=
  match l with
  | x :: l' => if p x then let '(a, b) := take_while p l' in (x :: a, b) else ([], l)
  | [] => ([], [])
  end.
(** RULE: _?[a-z]..., TERMINAL: _?[A-Z]... *)
Definition name_tok (l : list ascii) : option gtok :=
  let first := match l with x :: y :: _ => if is_ch "_" x then y else x | [x] => x | [] => nl end in
  if is_lower (code first) then Some (GRule (to_string l))
  else if is_upper (code first) then Some (GTerm (to_string l)) else None.
Definition number (l : list ascii) : N := fold_left (fun n c => n * 10 + (code c - 48))%N l 0%N.
(** Text up to the closing delimiter; a backslash takes the next character along. *)
Fixpoint delimited (d : ascii) (l : list ascii) : option (list ascii * list ascii) :=
  match l with
  | [] => None
  | x :: l1 =>
      if Ascii.eqb x d then Some ([], l1)
      else if is_ch "\" x then
        match l1 with
        | y :: l2 => match delimited d l2 with Some (a, b) => Some (x :: y :: a, b) | None => None end
        | [] => None
        end
      else match delimited d l1 with Some (a, b) => Some (x :: a, b) | None => None end
  end.
Definition in_line (c : ascii) : bool := negb (Ascii.eqb c nl).
(** Blank space, line ends and comments. *)
Fixpoint skip_space (fuel : nat) (l : list ascii) : list ascii :=
  match fuel with
  | O => l
  | S fuel' =>
      match l with
      | x :: l1 =>
          if is_ch " " x || Ascii.eqb x "009"%char || Ascii.eqb x nl then skip_space fuel' l1
          else match after "//" l with Some l2 => skip_space fuel' (snd (take_while in_line l2)) | None => l end
      | [] => l
      end
  end.
Fixpoint lex (fuel : nat) (l : list ascii) : option (list gtok) :=
  match fuel with
  | O => None
  | S fuel' =>
      let emit t l' := match lex fuel' l' with Some ts => Some (t :: ts) | None => None end in
      match l with
      | [] => Some []
      | x :: l1 =>
          if is_ch " " x then lex fuel' l1
          else if Ascii.eqb x nl || match after "//" l with Some _ => true | None => false end then
            (* the next line goes on with an alternative, or the definition ends *)
            let l2 := skip_space fuel' l in
            match l2 with
            | y :: _ => if is_ch "|" y then lex fuel' l2 else emit GNl l2
            | [] => emit GNl []
            end
          else if Ascii.eqb x """" then
            match delimited """" l1 with
            | Some (s, rest) => if existsb (is_ch "\") s then None else emit (GStr (to_string s)) rest
            | None => None
            end
          else if is_ch "/" x then
            match delimited "/" l1 with
            | Some (s, rest) => match rest with
                                | y :: _ => if is_ch "imslux" y then None else emit (GRe (to_string s)) rest
                                | [] => emit (GRe (to_string s)) rest
                                end
            | None => None
            end
          else if is_digit (code x) then let '(d, rest) := take_while (fun c => is_digit (code c)) l in emit (GNum (number d)) rest
          else if name_char x then
            let '(n, rest) := take_while name_char l in
            match name_tok n with Some t => emit t rest | None => None end
          else if is_ch "?!" x && match l1 with y :: _ => is_ch "_?!" y || is_lower (code y) | [] => false end then emit (GMod (to_string [x])) l1
          else if is_ch "?*+" x then emit (GOp x) l1
          else if is_ch "()[]:|~" x then emit (GP (to_string [x])) l1
          else match after "->" l with Some rest => emit (GP "->") rest | None =>
               match after ".." l with Some rest => emit (GP "..") rest | None =>
               match after "." l with Some rest => emit (GP ".") rest | None =>
               match after "%import" l with Some rest => emit GImport rest | None =>
               match after "%ignore" l with Some rest => emit GIgnore rest | None => None
               end end end end end
      end
  end.

(** ** Expressions (load_grammar.py RULES: expansions, expansion, expr, atom) *)
Definition one_or_seq (l : list ebnf) : ebnf := match l with [e] => e | _ => ESeq l end.
Definition one_or_alt (l : list ebnf) : ebnf := match l with [e] => e | _ => EAlt l end.
Definition is_p (s : string) (t : gtok) : bool := match t with GP p => String.eqb p s | _ => false end.
(** What may follow an atom: ? * + ~n ~n..m *)
Definition repeated (a : ebnf) (ts : list gtok) : option (ebnf * list gtok) :=
  match ts with
  | GOp c :: rest => Some ((if is_ch "?" c then EOpt a else if is_ch "*" c then EStar a else EPlus a), rest)
  | GP "~" :: GNum lo :: GP ".." :: GNum hi :: rest => Some (ERep a (N.to_nat lo) (N.to_nat hi), rest)
  | GP "~" :: GNum n :: rest => Some (ERep a (N.to_nat n) (N.to_nat n), rest)
  | GP "~" :: _ => None
  | _ => Some (a, ts)
  end.
(** A regexp keeps its text here; it gets its name below. *)
Fixpoint expansions (fuel : nat) (ts : list gtok) : option (list ebnf * list gtok) :=
  match fuel with
  | O => None
  | S fuel' =>
      match expansion fuel' ts with
      | Some (e, GP "|" :: rest) =>
          match expansions fuel' rest with
          | Some (es, rest') => Some (one_or_seq e :: es, rest')
          | None => None
          end
      | Some (e, rest) => Some ([one_or_seq e], rest)
      | None => None
      end
  end
with expansion (fuel : nat) (ts : list gtok) : option (list ebnf * list gtok) :=
  match fuel with
  | O => None
  | S fuel' =>
      match ts with
      | [] => Some ([], [])
      | t :: _ =>
          if is_p ")" t || is_p "]" t || is_p "|" t || is_p "->" t then Some ([], ts)
          else match atom fuel' ts with
               | Some (a, ts1) =>
                   match repeated a ts1 with
                   | Some (e, ts2) => match expansion fuel' ts2 with Some (es, rest) => Some (e :: es, rest) | None => None end
                   | None => None
                   end
               | None => None
               end
      end
  end
with atom (fuel : nat) (ts : list gtok) : option (ebnf * list gtok) :=
  match fuel with
  | O => None
  | S fuel' =>
      match ts with
      | GP "(" :: ts1 => match expansions fuel' ts1 with
                         | Some (es, GP ")" :: rest) => Some (one_or_alt es, rest)
                         | _ => None
                         end
      | GP "[" :: ts1 => match expansions fuel' ts1 with
                         | Some (es, GP "]" :: rest) => Some (EMaybe (one_or_alt es), rest)
                         | _ => None
                         end
      (* "a".."b": [a-b] *)
      | GStr a :: GP ".." :: GStr b :: rest => Some (ERe ("[" ++ a ++ "-" ++ b ++ "]"), rest)
      | GStr s :: rest => Some (EStr s, rest)
      | GRe s :: rest => Some (ERe s, rest)
      | GTerm n :: rest => Some (ETerm n, rest)
      | GRule n :: rest => Some (ENT n, rest)
      | _ => None
      end
  end.
(** The alternatives of a rule, each perhaps with an alias. *)
Fixpoint aliases (fuel : nat) (ts : list gtok) : option (list (ebnf * option string)) :=
  match fuel with
  | O => None
  | S fuel' =>
      match expansion (2 * List.length ts + 2) ts with
      | Some (e, rest) =>
          let '(al, rest) := match rest with GP "->" :: GRule a :: r => (Some a, r) | _ => (None, rest) end in
          match rest with
          | [] => Some [(one_or_seq e, al)]
          | GP "|" :: r => match aliases fuel' r with Some l => Some ((one_or_seq e, al) :: l) | None => None end
          | _ => None
          end
      | None => None
      end
  end.

(** ** Statements *)
Inductive stmt :=
| SRule (r : ruledef)
| STerm (name : string) (prio : N) (e : ebnf)
| SImport (name : string)
| SIgnore (name : string).
Fixpoint split_lines (ts : list gtok) : list (list gtok) :=
  match ts with
  | [] => [[]]
  | GNl :: r => [] :: split_lines r
  | t :: r => match split_lines r with l :: ls => (t :: l) :: ls | [] => [[t]] end
  end.
Definition priority (ts : list gtok) : N * list gtok :=
  match ts with GP "." :: GNum n :: rest => (n, rest) | _ => (0%N, ts) end.
Definition parse_stmt (ts : list gtok) : option stmt :=
  let rule (expand1 keep_all : bool) (n : string) (ts : list gtok) :=
    match priority ts with
    | (p, GP ":" :: body) =>
        match aliases (S (List.length body)) body with
        | Some alts => Some (SRule {| r_name := n; r_expand1 := expand1; r_keep_all := keep_all; r_prio := p; r_alts := alts |})
        | None => None
        end
    | _ => None
    end in
  match ts with
  | GMod "?" :: GRule n :: rest => rule true false n rest
  | GMod "!" :: GRule n :: rest => rule false true n rest
  | GRule n :: rest => rule false false n rest
  | GTerm n :: rest =>
      match priority rest with
      | (p, GP ":" :: body) =>
          match expansions (2 * List.length body + 2) body with
          | Some (es, []) => Some (STerm n p (one_or_alt es))
          | _ => None
          end
      | _ => None
      end
  | [GImport; GRule "common"; GP "."; GTerm n] => Some (SImport n)
  | [GIgnore; GTerm n] => Some (SIgnore n)
  | _ => None
  end.
Fixpoint all_some {A B} (f : A -> option B) (l : list A) : option (list B) :=
  match l with
  | [] => Some []
  | x :: l' => match f x, all_some f l' with Some y, Some ys => Some (y :: ys) | _, _ => None end
  end.
Definition parse_grammar (s : string) : option (list stmt) :=
  match lex (S (String.length s)) (chars s) with
  | Some ts => all_some parse_stmt (filter (fun l => match l with [] => false | _ => true end) (split_lines ts))
  | None => None
  end.

(** ** Patterns (load_grammar.py eval_escaping, TerminalTreeToPattern) *)
(** Lark evaluates \n \r \t \f; other escapes stay. *)
Fixpoint eval_escaping (l : list ascii) : option (list ascii) :=
  match l with
  | [] => Some []
  | x :: l1 =>
      if is_ch "\" x then
        match l1 with
        | y :: l2 =>
            match eval_escaping l2 with
            | Some r =>
                if is_ch "Uux""" y then None
                else if is_ch "n" y then Some ("010"%char :: r)
                else if is_ch "t" y then Some ("009"%char :: r)
                else if is_ch "r" y then Some ("013"%char :: r)
                else if is_ch "f" y then Some ("012"%char :: r)
                else Some (x :: y :: r)
            | None => None
            end
        | [] => None
        end
      else match eval_escaping l1 with Some r => Some (x :: r) | None => None end
  end.
(** re.escape *)
Definition re_escape (s : string) : string :=
  to_string (flat_map (fun c => if is_ch "()[]{}?*+-|^$\.&~# " c || in_range 9 13 (code c) then ["\"%char; c] else [c]) (chars s)).
Inductive pat := PStr (s : string) | PRe (src : string).
Definition pat_text (p : pat) : string := match p with PStr s => s | PRe s => s end.
Definition to_regexp (p : pat) : string := match p with PStr s => re_escape s | PRe s => s end.
Definition pat_width (p : pat) : N * option N :=
  match p with
  | PStr s => (N.of_nat (String.length s), Some (N.of_nat (String.length s)))
  | PRe s => match parse_re s with Some r => width r | None => (1%N, None) end
  end.
(** The order of alternatives: longest first. *)
Definition wcmp (a b : option N) : comparison :=
  match a, b with None, None => Eq | None, Some _ => Gt | Some _, None => Lt | Some x, Some y => N.compare x y end.
Definition longer_first (a b : pat) : bool :=
  match wcmp (snd (pat_width a)) (snd (pat_width b)) with
  | Gt => true | Lt => false
  | Eq => match N.compare (fst (pat_width a)) (fst (pat_width b)) with
          | Gt => true | Lt => false
          | Eq => Nat.leb (String.length (pat_text b)) (String.length (pat_text a))
          end
  end.
Fixpoint insert_pat (p : pat) (l : list pat) : list pat :=
  match l with [] => [p] | q :: l' => if longer_first p q then p :: l else q :: insert_pat p l' end.
Definition sort_pats (l : list pat) : list pat := fold_right insert_pat [] l.
Definition repeat_pat (p : pat) (op : string) : pat := PRe ("(?:" ++ to_regexp p ++ ")" ++ op).
Fixpoint compile_pat (defs : string -> option ebnf) (fuel : nat) (e : ebnf) : option pat :=
  match fuel with
  | O => None
  | S fuel' =>
      let go := compile_pat defs fuel' in
      match e with
      | EStr s => Some (PStr s)
      | ERe s => match eval_escaping (chars s) with Some r => Some (PRe (to_string r)) | None => None end
      | ETerm n => match defs n with Some d => go d | None => None end
      | ESeq l => match all_some go l with Some ps => Some (PRe (String.concat "" (map to_regexp ps))) | None => None end
      | EAlt l => match all_some go l with
                  | Some ps => Some (PRe ("(?:" ++ String.concat "|" (map to_regexp (sort_pats ps)) ++ ")"))
                  | None => None
                  end
      | EOpt a | EMaybe a => match go a with Some p => Some (repeat_pat p "?") | None => None end
      | EStar a => match go a with Some p => Some (repeat_pat p "*") | None => None end
      | EPlus a => match go a with Some p => Some (repeat_pat p "+") | None => None end
      | ENT _ | ERep _ _ _ => None
      end
  end.

(** ** The grammar *)
Record loaded := {
  l_rules : list ruledef;
  l_terms : list (string * (N * pat));     (* name, priority, pattern *)
  l_ignore : list string
}.
Definition find_term (l : list stmt) (n : string) : option (N * ebnf) :=
  fold_right (fun s r => match s with STerm m p e => if String.eqb m n then Some (p, e) else r | _ => r end) None l.
(** Terminals in use. *)
Fixpoint terms_of (e : ebnf) : list string :=
  match e with
  | ETerm n => [n]
  | EStr _ | ERe _ | ENT _ => []
  | ESeq l | EAlt l => flat_map terms_of l
  | EOpt e | EMaybe e | EStar e | EPlus e | ERep e _ _ => terms_of e
  end.
Fixpoint regexps_of (e : ebnf) : list string :=
  match e with
  | ERe s => [s]
  | EStr _ | ETerm _ | ENT _ => []
  | ESeq l | EAlt l => flat_map regexps_of l
  | EOpt e | EMaybe e | EStar e | EPlus e | ERep e _ _ => regexps_of e
  end.
(** Regexps of rules are terminals of their own.  [anon] names them (Lark: __ANON_n). *)
Fixpoint name_regexps (anon : string -> string) (e : ebnf) : ebnf :=
  match e with
  | ERe s => ERe (anon s)
  | EStr _ | ETerm _ | ENT _ => e
  | ESeq l => ESeq (map (name_regexps anon) l)
  | EAlt l => EAlt (map (name_regexps anon) l)
  | EOpt e => EOpt (name_regexps anon e)
  | EMaybe e => EMaybe (name_regexps anon e)
  | EStar e => EStar (name_regexps anon e)
  | EPlus e => EPlus (name_regexps anon e)
  | ERep e lo hi => ERep (name_regexps anon e) lo hi
  end.
Definition name_rule (anon : string -> string) (r : ruledef) : ruledef :=
  {| r_name := r_name r; r_expand1 := r_expand1 r; r_keep_all := r_keep_all r; r_prio := r_prio r;
     r_alts := map (fun a => (name_regexps anon (fst a), snd a)) (r_alts r) |}.
Definition load (anon : string -> string) (text common : string) : option loaded :=
  match parse_grammar text, parse_grammar common with
  | Some l, Some cl =>
      let rules := flat_map (fun s => match s with SRule r => [r] | _ => [] end) l in
      let imports := flat_map (fun s => match s with SImport n => [n] | _ => [] end) l in
      let ignore := flat_map (fun s => match s with SIgnore n => [n] | _ => [] end) l in
      let exprs := flat_map (fun r => map fst (r_alts r)) rules in
      let used := nodup string_dec (flat_map terms_of exprs ++ ignore) in
      let top n := match find_term l n with
                   | Some d => Some d
                   | None => if existsb (String.eqb n) imports then find_term cl n else None
                   end in
      (* names inside the definitions of common.lark are its own *)
      let defs n := match top n with Some (_, e) => Some e | None => match find_term cl n with Some (_, e) => Some e | None => None end end in
      let named := all_some (fun n => match top n with
                                      | Some (p, e) => match compile_pat defs 20 e with Some q => Some (n, (p, q)) | None => None end
                                      | None => None
                                      end) used in
      let anonymous := all_some (fun s => match compile_pat defs 1 (ERe s) with Some q => Some (anon s, (0%N, q)) | None => None end)
                                (nodup string_dec (flat_map regexps_of exprs)) in
      match named, anonymous with
      | Some a, Some b => Some {| l_rules := map (name_rule anon) rules; l_terms := (a ++ b)%list; l_ignore := ignore |}
      | _, _ => None
      end
  | _, _ => None
  end.
