(** The syntax of regular expressions (the part the terminals of bicep.lark use),
    as the [regex] module reads it, and the bounds of the length of a match
    (sre_parse [getwidth], lark/utils.py get_regexp_width).  Models libraries. *)
From Coq Require Import List NArith Bool String Ascii.
From Verif Require Import Py.Str Lark.Regex.
Import ListNotations.
Local Open Scope string_scope.

Definition chars (s : string) : list ascii := list_ascii_of_string s.
Definition code (c : ascii) : N := N_of_ascii c.
Definition is_ch (s : string) (c : ascii) : bool := existsb (Ascii.eqb c) (chars s).
(** [lit s l]: the rest of [l] behind [s]. *)
Fixpoint lit (s l : list ascii) : option (list ascii) :=
  match s, l with
  | [], _ => Some l
  | x :: s', y :: l' => if Ascii.eqb x y then lit s' l' else None
  | _ :: _, [] => None
  end.
Definition after (s : string) (l : list ascii) : option (list ascii) := lit (chars s) l.

(** Characters that stand for themselves behind a backslash: no letters or digits. *)
Definition escapable (c : ascii) : bool := negb (is_word_ascii (code c)).

(** The items of a set up to the closing bracket: ranges, and whether [\w] is in. *)
Fixpoint parse_set (l : list ascii) : option (list (N * N) * bool * list ascii) :=
  match l with
  | [] => None
  | x :: l1 =>
      if is_ch "]" x then Some ([], false, l1)
      else if is_ch "\" x then
        match l1 with
        | y :: l2 =>
            match parse_set l2 with
            | Some (rs, w, rest) =>
                if is_ch "w" y then Some (rs, true, rest)
                else if escapable y then Some ((code y, code y) :: rs, w, rest) else None
            | None => None
            end
        | [] => None
        end
      else if is_ch "[" x then None
      else
        match l1 with
        | d :: y :: l3 =>
            if is_ch "-" d && negb (is_ch "]\[" y) then
              match parse_set l3 with
              | Some (rs, w, rest) => Some ((code x, code y) :: rs, w, rest)
              | None => None
              end
            else match parse_set l1 with
                 | Some (rs, w, rest) => Some ((code x, code x) :: rs, w, rest)
                 | None => None
                 end
        | _ => match parse_set l1 with
               | Some (rs, w, rest) => Some ((code x, code x) :: rs, w, rest)
               | None => None
               end
        end
  end.

(** What follows an atom: [* *? *+ + ?]. *)
Definition quantify (a : re) (l : list ascii) : option (re * list ascii) :=
  match l with
  | x :: l1 =>
      let lazy_or_more := match l1 with y :: _ => is_ch "?+*" y | [] => false end in
      if is_ch "*" x then
        match l1 with
        | y :: l2 => if is_ch "?" y then Some (RStar false a, l2)
                     else if is_ch "+" y then Some (RAtomic (RStar true a), l2)
                     else if is_ch "*" y then None else Some (RStar true a, l1)
        | [] => Some (RStar true a, l1)
        end
      else if is_ch "+" x then (if lazy_or_more then None else Some (rplus a, l1))
      else if is_ch "?" x then (if lazy_or_more then None else Some (ropt a, l1))
      else Some (a, l)
  | [] => Some (a, l)
  end.

(** Alternatives, up to the end or a closing parenthesis. *)
Fixpoint parse_alt (fuel : nat) (l : list ascii) : option (re * list ascii) :=
  match fuel with
  | O => None
  | S fuel' =>
      match parse_seq fuel' l with
      | Some (a, x :: l1) =>
          if is_ch "|" x then
            match parse_alt fuel' l1 with
            | Some (b, rest) => Some (RAlt a b, rest)
            | None => None
            end
          else Some (a, x :: l1)
      | r => r
      end
  end
with parse_seq (fuel : nat) (l : list ascii) : option (re * list ascii) :=
  match fuel with
  | O => None
  | S fuel' =>
      match l with
      | [] => Some (REps, [])
      | x :: _ =>
          if is_ch "|)" x then Some (REps, l)
          else match parse_atom fuel' l with
               | Some (a, l1) =>
                   match quantify a l1 with
                   | Some (q, l2) =>
                       match parse_seq fuel' l2 with
                       | Some (b, rest) => Some (RSeq q b, rest)
                       | None => None
                       end
                   | None => None
                   end
               | None => None
               end
      end
  end
with parse_atom (fuel : nat) (l : list ascii) : option (re * list ascii) :=
  match fuel with
  | O => None
  | S fuel' =>
      let group (f : re -> re) (l : list ascii) :=
        match parse_alt fuel' l with
        | Some (a, x :: rest) => if is_ch ")" x then Some (f a, rest) else None
        | _ => None
        end in
      match l with
      | [] => None
      | x :: l1 =>
          if is_ch "(" x then
            match after "(?R)" l with Some rest => Some (RRec, rest) | None =>
            match after "(?:" l with Some l2 => group (fun a => a) l2 | None =>
            match after "(?=" l with Some l2 => group (RLook false) l2 | None =>
            match after "(?!" l with Some l2 => group (RLook true) l2 | None =>
            match after "(?" l with Some _ => None | None => group (fun a => a) l1 end end end end end
          else if is_ch "[" x then
            match after "[^" l with
            | Some l2 => match parse_set l2 with
                         | Some (rs, w, rest) => Some (RSet {| cs_ranges := rs; cs_word := w; cs_neg := true |}, rest)
                         | None => None
                         end
            | None => match parse_set l1 with
                      | Some (rs, w, rest) => Some (RSet {| cs_ranges := rs; cs_word := w; cs_neg := false |}, rest)
                      | None => None
                      end
            end
          else if is_ch "." x then Some (rdot, l1)
          else if is_ch "\" x then
            match l1 with
            | y :: l2 => if is_ch "w" y then Some (RSet {| cs_ranges := []; cs_word := true; cs_neg := false |}, l2)
                         else if escapable y then Some (rchar (code y), l2) else None
            | [] => None
            end
          else if is_ch "*+?)]|^$" x then None
          (* a brace is a character unless a number follows *)
          else if is_ch "{" x && match l1 with y :: _ => is_digit (code y) || is_ch "," y | [] => false end then None
          else Some (rchar (code x), l1)
      end
  end.
Definition parse_re (s : string) : option re :=
  let l := chars s in
  match parse_alt (2 * List.length l + 2) l with
  | Some (r, []) => Some r
  | _ => None
  end.

(** Least and greatest length of a match ([None]: unbounded; so is a pattern with
    [(?R)], where Lark does not compute the length). *)
Definition wadd (a b : option N) : option N := match a, b with Some x, Some y => Some (x + y)%N | _, _ => None end.
Definition wmax (a b : option N) : option N := match a, b with Some x, Some y => Some (N.max x y) | _, _ => None end.
Fixpoint width (r : re) : N * option N :=
  match r with
  | REps | RLook _ _ => (0, Some 0)%N
  | RSet _ => (1, Some 1)%N
  | RSeq a b => (fst (width a) + fst (width b), wadd (snd (width a)) (snd (width b)))%N
  | RAlt a b => (N.min (fst (width a)) (fst (width b)), wmax (snd (width a)) (snd (width b)))
  | RStar _ a => (0%N, None)
  | RAtomic a => width a
  | RRec => (1%N, None)
  end.

(** Matching when the body of a repetition may match nothing (regex: an iteration
    that consumed nothing is not followed by another one). *)
Fixpoint star_guarded (greedy : bool) (body : nat -> str -> (nat -> str -> mres) -> mres)
  (k : nat -> str -> mres) (i : nat) (n : nat) (s : str) : mres :=
  match i with
  | O => MFuel
  | S i' =>
      let again n' s' := if Nat.eqb n' n then k n' s' else star_guarded greedy body k i' n' s' in
      if greedy then
        match body n s again with
        | MFail => k n s
        | res => res
        end
      else
        match k n s with
        | MFail => body n s again
        | res => res
        end
  end.
Section Match.
  Variable E : pyenv.
  Variable top : re.
  Variable fuel : nat.
  Fixpoint mtg (d : nat) : re -> nat -> str -> (nat -> str -> mres) -> mres :=
    fix m (r : re) (n : nat) (s : str) (k : nat -> str -> mres) {struct r} : mres :=
      match r with
      | REps => k n s
      | RSet c =>
          match s with
          | x :: s' => if cs_mem E c x then k (S n) s' else MFail
          | [] => MFail
          end
      | RSeq a b => m a n s (fun n' s' => m b n' s' k)
      | RAlt a b =>
          match m a n s k with
          | MFail => m b n s k
          | res => res
          end
      | RStar greedy a => star_guarded greedy (m a) k fuel n s
      | RLook neg a =>
          match m a n s MOk with
          | MFuel => MFuel
          | MFail => if neg then k n s else MFail
          | MOk _ _ => if neg then MFail else k n s
          end
      | RAtomic a =>
          match m a n s MOk with
          | MOk n' s' => k n' s'
          | res => res
          end
      | RRec =>
          match d with
          | O => MFuel
          | S d' => mtg d' top n s k
          end
      end.
End Match.
(** Scanner.match on the joined patterns: name of the first one that matches,
    characters consumed, rest. *)
Fixpoint match_first (E : pyenv) (top : re) (alts : list (string * re)) (s : str) : option (option (string * nat * str)) :=
  match alts with
  | [] => Some None
  | (n, r) :: alts' =>
      match mtg E top (S (List.length s)) (S (List.length s)) r 0 s MOk with
      | MOk k rest => Some (Some (n, k, rest))
      | MFail => match_first E top alts' s
      | MFuel => None
      end
  end.
Definition match_joined (E : pyenv) (alts : list (string * re)) (s : str) : option (option (string * nat * str)) :=
  match_first E (ralt (map snd alts)) alts s.
