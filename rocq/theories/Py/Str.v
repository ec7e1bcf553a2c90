(** Python [str] as lists of Unicode code points, and the string methods pycep
    and Lark use.  This file models the Python runtime, not pycep code; each
    definition names the Python operation it stands for and the place in /repo
    that uses it. *)
From Coq Require Import List NArith ZArith Bool Ascii String Lia.
From Coq Require Decimal.
Import ListNotations.
Local Open Scope N_scope.

(** A Python [str]: a list of code points. *)
Definition str := list N.

(** Literal helper: [u "abc"] is the Python literal "abc" (ASCII only). *)
Definition u (s : string) : str := map N_of_ascii (list_ascii_of_string s).

(** [str.__eq__] (used by every [==], dict lookup and [in] test of pycep). *)
Fixpoint str_eqb (a b : str) : bool :=
  match a, b with
  | [], [] => true
  | x :: a', y :: b' => N.eqb x y && str_eqb a' b'
  | _, _ => false
  end.

(** Unicode facts about code points >= 128, kept as parameters.
    [uword_rx]: regex-module [\w] (bicep.lark terminals, matched by [regex]);
    [uword_re], [udigit_re]: [re] module [\w], [\d] (transformer.py:19-27);
    [uprintable]: str.isprintable, used by repr(); [udecimal]: decimal digit
    value for int(); [uspace]: str.isspace, stripped by int(). *)
Record pyenv := {
  uword_rx : N -> bool;
  uword_re : N -> bool;
  udigit_re : N -> bool;
  uprintable : N -> bool;
  udecimal : N -> option N;
  uspace : N -> bool
}.

Definition in_range (lo hi c : N) : bool := (lo <=? c) && (c <=? hi).
Definition is_digit (c : N) : bool := in_range 48 57 c.
Definition is_lower (c : N) : bool := in_range 97 122 c.
Definition is_upper (c : N) : bool := in_range 65 90 c.
Definition is_alpha (c : N) : bool := is_lower c || is_upper c.
Definition is_word_ascii (c : N) : bool := is_alpha c || is_digit c || (c =? 95).

(** [s[1:-1]] (utils.py:22, transformer.py:78,299,417,424). *)
Definition slice_1_m1 (s : str) : str := removelast (tl s).

(** [s[n:-n]] (utils.py:27 with n = 3). *)
Definition slice_n_mn (n : nat) (s : str) : str :=
  firstn (List.length s - 2 * n) (skipn n s).

(** [str.startswith] (transformer.py:426,452,475,491). *)
Fixpoint starts_with (p s : str) : bool :=
  match p, s with
  | [], _ => true
  | x :: p', y :: s' => N.eqb x y && starts_with p' s'
  | _ :: _, [] => false
  end.

(** [str.removeprefix] (utils.py:27). *)
Definition remove_prefix (p s : str) : str :=
  if starts_with p s then skipn (List.length p) s else s.

(** [str.removesuffix] (transformer.py:616). *)
Definition remove_suffix (p s : str) : str :=
  rev (remove_prefix (rev p) (rev s)).

(** [str.split(sep)] for a one-character separator (transformer.py:417). *)
Fixpoint split_char (sep : N) (s : str) : list str :=
  match s with
  | [] => [[]]
  | c :: s' =>
      if c =? sep then [] :: split_char sep s'
      else match split_char sep s' with
           | [] => [[c]]
           | h :: t => (c :: h) :: t
           end
  end.

(** [sep.join(l)] (transformer.py:528). *)
Fixpoint join (sep : str) (l : list str) : str :=
  match l with
  | [] => []
  | [x] => x
  | x :: l' => x ++ sep ++ join sep l'
  end.

(** [str.count(p)] for a non-empty pattern: non-overlapping occurrences,
    scanning from the left (validator.py:8).  The second argument counts the
    characters still to be skipped after a hit. *)
Fixpoint count_from (p : str) (skip : nat) (s : str) : N :=
  match s with
  | [] => 0
  | _ :: s' =>
      match skip with
      | S k => count_from p k s'
      | O => if starts_with p s
             then 1 + count_from p (pred (List.length p)) s'
             else count_from p O s'
      end
  end.
Definition count (p s : str) : N := count_from p O s.

(** Number of line feeds, for the lexer's line counter. *)
Fixpoint count_nl (s : str) : N :=
  match s with
  | [] => 0
  | c :: s' => if c =? 10 then 1 + count_nl s' else count_nl s'
  end.

(** Decimal rendering of a natural ([str(n)], f-strings with an int). *)
Fixpoint str_of_uint (d : Decimal.uint) : str :=
  match d with
  | Decimal.Nil => []
  | Decimal.D0 d => 48 :: str_of_uint d
  | Decimal.D1 d => 49 :: str_of_uint d
  | Decimal.D2 d => 50 :: str_of_uint d
  | Decimal.D3 d => 51 :: str_of_uint d
  | Decimal.D4 d => 52 :: str_of_uint d
  | Decimal.D5 d => 53 :: str_of_uint d
  | Decimal.D6 d => 54 :: str_of_uint d
  | Decimal.D7 d => 55 :: str_of_uint d
  | Decimal.D8 d => 56 :: str_of_uint d
  | Decimal.D9 d => 57 :: str_of_uint d
  end.
Definition dec (n : N) : str := str_of_uint (N.to_uint n).
Definition dec_Z (z : Z) : str :=
  match z with
  | Zneg p => 45 :: dec (Npos p)
  | _ => dec (Z.to_N z)
  end.

(** Value of a string of decimal digits. *)
Definition digits_val (s : str) : N :=
  fold_left (fun acc c => acc * 10 + (c - 48)) s 0.

(** Hexadecimal digits, for repr(). *)
Definition hex_digit (n : N) : N := if n <? 10 then 48 + n else 87 + n.
Fixpoint hex_pad (k : nat) (n : N) : str :=
  match k with
  | O => []
  | S k' => hex_pad k' (n / 16) ++ [hex_digit (n mod 16)]
  end.

(** [repr(s)] for a str (CPython unicode_repr): used when a str sits inside a
    list or dict that is converted with str() (transformer.py:528, 575, 931-932,
    954). *)
Definition contains_char (c : N) (s : str) : bool := existsb (N.eqb c) s.
Definition repr_char (E : pyenv) (q c : N) : str :=
  if (c =? q) || (c =? 92) then [92; c]
  else if c =? 9 then u "\t"
  else if c =? 10 then u "\n"
  else if c =? 13 then u "\r"
  else if (c <? 32) || (c =? 127) then u "\x" ++ hex_pad 2 c
  else if c <? 127 then [c]
  else if uprintable E c then [c]
  else if c <? 256 then u "\x" ++ hex_pad 2 c
  else if c <? 65536 then u "\u" ++ hex_pad 4 c
  else u "\U" ++ hex_pad 8 c.
Definition repr_str (E : pyenv) (s : str) : str :=
  let q := if contains_char 39 s && negb (contains_char 34 s) then 34 else 39 in
  [q] ++ flat_map (repr_char E q) s ++ [q].
