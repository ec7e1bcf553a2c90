(** Backtracking regular-expression matching as done by the [regex] module
    (main.py:25 [regex=True]) for the terminals of bicep.lark.  Models a library,
    not pycep code: alternation tries the left branch first, greedy and lazy
    repetition, lookahead, possessive (atomic) repetition and the recursive call
    [(?R)] of the whole pattern (bicep.lark:178). *)
From Coq Require Import List NArith Bool String.
From Verif Require Import Py.Str.
Import ListNotations.

(** Character sets: ranges, optionally [\w], optionally negated. *)
Record cset := { cs_ranges : list (N * N); cs_word : bool; cs_neg : bool }.

Inductive re :=
| REps
| RSet (c : cset)
| RSeq (a b : re)
| RAlt (a b : re)
| RStar (greedy : bool) (a : re)     (* body never matches the empty string *)
| RLook (neg : bool) (a : re)        (* (?=a), (?!a) *)
| RAtomic (a : re)                   (* possessive quantifier / atomic group *)
| RRec.                              (* (?R) *)

(** Outcome of a match attempt: [MOk n rest]: [n] characters consumed. *)
Inductive mres := MFail | MFuel | MOk (n : nat) (rest : str).

(** Repetition of [body], before continuation [k]; [i] bounds the iterations. *)
Fixpoint star_loop (greedy : bool) (body : nat -> str -> (nat -> str -> mres) -> mres)
  (k : nat -> str -> mres) (i : nat) (n : nat) (s : str) : mres :=
  match i with
  | O => MFuel
  | S i' =>
      if greedy then
        match body n s (star_loop greedy body k i') with
        | MFail => k n s
        | res => res
        end
      else
        match k n s with
        | MFail => body n s (star_loop greedy body k i')
        | res => res
        end
  end.

Section Match.
  Variable E : pyenv.

  Definition rx_word (c : N) : bool :=
    if (c <? 128)%N then is_word_ascii c else uword_rx E c.
  Definition cs_mem (cs : cset) (c : N) : bool :=
    xorb (cs_neg cs)
      (existsb (fun r => in_range (fst r) (snd r) c) (cs_ranges cs)
       || (cs_word cs && rx_word c)).

  Variable top : re.        (* what (?R) refers to *)
  Variable fuel : nat.      (* bound on the iterations of one repetition *)

  (** Continuation-passing matcher.  [d] bounds the depth of (?R) calls. *)
  Fixpoint mt (d : nat) : re -> nat -> str -> (nat -> str -> mres) -> mres :=
    fix m (r : re) (n : nat) (s : str) (k : nat -> str -> mres) {struct r} : mres :=
      match r with
      | REps => k n s
      | RSet c =>
          match s with
          | x :: s' => if cs_mem c x then k (S n) s' else MFail
          | [] => MFail
          end
      | RSeq a b => m a n s (fun n' s' => m b n' s' k)
      | RAlt a b =>
          match m a n s k with
          | MFail => m b n s k
          | res => res
          end
      | RStar greedy a => star_loop greedy (m a) k fuel n s
      | RLook neg a =>
          match m a n s MOk with
          | MFuel => MFuel
          | MFail => if neg then k n s else MFail
          | MOk _ _ => if neg then MFail else k n s
          end
      | RAtomic a =>
          match m a n s MOk with
          | MOk n' s' => k n' s'
          | res => res
          end
      | RRec =>
          match d with
          | O => MFuel
          | S d' => mt d' top n s k
          end
      end.

  (** [pattern.match(s)]: number of characters consumed. *)
  Definition re_run (r : re) (s : str) : mres := mt fuel r O s MOk.
End Match.

(** Notation helpers for transcribing patterns. *)
Definition rc (s : string) : re :=     (* literal text *)
  fold_right (fun c r => RSeq (RSet {| cs_ranges := [(c, c)]; cs_word := false; cs_neg := false |}) r)
             REps (u s).
Definition rset (rs : list (string * string)) : re :=
  RSet {| cs_ranges := map (fun p => (hd 0%N (u (fst p)), hd 0%N (u (snd p)))) rs;
          cs_word := false; cs_neg := false |}.
Definition rset_w (extra : string) : re :=
  RSet {| cs_ranges := map (fun c => (c, c)) (u extra); cs_word := true; cs_neg := false |}.
Definition rnot (cs : list N) : re :=
  RSet {| cs_ranges := map (fun c => (c, c)) cs; cs_word := false; cs_neg := true |}.
Definition rchar (c : N) : re :=
  RSet {| cs_ranges := [(c, c)]; cs_word := false; cs_neg := false |}.
Definition rdot : re := rnot [10%N].                       (* [.]: anything but LF *)
Definition ropt (a : re) : re := RAlt a REps.              (* a? *)
Definition rplus (a : re) : re := RSeq a (RStar true a).   (* a+ *)
Fixpoint rseq (l : list re) : re :=
  match l with [] => REps | [a] => a | a :: l' => RSeq a (rseq l') end.
Fixpoint ralt (l : list re) : re :=
  match l with [] => REps | [a] => a | a :: l' => RAlt a (ralt l') end.
