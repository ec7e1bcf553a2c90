(** Specification: UTF-8 and line ends of files (C47). *)
From Coq Require Import List NArith Bool.
From Verif Require Import Py.Str Py.Val.
Import ListNotations.
Local Open Scope N_scope.

(** Characters: code points without surrogates. *)
Definition scalar (c : N) : Prop := c < 55296 \/ 57344 <= c < 1114112.
(** The bytes of a character, by its bits. *)
Definition char_bytes (c : N) : list N :=
  if c <? 128 then [c]
  else if c <? 2048 then [192 + c / 64; 128 + c mod 64]
  else if c <? 65536 then [224 + c / 4096; 128 + c / 64 mod 64; 128 + c mod 64]
  else [240 + c / 262144; 128 + c / 4096 mod 64; 128 + c / 64 mod 64; 128 + c mod 64].
Definition utf8 (t : str) : list N := flat_map char_bytes t.
(** Every line end becomes a line feed. *)
Inductive line_ends : str -> str -> Prop :=
| ends_nil : line_ends [] []
| ends_char c s s' : c <> 13 -> line_ends s s' -> line_ends (c :: s) (c :: s')
| ends_crlf s s' : line_ends s s' -> line_ends (13 :: 10 :: s) (10 :: s')
| ends_cr s s' : (forall r, s <> 10 :: r) -> line_ends s s' -> line_ends (13 :: s) (10 :: s').
(** A text with the line ends of DOS, from one with line feeds only. *)
Definition dos (t : str) : str := flat_map (fun c => if c =? 10 then [13; 10] else [c]) t.
