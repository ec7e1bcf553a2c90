(** Specification vocabulary: what the texts of tokens look like. *)
From Coq Require Import List NArith ZArith Bool String.
From Verif Require Import Py.Str Py.Val.
Import ListNotations.

Definition quote (b : str) : str := ([39] ++ b ++ [39])%N%list.
Definition triple_quote (b : str) : str := ([39; 39; 39] ++ b ++ [39; 39; 39])%N%list.

(** Letters, digits and underscore: ASCII ones, plus what Unicode adds. *)
Definition letter (c : N) : bool := is_alpha c || (c =? 95)%N.
Definition word (E : pyenv) (c : N) : bool := if (c <? 128)%N then is_word_ascii c else uword_rx E c.
Definition alnum (c : N) : bool := is_alpha c || is_digit c.

Definition ident (E : pyenv) (s : str) : Prop :=
  exists c s', s = c :: s' /\ letter c = true /\ Forall (fun x => word E x = true) s'.
Definition digits (s : str) : Prop := s <> [] /\ Forall (fun c => is_digit c = true) s.
Definition plain_name (s : str) : Prop := s <> [] /\ Forall (fun c => alnum c = true) s.
