(** Specification: places in a text (C46). *)
From Coq Require Import List NArith Bool String.
From Verif Require Import Py.Str Py.Val Lark.Ebnf Lark.BicepGrammar Spec.Sentences Spec.Spelling Spec.Reading.
Import ListNotations.

(** The current line up to the end of [a]: [y]. *)
Definition line_so_far (a y : str) : Prop :=
  exists x, a = (x ++ y)%list /\ ~ In 10%N y /\ (x = [] \/ exists x', x = (x' ++ [10%N])%list).
(** Behind [a]: offset from 0, line and column from 1. *)
Definition place_behind (a : str) (pos line column : N) : Prop :=
  pos = N.of_nat (List.length a) /\ line = (1 + count_nl a)%N /\
  exists y, line_so_far a y /\ column = (1 + N.of_nat (List.length y))%N.
(** A character no token and no comment starts with: not a letter, digit or
    underscore, no blank, tab or line feed, and not one of these. *)
Definition no_start (x : N) : Prop := ~ In x (u "abcdefghijklmnopqrstuvwxyzABCDEFGHIJKLMNOPQRSTUVWXYZ0123456789_#@()[]{}<>+-*/%.,:=?! |" ++ [9; 10])%N%list.

(** The terminals of bicep.lark a token can stand for. *)
Definition of_kind (n : string) (t : tokn) : Prop :=
  match t with
  | Sym s => n = s
  | Kw s => n = if String.eqb s "existing" then "EXISTING" else s
  | Star => n = "STAR_RE"
  | Name _ | Ref _ | Key _ => n = "STRING"
  | Num _ => n = "INT"
  | Quoted _ => n = "QUOTED_INTERPOLATION" \/ n = "QUOTED_STRING"
  | Multi _ => n = "MULTI_LINE_STRING"
  | Fun _ => n = "FUNCTION"
  | ListFun _ => n = "LIST_FUNC_NAME"
  | Deco _ => n = "DECO_NAME"
  | Break _ => n = "_CPP_COMMENT_NL"
  | Nl _ => n = "_NEWLINE"
  end%string.
(** [beginning E ks a]: the text [a] is the tokens of [ks], each standing for the
    terminal beside it, and these terminals begin a sentence of bicep.lark. *)
Definition beginning (E : pyenv) (ks : list (string * tokn)) (a : str) : Prop :=
  reads_as E (map snd ks) a /\ Forall (fun k => of_kind (fst k) (snd k)) ks /\ exists more, derives bicep_rules (ENT "start") (map fst ks ++ more).
(** [bad_token E t n v pos line column]: the text in front of the place begins a
    sentence, and a token is at the place.  It is the token [v] of kind [n], or
    [n] is the end of the text and the token is the last one of a text that
    begins a sentence. *)
Definition bad_token (E : pyenv) (t : str) (n : string) (v : str) (pos line column : N) : Prop :=
  exists a w rest ks, t = (a ++ text w ++ rest)%list /\ beginning E ks a /\ token_ok E w /\ place_behind a pos line column /\
    (of_kind n w /\ v = text w \/
     n = "$END"%string /\ v = [] /\ blank rest /\ exists k, beginning E (ks ++ [(k, w)]) (a ++ text w)%list).
(** A character that begins no token, behind the beginning of a sentence. *)
Definition bad_character (E : pyenv) (t : str) (pos line column : N) : Prop :=
  exists a x rest ks, t = (a ++ x :: rest)%list /\ beginning E ks a /\ no_start x /\ place_behind a pos line column.
