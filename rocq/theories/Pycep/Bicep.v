(** The whole of pycep: main.py on top of Lark's parser for bicep.lark. *)
From Coq Require Import List NArith Bool String.
From Verif Require Import Py.Str Py.Val Pycep.Main Lark.Tree Lark.Shape.
Import ListNotations.

Section Bicep.
  Variable E : pyenv.
  (** [Path.read_text()] *)
  Variable read_text : path -> result str.

  (** main.py:27-29: [BicepParser(add_line_numbers=ln).parse(text, file_path)] *)
  Definition bicep_parse (ln : bool) (text : option str) (file_path : option path) : result pyval :=
    Main.parse E read_text (lark_parse E) ln text file_path.
  (** main.py:31-33 *)
  Definition bicep_create_tree (text : option str) (file_path : option path) : result str :=
    Main.create_tree read_text (lark_parse E) text file_path.
End Bicep.
