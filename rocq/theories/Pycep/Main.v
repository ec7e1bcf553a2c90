(** pycep/main.py: BicepParser. *)
From Coq Require Import List NArith Bool String.
From Verif Require Import Py.Str Py.Val Pycep.Utils Pycep.Transformer Lark.Tree.
Import ListNotations.
Local Open Scope string_scope.

(** A [Path] argument: how it prints and whether it is truthy.  pathlib paths
    are always truthy; other path-like objects might not be. *)
Record path := { path_str : str; path_truthy : bool }.

Section Main.
  Variable E : pyenv.
  (** [Path.read_text()]: content or an OSError / decoding error. *)
  Variable read_text : path -> result str.
  (** [self.lark_parser.parse] (main.py:25,52); instantiated with the model of
      Lark in Lark/Parse.v. *)
  Variable lark_parse : str -> result ptree.

  Definition text_truthy (t : option str) : bool :=
    match t with Some (_ :: _) => true | _ => false end.
  Definition fp_truthy (f : option path) : bool :=
    match f with Some p => path_truthy p | None => false end.

  (** main.py:35-52 [_create_tree] *)
  Definition create_tree_raw (text : option str) (file_path : option path) : result ptree :=
    if text_truthy text && fp_truthy file_path then
      Err (ETypeError (u "Either 'text' or 'file_path' can be set"))
    else
      let* bicep_text :=
        if text_truthy text then Ok (match text with Some t => t | None => [] end)
        else if fp_truthy file_path then
          match file_path with Some p => read_text p | None => Ok [] end
        else Err (ETypeError (u "Either 'text' or 'file_path' has to be set")) in
      if negb (is_valid bicep_text) then
        if fp_truthy file_path then
          Err (EValueError ((match file_path with Some p => path_str p | None => [] end)
                              ++ u " file content is invalid")%list)
        else Err (EValueError (u "Text is invalid"))
      else lark_parse bicep_text.

  (** main.py:27-29 [parse] *)
  Definition parse (ln : bool) (text : option str) (file_path : option path) : result pyval :=
    let* tree := create_tree_raw text file_path in
    transform E ln tree.

  (** main.py:31-33 [create_tree] *)
  Definition create_tree (text : option str) (file_path : option path) : result str :=
    let* tree := create_tree_raw text file_path in
    Ok (pretty tree).
End Main.
