(** Several calls on several BicepParser objects (main.py:20-33), with the
    transformer objects they create kept in a store: the state that could leak
    from one call into another is explicit here. *)
From Coq Require Import List NArith Bool String.
From Verif Require Import Py.Str Py.Val Lark.Tree Lark.Shape Pycep.Transformer Pycep.Main Pycep.Bicep.
Import ListNotations.

(** A BicepToJson object: add_line_numbers, and imports / child_resources
    (transformer.py:33-39). *)
Record transformer_obj := { t_ln : bool; t_state : tstate }.
(** The live objects.  A BicepParser is its [add_line_numbers]; its
    [lark_parser] keeps no state between calls (main.py:24-25). *)
Record session := { parsers : list bool; transformers : list transformer_obj }.
Definition session0 : session := {| parsers := []; transformers := [] |}.

(** What a program can do; every call sees its own file system [fs]
    ([Path.read_text], main.py:42), so files may change between calls. *)
Inductive op :=
| New (ln : bool)
| Parse (i : nat) (fs : path -> result str) (text : option str) (file_path : option path)
| CreateTree (i : nat) (fs : path -> result str) (text : option str) (file_path : option path).
Inductive answer :=
| Created (i : nat)
| Json (r : result pyval)
| TreeText (r : result str)
| NoObject.

Section Session.
  Variable E : pyenv.
  (** What a failing [transform] leaves behind in the transformer object; the
      theorems hold for every choice. *)
  Variable debris : ptree -> tstate.

  Fixpoint set_nth {A} (n : nat) (x : A) (l : list A) : list A :=
    match n, l with
    | O, _ :: l' => x :: l'
    | Datatypes.S n', y :: l' => y :: set_nth n' x l'
    | _, [] => []
    end.

  (** transformer.py:33-39 [BicepToJson.__init__]: a new object with empty lists. *)
  Definition new_transformer (s : session) (ln : bool) : nat * session :=
    (List.length (transformers s),
     {| parsers := parsers s; transformers := transformers s ++ [{| t_ln := ln; t_state := tstate0 |}] |}).
  (** [Transformer.transform(tree)] on the object number [j], updating its lists. *)
  Definition run_transformer (s : session) (j : nat) (t : ptree) : session * result pyval :=
    match nth_error (transformers s) j with
    | None => (s, Err EAttributeError)
    | Some o =>
        let '(st', r) := match transform_tree E (t_ln o) t (t_state o) with
                         | Ok (v, st') => (st', Ok v)
                         | Err e => (debris t, Err e)
                         end in
        ({| parsers := parsers s;
            transformers := set_nth j {| t_ln := t_ln o; t_state := st' |} (transformers s) |}, r)
    end.

  Definition step (s : session) (o : op) : session * answer :=
    match o with
    (* main.py:23-25 *)
    | New ln => ({| parsers := parsers s ++ [ln]; transformers := transformers s |},
                 Created (List.length (parsers s)))
    (* main.py:27-29 *)
    | Parse i fs text file_path =>
        match nth_error (parsers s) i with
        | None => (s, NoObject)
        | Some ln =>
            match create_tree_raw fs (lark_parse E) text file_path with
            | Err e => (s, Json (Err e))
            | Ok tree =>
                let '(j, s1) := new_transformer s ln in
                let '(s2, r) := run_transformer s1 j tree in (s2, Json r)
            end
        end
    (* main.py:31-33 *)
    | CreateTree i fs text file_path =>
        match nth_error (parsers s) i with
        | None => (s, NoObject)
        | Some _ => (s, TreeText (let* tree := create_tree_raw fs (lark_parse E) text file_path in
                                  Ok (pretty tree)))
        end
    end.
  Fixpoint run (s : session) (ops : list op) : session * list answer :=
    match ops with
    | [] => (s, [])
    | o :: rest => let '(s1, a) := step s o in let '(s2, l) := run s1 rest in (s2, a :: l)
    end.
End Session.
