(** The program that the files of pycep are. *)
From Coq Require Import List NArith ZArith Bool String Ascii.
From Verif Require Import Py.Str Py.Val Lark.Tree Lark.BicepText Lark.Shape Python.Syntax Python.SourceText Python.Eval.
Import ListNotations.
Local Open Scope string_scope.

(** Functions, classes and constants of all files, in one name space: no name is
    defined twice ([pycep_names]). *)
Definition program_of (files : list (list string)) : option (list (string * entry)) :=
  do ms <- all (map parse_module files); Some (List.concat (map module_entries ms)).
Definition pycep_files : list (list string) :=
  [models_py; utils_py; validator_py; decorators_py; functions_py; transformer_py; main_py].
Definition pycep : list (string * entry) :=
  Eval vm_compute in match program_of pycep_files with Some p => p | None => [] end.
Lemma pycep_text : program_of pycep_files = Some pycep.
Proof. vm_cast_no_check (@eq_refl _ (Some pycep)). Qed.
Fixpoint distinct (l : list string) : bool :=
  match l with [] => true | x :: r => negb (existsb (String.eqb x) r) && distinct r end.
Lemma pycep_names : distinct (map fst pycep) = true.
Proof. vm_cast_no_check (@eq_refl _ true). Qed.

(** bicep.lark as [read_text] reads it; Lark on that grammar is Lark/Shape.v (and
    nothing is said about other grammars). *)
Definition grammar_file : str := u bicep_lark.
Definition lark_of (E : pyenv) (g text : str) : result ptree := if str_eqb g grammar_file then lark_parse E text else Err EFuel.
Definition pcall (E : pyenv) (rt : Pycep.Main.path -> result str) := call E grammar_file rt (lark_of E) pycep.
