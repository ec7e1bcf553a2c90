(** Specification vocabulary: plain JSON data. *)
From Coq Require Import List NArith ZArith Bool String.
From Verif Require Import Py.Str Py.Val.
Import ListNotations.

(** What json.dumps accepts: None, bool, int, str (BicepElement is a str), lists
    and dicts with distinct string keys; no lark Token and no tuple. *)
Inductive json : pyval -> Prop :=
| json_none : json PNone
| json_bool b : json (PBool b)
| json_int z : json (PInt z)
| json_str s : json (PStr s)
| json_elem s : json (PElem s)
| json_list l : Forall json l -> json (PList l)
| json_dict d : NoDup (map fst d) -> Forall (fun kv => json (snd kv)) d -> json (PDict d).
