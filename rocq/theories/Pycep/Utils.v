(** pycep/utils.py, pycep/models.py and pycep/validator.py. *)
From Coq Require Import List NArith Bool String.
From Verif Require Import Py.Str Py.Val.
Import ListNotations.

(** utils.py:25-27 [sanitize_multi_line_string_token]. *)
Definition sanitize_multi_line_string_token (v : str) : str :=
  remove_prefix [10%N] (slice_n_mn 3 v).

(** utils.py:11-22 [transform_string_token]; a value without [.type] raises
    AttributeError.  [BicepElement(value)] (models.py:4-5) is [PElem]. *)
Definition transform_string_token (v : pyval) : result pyval :=
  match v with
  | PTok t =>
      if str_eqb (ttype t) (u "MULTI_LINE_STRING")
      then Ok (PStr (sanitize_multi_line_string_token (tval t)))
      else if negb (str_eqb (ttype t) (u "QUOTED_STRING")
                    || str_eqb (ttype t) (u "QUOTED_INTERPOLATION"))
      then Ok (PElem (tval t))
      else Ok (PStr (slice_1_m1 (tval t)))
  | _ => Err EAttributeError
  end.

(** validator.py:3-8 [BicepValidator.is_valid], [multi_line_string_valid]. *)
Definition multi_line_string_valid (text : str) : bool :=
  N.eqb (N.modulo (count (u "'''") text) 2) 0.
Definition is_valid (text : str) : bool := multi_line_string_valid text.
