(** Specification: plain values and the canonical way to write them (C37). *)
From Coq Require Import List Arith NArith ZArith Bool String.
From Verif Require Import Py.Str Py.Val Spec.Lexemes Spec.Values Spec.Spelling.
Import ListNotations.
Local Open Scope string_scope.

(** Keys are identifiers, or texts in quotes. *)
Inductive name := Bare (v : str) | InQuotes (c : str).
Inductive value :=
| VNull
| VBool (b : bool)
| VNum (n : N)
| VText (c : str)
| VName (v : str)
| VList (l : list value)
| VMap (l : list (name * value)).

(** Induction. *)
Section induction.
  Variable P : value -> Prop.
  Hypothesis Hnull : P VNull.
  Hypothesis Hbool : forall b, P (VBool b).
  Hypothesis Hnum : forall n, P (VNum n).
  Hypothesis Htext : forall c, P (VText c).
  Hypothesis Hname : forall v, P (VName v).
  Hypothesis Hlist : forall l, Forall P l -> P (VList l).
  Hypothesis Hmap : forall l, Forall (fun kv => P (snd kv)) l -> P (VMap l).
  Fixpoint value_induction (v : value) : P v :=
    match v with
    | VNull => Hnull
    | VBool b => Hbool b
    | VNum n => Hnum n
    | VText c => Htext c
    | VName n => Hname n
    | VList l => Hlist l ((fix go l : Forall P l := match l with [] => Forall_nil P | x :: l' => Forall_cons x (value_induction x) (go l') end) l)
    | VMap l => Hmap l ((fix go l : Forall (fun kv => P (snd kv)) l :=
        match l with [] => Forall_nil _ | (k, x) :: l' => @Forall_cons _ (fun kv => P (snd kv)) (k, x) l' (value_induction x) (go l') end) l)
    end.
End induction.

(** How it is written ... *)
Definition sep (l : list str) : str := join (u ", ") l.
Definition name_text (k : name) : str := match k with Bare v => v | InQuotes c => quote c end.
Fixpoint print (v : value) : str :=
  match v with
  | VNull => u "null"
  | VBool b => u (if b then "true" else "false")
  | VNum n => dec n
  | VText c => quote c
  | VName n => n
  | VList l => u "[" ++ sep (map print l) ++ u "]"
  | VMap l => u "{" ++ sep (map (fun kv => name_text (fst kv) ++ u ": " ++ print (snd kv)) l) ++ u "}"
  end%list.
(** ... and the Python value that says the same.  The quotes around a key are kept. *)
Fixpoint denote (v : value) : pyval :=
  match v with
  | VNull => PNone
  | VBool b => PBool b
  | VNum n => PInt (Z.of_N n)
  | VText c => PStr c
  | VName n => PElem n
  | VList l => PList (map denote l)
  | VMap l => PDict (map (fun kv => (name_text (fst kv), denote (snd kv))) l)
  end.

Section Plain.
  Variable E : pyenv.
  (** No quotes, backslashes, dollar signs and line feeds in texts. *)
  Definition plain_text (c : str) : Prop := Forall (fun x => is_char "'\$" x = false /\ x <> 10%N) c.
  Definition plain_key (k : name) : Prop := match k with Bare v => ident E v | InQuotes c => plain_text c end.
  Inductive plain : value -> Prop :=
  | plain_null : plain VNull
  | plain_bool b : plain (VBool b)
  | plain_num n : List.length (dec n) <= digit_limit -> plain (VNum n)
  | plain_txt c : plain_text c -> plain (VText c)
  | plain_name v : ident E v -> ~ In v (map u ["null"; "true"; "false"; "for"]) -> plain (VName v)
  | plain_list l : Forall plain l -> plain (VList l)
  | plain_map l : Forall (fun kv => plain_key (fst kv) /\ plain (snd kv)) l -> NoDup (map (fun kv => name_text (fst kv)) l) -> plain (VMap l).
End Plain.
