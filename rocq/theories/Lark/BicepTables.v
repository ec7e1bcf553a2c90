(** The LALR tables Lark builds for bicep.lark (main.py:25), computed from the
    transcribed grammar by the transcribed construction. *)
From Coq Require Import List NArith PArith Bool String FMapPositive.
From Verif Require Import Lark.Ebnf Lark.BicepGrammar Lark.Lalr.
Import ListNotations.
Local Open Scope string_scope.

(** Numbering of symbols. *)
Definition term_names : list string :=
  Eval vm_compute in
  "$END" :: nub String.eqb (flat_map (fun p => flat_map (fun s => match s with T n => [n] | NT _ => [] end)
                                                 (p_rhs p)) bicep_prods).
Definition nt_names : list string :=
  Eval vm_compute in nub String.eqb (map p_lhs bicep_prods) ++ ["$root"].
Fixpoint index_of (i : positive) (n : string) (l : list string) : option positive :=
  match l with
  | [] => None
  | x :: l' => if String.eqb n x then Some i else index_of (Pos.succ i) n l'
  end.
Definition nterm : positive := Eval vm_compute in Pos.of_nat (List.length term_names).
Definition sym_id (s : sym) : positive :=
  match s with
  | T n => match index_of 1 n term_names with Some i => i | None => 1%positive end
  | NT n => match index_of (Pos.succ nterm) n nt_names with Some i => i | None => 1%positive end
  end.
Fixpoint number {A} (i : positive) (l : list A) : list (positive * A) :=
  match l with [] => [] | x :: l' => (i, x) :: number (Pos.succ i) l' end.
Definition root_id : positive := Eval vm_compute in Pos.of_nat (S (List.length bicep_prods)).
Definition bicep_gram : gram :=
  Eval vm_compute in
  {| g_nterm := nterm;
     g_end := 1;
     g_start := sym_id (NT "start");
     g_root := root_id;
     g_prods :=
       number 1 (map (fun p => (sym_id (NT (p_lhs p)), map sym_id (p_rhs p), p_prio p)) bicep_prods
                 ++ [(sym_id (NT "$root"), [sym_id (NT "start"); 1%positive], 0%N)]) |}.

Definition empty_tables : tables :=
  {| tb_action := PM.empty _; tb_goto := PM.empty _; tb_items := PM.empty _; tb_init := 1; tb_final := 1 |}.
Definition bicep_tables : tables :=
  Eval vm_compute in match build bicep_gram with Some t => t | None => empty_tables end.
