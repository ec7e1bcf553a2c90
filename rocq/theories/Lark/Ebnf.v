(** Lark's grammar compilation: EBNF rules to BNF productions
    (lark/load_grammar.py: EBNF_to_BNF, SimplifyRule_Visitor, Grammar.compile;
    parse_tree_builder.py: child filtering, inlining and placeholders).  Generic:
    instantiated with bicep.lark in Lark/BicepGrammar.v. *)
From Coq Require Import List NArith Bool String Ascii.
Import ListNotations.
Local Open Scope string_scope.

(** Right-hand sides as written in a .lark file. *)
Inductive ebnf :=
| ETerm (name : string)          (* NAMED_TERMINAL *)
| EStr (s : string)              (* "literal" *)
| ERe (name : string)            (* /regexp/: an anonymous terminal, by the name we give it *)
| ENT (name : string)            (* rule reference *)
| ESeq (l : list ebnf)
| EAlt (l : list ebnf)
| EOpt (e : ebnf)                (* e?  : no placeholder *)
| EMaybe (e : ebnf)              (* [e] : None placeholders when absent *)
| EStar (e : ebnf)
| EPlus (e : ebnf)
| ERep (e : ebnf) (lo hi : nat). (* e~lo..hi *)

(** One rule definition: [?name], [!name], [name.prio: alternatives -> alias]. *)
Record ruledef := {
  r_name : string;
  r_expand1 : bool;                       (* leading ? *)
  r_keep_all : bool;                      (* leading ! *)
  r_prio : N;
  r_alts : list (ebnf * option string)    (* top-level alternatives with alias *)
}.

Inductive sym := T (name : string) | NT (name : string).

(** What the tree builder does with a right-hand-side symbol: keep the child,
    drop it (filtered token), splice it (rule starting with _). *)
Inductive slot := Keep | Drop | Splice.

(** A right-hand side with the [_EMPTY] placeholders still in place. *)
Inductive rawsym := Hole | Sym (s : sym) (sl : slot).

Record prod := {
  p_lhs : string;
  p_raw : list rawsym;
  p_alias : option string;
  p_expand1 : bool;
  p_prio : N
}.

Definition sym_of (r : rawsym) : list sym :=
  match r with Hole => [] | Sym s _ => [s] end.
Definition p_rhs (p : prod) : list sym := flat_map sym_of (p_raw p).

Definition starts_us (n : string) : bool :=
  match n with String c _ => Ascii.eqb c "_"%char | EmptyString => false end.

Fixpoint list_eqb {A} (eqb : A -> A -> bool) (l l' : list A) : bool :=
  match l, l' with
  | [], [] => true
  | x :: t, y :: t' => eqb x y && list_eqb eqb t t'
  | _, _ => false
  end.
Definition sym_eqb (a b : sym) : bool :=
  match a, b with
  | T x, T y | NT x, NT y => String.eqb x y
  | _, _ => false
  end.
Definition slot_eqb (a b : slot) : bool :=
  match a, b with Keep, Keep | Drop, Drop | Splice, Splice => true | _, _ => false end.
Definition rawsym_eqb (a b : rawsym) : bool :=
  match a, b with
  | Hole, Hole => true
  | Sym s sl, Sym s' sl' => sym_eqb s s' && slot_eqb sl sl'
  | _, _ => false
  end.

(** Order-preserving removal of duplicates. *)
Fixpoint nub {A} (eqb : A -> A -> bool) (l : list A) : list A :=
  match l with
  | [] => []
  | x :: t => x :: filter (fun y => negb (eqb x y)) (nub eqb t)
  end.

(** Name of the helper rule generated for the repetition of [e] (Lark numbers
    them, e.g. __start_star_0; equal bodies share one rule).  Here the name
    spells out the body; like Lark's it starts with an underscore. *)
Fixpoint show (e : ebnf) : string :=
  match e with
  | ETerm n => n
  | EStr s => """" ++ s ++ """"
  | ERe n => "/" ++ n ++ "/"
  | ENT n => n
  | ESeq l => "(" ++ String.concat " " (map show l) ++ ")"
  | EAlt l => "(" ++ String.concat "|" (map show l) ++ ")"
  | EOpt e => show e ++ "?"
  | EMaybe e => "[" ++ show e ++ "]"
  | EStar e => show e ++ "*"
  | EPlus e => show e ++ "+"
  | ERep e _ _ => show e ++ "~"
  end.
Definition rep_name (e : ebnf) : string := "__rep " ++ show e.

Section Expand.
  Variable keep_all : bool.

  (** parse_tree_builder.py [maybe_create_child_filter]: anonymous strings are
      filtered out unless keep_all_tokens; terminals starting with _ too. *)
  Definition keep_str : slot := if keep_all then Keep else Drop.
  Definition kept (r : rawsym) : nat :=
    match r with Sym _ Keep => 1 | _ => 0 end.
  (** load_grammar.py FindRuleSize: number of placeholders of [e]. *)
  Definition rule_size (alts : list (list rawsym)) : nat :=
    fold_right Nat.max 0 (map (fun a => list_sum (map kept a)) alts).

  Definition dd := nub (list_eqb rawsym_eqb).
  Definition cross (a b : list (list rawsym)) : list (list rawsym) :=
    flat_map (fun x => map (app x) b) a.
  Fixpoint power (n : nat) (a : list (list rawsym)) : list (list rawsym) :=
    match n with O => [[]] | S k => cross a (power k a) end.

  (** All alternatives of a right-hand side. *)
  Fixpoint expand (e : ebnf) : list (list rawsym) :=
    match e with
    | ETerm n => [[Sym (T n) (if starts_us n then (if keep_all then Keep else Drop) else Keep)]]
    | EStr s => [[Sym (T s) keep_str]]
    | ERe n => [[Sym (T n) Keep]]
    | ENT n => [[Sym (NT n) (if starts_us n then Splice else Keep)]]
    | ESeq l => dd ((fix go l := match l with
                                 | [] => [[]]
                                 | e :: l' => cross (expand e) (go l')
                                 end) l)
    | EAlt l => dd ((fix go l := match l with
                                 | [] => []
                                 | e :: l' => (expand e ++ go l')%list
                                 end) l)
    | EOpt e => dd (expand e ++ [[]])
    | EMaybe e => let a := expand e in dd (a ++ [repeat Hole (rule_size a)])
    | EStar e => [[Sym (NT (rep_name e)) Splice]; []]
    | EPlus e => [[Sym (NT (rep_name e)) Splice]]
    | ERep e lo hi => dd (flat_map (fun n => power n (expand e)) (seq lo (S hi - lo)))
    end.

  (** Bodies of the repetitions occurring in [e]. *)
  Fixpoint reps (e : ebnf) : list ebnf :=
    match e with
    | ETerm _ | EStr _ | ERe _ | ENT _ => []
    | ESeq l | EAlt l => (fix go l := match l with
                                      | [] => []
                                      | e :: l' => (reps e ++ go l')%list
                                      end) l
    | EOpt e | EMaybe e | ERep e _ _ => reps e
    | EStar e | EPlus e => (reps e ++ [e])%list
    end.
End Expand.

(** Productions of a rule. *)
Definition rule_prods (r : ruledef) : list prod :=
  flat_map (fun a =>
    map (fun raw => {| p_lhs := r_name r; p_raw := raw; p_alias := snd a;
                       p_expand1 := r_expand1 r; p_prio := r_prio r |})
        (expand (r_keep_all r) (fst a)))
    (r_alts r).

(** Productions of the helper rule of a repetition: x | self x.  (No repetition
    occurs inside a ! rule of bicep.lark, so keep_all is false.) *)
Definition rep_prods (e : ebnf) : list prod :=
  let a := expand false e in
  map (fun raw => {| p_lhs := rep_name e; p_raw := raw; p_alias := None;
                     p_expand1 := false; p_prio := 0 |})
    (dd (a ++ map (cons (Sym (NT (rep_name e)) Splice)) a)).

(** Grammar.compile: all productions. *)
Definition all_reps (g : list ruledef) : list ebnf :=
  nub (fun a b => String.eqb (rep_name a) (rep_name b))
      (flat_map (fun r => flat_map (fun a => reps (fst a)) (r_alts r)) g).
Definition compile (g : list ruledef) : list prod :=
  flat_map rule_prods g ++ flat_map rep_prods (all_reps g).
