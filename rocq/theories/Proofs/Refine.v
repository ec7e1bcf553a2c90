(** Completeness of the LALR driver, part 1: a class of derivation trees that the
    tables accept.  The grammar is ambiguous; the trees the parser builds are
    singled out by tags computed bottom-up (a finite tree automaton).  Items with
    tags and lookaheads are computed for every state and checked. *)
From Coq Require Import List Arith NArith PArith Bool String Lia.
From Verif Require Import Py.Str Py.Val Lark.Regex Lark.Terminals Lark.Lexer Lark.Ebnf
     Lark.Lalr Lark.BicepGrammar Lark.BicepTables Lark.Driver.
Import ListNotations.
Local Open Scope string_scope.

(** ** Tags
    For values, [k + 4 * e]: the value starts with [k] = 0 something that cannot
    continue a value, 1 something that can, 2 a line break, 3 a word; it ends
    ([e] = 0) with a closing token or an atom, or ([e] = 1) with an operand that
    an operator might still extend. *)
Definition row := (N * list N)%type.
Definition sym_name (s : sym) : string := match s with T n | NT n => n end.
Definition one_tag (k : N) : N := N.shiftl 1 k.
Definition anyv : N := 255.       (* any value *)
Definition here : N := 187.       (* not starting with a line break *)
Definition plain : N := 17.       (* start 0 *)
Definition shut : N := 15.        (* end 0 *)
Definition starts : list N := [0; 1; 2; 3]%N.
Definition all_tags : list N := [0; 1; 2; 3; 4; 5; 6; 7]%N.
Definition pass : list row := map (fun k => (k, [one_tag k])) all_tags.
Definition is_value (n : string) : bool := existsb (String.eqb n) ["value"; "value_brackets"].
Definition default_row (m : N) (rhs : list string) : list row := [(0%N, map (fun n => if is_value n then m else 1%N) rhs)].
Definition rows_for (lhs : string) (rhs : list string) : list row :=
  if String.eqb lhs "start" then match rhs with [] => [] | _ => [(0%N, [3%N])] end
  else if String.eqb lhs "value" then
    match rhs with
    | [a] =>
        if existsb (String.eqb a) ["null"; "true"; "false"; "STRING"] then [(3%N, [1%N])]
        else if String.eqb a "array" then [(1%N, [1%N])]
        else if existsb (String.eqb a) ["operator"; "lambda_expression"] then pass
        else [(0%N, [1%N])]
    | _ => [(2%N, map (fun _ => 1%N) rhs)]
    end
  else if String.eqb lhs "value_brackets" then
    match rhs with
    | [_] => pass
    | [_; _] => map (fun k => (k, [one_tag k; 1%N])) starts
    | _ => default_row anyv rhs
    end
  else if existsb (String.eqb lhs) ["operator"; "operator_comparison"; "operator_logical"; "operator_numeric"; "operator_accessor"] then pass
  else if existsb (String.eqb lhs) ["not_op"; "minus"] then [(5%N, [1%N; here])]
  else if String.eqb lhs "index_accessor" then
    map (fun k => (k, one_tag k :: map (fun n => if is_value n then here else 1%N) (tl rhs))) starts
  else if String.eqb lhs "function_accessor" then
    map (fun k => (k, one_tag k :: map (fun n => if is_value n then anyv else if String.eqb n "__rep [("","" value_brackets)]" then 3%N else 1%N) (tl rhs))) starts
  else match rhs with
  | a :: b :: c =>
    if String.eqb a "value_brackets" && existsb (String.eqb b) [">="; ">"; "<="; "<"; "=="; "!="; "=~"; "!~"; "&&"; "||"; "??"; "+"; "-"; "/"; "%"; "*"; "::"; "."; "=>"]
    then map (fun k => ((4 + k)%N, one_tag k :: 1%N :: map (fun n => if is_value n then anyv else 1%N) c)) starts
    else if String.eqb lhs "conditional" then map (fun k => ((4 + k)%N, [one_tag k; 1; here; 1; anyv]%N)) starts
    else if String.eqb lhs "lambda_expression" then [(4%N, map (fun n => if is_value n then anyv else 1%N) rhs)]
    else if String.eqb lhs "pair" then
      match rhs with
      | [_; _; _; _] => [(1%N, [1%N; 1%N; shut; 1%N])]
      | _ => default_row anyv rhs
      end
    else if String.eqb lhs "loop" then
      let n := List.length (filter is_value rhs) in
      if Nat.eqb n 2 then [(0%N, (fix go (seen : bool) l := match l with [] => [] | x :: l' => if is_value x then (if seen then plain else anyv) :: go true l' else 1%N :: go seen l' end) false rhs)]
      else default_row anyv rhs
    else if String.eqb lhs "function" || String.eqb lhs "decorator" || String.eqb lhs "__rep ("","" _CPP_COMMENT_NL? value_brackets)" then default_row here rhs
    else if String.eqb lhs "__rep ((element _CPP_COMMENT_NL?)|_CPP_COMMENT_NL)" then
      match rhs with
      | ["element"; _] => [(0%N, [1%N; 1%N])]
      | [_; "element"; _] => [(0%N, [3%N; 1%N; 1%N])]
      | [_; "element"] => [(1%N, [3%N; 1%N])]
      | _ => [(0%N, [1%N; 1%N])]
      end
    else if String.eqb lhs "__rep (value_brackets ("","" value_brackets)* _CPP_COMMENT_NL*)" then
      let tag := if existsb (String.eqb "__rep _CPP_COMMENT_NL") rhs then 0%N else 1%N in
      if String.eqb a lhs then [(tag, 1%N :: here :: map (fun _ => 1%N) c); (tag, 2%N :: plain :: map (fun _ => 1%N) c)]
      else [(tag, here :: 1%N :: map (fun _ => 1%N) c)]
    else if String.eqb lhs "__rep (((pair ("","" pair)*)|child_resource) _CPP_COMMENT_NL*)" then
      let nls := existsb (String.eqb "__rep _CPP_COMMENT_NL") rhs in
      let ch := existsb (String.eqb "child_resource") rhs in
      if nls && ch then []
      else [(if nls || ch then 0%N else 1%N, map (fun n => if String.eqb n "pair" then 3%N else 1%N) rhs)]
    else if String.eqb lhs "__rep ("","" pair)" then [(0%N, map (fun n => if String.eqb n "pair" then 3%N else 1%N) rhs)]
    else if String.eqb lhs "array" || String.eqb lhs "object" then [(0%N, map (fun n => if existsb (String.eqb n)
        ["__rep (value_brackets ("","" value_brackets)* _CPP_COMMENT_NL*)"; "__rep (((pair ("","" pair)*)|child_resource) _CPP_COMMENT_NL*)"] then 3%N else 1%N) rhs)]
    else default_row anyv rhs
  | [a] =>
    if String.eqb lhs "__rep ((element _CPP_COMMENT_NL?)|_CPP_COMMENT_NL)" then
      (if String.eqb a "element" then [(1%N, [1%N])] else [(0%N, [1%N])])
    else if String.eqb lhs "__rep (value_brackets ("","" value_brackets)* _CPP_COMMENT_NL*)" then [(1%N, [here])]
    else if String.eqb lhs "__rep (((pair ("","" pair)*)|child_resource) _CPP_COMMENT_NL*)" then
      (if String.eqb a "pair" then [(1%N, [3%N])] else [(0%N, [1%N])])
    else if String.eqb lhs a then []
    else default_row anyv rhs
  | [] => if String.eqb lhs "__rep [("","" value_brackets)]" then [(1%N, [])] else []
  end.

Definition rows : PM.t (list row) := Eval vm_compute in
  pm_of (number 1 (map (fun p => rows_for (p_lhs p) (map sym_name (p_rhs p))) bicep_prods)).
Definition rows_of (p : positive) : list row := match PM.find p rows with Some l => l | None => [] end.

(** ** Token classes: the terminals, with words told apart by what they are. *)
Definition c_value : positive := 101.
Definition c_key : positive := 102.
Definition class (p : positive) (x : positive) : positive :=
  if Pos.eqb x (sym_id (T "STRING")) then
    match List.find (fun e => Pos.eqb (fst e) p) (number 1 bicep_prods) with
    | Some (_, pr) => if String.eqb (p_lhs pr) "value" then c_value else if String.eqb (p_lhs pr) "quoted_string" then c_key else x
    | None => x
    end
  else x.
Definition terminal_of (c : positive) : positive :=
  if Pos.eqb c c_value || Pos.eqb c c_key then sym_id (T "STRING") else c.

(** Refined productions: id, row number, left-hand side, tag, right-hand side
    (terminal classes or nonterminals with the tags allowed). *)
Inductive rsym := RT (c : positive) | RN (x : positive) (tags : N).
Record rprod := { rp_p : positive; rp_lhs : positive; rp_tag : N; rp_rhs : list rsym }.
Definition is_nt (x : positive) : bool := Pos.ltb nterm x.
Definition refine (p lhs : positive) (rhs : list positive) (r : row) : rprod :=
  {| rp_p := p; rp_lhs := lhs; rp_tag := fst r;
     rp_rhs := map (fun e => if is_nt (fst e) then RN (fst e) (snd e) else RT (class p (fst e))) (combine rhs (snd r)) |}.
Definition rprods : list rprod := Eval vm_compute in
  flat_map (fun e => let '(p, (lhs, rhs, _)) := e in map (refine p lhs rhs) (rows_of p)) (g_prods bicep_gram).
Definition rprod_map : PM.t rprod := Eval vm_compute in pm_of (number 1 rprods).
Definition rget (i : positive) : option rprod := PM.find i rprod_map.
(** Refined productions of a nonterminal, with their tags. *)
Definition r_by_lhs : PM.t (list (positive * N)) := Eval vm_compute in
  fold_right (fun e m => push (rp_lhs (snd e)) (fst e, rp_tag (snd e)) m) (PM.empty _) (number 1 rprods).

(** ** First tokens *)
Definition tk (x : positive) (tag : N) : positive := (x * 16 + N.succ_pos tag)%positive.
Definition f_get (m : PM.t (N * bool)) (x : positive) (tag : N) : N * bool :=
  match PM.find (tk x tag) m with Some e => e | None => (0%N, false) end.
Definition tags_in (m : N) : list N := filter (N.testbit m) all_tags.
Definition f_sym (m : PM.t (N * bool)) (s : rsym) : N * bool :=
  match s with
  | RT c => (bit c, false)
  | RN x ts => fold_left (fun a t => let e := f_get m x t in (N.lor (fst a) (fst e), snd a || snd e)) (tags_in ts) (0%N, false)
  end.
Fixpoint f_syms (m : PM.t (N * bool)) (l : list rsym) (la : N * bool) : N * bool :=
  match l with
  | [] => la
  | s :: l' => let e := f_sym m s in
               if snd e then let e' := f_syms m l' la in (N.lor (fst e) (fst e'), snd e') else e
  end.
Definition f_step (m : PM.t (N * bool)) : PM.t (N * bool) :=
  fold_left (fun m r =>
    let e := f_get m (rp_lhs r) (rp_tag r) in
    let e' := f_syms m (rp_rhs r) (0%N, true) in
    PM.add (tk (rp_lhs r) (rp_tag r)) (N.lor (fst e) (fst e'), snd e || snd e') m) rprods m.
Definition f_map : PM.t (N * bool) := Eval vm_compute in Nat.iter 25 f_step (PM.empty _).
Definition first_of (s : rsym) : N * bool := f_sym f_map s.
Definition firsts (l : list rsym) (la : N) : N := fst (f_syms f_map l (la, true)).

(** ** Items: state, production (by index), dot; with their lookaheads *)
Definition items_t := PM.t (PM.t (PM.t N)).
Definition sub {A} (k : positive) (m : PM.t (PM.t A)) : PM.t A :=
  match PM.find k m with Some r => r | None => PM.empty _ end.
Definition sub2 (s : positive) (m : items_t) : PM.t (PM.t N) :=
  match PM.find s m with Some r => r | None => PM.empty _ end.
Definition ifind (m : items_t) (s i : positive) (d : N) : option N :=
  PM.find (N.succ_pos d) (sub i (sub2 s m)).
Definition iget (m : items_t) (s i : positive) (d : N) : N :=
  match ifind m s i d with Some v => v | None => 0%N end.
Definition iset (m : items_t) (s i : positive) (d : N) (v : N) : items_t :=
  let r := sub2 s m in PM.add s (PM.add i (PM.add (N.succ_pos d) v (sub i r)) r) m.
Definition work := list (positive * positive * N).
Definition iadd (st : items_t * work) (s : positive) (i : positive) (d : N) (la : N) : items_t * work :=
  let '(m, w) := st in
  match ifind m s i d with
  | Some o => let n := N.lor o la in if N.eqb n o then (m, w) else (iset m s i d n, (s, i, d) :: w)
  | None => (iset m s i d la, (s, i, d) :: w)
  end.
Definition target (s : positive) (x : rsym) : option positive :=
  match x with
  | RT c => match action s (terminal_of c) with Some (Shift s') => Some s' | _ => None end
  | RN x _ => goto s x
  end.
Definition istep (m : items_t) (w : work) (s i : positive) (d : N) : items_t * work :=
  match rget i with
  | None => (m, w)
  | Some r =>
      let la := iget m s i d in
      match skipn (N.to_nat d) (rp_rhs r) with
      | [] => (m, w)
      | x :: rest =>
          let st := match target s x with Some s' => iadd (m, w) s' i (N.succ d) la | None => (m, w) end in
          match x with
          | RT _ => st
          | RN y ts =>
              let la' := firsts rest la in
              fold_left (fun st e => if N.testbit ts (snd e) then iadd st s (fst e) 0 la' else st)
                        (find_list y r_by_lhs) st
          end
      end
  end.
Fixpoint isolve (fuel : nat) (m : items_t) (w : work) : items_t * work :=
  match fuel with
  | O => (m, w)
  | Datatypes.S f => match w with [] => (m, []) | (s, i, d) :: w' => let '(m', w'') := istep m w' s i d in isolve f m' w'' end
  end.
Definition seeds : items_t * work :=
  fold_left (fun st e => iadd st (tb_init bicep_tables) (fst e) 0 (bit 1)) (find_list (Lalr.g_start bicep_gram) r_by_lhs) (PM.empty _, []).
Fixpoint rounds (n : nat) (st : items_t * work) : items_t * work :=
  match n with
  | O => st
  | Datatypes.S n' => match st with (_, []) => st | (m, w) => rounds n' (isolve 1000 m w) end
  end.
Definition ritems : items_t := Eval vm_compute in fst (rounds 1000 seeds).

(** ** Checks *)
Definition classes : list positive := Eval vm_compute in map fst (number 1 (repeat tt 66)) ++ [c_value; c_key].
Definition within (a b : N) : bool := N.eqb (N.lor a b) b.
Definition is_reduce (p : positive) (a : option act) : bool :=
  match a with Some (Reduce q) => Pos.eqb p q | _ => false end.
Definition item_ok (s i : positive) (d : N) (la : N) : bool :=
  match rget i with
  | None => false
  | Some r =>
      match skipn (N.to_nat d) (rp_rhs r) with
      | [] => forallb (fun c => negb (N.testbit la (Npos c)) || is_reduce (rp_p r) (action s (terminal_of c))) classes
      | x :: rest =>
          match target s x with
          | None => false
          | Some s' => within la (iget ritems s' i (N.succ d))
          end &&
          match x with
          | RT _ => true
          | RN y ts =>
              let la' := firsts rest la in
              forallb (fun e => negb (N.testbit ts (snd e)) || within la' (iget ritems s (fst e) 0)) (find_list y r_by_lhs)
          end
      end
  end.
Definition items_ok : bool :=
  forallb (fun a => forallb (fun b => forallb (fun c =>
    item_ok (fst a) (fst b) (N.pred (Npos (fst c))) (snd c)) (PM.elements (snd b))) (PM.elements (snd a))) (PM.elements ritems).
Lemma items_ok_true : items_ok = true.
Proof. vm_compute. reflexivity. Qed.
(** Every refined production is listed, has a row of the grammar's production
    and classes that exist. *)
Definition rprod_ok (i : positive) (r : rprod) : bool :=
  match PM.find (rp_p r) prod_info with
  | Some (lhs, rhs, _) =>
      Pos.eqb lhs (rp_lhs r) &&
      existsb (fun e => Pos.eqb (fst e) i && N.eqb (snd e) (rp_tag r)) (find_list (rp_lhs r) r_by_lhs) &&
      Nat.eqb (List.length rhs) (List.length (rp_rhs r)) &&
      forallb (fun e => match snd e with
                        | RT c => Pos.eqb (fst e) (terminal_of c) && existsb (Pos.eqb c) classes
                        | RN x _ => Pos.eqb (fst e) x
                        end) (combine rhs (rp_rhs r))
  | None => false
  end.
Lemma rprods_ok : forallb (fun e => rprod_ok (fst e) (snd e)) (PM.elements rprod_map) = true.
Proof. vm_compute. reflexivity. Qed.
(** The table of first tokens is closed. *)
Definition first_ok (r : rprod) : bool :=
  let e := f_syms f_map (rp_rhs r) (0%N, true) in
  let e' := f_get f_map (rp_lhs r) (rp_tag r) in
  within (fst e) (fst e') && (negb (snd e) || snd e').
Lemma firsts_ok : forallb (fun e => first_ok (snd e)) (PM.elements rprod_map) = true.
Proof. vm_compute. reflexivity. Qed.
Definition small_tags : bool := forallb (fun e => existsb (N.eqb (rp_tag (snd e))) all_tags) (PM.elements rprod_map).
Lemma small_tags_true : small_tags = true.
Proof. vm_compute. reflexivity. Qed.
Lemma seeds_ok : forallb (fun e => N.testbit (iget ritems (tb_init bicep_tables) (fst e) 0) 1) (find_list (Lalr.g_start bicep_gram) r_by_lhs) = true.
Proof. vm_compute. reflexivity. Qed.
