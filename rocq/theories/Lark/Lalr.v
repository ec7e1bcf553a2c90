(** Lark's LALR(1) table construction (lark/parsers/grammar_analysis.py,
    lark/parsers/lalr_analysis.py): LR(0) automaton, DeRemer-Pennello lookaheads,
    shift preferred over reduce, reduce/reduce resolved by rule priority.
    Generic in the grammar; symbols and states are numbered. *)
From Coq Require Import List NArith PArith Bool FMapPositive.
Import ListNotations.

Module PM := PositiveMap.
Local Open Scope positive_scope.

(** A numbered grammar: terminals are 1..[g_nterm] ([g_end] = $END among them),
    nonterminals are larger.  Production ids are positive; [g_root] is the
    augmented production  $root -> start $END. *)
Record gram := {
  g_nterm : positive;
  g_end : positive;
  g_start : positive;
  g_root : positive;
  g_prods : list (positive * (positive * list positive * N)); (* id, lhs, rhs, priority *)
}.

Definition pm_of {A} (l : list (positive * A)) : PM.t A :=
  fold_left (fun m kv => PM.add (fst kv) (snd kv) m) l (PM.empty A).
Definition find_list {A} (k : positive) (m : PM.t (list A)) : list A :=
  match PM.find k m with Some l => l | None => [] end.
Definition push {A} (k : positive) (v : A) (m : PM.t (list A)) : PM.t (list A) :=
  PM.add k (v :: find_list k m) m.

(** An item: production id and dot position, with the symbols after the dot. *)
Record item := { it_p : positive; it_d : N; it_rest : list positive }.
Definition item_le (a b : item) : bool :=
  match it_p a ?= it_p b with
  | Lt => true | Gt => false | Eq => (it_d a <=? it_d b)%N
  end.
Definition item_eqb (a b : item) : bool := (it_p a =? it_p b) && (it_d a =? it_d b)%N.
Fixpoint insert (x : item) (l : list item) : list item :=
  match l with
  | [] => [x]
  | y :: l' => if item_le x y then x :: l else y :: insert x l'
  end.
Definition sort_items (l : list item) : list item := fold_right insert [] l.
Fixpoint items_eqb (a b : list item) : bool :=
  match a, b with
  | [], [] => true
  | x :: a', y :: b' => item_eqb x y && items_eqb a' b'
  | _, _ => false
  end.

(** Parser actions (lalr_analysis.py: (Shift, state) / (Reduce, rule)). *)
Inductive act := Shift (s : positive) | Reduce (p : positive).

(** A state: kernel items, nonterminals of the closure, transitions. *)
Record state := { s_kernel : list item; s_nts : list positive; s_trans : PM.t positive }.

Section Build.
  Variable G : gram.
  Let is_nt (x : positive) : bool := g_nterm G <? x.

  Definition prod_map : PM.t (positive * list positive * N) := pm_of (g_prods G).
  Definition by_lhs : PM.t (list item) :=
    fold_right (fun e m => let '(p, (l, r, _)) := e in push l {| it_p := p; it_d := 0; it_rest := r |} m)
               (PM.empty _) (g_prods G).
  Definition rhs_of (p : positive) : list positive :=
    match PM.find p prod_map with Some (_, r, _) => r | None => [] end.
  Definition lhs_of (p : positive) : positive :=
    match PM.find p prod_map with Some (l, _, _) => l | None => 1 end.
  Definition prio_of (p : positive) : N :=
    match PM.find p prod_map with Some (_, _, n) => n | None => 0%N end.

  Section Maps.
    Variable pmap : PM.t (positive * list positive * N).
    Variable bl : PM.t (list item).

    (** Nonterminals whose items are in the closure of a set of items
        (grammar_analysis.py expand_rule). *)
    Fixpoint close (fuel : nat) (work : list positive) (seen : PM.t unit) (acc : list positive)
      : list positive :=
      match fuel with
      | O => acc
      | S f =>
          match work with
          | [] => acc
          | x :: work' =>
              if is_nt x then
                match PM.find x seen with
                | Some _ => close f work' seen acc
                | None =>
                    let firsts := flat_map (fun i => match it_rest i with y :: _ => [y] | [] => [] end)
                                           (find_list x bl) in
                    close f (firsts ++ work') (PM.add x tt seen) (x :: acc)
                end
              else close f work' seen acc
          end
      end.
    Definition next_syms (l : list item) : list positive :=
      flat_map (fun i => match it_rest i with y :: _ => [y] | [] => [] end) l.
    Definition closure_nts (fuel : nat) (kernel : list item) : list positive :=
      close fuel (next_syms kernel) (PM.empty unit) [].
    Definition all_items (kernel : list item) (nts : list positive) : list item :=
      kernel ++ flat_map (fun x => find_list x bl) nts.

    Definition advance (i : item) : item :=
      {| it_p := it_p i; it_d := N.succ (it_d i); it_rest := tl (it_rest i) |}.
    (** Successor kernels, by symbol. *)
    Definition successors (items : list item) : list (positive * list item) :=
      PM.elements
        (fold_left (fun m i => match it_rest i with
                               | y :: _ => push y (advance i) m
                               | [] => m end) items (PM.empty _)).

    Definition hash (l : list item) : positive :=
      N.succ_pos (fold_left (fun h i => ((h * 31 + Npos (it_p i) * 7 + it_d i) mod 65521)%N) l 0%N).

    (** LR(0) automaton: worklist of unexpanded states. [idx]: hash -> (kernel, id). *)
    Definition intern (k : list item) (st : PM.t (list (list item * positive)) * positive * list (positive * list item))
      : positive * (PM.t (list (list item * positive)) * positive * list (positive * list item)) :=
      let '(idx, next, queue) := st in
      let h := hash k in
      match List.find (fun e => items_eqb (fst e) k) (find_list h idx) with
      | Some (_, s) => (s, st)
      | None => (next, (push h (k, next) idx, Pos.succ next, (next, k) :: queue))
      end.
    Fixpoint lr0 (fuel : nat) (done : PM.t state)
      (st : PM.t (list (list item * positive)) * positive * list (positive * list item))
      : option (PM.t state) :=
      match fuel with
      | O => None
      | S f =>
          let '(idx, next, queue) := st in
          match queue with
          | [] => Some done
          | (s, k) :: queue' =>
              let nts := closure_nts (Nat.mul 200 200) k in
              let '(trans, st') :=
                fold_left (fun acc e =>
                  let '(tr, st) := acc in
                  let '(x, kern) := e in
                  let '(t, st2) := intern (sort_items kern) st in
                  (PM.add x t tr, st2))
                  (successors (all_items k nts)) (PM.empty positive, (idx, next, queue')) in
              lr0 f (PM.add s {| s_kernel := k; s_nts := nts; s_trans := trans |} done) st'
          end
      end.
  End Maps.

  (** Nullable nonterminals. *)
  Fixpoint nullable_iter (n : nat) (nul : PM.t unit) : PM.t unit :=
    match n with
    | O => nul
    | S k =>
        nullable_iter k
          (fold_left (fun m e => let '(_, (l, r, _)) := e in
             if forallb (fun x => match PM.find x m with Some _ => true | None => false end) r
             then PM.add l tt m else m) (g_prods G) nul)
    end.
  Definition mem (m : PM.t unit) (x : positive) : bool :=
    match PM.find x m with Some _ => true | None => false end.

  (** Sets of terminals as bit masks. *)
  Definition bit (t : positive) : N := N.shiftl 1 (Npos t).
  Definition get2 (m : PM.t (PM.t N)) (s x : positive) : N :=
    match PM.find s m with
    | Some r => match PM.find x r with Some v => v | None => 0%N end
    | None => 0%N
    end.
  Definition set2 (m : PM.t (PM.t N)) (s x : positive) (v : N) : PM.t (PM.t N) :=
    PM.add s (PM.add x v (match PM.find s m with Some r => r | None => PM.empty N end)) m.

  (** Least solution of F(x) = G(x) + union of F(y) over edges (x, y). *)
  Fixpoint solve (fuel : nat) (edges : list ((positive * positive) * (positive * positive)))
    (F : PM.t (PM.t N)) : option (PM.t (PM.t N)) :=
    match fuel with
    | O => None
    | S f =>
        let '(changed, F') :=
          fold_left (fun acc e =>
            let '(ch, F) := acc in
            let '((s, x), (s', y)) := e in
            let a := get2 F s x in
            let b := N.lor a (get2 F s' y) in
            if (a =? b)%N then acc else (true, set2 F s x b)) edges (false, F) in
        if changed then solve f edges F' else Some F'
    end.

  Section Lookahead.
    Variable states : PM.t state.
    Variable pmap : PM.t (positive * list positive * N).
    Variable bl : PM.t (list item).
    Variable nul : PM.t unit.

    Definition trans_of (s : positive) : PM.t positive :=
      match PM.find s states with Some st => s_trans st | None => PM.empty _ end.
    Definition go (s x : positive) : positive :=
      match PM.find x (trans_of s) with Some t => t | None => 1 end.
    (** Nonterminal transitions. *)
    Definition nt_trans : list (positive * positive) :=
      flat_map (fun e => flat_map (fun t => if is_nt (fst t) then [(fst e, fst t)] else [])
                           (PM.elements (s_trans (snd e)))) (PM.elements states).
    (** compute_reads_relations *)
    Definition directly_reads (sx : positive * positive) : N :=
      fold_left (fun m t => if is_nt (fst t) then m else N.lor m (bit (fst t)))
                (PM.elements (trans_of (go (fst sx) (snd sx)))) 0%N.
    Definition reads_edges : list ((positive * positive) * (positive * positive)) :=
      flat_map (fun sx =>
        let t := go (fst sx) (snd sx) in
        flat_map (fun y => if mem nul (fst y) then [(sx, (t, fst y))] else [])
                 (PM.elements (trans_of t))) nt_trans.
    Definition read_sets0 : PM.t (PM.t N) :=
      fold_left (fun m sx => set2 m (fst sx) (snd sx) (directly_reads sx)) nt_trans (PM.empty _).

    (** compute_includes_lookback: walk every item of the state whose rule has
        the nonterminal as origin, from its dot to the end. *)
    Fixpoint walk (s : positive) (rest : list positive) (src : positive * positive)
      : list ((positive * positive) * (positive * positive)) * positive :=
      match rest with
      | [] => ([], s)
      | x :: rest' =>
          let '(es, fin) := walk (go s x) rest' src in
          if is_nt x && forallb (mem nul) rest' then (((s, x), src) :: es, fin) else (es, fin)
      end.
    Definition includes_lookback
      : list ((positive * positive) * (positive * positive)) * list ((positive * positive) * (positive * positive)) :=
      fold_left (fun acc sx =>
        let '(inc, lb) := acc in
        let '(s, x) := sx in
        match PM.find s states with
        | None => acc
        | Some st =>
            let own := filter (fun i => match PM.find (it_p i) pmap with
                                        | Some (l, _, _) => l =? x | None => false end) (s_kernel st)
                       ++ find_list x bl in
            fold_left (fun acc i =>
              let '(inc, lb) := acc in
              let '(es, fin) := walk s (it_rest i) sx in
              (es ++ inc, if (it_d i =? 0)%N then (sx, (fin, it_p i)) :: lb else lb)) own (inc, lb)
        end) nt_trans ([], []).
  End Lookahead.

  Definition bits_of (nterm : positive) (m : N) : list positive :=
    filter (fun t => N.testbit m (Npos t)) (map Pos.of_nat (seq 1 (Pos.to_nat nterm))).

  (** compute_lalr1_states: shifts, then reductions where there is no shift. *)
  Definition add_reduce (pmap : PM.t (positive * list positive * N)) (t p : positive)
    (cur : PM.t (list positive)) : PM.t (list positive) := push t p cur.
  Definition choose (prio : positive -> N) (ps : list positive) : option positive :=
    match ps with
    | [p] => Some p
    | _ =>
        let best := fold_left (fun m p => N.max m (prio p)) ps 0%N in
        match filter (fun p => (prio p =? best)%N) ps with
        | [p] => Some p
        | _ => None
        end
    end.

  Record tables := {
    tb_action : PM.t (PM.t act);        (* state, terminal *)
    tb_goto : PM.t (PM.t positive);     (* state, nonterminal *)
    tb_items : PM.t (list item);        (* LR(0) items, for validation only *)
    tb_init : positive;                 (* start state *)
    tb_final : positive                 (* goto of the start state on the start symbol *)
  }.

  Definition build : option tables :=
    let pmap := prod_map in
    let bl := by_lhs in
    let k0 := [{| it_p := g_root G; it_d := 0; it_rest := rhs_of (g_root G) |}] in
    let '(_, st0) := intern k0 (PM.empty _, 1, []) in
    match lr0 bl (Nat.mul 50 100) (PM.empty _) st0 with
    | None => None
    | Some states =>
        let nul := nullable_iter 20 (PM.empty unit) in
        match solve 100 (reads_edges states nul) (read_sets0 states) with
        | None => None
        | Some reads =>
            let '(inc, lb) := includes_lookback states pmap bl nul in
            match solve 200 inc reads with
            | None => None
            | Some follow =>
                (* state -> production -> lookahead set *)
                let la := fold_left (fun m e =>
                            let '((s, x), (fin, p)) := e in
                            set2 m fin p (N.lor (get2 m fin p) (get2 follow s x))) lb (PM.empty _) in
                let rows :=
                  map (fun e =>
                    let '(s, st) := e in
                    let shifts := fold_left (fun m t => if is_nt (fst t) then m
                                                        else PM.add (fst t) (Shift (snd t)) m)
                                            (PM.elements (s_trans st)) (PM.empty act) in
                    let reds :=
                      fold_left (fun m e => fold_left (fun m t => push t (fst e) m)
                                              (bits_of (g_nterm G) (snd e)) m)
                        (match PM.find s la with Some r => PM.elements r | None => [] end)
                        (PM.empty (list positive)) in
                    let prio p := match PM.find p pmap with Some (_, _, n) => n | None => 0%N end in
                    let row :=
                      fold_left (fun acc e =>
                        match acc with
                        | None => None
                        | Some m =>
                            match PM.find (fst e) m with
                            | Some _ => acc                      (* shift/reduce: shift *)
                            | None =>
                                match choose prio (snd e) with
                                | Some p => Some (PM.add (fst e) (Reduce p) m)
                                | None => None                   (* reduce/reduce *)
                                end
                            end
                        end) (PM.elements reds) (Some shifts) in
                    let gotos := fold_left (fun m t => if is_nt (fst t) then PM.add (fst t) (snd t) m else m)
                                           (PM.elements (s_trans st)) (PM.empty positive) in
                    (s, row, gotos, all_items bl (s_kernel st) (s_nts st)))
                    (PM.elements states) in
                if forallb (fun r => let '(_, row, _, _) := r in
                                     match row with Some _ => true | None => false end) rows
                then Some {|
                  tb_action := pm_of (map (fun r => let '(s, row, _, _) := r in
                                 (s, match row with Some m => m | None => PM.empty act end)) rows);
                  tb_goto := pm_of (map (fun r => let '(s, _, g, _) := r in (s, g)) rows);
                  tb_items := pm_of (map (fun r => let '(s, _, _, its) := r in (s, its)) rows);
                  tb_init := 1;
                  tb_final := match PM.find 1 states with
                              | Some st => match PM.find (g_start G) (s_trans st) with
                                           | Some t => t | None => 1 end
                              | None => 1 end
                |}
                else None
            end
        end
    end.
End Build.
