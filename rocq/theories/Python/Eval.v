(** What a pycep module means: an evaluator for the syntax trees of Python/Syntax.v
    over a heap of mutable objects (The Python Language Reference, chapters 3, 6, 7,
    and the library functions pycep calls).  An operation outside the part pycep uses
    is [Stuck]: nothing is said about it. *)
From Coq Require Import List NArith ZArith Bool String Ascii.
From Verif Require Import Lark.RegexText Lark.Loader Py.Str Py.Val Lark.Tree Pycep.Main Python.Syntax.
From Verif Require Pycep.Transformer.
Import ListNotations.
Local Open Scope string_scope.

(** ** Values and heap *)
Inductive val :=
| VNone | VBool (b : bool) | VInt (z : Z) | VStr (s : str)
| VElem (s : str)                       (* BicepElement *)
| VTok (t : token)                      (* lark.Token *)
| VTup (l : list val)
| VRef (l : nat)                        (* an object of the heap *)
| VFun (f : string)                     (* a function or class, by name *)
| VSeq (l : list val)                   (* enumerate, zip, chain, items(): what is still to come *)
| VPat (s : str)                        (* re.compile *)
| VMatch (groups : list (string * str)) (* re.Match *)
| VMeta (m : meta) | VTree (t : ptree)  (* lark.tree.Meta, lark.Tree *)
| VPath (p : path)                      (* the file_path argument *)
| VDir | VFile (name : str)             (* files(__package__) and a file in there *)
| VLark (grammar : str)                 (* lark.Lark *)
| VSuper.
Inductive obj :=
| OList (l : list val) | ODict (d : list (str * val))   (* keys: str; sets are lists here *)
| OIter (l : list val)                                  (* iter(l) *)
| OInst (cls : string) (attrs : list (string * val)).
Record heap := { next : nat; cells : nat -> option obj }.
Definition get (h : heap) (l : nat) : option obj := cells h l.
Definition push (h : heap) (o : obj) : heap :=
  {| next := S (next h); cells := fun l => if Nat.eqb l (next h) then Some o else cells h l |}.
Definition set (h : heap) (l : nat) (o : obj) : heap :=
  {| next := next h; cells := fun k => if Nat.eqb k l then Some o else cells h k |}.
Definition empty_heap : heap := {| next := 0; cells := fun _ => None |}.

Inductive out (A : Type) := Got (a : A) | Exn (e : exn) | Stuck.
Arguments Got {A} a. Arguments Exn {A} e. Arguments Stuck {A}.
Notation "'let!' x ':=' m 'in' k" := (match m with Got x => k | Exn e => Exn e | Stuck => Stuck end)
  (at level 200, x pattern, m at level 100, k at level 200).
Definition some {A} (o : option A) : out A := match o with Some a => Got a | None => Stuck end.
Definition lift {A} (r : result A) : out A := match r with Ok a => Got a | Err e => Exn e end.

(** Local names and heap. *)
Definition locals := list (string * val).
Definition state := (locals * heap)%type.
Fixpoint assoc {A} (x : string) (l : list (string * A)) : option A :=
  match l with [] => None | (y, v) :: l' => if String.eqb x y then Some v else assoc x l' end.
Fixpoint assoc_set {A} (x : string) (v : A) (l : list (string * A)) : list (string * A) :=
  match l with [] => [(x, v)] | (y, w) :: l' => if String.eqb x y then (y, v) :: l' else (y, w) :: assoc_set x v l' end.

Fixpoint all {A} (l : list (option A)) : option (list A) :=
  match l with [] => Some [] | o :: l' => do a <- o; do r <- all l'; Some (a :: r) end.

(** [{**d, **e}] *)
Definition merge {A} (d e : list (str * A)) : list (str * A) := fold_left (fun d kv => aset (fst kv) (snd kv) d) e d.

(** ** Programs *)
Inductive entry :=
| Constant (e : expr)
| Function (with_meta : bool) (params : list (string * option expr)) (body : list stmt)
| Class.
Definition v_args_meta : expr := ECall (EName "v_args") [AKw "meta" (EName "True")].
Fixpoint entries (prefix : string) (l : list stmt) : list (string * entry) :=
  match l with
  | [] => []
  | SAssign (EName x) e :: r => (prefix ++ x, Constant e) :: entries prefix r
  | SDef decos f ps b :: r =>
      (prefix ++ f, Function (match decos with [ECall (EName "v_args") [AKw "meta" (EName "True")]] => true | _ => false end) ps b) :: entries prefix r
  | _ :: r => entries prefix r
  end.
(** The entries of a module: its own and those of its classes. *)
Fixpoint module_entries (l : list stmt) : list (string * entry) :=
  match l with
  | [] => []
  | SClass c _ b :: r => (c, Class) :: entries (c ++ ".") b ++ module_entries r
  | s :: r => entries "" [s] ++ module_entries r
  end%list.

Definition entry_of (program : list (string * entry)) (f : string) : option entry := assoc f program.

(** ** Regular expressions of the form pycep uses: literals and [(?P<name>X+)] where X is
    \w or a class of \w, \d and single characters. *)
Inductive cls_item := CWord | CDigit | CChar (c : N).
Inductive rpiece := RLit (s : list ascii) | RPlus (name : string) (items : list cls_item).
Fixpoint rx_class (fuel : nat) (l : list ascii) : option (list cls_item * list ascii) :=
  match fuel with
  | O => None
  | S n =>
      match l with
      | [] => None
      | x :: l1 =>
          if is_ch "]" x then Some ([], l1)
          else if is_ch "\" x then
            match l1 with
            | y :: l2 =>
                do (r, rest) <- rx_class n l2;
                Some ((if is_ch "w" y then CWord else if is_ch "d" y then CDigit else CChar (code y)) :: r, rest)
            | [] => None
            end
          else match l1 with
               | y :: _ => if is_ch "-" y || is_ch "[^" x then None else do (r, rest) <- rx_class n l1; Some (CChar (code x) :: r, rest)
               | [] => None
               end
      end
  end.
Definition rx_lit (c : ascii) (ps : list rpiece) : list rpiece :=
  match ps with RLit s :: ps' => RLit (c :: s) :: ps' | _ => RLit [c] :: ps end.
Fixpoint rx_parse (fuel : nat) (l : list ascii) : option (list rpiece) :=
  match fuel with
  | O => None
  | S n =>
      match l with
      | [] => Some []
      | x :: l1 =>
          match after "(?P<" l with
          | Some l2 =>
              let '(name, l3) := take_while name_char l2 in
              do l4 <- after ">" l3;
              do (items, l5) <- (match after "[" l4 with
                                 | Some l5 => rx_class n l5
                                 | None => do l5 <- after "\w" l4; Some ([CWord], l5)
                                 end);
              do l6 <- after "+)" l5; do ps <- rx_parse n l6; Some (RPlus (to_string name) items :: ps)
          | None =>
              if is_ch "\" x then
                match l1 with
                | y :: l2 => if is_ch ".-/" y then do ps <- rx_parse n l2; Some (rx_lit y ps) else None
                | [] => None
                end
              else if name_char x || is_ch ":/" x then do ps <- rx_parse n l1; Some (rx_lit x ps)
              else None
          end
      end
  end.

(** ** Unpacking *)
Fixpoint bind_names (ts : list expr) (vs : list val) (env : locals) : option (locals * list val) :=
  match ts, vs with
  | [], _ => Some (env, vs)
  | EName x :: ts', v :: vs' => bind_names ts' vs' ((x, v) :: env)
  | _, _ => None
  end.
Fixpoint star_at (ts : list expr) : list expr * option (string * list expr) :=
  match ts with
  | [] => ([], None)
  | EStar (EName x) :: r => ([], Some (x, r))
  | t :: r => let '(pre, o) := star_at r in (t :: pre, o)
  end.
Definition unpack (ts : list expr) (vs : list val) (s : state) : out state :=
  let '(pre, o) := star_at ts in
  match bind_names pre vs (fst s) with
  | None => Exn ve
  | Some (env, rest) =>
      match o with
      | None => match rest with [] => Got (env, snd s) | _ => Exn ve end
      | Some (x, []) => Got ((x, VRef (next (snd s))) :: env, push (snd s) (OList rest))
      | Some (x, post) =>
          match bind_names (rev post) (rev rest) env with
          | None => Exn ve
          | Some (env', rrest) => Got ((x, VRef (next (snd s))) :: env', push (snd s) (OList (rev rrest)))
          end
      end
  end.

(** ** Loops *)
Section Loops.
  Variable f : val -> state -> out (option val * state).
  Fixpoint comp_list (items : list val) (s : state) : out (list val * state) :=
    match items with
    | [] => Got ([], s)
    | i :: r => let! (o, s1) := f i s in let! (vs, s2) := comp_list r s1 in Got (match o with Some v => v :: vs | None => vs end, s2)
    end.
End Loops.
Section DictLoops.
  Variable f : val -> state -> out (option (str * val) * state).
  Fixpoint comp_dict (items : list val) (d : list (str * val)) (s : state) : out (list (str * val) * state) :=
    match items with
    | [] => Got (d, s)
    | i :: r => let! (o, s1) := f i s in comp_dict r (match o with Some (k, v) => aset k v d | None => d end) s1
    end.
End DictLoops.
Inductive flow := Next | Cont | Ret (v : val).
Section ForLoops.
  Variable f : val -> state -> out (flow * state).
  Fixpoint for_loop (items : list val) (s : state) : out (flow * state) :=
    match items with
    | [] => Got (Next, s)
    | i :: r => let! (w, s1) := f i s in match w with Ret v => Got (Ret v, s1) | _ => for_loop r s1 end
    end.
End ForLoops.
Fixpoint enum (i : Z) (l : list val) : list val :=
  match l with [] => [] | v :: r => VTup [VInt i; v] :: enum (i + 1) r end.
(** One round of zip: take one item of each iterator in turn; [None]: the first is at
    its end. *)
Fixpoint zip_round (first : bool) (its : list val) (h : heap) : out (option (list val) * heap) :=
  match its with
  | [] => Got (Some [], h)
  | VRef l :: r =>
      match get h l with
      | Some (OIter (v :: vs)) =>
          let! (o, h1) := zip_round false r (set h l (OIter vs)) in
          match o with Some ws => Got (Some (v :: ws), h1) | None => Stuck end
      | Some (OIter []) => if first then Got (None, h) else Exn ve
      | _ => Stuck
      end
  | _ => Stuck
  end.
(** The others must be at their end, too (strict=True). *)
Definition at_end (h : heap) (v : val) : bool :=
  match v with VRef l => match get h l with Some (OIter []) => true | _ => false end | _ => false end.
Fixpoint zip_strict (fuel : nat) (its : list val) (h : heap) : out (list val * heap) :=
  match fuel with
  | O => Stuck
  | S n =>
      let! (o, h1) := zip_round true its h in
      match o with
      | None => if forallb (at_end h1) its then Got ([], h1) else Exn ve
      | Some t => let! (r, h2) := zip_strict n its h1 in Got (VTup t :: r, h2)
      end
  end.

(** ** Built-in operations *)
Section Builtins.
  Variable E : pyenv.

  (** The value behind a reference, followed to the leaves. *)
  Fixpoint readback (fuel : nat) (h : heap) : val -> option pyval :=
    fix rb (v : val) : option pyval :=
      match v with
      | VNone => Some PNone | VBool b => Some (PBool b) | VInt z => Some (PInt z)
      | VStr s => Some (PStr s) | VElem s => Some (PElem s) | VTok t => Some (PTok t)
      | VTup l => do ps <- all (map rb l); Some (PTup ps)
      | VRef l =>
          match fuel with
          | O => None
          | S n =>
              match get h l with
              | Some (OList vs) => do ps <- all (map (readback n h) vs); Some (PList ps)
              | Some (ODict d) => do ps <- all (map (fun kv => do p <- readback n h (snd kv); Some (fst kv, p)) d); Some (PDict ps)
              | _ => None
              end
          end
      | _ => None
      end.
  (** str(v); a path prints as itself. *)
  Definition str_of (h : heap) (v : val) : option str :=
    match v with
    | VPath p => Some (path_str p)
    | _ => do p <- readback (next h) h v; Some (py_str E p)
    end.
  (** bool(v) *)
  Definition truth (h : heap) (v : val) : option bool :=
    match v with
    | VNone => Some false | VBool b => Some b | VInt z => Some (negb (Z.eqb z 0))
    | VStr s | VElem s => Some (match s with [] => false | _ => true end)
    | VTok t => Some (match tval t with [] => false | _ => true end)
    | VTup l => Some (match l with [] => false | _ => true end)
    | VMatch _ => Some true
    | VPath p => Some (path_truthy p)
    | VRef l =>
        match get h l with
        | Some (OList l) => Some (match l with [] => false | _ => true end)
        | Some (ODict d) => Some (match d with [] => false | _ => true end)
        | _ => None
        end
    | _ => None
    end.
  Definition text_of (v : val) : option str :=
    match v with VStr s | VElem s => Some s | VTok t => Some (tval t) | _ => None end.
  (** a == b, where at least one is a str or both are ints. *)
  Definition equal (a b : val) : option bool :=
    match text_of a, text_of b with
    | Some s, Some t => Some (str_eqb s t)
    | Some _, None | None, Some _ => Some false
    | None, None => match a, b with VInt x, VInt y => Some (Z.eqb x y) | _, _ => None end
    end.
  (** What a for loop or an unpacking takes out of [v]. *)
  Definition items (h : heap) (v : val) : out (list val) :=
    match v with
    | VTup l | VSeq l => Got l
    | VRef l => match get h l with Some (OList vs) => Got vs | _ => Stuck end
    | _ => Stuck
    end.
  Definition index (n : nat) (z : Z) : nat := if (z <? 0)%Z then n - Z.to_nat (- z) else Nat.min n (Z.to_nat z).
  Definition slice {A} (l : list A) (lo hi : option Z) : list A :=
    let n := List.length l in
    let a := match lo with Some z => index n z | None => 0 end in
    let b := match hi with Some z => index n z | None => n end in
    firstn (b - a) (skipn a l).
  (** v[i] *)
  Definition subscript (h : heap) (v i : val) : out val :=
    match v with
    | VRef l =>
        match get h l, i with
        | Some (ODict d), _ => let! k := some (text_of i) in match aget k d with Some x => Got x | None => Exn EKeyError end
        | Some (OList vs), VInt z =>
            if (z <? 0)%Z then Stuck else match nth_error vs (Z.to_nat z) with Some x => Got x | None => Exn EIndexError end
        | Some (OList _), _ => let! _ := some (text_of i) in Exn te
        | _, _ => Stuck
        end
    | VNone | VBool _ | VInt _ | VStr _ | VElem _ | VTok _ | VTup _ => let! _ := some (text_of i) in Exn te
    | _ => Stuck
    end.
  (** v[i] = x *)
  Definition store (h : heap) (v i x : val) : out heap :=
    match v with
    | VRef l =>
        match get h l with
        | Some (ODict d) => let! k := some (text_of i) in Got (set h l (ODict (aset k x d)))
        | Some (OList _) => let! _ := some (text_of i) in Exn te
        | _ => Stuck
        end
    | VNone | VBool _ | VInt _ | VStr _ | VElem _ | VTok _ | VTup _ => let! _ := some (text_of i) in Exn te
    | _ => Stuck
    end.
  (** v.x *)
  Definition attr (h : heap) (v : val) (x : string) : out val :=
    match v with
    | VTok t => match x with "type" => Got (VStr (ttype t)) | "value" => Got (VStr (tval t)) | _ => Stuck end
    | VMeta m =>
        match x, m with
        | "line", Some (a, _) => Got (VInt (Z.of_N a))
        | "end_line", Some (_, b) => Got (VInt (Z.of_N b))
        | "line", None | "end_line", None => Exn EAttributeError
        | _, _ => Stuck
        end
    | VRef l =>
        match get h l with
        | Some (OInst _ attrs) => some (assoc x attrs)
        | Some (OList _) | Some (ODict _) => match x with "type" | "value" => Exn EAttributeError | _ => Stuck end
        | _ => Stuck
        end
    | VNone | VBool _ | VInt _ | VStr _ | VElem _ | VTup _ => match x with "type" | "value" => Exn EAttributeError | _ => Stuck end
    | _ => Stuck
    end.
  Definition times (h : heap) (v : val) (n : Z) : out (val * heap) :=
    let rep {A} (l : list A) := List.concat (repeat l (Z.to_nat n)) in
    match v with
    | VInt z => Got (VInt (z * n), h)
    | VBool b => Got (VInt (if b then n else 0), h)
    | VStr s | VElem s => Got (VStr (rep s), h)
    | VTok t => Got (VStr (rep (tval t)), h)
    | VTup l => Got (VTup (rep l), h)
    | VNone => Exn te
    | VRef l =>
        match get h l with
        | Some (OList vs) => Got (VRef (next h), push h (OList (rep vs)))
        | Some (ODict _) => Exn te
        | _ => Stuck
        end
    | _ => Stuck
    end.
  Definition binary_op (o : string) (a b : val) (h : heap) : out (val * heap) :=
    match o with
    | "+" => match a, b with VInt x, VInt y => Got (VInt (x + y), h) | _, _ => Stuck end
    | "-" => match a, b with VInt x, VInt y => Got (VInt (x - y), h) | _, _ => Stuck end
    | "%" => match a, b with VInt x, VInt y => if (y =? 0)%Z then Stuck else Got (VInt (x mod y), h) | _, _ => Stuck end
    | "*" => match b with VInt n => times h a n | _ => Stuck end
    | "/" => match a, b with VDir, VStr name => Got (VFile name, h) | _, _ => Stuck end
    | _ => Stuck
    end.
  Fixpoint member (v : val) (l : list val) : option bool :=
    match l with
    | [] => Some false
    | w :: r => match equal v w with Some true => Some true | Some false => member v r | None => None end
    end.
  Definition contains (h : heap) (v c : val) : option bool :=
    match c with
    | VTup l => member v l
    | VRef l =>
        match get h l with
        | Some (OList vs) => member v vs
        | Some (ODict d) => do k <- text_of v; Some (match aget k d with Some _ => true | None => false end)
        | _ => None
        end
    | _ => None
    end.
  Definition compare (o : string) (a b : val) (h : heap) : option bool :=
    match o with
    | "==" => equal a b
    | "!=" => option_map negb (equal a b)
    | ">=" => match a, b with VInt x, VInt y => Some (Z.leb y x) | _, _ => None end
    | "in" => contains h a b
    | "not in" => option_map negb (contains h a b)
    | _ => None
    end.
  Definition pairs (l : list val) : option (list (str * val)) :=
    all (map (fun v => match v with VTup [k; x] => do s <- text_of k; Some (s, x) | _ => None end) l).
  Definition instance_of (h : heap) (v : val) (c : string) : option bool :=
    match c with
    | "Token" => match v with
                 | VTok _ => Some true
                 | VNone | VBool _ | VInt _ | VStr _ | VElem _ | VTup _ => Some false
                 | VRef l => match get h l with Some (OList _) | Some (ODict _) => Some false | _ => None end
                 | _ => None
                 end
    | "dict" => match v with
                | VNone | VBool _ | VInt _ | VStr _ | VElem _ | VTok _ | VTup _ => Some false
                | VRef l => match get h l with Some (OList _) => Some false | Some (ODict _) => Some true | _ => None end
                | _ => None
                end
    | _ => None
    end.
  Definition to_int (h : heap) (v : val) : out Z :=
    match v with
    | VInt z => Got z
    | VBool b => Got (if b then 1 else 0)%Z
    | VStr s | VElem s => lift (int_of_str E s)
    | VTok t => lift (int_of_str E (tval t))
    | VNone | VTup _ => Exn te
    | VRef l => match get h l with Some (OList _) | Some (ODict _) => Exn te | _ => Stuck end
    | _ => Stuck
    end.
  Definition class_fn (it : cls_item) (c : N) : bool :=
    match it with CWord => Transformer.re_word E c | CDigit => Transformer.re_digit E c | CChar x => N.eqb c x end.
  Definition piece_of (p : rpiece) : Transformer.piece :=
    match p with RLit s => Transformer.Lit (map code s) | RPlus _ items => Transformer.Plus (fun c => existsb (fun it => class_fn it c) items) end.
  Definition group_names (ps : list rpiece) : list string := flat_map (fun p => match p with RPlus x _ => [x] | RLit _ => [] end) ps.
  (** re.match of the pattern [pat] *)
  Definition regex_match (pat s : str) : out val :=
    let l := map ascii_of_N pat in
    let! ps := some (rx_parse (S (List.length l)) l) in
    Got (match Transformer.re_match (map piece_of ps) s with
         | Some gs => VMatch (combine (group_names ps) gs)
         | None => VNone
         end).
  Definition builtin_names : list string :=
    ["str"; "int"; "bool"; "len"; "list"; "dict"; "iter"; "enumerate"; "zip"; "isinstance"; "cast"; "Token"; "super"; "files"; "Lark"; "BicepElement"; "__package__"].
  (** The text of bicep.lark, as [(files(__package__) / "bicep.lark").read_text()] reads it. *)
  Variable grammar_file : str.
  Definition is_str (s : string) (v : option val) : bool := match v with Some (VStr t) => str_eqb t (u s) | _ => false end.
  Definition is_true (v : option val) : bool := match v with Some (VBool b) => b | _ => false end.
  Definition builtin (f : string) (pos : list val) (kw : list (string * val)) (h : heap) : out (val * heap) :=
    match f, pos with
    | "str", [v] => let! s := some (str_of h v) in Got (VStr s, h)
    | "int", [v] => let! z := to_int h v in Got (VInt z, h)
    | "bool", [v] => let! b := some (truth h v) in Got (VBool b, h)
    | "len", [v] => let! l := items h v in Got (VInt (Z.of_nat (List.length l)), h)
    | "list", [v] => let! l := items h v in Got (VRef (next h), push h (OList l))
    | "dict", [v] => let! l := items h v in let! ps := some (pairs l) in Got (VRef (next h), push h (ODict (dict_of ps)))
    | "iter", [v] => let! l := items h v in Got (VRef (next h), push h (OIter l))
    | "enumerate", [v] =>
        let! l := items h v in
        match kw with
        | [] => Got (VSeq (enum 0 l), h)
        | [("start", VInt z)] => Got (VSeq (enum z l), h)
        | _ => Stuck
        end
    | "zip", its =>
        match kw with
        | [("strict", VBool true)] =>
            let fuel := S (fold_right (fun v n => match v with VRef l => match get h l with Some (OIter vs) => List.length vs + n | _ => n end | _ => n end) 0 its) in
            let! (l, h1) := zip_strict fuel its h in Got (VSeq l, h1)
        | _ => Stuck
        end
    | "isinstance", [v; VFun c] => let! b := some (instance_of h v c) in Got (VBool b, h)
    | "cast", [_; v] => Got (v, h)
    | "BicepElement", [v] => let! s := some (str_of h v) in Got (VElem s, h)
    | "itertools.chain", l =>
        let! ls := (fix go (l : list val) : out (list (list val)) :=
                      match l with [] => Got [] | v :: r => let! x := items h v in let! xs := go r in Got (x :: xs) end) l in
        Got (VSeq (List.concat ls), h)
    | "re.compile", [VStr s] => Got (VPat s, h)
    | "re.match", [VPat p; VStr s] => let! v := regex_match p s in Got (v, h)
    | "super", [] => Got (VSuper, h)
    | "files", [VFun "__package__"] => Got (VDir, h)
    | "Lark", [] =>
        match assoc "grammar" kw with
        | Some (VStr g) =>
            if is_str "lalr" (assoc "parser" kw) && is_true (assoc "propagate_positions" kw) && is_true (assoc "regex" kw) then Got (VLark g, h) else Stuck
        | _ => Stuck
        end
    | _, _ => Stuck
    end.

  (** Path.read_text, and what lark.Lark built from a grammar makes of a text. *)
  Variable read_text : path -> result str.
  Variable lark_of : str -> str -> result ptree.
  Definition no_such_attribute (h : heap) (v : val) : bool :=
    match v with
    | VNone | VBool _ | VInt _ | VStr _ | VElem _ | VTok _ | VTup _ => true
    | VRef l => match get h l with Some (OList _) | Some (ODict _) => true | _ => false end
    | _ => false
    end.
  Definition str_method (s : str) (m : string) (pos : list val) (h : heap) : out (val * heap) :=
    match m, pos with
    | "removeprefix", [VStr p] => Got (VStr (remove_prefix p s), h)
    | "removesuffix", [VStr p] => Got (VStr (remove_suffix p s), h)
    | "startswith", [VStr p] => Got (VBool (starts_with p s), h)
    | "split", [VStr [c]] => Got (VRef (next h), push h (OList (map VStr (split_char c s))))
    | "count", [VStr p] => Got (VInt (Z.of_N (count p s)), h)
    | "join", [VRef l] =>
        match get h l with
        | Some (OList vs) => let! ts := some (all (map text_of vs)) in Got (VStr (join s ts), h)
        | _ => Stuck
        end
    | _, _ => Stuck
    end.
  (** v.m(...) for a value [v] that is no instance of a pycep class. *)
  Definition method (v : val) (m : string) (pos : list val) (h : heap) : out (val * heap) :=
    match m with
    | "get" =>
        match v, pos with
        | VRef l, k :: dflt =>
            match get h l with
            | Some (ODict d) =>
                let! k' := some (text_of k) in
                Got (match aget k' d with Some x => x | None => match dflt with x :: _ => x | [] => VNone end end, h)
            | _ => if no_such_attribute h v then Exn EAttributeError else Stuck
            end
        | _, _ => if no_such_attribute h v then Exn EAttributeError else Stuck
        end
    | "items" =>
        match v with
        | VRef l =>
            match get h l with
            | Some (ODict d) => Got (VSeq (map (fun kv => VTup [VStr (fst kv); snd kv]) d), h)
            | _ => if no_such_attribute h v then Exn EAttributeError else Stuck
            end
        | _ => if no_such_attribute h v then Exn EAttributeError else Stuck
        end
    | "setdefault" =>
        match v, pos with
        | VRef l, [k; x] =>
            match get h l with
            | Some (ODict d) =>
                let! k' := some (text_of k) in
                match aget k' d with Some y => Got (y, h) | None => Got (x, set h l (ODict (aset k' x d))) end
            | _ => if no_such_attribute h v then Exn EAttributeError else Stuck
            end
        | _, _ => if no_such_attribute h v then Exn EAttributeError else Stuck
        end
    | "pop" =>
        match v, pos with
        | VRef l, [k] =>
            match get h l with
            | Some (ODict d) =>
                let! k' := some (text_of k) in
                match aget k' d with Some y => Got (y, set h l (ODict (adel k' d))) | None => Exn EKeyError end
            | _ => Stuck
            end
        | _, _ => Stuck
        end
    | "append" =>
        match v, pos with
        | VRef l, [x] =>
            match get h l with
            | Some (OList vs) => Got (VNone, set h l (OList (vs ++ [x])))
            | Some (ODict _) => Exn EAttributeError
            | _ => Stuck
            end
        | _, _ => if no_such_attribute h v then Exn EAttributeError else Stuck
        end
    | "group" =>
        match v, pos with
        | VMatch gs, [VStr x] => let! s := some (assoc (to_string (map ascii_of_N x)) gs) in Got (VStr s, h)
        | _, _ => Stuck
        end
    | "__init__" => match v, pos with VSuper, [] => Got (VNone, h) | _, _ => Stuck end
    | "read_text" =>
        match v, pos with
        | VPath p, [] => let! s := lift (read_text p) in Got (VStr s, h)
        | VFile name, [] => if str_eqb name (u "bicep.lark") then Got (VStr grammar_file, h) else Stuck
        | _, _ => Stuck
        end
    | "parse" => match v, pos with VLark g, [VStr s] => let! t := lift (lark_of g s) in Got (VTree t, h) | _, _ => Stuck end
    | "pretty" => match v, pos with VTree t, [] => Got (VStr (pretty t), h) | _, _ => Stuck end
    | _ => match v with VStr s => str_method s m pos h | _ => Stuck end
    end.

  (** ** Expressions and statements *)
  Variable program : list (string * entry).
  (** Calling a function or class of the program by name. *)
  Variable callf : string -> list val -> list (string * val) -> heap -> out (val * heap).

  Definition global (x : string) (h : heap) : out (val * heap) :=
    match x with
    | "None" => Got (VNone, h) | "True" => Got (VBool true, h) | "False" => Got (VBool false, h)
    | _ =>
        match entry_of program x with
        | Some (Constant _) => callf x [] [] h
        | Some _ => Got (VFun x, h)
        | None => if existsb (String.eqb x) builtin_names then Got (VFun x, h) else Stuck
        end
    end.
  (** Names of modules and of classes used for their static methods. *)
  Definition namespaces : list string := ["re"; "itertools"; "BicepValidator"].
  Definition name_of (e : expr) : string := match e with EName x => x | _ => "" end.
  Definition call_value (f : val) (pos : list val) (kw : list (string * val)) (h : heap) : out (val * heap) :=
    match f with
    | VFun "BicepElement" => builtin "BicepElement" pos kw h
    | VFun x => match entry_of program x with Some _ => callf x pos kw h | None => builtin x pos kw h end
    | _ => Stuck
    end.

  (** lark.visitors.Transformer.transform: children first, left to right; the method named
      like the tree is called with the list of results (and the tree's Meta, if it is
      decorated with v_args(meta=True)); its exceptions are wrapped in VisitError. *)
  Definition wrapped {A} (l : label) (o : out A) : out A :=
    match o with Exn e => Exn (EVisitError (label_name l) e) | _ => o end.
  Definition method_name (cls : string) (l : label) : string := cls ++ "." ++ to_string (map ascii_of_N (label_name l)).
  Definition userfunc (cls : string) (self : val) (l : label) (m : meta) (vs : list val) (h : heap) : out (val * heap) :=
    let f := method_name cls l in
    let args := VRef (next h) in
    let h' := push h (OList vs) in
    match entry_of program f with
    | Some (Function true _ _) => wrapped l (callf f [self; VMeta m; args] [] h')
    | Some (Function false _ _) => wrapped l (callf f [self; args] [] h')
    | _ => Stuck
    end.
  Fixpoint drive (cls : string) (self : val) (t : ptree) (h : heap) : out (val * heap) :=
    match t with
    | TTok k => Got (VTok k, h)
    | TNone => Got (VNone, h)
    | TNode l m cs =>
        let! (vs, h1) :=
          (fix go (cs : list ptree) (h : heap) : out (list val * heap) :=
             match cs with
             | [] => Got ([], h)
             | c :: cs' => let! (v, h1) := drive cls self c h in let! (vs, h2) := go cs' h1 in Got (v :: vs, h2)
             end) cs h in
        userfunc cls self l m vs h1
    end.
  Definition call_method (v : val) (m : string) (pos : list val) (kw : list (string * val)) (h : heap) : out (val * heap) :=
    match v with
    | VRef l =>
        match get h l with
        | Some (OInst cls _) =>
            match m, pos with
            | "transform", [VTree t] => drive cls v t h
            | _, _ => callf (cls ++ "." ++ m) (v :: pos) kw h
            end
        | _ => method v m pos h
        end
    | _ => method v m pos h
    end.

  Section Lists.
    Variable ev : expr -> state -> out (val * state).
    Fixpoint evals (l : list expr) (s : state) : out (list val * state) :=
      match l with
      | [] => Got ([], s)
      | e :: r => let! (v, s1) := ev e s in let! (vs, s2) := evals r s1 in Got (v :: vs, s2)
      end.
    Fixpoint eval_fmt (l : list (string + expr)) (s : state) : out (str * state) :=
      match l with
      | [] => Got ([], s)
      | inl t :: r => let! (x, s1) := eval_fmt r s in Got ((u t ++ x)%list, s1)
      | inr e :: r =>
          let! (v, s1) := ev e s in let! t := some (str_of (snd s1) v) in
          let! (x, s2) := eval_fmt r s1 in Got ((t ++ x)%list, s2)
      end.
    Fixpoint eval_dict (l : list (option expr * expr)) (d : list (str * val)) (s : state) : out (list (str * val) * state) :=
      match l with
      | [] => Got (d, s)
      | (Some k, e) :: r =>
          let! (kv, s1) := ev k s in let! k' := some (text_of kv) in
          let! (v, s2) := ev e s1 in eval_dict r (aset k' v d) s2
      | (None, e) :: r =>
          let! (v, s1) := ev e s in
          match v with
          | VRef l' => match get (snd s1) l' with
                       | Some (ODict d') => eval_dict r (merge d d') s1
                       | _ => Stuck
                       end
          | _ => Stuck
          end
      end.
    Definition bind_target (t : expr) (v : val) (s : state) : out state :=
      match t with
      | EName x => Got ((x, v) :: fst s, snd s)
      | ETup ts => let! l := items (snd s) v in unpack ts l s
      | ESub e i =>
          let! (o, s1) := ev e s in let! (k, s2) := ev i s1 in
          let! h := store (snd s2) o k v in Got (fst s2, h)
      | EAttr e x =>
          let! (o, s1) := ev e s in
          match o with
          | VRef l => match get (snd s1) l with
                      | Some (OInst c attrs) => Got (fst s1, set (snd s1) l (OInst c (assoc_set x v attrs)))
                      | _ => Stuck
                      end
          | _ => Stuck
          end
      | _ => Stuck
      end.
    Definition eval_opt (o : option expr) (s : state) : out (option val * state) :=
      match o with None => Got (None, s) | Some e => let! (v, s1) := ev e s in Got (Some v, s1) end.
    Definition bound (v : option val) : out (option Z) :=
      match v with None => Got None | Some (VInt z) => Got (Some z) | _ => Stuck end.
  End Lists.

  Fixpoint eval (e : expr) (s : state) {struct e} : out (val * state) :=
    match e with
    | EName x =>
        match assoc x (fst s) with
        | Some v => Got (v, s)
        | None => let! (v, h) := global x (snd s) in Got (v, (fst s, h))
        end
    | ENum n => Got (VInt (Z.of_N n), s)
    | EStr t => Got (VStr (u t), s)
    | EEllipsis => Stuck
    | EFmt l => let! (t, s1) := eval_fmt eval l s in Got (VStr t, s1)
    | EAttr a x => let! (v, s1) := eval a s in let! w := attr (snd s1) v x in Got (w, s1)
    | ESub a i => let! (v, s1) := eval a s in let! (k, s2) := eval i s1 in let! w := subscript (snd s2) v k in Got (w, s2)
    | ESlice a lo hi =>
        let! (v, s1) := eval a s in
        let! (x, s2) := eval_opt eval lo s1 in let! (y, s3) := eval_opt eval hi s2 in
        let! lo' := bound x in let! hi' := bound y in
        match v with
        | VStr t => Got (VStr (slice t lo' hi'), s3)
        | VRef l => match get (snd s3) l with
                    | Some (OList vs) => Got (VRef (next (snd s3)), (fst s3, push (snd s3) (OList (slice vs lo' hi'))))
                    | _ => Stuck
                    end
        | _ => Stuck
        end
    | ECall f args =>
        let pass :=
          (fix pass (l : list arg) (s : state) : out (list val * list (string * val) * state) :=
             match l with
             | [] => Got ([], [], s)
             | a :: r =>
                 match a with
                 | APos e => let! (v, s1) := eval e s in let! (vs, kw, s2) := pass r s1 in Got (v :: vs, kw, s2)
                 | AStar e => let! (v, s1) := eval e s in let! l := items (snd s1) v in
                              let! (vs, kw, s2) := pass r s1 in Got ((l ++ vs)%list, kw, s2)
                 | AKw x e => let! (v, s1) := eval e s in let! (vs, kw, s2) := pass r s1 in Got (vs, (x, v) :: kw, s2)
                 end
             end) in
        match f with
        | EAttr o m =>
            if existsb (String.eqb (name_of o)) namespaces then
              let! (vs, kw, s1) := pass args s in
              let! (v, h) := call_value (VFun (name_of o ++ "." ++ m)) vs kw (snd s1) in Got (v, (fst s1, h))
            else
              let! (v, s1) := eval o s in let! (vs, kw, s2) := pass args s1 in
              let! (w, h) := call_method v m vs kw (snd s2) in Got (w, (fst s2, h))
        | _ =>
            let! (v, s1) := eval f s in let! (vs, kw, s2) := pass args s1 in
            let! (w, h) := call_value v vs kw (snd s2) in Got (w, (fst s2, h))
        end
    | EDict l => let! (d, s1) := eval_dict eval l [] s in Got (VRef (next (snd s1)), (fst s1, push (snd s1) (ODict d)))
    | EList l | ESet l => let! (vs, s1) := evals eval l s in Got (VRef (next (snd s1)), (fst s1, push (snd s1) (OList vs)))
    | ETup l => let! (vs, s1) := evals eval l s in Got (VTup vs, s1)
    | EStar _ => Stuck
    | EBin o a b =>
        let! (x, s1) := eval a s in let! (y, s2) := eval b s1 in
        let! (v, h) := binary_op o x y (snd s2) in Got (v, (fst s2, h))
    | ECmp o a b =>
        let! (x, s1) := eval a s in let! (y, s2) := eval b s1 in
        let! r := some (compare o x y (snd s2)) in Got (VBool r, s2)
    | ENot a => let! (v, s1) := eval a s in let! b := some (truth (snd s1) v) in Got (VBool (negb b), s1)
    | ENeg a => let! (v, s1) := eval a s in match v with VInt z => Got (VInt (- z), s1) | _ => Stuck end
    | EAnd a b => let! (v, s1) := eval a s in let! t := some (truth (snd s1) v) in if t then eval b s1 else Got (v, s1)
    | EOr a b => let! (v, s1) := eval a s in let! t := some (truth (snd s1) v) in if t then Got (v, s1) else eval b s1
    | ECond c a b => let! (v, s1) := eval c s in let! t := some (truth (snd s1) v) in if t then eval a s1 else eval b s1
    | EWalrus x a => let! (v, s1) := eval a s in Got (v, ((x, v) :: fst s1, snd s1))
    | EListComp elt t i c =>
        let! (v, s1) := eval i s in let! l := items (snd s1) v in
        let! (vs, s2) :=
          comp_list (fun x s => let! sa := bind_target eval t x s in
                                let! (w, sb) := eval_opt eval c sa in
                                let! ok := (match w with None => Got true | Some w => some (truth (snd sb) w) end) in
                                if ok then let! (r, sc) := eval elt sb in Got (Some r, sc) else Got (None, sb)) l s1 in
        Got (VRef (next (snd s2)), (fst s1, push (snd s2) (OList vs)))
    | EDictComp k e t i c =>
        let! (v, s1) := eval i s in let! l := items (snd s1) v in
        let! (d, s2) :=
          comp_dict (fun x s => let! sa := bind_target eval t x s in
                                let! (w, sb) := eval_opt eval c sa in
                                let! ok := (match w with None => Got true | Some w => some (truth (snd sb) w) end) in
                                if ok then let! (kv, sc) := eval k sb in let! k' := some (text_of kv) in
                                           let! (r, sd) := eval e sc in Got (Some (k', r), sd)
                                else Got (None, sb)) l [] s1 in
        Got (VRef (next (snd s2)), (fst s1, push (snd s2) (ODict d)))
    end.

  Section Blocks.
    Variable ex : stmt -> state -> out (flow * state).
    Fixpoint block (l : list stmt) (s : state) : out (flow * state) :=
      match l with
      | [] => Got (Next, s)
      | c :: r => let! (w, s1) := ex c s in match w with Next => block r s1 | _ => Got (w, s1) end
      end.
  End Blocks.
  Fixpoint exec (c : stmt) (s : state) {struct c} : out (flow * state) :=
    match c with
    | SExpr e => let! (_, s1) := eval e s in Got (Next, s1)
    | SAssign t e => let! (v, s1) := eval e s in let! s2 := bind_target eval t v s1 in Got (Next, s2)
    | SIf e a b =>
        let! (v, s1) := eval e s in let! t := some (truth (snd s1) v) in
        if t then block exec a s1 else block exec b s1
    | SFor t e b =>
        let! (v, s1) := eval e s in let! l := items (snd s1) v in
        for_loop (fun x s => let! sa := bind_target eval t x s in block exec b sa) l s1
    | SReturn e => let! (v, s1) := eval e s in Got (Ret v, s1)
    | SRaise (ECall (EName x) [APos e]) =>
        let! (v, s1) := eval e s in
        match v, x with
        | VStr t, "ValueError" => Exn (EValueError t)
        | VStr t, "TypeError" => Exn (ETypeError t)
        | _, _ => Stuck
        end
    | SRaise _ => Stuck
    | SContinue => Got (Cont, s)
    | SPass => Got (Next, s)
    | SImport | SDef _ _ _ _ | SClass _ _ _ => Stuck
    end.

  (** Parameters: positional arguments first, then keywords, then defaults. *)
  Fixpoint bind_params (ps : list (string * option expr)) (pos : list val) (kw : list (string * val)) (h : heap) : out (locals * heap) :=
    match ps with
    | [] => match pos with [] => Got ([], h) | _ => Stuck end
    | (x, d) :: r =>
        match pos with
        | v :: pos' => let! (env, h1) := bind_params r pos' kw h in Got ((x, v) :: env, h1)
        | [] =>
            match assoc x kw, d with
            | Some v, _ => let! (env, h1) := bind_params r [] kw h in Got ((x, v) :: env, h1)
            | None, Some e => let! (v, s1) := eval e ([], h) in let! (env, h1) := bind_params r [] kw (snd s1) in Got ((x, v) :: env, h1)
            | None, None => Stuck
            end
        end
    end.
  Definition run_body (ps : list (string * option expr)) (body : list stmt) (pos : list val) (kw : list (string * val)) (h : heap) : out (val * heap) :=
    let! (env, h1) := bind_params ps pos kw h in
    let! (w, s) := block exec body (env, h1) in
    match w with Ret v => Got (v, snd s) | Next => Got (VNone, snd s) | Cont => Stuck end.
  Definition run_entry (f : string) (e : entry) (pos : list val) (kw : list (string * val)) (h : heap) : out (val * heap) :=
    match e with
    | Constant x => let! (v, s) := eval x ([], h) in Got (v, snd s)
    | Function _ ps body => run_body ps body pos kw h
    | Class =>
        let self := VRef (next h) in
        let! (_, h1) := callf (f ++ ".__init__") (self :: pos) kw (push h (OInst f [])) in Got (self, h1)
    end.
End Builtins.

(** Calls nested at most [n] deep. *)
Fixpoint call (E : pyenv) (grammar_file : str) (read_text : path -> result str) (lark_of : str -> str -> result ptree)
  (program : list (string * entry)) (n : nat) (f : string) (pos : list val) (kw : list (string * val)) (h : heap) : out (val * heap) :=
  match n with
  | O => Stuck
  | S k =>
      match entry_of program f with
      | Some e => run_entry E grammar_file read_text lark_of program (call E grammar_file read_text lark_of program k) f e pos kw h
      | None => Stuck
      end
  end.
