(** Specification: Bicep programs as abstract syntax, and the tokens they are
    written with (C17, C26, C36, C37).  Nothing here refers to Lark or to the
    grammar of pycep.  Line breaks are part of the syntax; blanks and the comments
    that are skipped are not (see Spec/Spelling.v). *)
From Coq Require Import List Arith NArith Bool String.
From Verif Require Import Py.Str Py.Val Spec.Types Spec.Spelling.
Import ListNotations.
Local Open Scope string_scope.

(** ** Expressions *)
Inductive binop := Ge | Gt | Le | Lt | Eq | Ne | EqI | NeI | And | Or | Coalesce | Add | Div | Mod | Mul | Sub.
Definition op_sign (o : binop) : string :=
  match o with
  | Ge => ">=" | Gt => ">" | Le => "<=" | Lt => "<" | Eq => "==" | Ne => "!=" | EqI => "=~" | NeI => "!~"
  | And => "&&" | Or => "||" | Coalesce => "??" | Add => "+" | Div => "/" | Mod => "%" | Mul => "*" | Sub => "-"
  end.
Inductive key := KName (v : str) | KQuoted (c : str) | KResource.
Inductive ranges := OverItems (x : str) | OverIndexed (x i : str) | OverEntries (x : str).

Inductive expr :=
| ENull
| EBool (b : bool)
| EInt (v : str)
| ERef (v : str)
| EStr (c : str)
| EMulti (c : str)
| ENext (br : str) (e : expr)                       (* on a line of its own *)
| EArray (lead : list str) (rows : list (expr * list expr * list str))
| EObject (lead : list str) (rows : list (item * list str))
| ECall (f : str) (lead : option str) (first : option expr) (more : list (option str * expr)) (trail : option str)
| EBin (o : binop) (a b : expr)
| ENot (a : expr)
| EMinus (a : expr)
| ECond (c a b : expr)
| EDot (safe : bool) (a b : expr)
| EIndex (safe : bool) (a i : expr)
| ENested (a b : expr)
| EMethod (a : expr) (f : str) (first : option expr) (more : list expr)
| ELambda (x b : expr)
| ELambdas (x y : expr) (more : list expr) (b : expr)
| EParen (a : expr)
| EBang (a : expr)
| ELoop (lead : option str) (r : ranges) (over : expr) (cond : option expr) (body : expr) (trail : option str)
| EIf (lead : option str) (c : expr) (body : expr)
with item :=
| Pairs (k : key) (v : expr) (q : bool) (more : list (key * expr * bool))
| Child (n ty : str) (existing : bool) (body : expr).

(** ** Their tokens *)
Definition opt {A B} (f : A -> list B) (o : option A) : list B := match o with Some a => f a | None => [] end.
Definition breaks (l : list str) : list tokn := map Break l.
Definition break (o : option str) : list tokn := opt (fun b => [Break b]) o.
Definition mark (b : bool) (s : string) : list tokn := if b then [Sym s] else [].
Definition key_token (k : key) : tokn := match k with KName v => Key v | KQuoted c => Quoted c | KResource => Kw "resource" end.
Definition range_tokens (r : ranges) (over : list tokn) : list tokn :=
  match r with
  | OverItems x => Name x :: Kw "in" :: over
  | OverIndexed x i => [Sym "("; Name x; Sym ","; Name i; Sym ")"; Kw "in"] ++ over
  | OverEntries x => [Name x; Kw "in"; Kw "items"; Sym "("] ++ over ++ [Sym ")"]
  end%list.

Fixpoint tokens (e : expr) : list tokn :=
  match e with
  | ENull => [Kw "null"]
  | EBool b => [Kw (if b then "true" else "false")]
  | EInt v => [Num v]
  | ERef v => [Ref v]
  | EStr c => [Quoted c]
  | EMulti c => [Multi c]
  | ENext br a => Nl br :: tokens a
  | EArray lead rows =>
      [Sym "["] ++ breaks lead ++
      flat_map (fun r => let '(x, xs, brs) := r in tokens x ++ flat_map (fun y => Sym "," :: tokens y) xs ++ breaks brs) rows ++ [Sym "]"]
  | EObject lead rows =>
      [Sym "{"] ++ breaks lead ++ flat_map (fun r => item_tokens (fst r) ++ breaks (snd r)) rows ++ [Sym "}"]
  | ECall f lead first more trail =>
      [Fun f] ++ break lead ++ match first with Some x => tokens x | None => [] end ++
      flat_map (fun a => [Sym ","] ++ break (fst a) ++ tokens (snd a)) more ++ break trail ++ [Sym ")"]
  | EBin o a b => tokens a ++ [Sym (op_sign o)] ++ tokens b
  | ENot a => Sym "!" :: tokens a
  | EMinus a => Sym "-" :: tokens a
  | ECond c a b => tokens c ++ [Sym "?"] ++ tokens a ++ [Sym ":"] ++ tokens b
  | EDot safe a b => tokens a ++ [Sym "."] ++ mark safe "?" ++ tokens b
  | EIndex safe a i => tokens a ++ [Sym "["] ++ mark safe "?" ++ tokens i ++ [Sym "]"]
  | ENested a b => tokens a ++ [Sym "::"] ++ tokens b
  | EMethod a f first more =>
      tokens a ++ [Sym "."; ListFun f; Sym "("] ++ match first with Some x => tokens x | None => [] end ++
      flat_map (fun y => Sym "," :: tokens y) more ++ [Sym ")"]
  | ELambda x b => tokens x ++ [Sym "=>"] ++ tokens b
  | ELambdas x y more b =>
      [Sym "("] ++ tokens x ++ [Sym ","] ++ tokens y ++ flat_map (fun z => Sym "," :: tokens z) more ++ [Sym ")"; Sym "=>"] ++ tokens b
  | EParen a => [Sym "("] ++ tokens a ++ [Sym ")"]
  | EBang a => tokens a ++ [Sym "!"]
  | ELoop lead r over cond body trail =>
      [Sym "["] ++ break lead ++ [Kw "for"] ++ range_tokens r (tokens over) ++ [Sym ":"] ++
      match cond with Some c => tokens c | None => [] end ++ tokens body ++ break trail ++ [Sym "]"]
  | EIf lead c body => break lead ++ [Kw "if"; Sym "("] ++ tokens c ++ [Sym ")"] ++ tokens body
  end%list
with item_tokens (i : item) : list tokn :=
  match i with
  | Pairs k v q more =>
      [key_token k; Sym ":"] ++ tokens v ++ mark q "?" ++
      flat_map (fun p => let '(k, v, q) := p in [Sym ","; key_token k; Sym ":"] ++ tokens v ++ mark q "?") more
  | Child n ty existing body =>
      [Kw "resource"; Name n; Quoted ty] ++ (if existing then [Kw "existing"] else []) ++ [Sym "="] ++ tokens body
  end%list.

(** ** Where a reader needs no parentheses *)
(** What an expression begins with: something that cannot continue the value in
    front of it, something that can, a line break, or a word. *)
Inductive beginning := Apart | Joining | OnNextLine | Word.
Fixpoint begins (e : expr) : beginning :=
  match e with
  | ENull | EBool _ | ERef _ => Word
  | ENext _ _ => OnNextLine
  | EArray _ _ | ENot _ | EMinus _ => Joining
  | EBin _ a _ | ECond a _ _ | EDot _ a _ | EIndex _ a _ | ENested a _ | EMethod a _ _ _ | ELambda a _ | EBang a => begins a
  | _ => Apart
  end.
(** It ends with an operand: whatever operator follows belongs to that operand. *)
Definition open (e : expr) : bool :=
  match e with
  | EBin _ _ _ | ENot _ | EMinus _ | ECond _ _ _ | EDot _ _ _ | ENested _ _ | ELambda _ _ | ELambdas _ _ _ _ => true
  | _ => false
  end.
Definition same_line (e : expr) : bool := match begins e with OnNextLine => false | _ => true end.
Definition apart (e : expr) : bool := match begins e with Apart => true | _ => false end.
(** Loops and conditions are no operands. *)
Definition ordinary (e : expr) : bool := match e with ELoop _ _ _ _ _ _ | EIf _ _ _ => false | _ => true end.
Definition is_loop (e : expr) : bool := match e with ELoop _ _ _ _ _ _ => true | _ => false end.
Definition is_body (e : expr) : bool := match e with EObject _ _ | ELoop _ _ _ _ _ _ | EIf _ _ _ => true | _ => false end.
Definition is_paren (e : expr) : bool := match e with EParen _ => true | _ => false end.
Definition bare (e : expr) : bool := match e with EParen _ | EBang _ => false | _ => true end.
(** May stand on a line of its own. *)
Definition lone (e : expr) : bool :=
  match e with ENull | EBool _ | EInt _ | ERef _ | EStr _ | ECall _ _ _ _ _ => true | _ => false end.
Definition some {A} (l : list A) : bool := match l with [] => false | _ => true end.
Definition given {A} (o : option A) : bool := match o with Some _ => true | None => false end.
(** Rows of an array: the first element on the same line as what is in front of
    it; if the row in front of it has no line break, its first element must not
    continue the element in front of it. *)
Fixpoint rows_ok (broken : bool) (rows : list (expr * list expr * list str)) : bool :=
  match rows with
  | [] => true
  | (x, _, brs) :: rows' => (if broken then same_line x else apart x) && rows_ok (some brs) rows'
  end.
(** Rows of an object: only the last one may go without line break, and a child
    resource never does. *)
Fixpoint items_ok (rows : list (item * list str)) : bool :=
  match rows with
  | [] => true
  | (i, brs) :: rows' =>
      (some brs || (negb (some rows') && match i with Child _ _ _ _ => false | _ => true end)) && items_ok rows'
  end.
(** The value of a key; with a question mark behind it, no operand at its end. *)
Definition pair_ok (v : expr) (q : bool) : bool := (ordinary v || is_loop v) && (negb q || negb (open v)).

Fixpoint wf (e : expr) : bool :=
  match e with
  | ENull | EBool _ | EInt _ | ERef _ | EStr _ | EMulti _ => true
  | ENext _ a => lone a && wf a
  | EArray _ rows =>
      rows_ok true rows &&
      forallb (fun r => let '(x, xs, _) := r in ordinary x && wf x && forallb (fun y => ordinary y && wf y) xs) rows
  | EObject _ rows => items_ok rows && forallb (fun r => item_wf (fst r)) rows
  | ECall _ lead first more _ =>
      match first with Some x => ordinary x && same_line x && wf x | None => negb (given lead) && negb (some more) end &&
      forallb (fun a => ordinary (snd a) && same_line (snd a) && wf (snd a)) more
  | EBin _ a b | EDot _ a b | ENested a b | ELambda a b =>
      negb (open a) && ordinary a && ordinary b && wf a && wf b
  | ENot a | EMinus a => ordinary a && same_line a && wf a
  | ECond c a b => negb (open c) && same_line a && ordinary c && ordinary a && ordinary b && wf c && wf a && wf b
  | EIndex _ a i => negb (open a) && same_line i && ordinary a && ordinary i && wf a && wf i
  | EMethod a _ first more =>
      negb (open a) && ordinary a && wf a && match first with Some x => ordinary x && wf x | None => negb (some more) end &&
      forallb (fun y => ordinary y && wf y) more
  | ELambdas x y more b =>
      some more && ordinary x && ordinary y && ordinary b && wf x && wf y && wf b && forallb (fun y => ordinary y && wf y) more
  | EParen a => bare a && ordinary a && wf a
  | EBang a => (is_paren a || bare a && negb (open a)) && ordinary a && wf a
  | ELoop _ _ over cond body _ =>
      ordinary over && wf over && ordinary body && wf body &&
      match cond with Some c => ordinary c && wf c && apart body | None => true end
  | EIf _ c body => ordinary c && wf c && ordinary body && wf body
  end
with item_wf (i : item) : bool :=
  match i with
  | Pairs _ v q more => pair_ok v q && wf v && forallb (fun p => let '(_, v, q) := p in pair_ok v q && wf v) more
  | Child _ _ _ body => is_body body && wf body
  end.
(** An expression where a value is expected. *)
Definition value_ok (e : expr) : bool := ordinary e && wf e.

(** ** Types *)
Fixpoint type_tokens (t : ty) : list tokn :=
  match t with
  | Named n => [Name n]
  | ArrayOf t => type_tokens t ++ [Sym "["; Sym "]"]
  | Union ts =>
      [Sym "("] ++ match ts with [] => [] | t :: more => type_tokens t ++ flat_map (fun t => Sym "|" :: type_tokens t) more end ++ [Sym ")"]
  end%list.
Fixpoint type_wf (t : ty) : bool :=
  match t with
  | Named _ => true
  | ArrayOf t => type_wf t
  | Union ts => Nat.leb 2 (List.length ts) && forallb type_wf ts
  end.

(** ** Declarations *)
Record deco := { d_name : str; d_lead : option str; d_arg : option expr; d_trail : option str; d_after : list str }.
Inductive symbol := SName (v : str) (alias : option str) | SAll (alias : option str).
Inductive decl :=
| DScope (c : str)
| DNamespace (c : str)
| DImport (s : symbol) (from : str)
| DImports (s : symbol) (more : list symbol) (from : str)
| DExtension (n : str) (config : option expr) (alias : option str)
| DMetadata (n c : str)
| DParam (ds : list deco) (n : str) (t : ty) (q : bool) (default : option expr)
| DVar (ds : list deco) (n : str) (t : option (ty * bool)) (v : expr)
| DOutput (ds : list deco) (n : str) (t : ty) (q : bool) (v : expr)
| DResource (ds : list deco) (n ty : str) (existing : bool) (body : expr)
| DModule (ds : list deco) (n path : str) (body : expr)
| DType (ds : list deco) (n : str) (v : expr) (more : list expr)
| DFunc (ds : list deco) (n : str) (params : list (str * ty)) (t : ty) (b : expr).

Definition deco_tokens (d : deco) : list tokn :=
  ([Sym "@"; Deco (d_name d); Sym "("] ++ break (d_lead d) ++ opt tokens (d_arg d) ++
   break (d_trail d) ++ [Sym ")"] ++ breaks (d_after d))%list.
Definition alias_tokens (a : option str) : list tokn := opt (fun n => [Kw "as"; Name n]) a.
Definition symbol_tokens (s : symbol) : list tokn :=
  match s with SName v a => Name v :: alias_tokens a | SAll a => Star :: alias_tokens a end.
Definition param_tokens (p : str * ty) : list tokn := Name (fst p) :: type_tokens (snd p).
Definition decl_tokens (d : decl) : list tokn :=
  match d with
  | DScope c => [Kw "targetScope"; Sym "="; Quoted c]
  | DNamespace c => [Kw "import"; Quoted c]
  | DImport s c => [Kw "import"] ++ symbol_tokens s ++ [Kw "from"; Quoted c]
  | DImports s more c =>
      [Kw "import"; Sym "{"] ++ symbol_tokens s ++ flat_map (fun s => Sym "," :: symbol_tokens s) more ++ [Sym "}"; Kw "from"; Quoted c]
  | DExtension n config alias => [Kw "extension"; Name n] ++ opt (fun e => Kw "with" :: tokens e) config ++ alias_tokens alias
  | DMetadata n c => [Kw "metadata"; Name n; Sym "="; Quoted c]
  | DParam ds n t q e =>
      flat_map deco_tokens ds ++ [Kw "param"; Name n] ++ type_tokens t ++ mark q "?" ++ opt (fun e => Sym "=" :: tokens e) e
  | DVar ds n t e =>
      flat_map deco_tokens ds ++ [Kw "var"; Name n] ++ opt (fun a => type_tokens (fst a) ++ mark (snd a) "?") t ++ [Sym "="] ++ tokens e
  | DOutput ds n t q e =>
      flat_map deco_tokens ds ++ [Kw "output"; Name n] ++ type_tokens t ++ mark q "?" ++ [Sym "="] ++ tokens e
  | DResource ds n c existing e =>
      flat_map deco_tokens ds ++ [Kw "resource"; Name n; Quoted c] ++ (if existing then [Kw "existing"] else []) ++ [Sym "="] ++ tokens e
  | DModule ds n c e => flat_map deco_tokens ds ++ [Kw "module"; Name n; Quoted c; Sym "="] ++ tokens e
  | DType ds n e more =>
      flat_map deco_tokens ds ++ [Kw "type"; Name n; Sym "="] ++ tokens e ++ flat_map (fun e => Sym "|" :: tokens e) more
  | DFunc ds n params t e =>
      flat_map deco_tokens ds ++ [Kw "func"; Name n; Sym "("] ++
      match params with [] => [] | p :: more => param_tokens p ++ flat_map (fun p => Sym "," :: param_tokens p) more end ++
      [Sym ")"] ++ type_tokens t ++ [Sym "=>"] ++ tokens e
  end%list.

Definition deco_wf (d : deco) : bool :=
  match d_arg d with Some e => value_ok e && same_line e | None => negb (given (d_lead d)) end && Nat.leb (List.length (d_after d)) 10.
Definition decl_wf (d : decl) : bool :=
  match d with
  | DScope _ | DNamespace _ | DImport _ _ | DImports _ _ _ | DMetadata _ _ => true
  | DExtension _ config _ => match config with Some e => match e with EObject _ _ => wf e | _ => false end | None => true end
  | DParam ds _ t _ e => forallb deco_wf ds && type_wf t && match e with Some e => value_ok e | None => true end
  | DVar ds _ t e => forallb deco_wf ds && match t with Some (t, _) => type_wf t | None => true end && (ordinary e || is_loop e) && wf e
  | DOutput ds _ t _ e => forallb deco_wf ds && type_wf t && (ordinary e || is_loop e) && wf e
  | DResource ds _ _ _ e | DModule ds _ _ e => forallb deco_wf ds && is_body e && wf e
  | DType ds _ e more => forallb deco_wf ds && value_ok e && forallb value_ok more
  | DFunc ds _ params t e => forallb deco_wf ds && forallb (fun p => type_wf (snd p)) params && type_wf t && value_ok e
  end.

(** ** Programs *)
(** A declaration with the line break behind it, or a line break alone. *)
Inductive line := Declared (d : decl) (br : option str) | Blank (br : str).
Definition line_tokens (l : line) : list tokn :=
  match l with Declared d br => decl_tokens d ++ break br | Blank br => [Break br] end%list.
Definition program_tokens (p : list line) : list tokn := flat_map line_tokens p.
(** A line break behind a declaration belongs to the declaration. *)
Fixpoint program_wf (pending : bool) (p : list line) : bool :=
  match p with
  | [] => true
  | Declared d br :: p' => decl_wf d && program_wf (match br with None => true | Some _ => false end) p'
  | Blank _ :: p' => negb pending && program_wf false p'
  end.
(** [writes E p s]: the text [s] is a way to write the program [p]. *)
Definition writes (E : pyenv) (p : list line) (s : str) : Prop := spells E None (program_tokens p) s.
