(** Specification: how an accepted text is read (C42).  Every conclusion is about
    the abstract syntax of Spec/Syntax.v; layout (where line breaks may stand) is
    not part of it, grouping of operands is. *)
From Coq Require Import List Arith NArith Bool String.
From Verif Require Import Py.Str Py.Val Spec.Lexemes Spec.Sentences Spec.Types Spec.Spelling Spec.Syntax.
Import ListNotations.
Local Open Scope string_scope.

(** ** Tokens *)
(** Between quotes, a quote stands behind a backslash or inside [${...}]. *)
Inductive sealed : str -> Prop :=
| sealed_end : sealed []
| sealed_char x s : x <> 39%N -> sealed s -> sealed (x :: s)
| sealed_quote s : sealed s -> sealed (u "\'" ++ s)%list
| sealed_code b s : sealed s -> sealed (u "${" ++ b ++ u "}" ++ s)%list.
Definition token_ok (E : pyenv) (t : tokn) : Prop :=
  match t with
  | Sym s => In s symbols
  | Kw s => In s keywords
  | Star => True
  | Name v | Ref v | Key v => ident E v
  | Num v => digits v
  | Quoted c => sealed c
  | Multi c => True
  | Fun v => exists ns n, v = (ns ++ n)%list /\ In ns [[]; u "sys."; u "az."] /\ plain_name n
  | ListFun v => v <> [] /\ Forall (fun c => is_alpha c = true) v
  | Deco v => exists ns n, v = (ns ++ n)%list /\ In ns [[]; u "sys."] /\ plain_name n
  | Break v => line_break v
  | Nl v => feeds v
  end.
(** [reads_as E ts s]: the text [s] is the tokens [ts], with blanks and comments
    in between. *)
Inductive reads_as (E : pyenv) : list tokn -> str -> Prop :=
| reads_as_end b : blank b -> reads_as E [] b
| reads_as_tok b t ts rest : blank b -> token_ok E t -> reads_as E ts rest -> reads_as E (t :: ts) (b ++ text t ++ rest)%list.

(** ** Grouping *)
(** The last operand has an exclamation mark, so that a further one behind it is
    for the whole. *)
Fixpoint banged (e : expr) : bool :=
  match e with
  | EBang _ => true
  | EBin _ _ b | ENot b | EMinus b | ECond _ _ b | EDot _ _ b | ENested _ b | ELambda _ b | ELambdas _ _ _ b => banged b
  | _ => false
  end.
Definition is_child (i : item) : bool := match i with Child _ _ _ _ => true | _ => false end.
Fixpoint shaped (e : expr) : bool :=
  match e with
  | ENull | EBool _ | EInt _ | ERef _ | EStr _ | EMulti _ => true
  | ENext _ a => lone a && shaped a
  | EArray _ rows => forallb (fun r => let '(x, xs, _) := r in ordinary x && shaped x && forallb (fun y => ordinary y && shaped y) xs) rows
  | EObject _ rows => forallb (fun r => item_shaped (fst r) && (negb (is_child (fst r)) || some (snd r))) rows
  | ECall _ lead first more trail =>
      match first with Some x => ordinary x && shaped x | None => some more || negb (given lead) || given trail end &&
      forallb (fun a => ordinary (snd a) && shaped (snd a)) more
  | EBin _ a b | EDot _ a b | ENested a b | ELambda a b => negb (open a) && (ordinary a && shaped a) && (ordinary b && shaped b)
  | ENot a | EMinus a => ordinary a && shaped a
  | ECond c a b => negb (open c) && (ordinary c && shaped c) && (ordinary a && shaped a) && (ordinary b && shaped b)
  | EIndex _ a i => negb (open a) && (ordinary a && shaped a) && (ordinary i && shaped i)
  | EMethod a _ first more =>
      negb (open a) && (ordinary a && shaped a) && match first with Some x => ordinary x && shaped x | None => true end &&
      forallb (fun y => ordinary y && shaped y) more
  | ELambdas x y more b =>
      some more && (ordinary x && shaped x) && (ordinary y && shaped y) && (ordinary b && shaped b) && forallb (fun y => ordinary y && shaped y) more
  | EParen a => bare a && (ordinary a && shaped a)
  | EBang a => (is_paren a || bare a && (negb (open a) || banged a)) && (ordinary a && shaped a)
  | ELoop _ _ over cond body _ =>
      (ordinary over && shaped over) && (ordinary body && shaped body) && match cond with Some c => ordinary c && shaped c | None => true end
  | EIf _ c body => (ordinary c && shaped c) && (ordinary body && shaped body)
  end
with item_shaped (i : item) : bool :=
  match i with
  | Pairs _ v q more => pair_ok v q && shaped v && forallb (fun p => let '(_, v, q) := p in pair_ok v q && shaped v) more
  | Child _ _ _ body => is_body body && shaped body
  end.
Definition value_shaped (e : expr) : bool := ordinary e && shaped e.
Definition deco_shaped (d : deco) : bool :=
  match d_arg d with Some e => value_shaped e | None => negb (given (d_lead d)) || given (d_trail d) end && Nat.leb (List.length (d_after d)) 10.
Definition decl_shaped (d : decl) : bool :=
  match d with
  | DScope _ | DNamespace _ | DImport _ _ | DImports _ _ _ | DMetadata _ _ => true
  | DExtension _ config _ => match config with Some e => match e with EObject _ _ => shaped e | _ => false end | None => true end
  | DParam ds _ t _ e => forallb deco_shaped ds && type_wf t && match e with Some e => value_shaped e | None => true end
  | DVar ds _ t e => forallb deco_shaped ds && match t with Some (t, _) => type_wf t | None => true end && ((ordinary e || is_loop e) && shaped e)
  | DOutput ds _ t _ e => forallb deco_shaped ds && type_wf t && ((ordinary e || is_loop e) && shaped e)
  | DResource ds _ _ _ e | DModule ds _ _ e => forallb deco_shaped ds && (is_body e && shaped e)
  | DType ds _ e more => forallb deco_shaped ds && value_shaped e && forallb value_shaped more
  | DFunc ds _ params t e => forallb deco_shaped ds && forallb (fun p => type_wf (snd p)) params && type_wf t && value_shaped e
  end.
Definition line_shaped (l : line) : bool := match l with Declared d _ => decl_shaped d | Blank _ => true end.
Definition program_shaped (p : list line) : bool := forallb line_shaped p.

(** ** Brackets *)
(** The token opens a bracket that [closer] closes. *)
Definition opener (t : tokn) : option string :=
  match t with
  | Sym s => if String.eqb s "(" then Some ")" else if String.eqb s "[" then Some "]" else if String.eqb s "{" then Some "}" else None
  | Fun _ => Some ")"
  | _ => None
  end.
Definition closer (t : tokn) : bool := match t with Sym s => existsb (String.eqb s) [")"; "]"; "}"] | _ => false end.
(** Every bracket is closed by one of its kind, in the right order. *)
Inductive matched : list tokn -> Prop :=
| matched_end : matched []
| matched_plain t ts : opener t = None -> closer t = false -> matched ts -> matched (t :: ts)
| matched_group t c inside ts : opener t = Some c -> matched inside -> matched ts -> matched (t :: inside ++ Sym c :: ts)%list.
