(** Specification: a program without the marks that leave no trace (C17) and
    without its layout (C36): question marks behind types, entries, [.] and [\[],
    exclamation marks behind values, parentheses around values, braces around a
    single import, commas in front of the first argument, line breaks, and which
    elements or entries share a line. *)
From Coq Require Import List Bool String.
From Verif Require Import Py.Str Spec.Types Spec.Spelling Spec.Syntax.
Import ListNotations.

(** A comma in front of the first argument; behind a resource, only if another
    argument follows. *)
Definition plain_call (f : str) (first : option expr) (more : list expr) : expr :=
  match first, more with
  | None, x :: more' => ECall f None (Some x) (map (fun y => (None, y)) more') None
  | _, _ => ECall f None first (map (fun y => (None, y)) more) None
  end.
Definition plain_method (a : expr) (f : str) (first : option expr) (more : list expr) : expr :=
  match first, more with
  | None, x :: y :: more' => EMethod a f (Some x) (y :: more')
  | _, _ => EMethod a f first more
  end.
Fixpoint plain (e : expr) : expr :=
  match e with
  | ENull | EBool _ | EInt _ | ERef _ | EStr _ | EMulti _ => e
  | ENext _ a => plain a
  | EArray _ rows => EArray [] (flat_map (fun r => let '(x, xs, _) := r in (plain x, [], []) :: map (fun y => (plain y, [], [])) xs) rows)
  | EObject _ rows => EObject [] (flat_map (fun r => map (fun i => (i, [])) (plain_items (fst r))) rows)
  | ECall f _ first more _ =>
      plain_call f (match first with Some x => Some (plain x) | None => None end) (map (fun a => plain (snd a)) more)
  | EBin o a b => EBin o (plain a) (plain b)
  | ENot a => ENot (plain a)
  | EMinus a => EMinus (plain a)
  | ECond c a b => ECond (plain c) (plain a) (plain b)
  | EDot _ a b => EDot false (plain a) (plain b)
  | EIndex _ a i => EIndex false (plain a) (plain i)
  | ENested a b => ENested (plain a) (plain b)
  | EMethod a f first more =>
      plain_method (plain a) f (match first with Some x => Some (plain x) | None => None end) (map plain more)
  | ELambda x b => ELambda (plain x) (plain b)
  | ELambdas x y more b => ELambdas (plain x) (plain y) (map plain more) (plain b)
  | EParen a | EBang a => plain a
  | ELoop _ r over cond body _ => ELoop None r (plain over) (match cond with Some c => Some (plain c) | None => None end) (plain body) None
  | EIf _ c body => EIf None (plain c) (plain body)
  end
with plain_items (i : item) : list item :=
  match i with
  | Pairs k v _ more => Pairs k (plain v) false [] :: map (fun p => let '(k, v, _) := p in Pairs k (plain v) false []) more
  | Child n ty existing body => [Child n ty existing (plain body)]
  end.
Definition plain_deco (d : deco) : deco :=
  {| d_name := d_name d; d_lead := None; d_arg := option_map plain (d_arg d); d_trail := None; d_after := [] |}.
Definition plain_decl (d : decl) : decl :=
  match d with
  | DScope _ | DNamespace _ | DImports _ _ _ | DMetadata _ _ => d
  | DImport s c => DImports s [] c
  | DExtension n config alias => DExtension n (option_map plain config) alias
  | DParam ds n t _ e => DParam (map plain_deco ds) n t false (option_map plain e)
  | DVar ds n t e => DVar (map plain_deco ds) n (match t with Some (t, _) => Some (t, false) | None => None end) (plain e)
  | DOutput ds n t _ e => DOutput (map plain_deco ds) n t false (plain e)
  | DResource ds n ty ex e => DResource (map plain_deco ds) n ty ex (plain e)
  | DModule ds n path e => DModule (map plain_deco ds) n path (plain e)
  | DType ds n e more => DType (map plain_deco ds) n (plain e) (map plain more)
  | DFunc ds n params t e => DFunc (map plain_deco ds) n params t (plain e)
  end.
(** The declarations, without the lines they stand on. *)
Definition plain_program (p : list line) : list decl :=
  flat_map (fun l => match l with Declared d _ => [plain_decl d] | Blank _ => [] end) p.
