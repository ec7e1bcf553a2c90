(** Specification: type expressions (C16), and module references (C19). *)
From Coq Require Import List Arith NArith ZArith Bool String.
From Verif Require Import Py.Str Py.Val Lark.Tree.
Import ListNotations.
Local Open Scope string_scope.

(** ** Types *)
Inductive ty := Named (n : str) | ArrayOf (t : ty) | Union (ts : list ty).

(** The type a syntax tree spells: a name or a parenthesised union, then one array
    layer per suffix. *)
Inductive spells : ptree -> ty -> Prop :=
| spells_type m mb b t suffixes : spells_base b t ->
    spells (TNode L_data_type m (TNode L_base_type mb [b] :: suffixes)) (Nat.iter (List.length suffixes) ArrayOf t)
with spells_base : ptree -> ty -> Prop :=
| spells_name k : spells_base (TTok k) (Named (tval k))
| spells_union m cs ts : spells_all cs ts -> spells_base (TNode L_union_type m cs) (Union ts)
with spells_all : list ptree -> list ty -> Prop :=
| spells_nil : spells_all [] []
| spells_cons c t cs ts : spells c t -> spells_all cs ts -> spells_all (c :: cs) (t :: ts).

Fixpoint ty_report (t : ty) : pyval :=
  match t with
  | Named n => PStr n
  | ArrayOf t => PDict [(u "type", PStr (u "array")); (u "item_type", ty_report t)]
  | Union ts => PDict [(u "type", PStr (u "union")); (u "members", PList (map ty_report ts))]
  end.

(** ** References *)
(** A template: fixed text and runs of characters of a class. *)
Inductive segment := Fixed (s : string) | Run (allowed : N -> bool).
(** [matches tpl s gs rest]: [s] is an instance of the template with the runs [gs],
    each as long as possible, followed by [rest]. *)
Inductive matches : list segment -> str -> list str -> str -> Prop :=
| matches_nil s : matches [] s [] s
| matches_fixed l tpl s gs r : matches tpl s gs r -> matches (Fixed l :: tpl) (u l ++ s)%list gs r
| matches_run c tpl g s gs r : g <> [] -> Forall (fun x => c x = true) g ->
    (forall x s', s = x :: s' -> c x = false) ->
    matches tpl s gs r -> matches (Run c :: tpl) (g ++ s)%list (g :: gs) r.
(** Filling in a template. *)
Fixpoint render (tpl : list segment) (gs : list str) : str :=
  match tpl, gs with
  | Fixed l :: tpl', _ => u l ++ render tpl' gs
  | Run _ :: tpl', g :: gs' => g ++ render tpl' gs'
  | _, _ => []
  end%list.

Section References.
  Variable E : pyenv.
  Definition wordc (c : N) : bool := if (c <? 128)%N then is_word_ascii c else uword_re E c.
  Definition digitc (c : N) : bool := if (c <? 128)%N then is_digit c else udigit_re E c.
  Definition word_or (extra : string) (c : N) : bool := wordc c || contains_char c (u extra).

  Definition public_ref := [Fixed "br:mcr.microsoft.com/"; Run (word_or "/-"); Fixed ":"; Run (word_or ".-")].
  Definition private_ref := [Fixed "br:"; Run wordc; Fixed ".azurecr.io/"; Run (word_or "/-."); Fixed ":"; Run (word_or ".-")].
  Definition alias_ref := [Fixed "br/"; Run wordc; Fixed ":"; Run (word_or "/-."); Fixed ":"; Run (word_or ".-")].
  Definition spec_ref := [Fixed "ts:"; Run (fun c => digitc c || (c =? 45)%N); Fixed "/"; Run (word_or "._-()"); Fixed "/";
    Run (word_or ".-"); Fixed ":"; Run (word_or ".-")].
  Definition spec_alias_ref := [Fixed "ts/"; Run wordc; Fixed ":"; Run (word_or "/-"); Fixed ":"; Run (word_or ".-")].

  Definition begins (p : string) (s : str) : Prop := exists r, s = (u p ++ r)%list.
  Definition refers (kind : string) (detail : list (str * pyval)) : pyval :=
    PDict [(u "type", PStr (u kind)); (u "detail", PDict detail)].
  (** All but the first three characters. *)
  Definition full_of (s : str) : str * pyval := (u "full", PStr (skipn 3 s)).

  Inductive referenced (s : str) : result pyval -> Prop :=
  | ref_public path tag r : matches public_ref s [path; tag] r ->
      referenced s (Ok (refers "bicep_registry" [full_of s; (u "registry_name", PStr (u "mcr.microsoft.com"));
        (u "path", PStr path); (u "tag", PStr tag); (u "public", PBool true)]))
  | ref_private registry path tag r : matches private_ref s [registry; path; tag] r ->
      referenced s (Ok (refers "bicep_registry" [full_of s; (u "registry_name", PStr registry);
        (u "path", PStr path); (u "tag", PStr tag); (u "public", PBool false)]))
  | ref_bad_registry : begins "br:" s -> (forall gs r, ~ matches public_ref s gs r) -> (forall gs r, ~ matches private_ref s gs r) ->
      referenced s (Err (EValueError (u "Bicep registry path is invalid: " ++ s)%list))
  | ref_alias alias path tag r : matches alias_ref s [alias; path; tag] r ->
      referenced s (Ok (refers "bicep_registry_alias" [full_of s; (u "alias", PStr alias);
        (u "path", PStr path); (u "tag", PStr tag); (u "public", PBool (str_eqb alias (u "public")))]))
  | ref_bad_alias : begins "br/" s -> (forall gs r, ~ matches alias_ref s gs r) ->
      referenced s (Err (EValueError (u "Bicep registry alias is invalid: " ++ s)%list))
  | ref_spec sub rg name version r : matches spec_ref s [sub; rg; name; version] r ->
      referenced s (Ok (refers "template_spec" [full_of s; (u "subscription_id", PStr sub);
        (u "resource_group_id", PStr rg); (u "name", PStr name); (u "version", PStr version)]))
  | ref_bad_spec : begins "ts:" s -> (forall gs r, ~ matches spec_ref s gs r) ->
      referenced s (Err (EValueError (u "Template spec path is invalid: " ++ s)%list))
  | ref_spec_alias alias path tag r : matches spec_alias_ref s [alias; path; tag] r ->
      referenced s (Ok (refers "template_spec_alias" [full_of s; (u "alias", PStr alias); (u "path", PStr path); (u "tag", PStr tag)]))
  | ref_bad_spec_alias : begins "ts/" s -> (forall gs r, ~ matches spec_alias_ref s gs r) ->
      referenced s (Err (EValueError (u "Template spec alias is invalid: " ++ s)%list))
  | ref_local : ~ begins "br:" s -> ~ begins "br/" s -> ~ begins "ts:" s -> ~ begins "ts/" s ->
      referenced s (Ok (refers "local" [(u "full", PStr s); (u "path", PStr s)])).
End References.
