(** Specification: tokens, what they look like, and the texts that spell a
    sequence of tokens.  Nothing here refers to Lark: the kinds of tokens are
    those a reader of Bicep tells apart, and every condition is about the
    characters in front of and behind a token. *)
From Coq Require Import List NArith ZArith Bool String.
From Verif Require Import Py.Str Py.Val Spec.Lexemes Spec.Sentences.
Import ListNotations.
Local Open Scope string_scope.

Inductive tokn :=
| Sym (s : string)     (* punctuation and operators *)
| Kw (s : string)      (* keywords *)
| Star                 (* the * of a wildcard import *)
| Name (v : str)       (* an identifier being declared, or naming a type *)
| Ref (v : str)        (* an identifier used as a value *)
| Key (v : str)        (* an identifier used as a key of an object *)
| Num (v : str)
| Quoted (c : str)     (* 'c' *)
| Multi (c : str)      (* '''c''' *)
| Fun (v : str)        (* v followed by the opening parenthesis *)
| ListFun (v : str)    (* the name in resource.listKeys(...) *)
| Deco (v : str)       (* the name of a decorator *)
| Break (v : str)      (* a line break between declarations, entries, elements *)
| Nl (v : str).        (* a line break in front of a value *)

Definition symbols : list string :=
  ["="; "?"; "!"; "("; ")"; "{"; "}"; "=>"; "["; "]"; ":"; ","; "@"; ">="; ">"; "<="; "<"; "=="; "!="; "=~"; "!~";
   "&&"; "||"; "??"; "+"; "/"; "-"; "%"; "*"; "."; "::"; "|"].
Definition keywords : list string :=
  ["targetScope"; "import"; "extension"; "with"; "as"; "metadata"; "param"; "var"; "output"; "resource"; "existing";
   "module"; "type"; "func"; "null"; "true"; "false"; "from"; "for"; "in"; "items"; "if"].

Definition text (t : tokn) : str :=
  match t with
  | Sym s | Kw s => u s
  | Star => u "*"
  | Name v | Ref v | Key v | Num v | ListFun v | Deco v | Break v | Nl v => v
  | Quoted c => quote c
  | Multi c => triple_quote c
  | Fun v => (v ++ u "(")%list
  end.

(** The next character. *)
Definition ahead (p : N -> bool) (s : str) : bool := match s with [] => false | c :: _ => p c end.
Definition is_char (c : string) (x : N) : bool := existsb (N.eqb x) (u c).

(** Inside quotes.  Characters stand for themselves, but a backslash makes the
    quote behind it part of the text, and [${...}] is an expression, which may
    hold further quoted texts if [nested]. *)
Inductive content (nested : bool) : str -> Prop :=
| con_end : content nested []
| con_char x s : is_char "'\$" x = false -> content nested s -> content nested (x :: s)
| con_backslash x s : is_char "'" x = false -> content nested (x :: s) -> content nested (92%N :: x :: s)
| con_dollar x s : is_char "{" x = false -> content nested (x :: s) -> content nested (36%N :: x :: s)
| con_dollar_end : content nested [36%N]
| con_quote s : content nested s -> content nested (u "\'" ++ s)%list
| con_code b s : code nested b -> content nested s -> content nested (u "${" ++ b ++ u "}" ++ s)%list
with code (nested : bool) : str -> Prop :=
| code_end : code nested []
| code_char x b : is_char "'{}" x = false -> code nested b -> code nested (x :: b)
| code_quoted c b : nested = true -> content nested c -> code nested b -> code nested (quote c ++ b)%list.

(** Three quotes in a row do not occur before the end of the line. *)
Definition no_triple_on_line (s : str) : Prop := forall a b, s = (a ++ u "'''" ++ b)%list -> In 10%N a.

(** Names of the functions that are written behind a resource. *)
Inductive list_name : str -> Prop :=
| list_upper v : Forall (fun c => is_alpha c = true) v -> list_name (u "List" ++ v)%list
| list_lower v : Forall (fun c => is_alpha c = true) v -> list_name (u "list" ++ v)%list
| list_secret : list_name (u "getSecret").
Definition starts_list (v : str) : Prop := exists w, v = (u "List" ++ w)%list \/ v = (u "list" ++ w)%list.

(** Characters that would make a symbol a longer one. *)
Definition longer (s : string) : string :=
  if String.eqb s "=" then "=>~" else
  if existsb (String.eqb s) ["<"; ">"] then "=" else
  if String.eqb s "!" then "=~" else
  if String.eqb s "?" then "?" else
  if String.eqb s ":" then ":" else
  if String.eqb s "|" then "|" else
  if String.eqb s "/" then "/*" else "".

(** Words that are not identifiers, depending on what stands in front. *)
Definition reserved_ref (prev : option tokn) : list string :=
  (["null"; "true"; "false"] ++
  match prev with
  | Some (Kw "in") => ["items"]
  | Some (Sym "[") => ["for"]
  | Some (Break _) => ["for"; "resource"]
  | Some (Sym "?") => ["resource"]
  | _ => []
  end)%list.
Definition reserved_key (prev : option tokn) : list string :=
  match prev with
  | Some (Break _) => ["null"; "true"; "false"; "resource"]
  | _ => ["resource"]
  end.
(** In front of a value, and not also behind one or in front of a key. *)
Definition opens_value (prev : option tokn) : bool :=
  match prev with
  | Some (Sym s) => negb (existsb (String.eqb s) ["?"; "}"; "!"; "]"; ")"; "{"])
  | Some (Kw s) => negb (existsb (String.eqb s) ["null"; "true"; "false"])
  | Some (Fun _) | Some (Name _) | Some (Nl _) => true
  | _ => false
  end.
Definition list_position (prev : option tokn) : bool := match prev with Some (Sym ".") => true | _ => false end.

Section Fits.
  Variable E : pyenv.
  (** No namespace: [sys.] and [az.] are not an identifier and a dot. *)
  Definition no_namespace (v rest : str) : Prop := In v [u "sys"; u "az"] -> ahead (is_char ".") rest = false.
  Definition ends_line (rest : str) : Prop :=
    ahead (is_char (String (Ascii.ascii_of_nat 10) "")) rest = false /\ (forall r, rest <> 13%N :: 10%N :: r).
  Definition word_ends (v rest : str) : Prop :=
    ident E v /\ ahead (word E) rest = false /\ no_namespace v rest.

  (** The token [t], behind [prev] and in front of [rest], is spelled in a way
      that cannot be read differently. *)
  Definition fits (prev : option tokn) (t : tokn) (rest : str) : Prop :=
    match t with
    | Sym s => In s symbols /\ ahead (is_char (longer s)) rest = false
    | Kw s => In s keywords /\ ahead (word E) rest = false /\ (s <> "if" -> ahead (is_char "(") rest = false)
    | Star => True
    | Name v => word_ends v rest
    | Ref v => word_ends v rest /\ ahead (is_char "(") rest = false /\ ~ In v (map u (reserved_ref prev)) /\
               (list_position prev = true -> starts_list v -> ahead (in_range 91 96) rest = false)
    | Key v => word_ends v rest /\ ahead (is_char "(") rest = false /\ ~ In v (map u (reserved_key prev))
    | Num v => digits v /\ ahead alnum rest = false /\ ahead (is_char "(") rest = false
    | Quoted c => content (opens_value prev) c /\ ~ In 10%N c /\ no_triple_on_line (quote c ++ rest)%list
    | Multi c => forall a b, (c ++ u "''")%list <> (a ++ u "'''" ++ b)%list
    | Fun v => (exists ns n, v = (ns ++ n)%list /\ In ns [[]; u "sys."; u "az."] /\ plain_name n) /\
               (list_position prev = true -> ~ list_name v)
    | ListFun v => list_name v /\ ahead (is_char "(") rest = true
    | Deco v => (exists ns n, v = (ns ++ n)%list /\ In ns [[]; u "sys."] /\ plain_name n) /\
                ahead alnum rest = false /\ ahead (is_char ".") rest = false
    | Break v => line_break v /\ ends_line rest
    | Nl v => feeds v /\ ends_line rest
    end.

  (** [skipped b rest]: [b] is blanks, tabs, # and /* */ comments, in front of [rest]. *)
  Inductive skipped : str -> str -> Prop :=
  | skip_none rest : skipped [] rest
  | skip_blank x b rest : In x [32; 9]%N -> skipped b rest -> skipped (x :: b) rest
  | skip_comment c b rest : (forall p q, (c ++ u "*")%list <> (p ++ u "*/" ++ q)%list) -> skipped b rest ->
      skipped (u "/*" ++ c ++ u "*/" ++ b)%list rest
  | skip_line c rest : ~ In 10%N c -> (rest = [] \/ exists r, rest = 10%N :: r) -> skipped (u "#" ++ c)%list rest.

  (** [spells prev ts s]: behind [prev], the text [s] spells the tokens [ts]. *)
  Inductive spells : option tokn -> list tokn -> str -> Prop :=
  | spells_end prev b : skipped b [] -> spells prev [] b
  | spells_tok prev b t ts rest : skipped b (text t ++ rest)%list -> fits prev t rest -> spells (Some t) ts rest ->
      spells prev (t :: ts) (b ++ text t ++ rest)%list.
End Fits.

(** The canonical spelling: one blank behind every token, except where none may be. *)
Fixpoint canonical (ts : list tokn) : str :=
  match ts with
  | [] => []
  | t :: ts' => (text t ++ match t with ListFun _ => [] | _ => [32%N] end ++ canonical ts')%list
  end.
