(** From a derivation back to abstract syntax, part 1: what each symbol of the
    grammar stands for. *)
From Coq Require Import List Arith NArith PArith Bool String Lia.
From Verif Require Import Py.Str Py.Val Lark.Regex Lark.Tree Lark.Shape Lark.Terminals Lark.Lexer Lark.Ebnf
     Lark.Lalr Lark.BicepGrammar Lark.BicepTables Lark.Driver
     Spec.Lexemes Spec.Sentences Spec.Layout
     Proofs.Base Proofs.Regex Proofs.LR Proofs.Lexer Proofs.Parse Proofs.Follow Proofs.TokenForms Proofs.Layout Proofs.Lexable
     Proofs.Generate Proofs.Derive Proofs.DerivePrograms Proofs.TreeGrammar Proofs.Like
     Spec.Types Spec.Spelling Spec.Syntax Spec.Reading.
Import ListNotations.
Local Open Scope string_scope.
Local Open Scope list_scope.

Lemma like_put m t x : like t x -> like (put m t) x.
Proof. intros H. inversion H; subst; constructor; assumption. Qed.
Lemma like_put_in m l t x : like (TNode l None [t]) x -> like (TNode l None [put m t]) x.
Proof. intros H. inversion H as [| |? ? ? ? ? HF]; subst. inversion HF as [|? ? ? ? Hx HF']; subst. inversion HF'; subst. constructor. constructor; [apply like_put; exact Hx|constructor]. Qed.
Lemma like_any m l cs x : like (TNode l None cs) x -> like (TNode l m cs) x.
Proof. intros H. inversion H; subst; constructor; assumption. Qed.
Lemma likes_eq a b b' : Forall2 like a b -> b = b' -> Forall2 like a b'.
Proof. intros H <-. exact H. Qed.

(** ** What may stand behind what *)
Definition opens : list positive := [145;146;252;253;254;255;256;257;258;259;265;266;267;268;269;276;277;278;279;280;281;290;291;292]%positive.
Lemma opens_alike : forallb (fun p => match PM.find p reduced_before with Some l => forallb (can_reduce 145) l | None => false end) opens = true.
Proof. vm_compute. reflexivity. Qed.
Lemma open_after p t : existsb (Pos.eqb p) opens = true -> can_reduce p t = true -> can_reduce 145 t = true.
Proof.
  intros Hp H. apply existsb_exists in Hp as (q & Hq & He). apply Pos.eqb_eq in He as <-. pose proof opens_alike as Ha. rewrite forallb_forall in Ha. specialize (Ha p Hq).
  unfold can_reduce in H. destruct (PM.find p reduced_before) as [l|]; [|discriminate]. rewrite forallb_forall in Ha. apply Ha.
  apply existsb_exists in H as (t' & Hin & He). apply Pos.eqb_eq in He as <-. exact Hin.
Qed.
Definition bang : positive := Eval vm_compute in term_id "!".
Definition rparen : positive := Eval vm_compute in term_id ")".
Definition is_bang (e : expr) : bool := match e with EBang _ => true | _ => false end.
Definition is_object (e : expr) : bool := match e with EObject _ _ => true | _ => false end.
Lemma bang_banged e : is_bang e = true -> banged e = true.
Proof. destruct e; try discriminate. reflexivity. Qed.

(** ** Parts of the syntax *)
Definition row_shaped (r : expr * list expr * list str) : bool :=
  let '(x, xs, _) := r in ordinary x && shaped x && forallb (fun y => ordinary y && shaped y) xs.
Definition pair_shaped (p : key * expr * bool) : bool := let '(_, v, q) := p in Syntax.pair_ok v q && Reading.shaped v.
Definition item_row_shaped (r : item * list str) : bool := item_shaped (fst r) && (negb (is_child (fst r)) || some (snd r)).
Definition bar (e : expr) : list tokn := Sym "|" :: tokens e.
Definition comma_param (p : str * ty) : list tokn := Sym "," :: param_tokens p.
Definition comma_symbol (s : symbol) : list tokn := Sym "," :: symbol_tokens s.
Definition bars_type (t : ty) : list tokn := Sym "|" :: type_tokens t.
Definition arg_tokens (a : option str * expr) : list tokn := ([Sym ","] ++ break (fst a) ++ tokens (snd a))%list.
Definition suffixes (n : nat) : list tokn := List.concat (repeat [Sym "["; Sym "]"] n).
Definition func_tokens (n : str) (params : list (str * ty)) (t : ty) (e : expr) : list tokn :=
  ([Name n; Sym "("] ++ match params with [] => [] | p :: more => param_tokens p ++ flat_map comma_param more end ++
   [Sym ")"] ++ type_tokens t ++ [Sym "=>"] ++ tokens e)%list.
Fixpoint arrays (n : nat) (t : ty) : ty := match n with O => t | Datatypes.S n => ArrayOf (arrays n t) end.

Section Unparse.
  Variable E : pyenv.
  Definition means (x : string * token) (t : tokn) : Prop := tval (snd x) = text t /\ token_ok E t.
  Definition words : list (string * token) -> list tokn -> Prop := Forall2 means.
  Lemma words_eq w a b : words w a -> a = b -> words w b.
  Proof. intros H <-. exact H. Qed.

  Inductive kind :=
  | KSym (s : string) | KKw (s : string) | KStar | KName | KQ | KMulti | KNum | KFun | KListFun | KDecoName | KExisting | KBreak | KNl
  | KVb | KVal | KOp | KCall | KObj | KLoop | KBody | KVarVal | KRange | KQS | KKey | KPair | KChild
  | KBreaks | KCommas | KRows | KPairs | KItems | KArgs | KMArgs | KBars | KTypeVal
  | KType | KBase | KUnion | KSuf | KSufs | KBarTypes | KTap | KMp | KMeta | KImp | KImps | KImportSt | KFuncSt | KParams
  | KDeco | KDecoRep | KDecos | KDecl | KLines | KStart.

  Definition interp (k : kind) (t : positive) (w : list (string * token)) (tr : ptree) : Prop :=
    let likes := Forall2 like in
    match k with
    | KSym s => words w [Sym s] /\ (forall l t, behind (w ++ l) t = term_id s)
    | KKw s => words w [Kw s] /\ like tr (leaf (Kw s)) /\ (forall l t, behind (w ++ l) t = term_id s)
    | KStar => words w [Star] /\ like tr (leaf Star)
    | KName => exists v, words w [Name v] /\ like tr (leaf (Name v))
    | KQ => exists c, words w [Quoted c] /\ like tr (leaf (Quoted c))
    | KMulti => exists c, words w [Multi c] /\ like tr (leaf (Multi c))
    | KNum => exists v, words w [Num v] /\ like tr (leaf (Num v))
    | KFun => exists v, words w [Fun v] /\ like tr (leaf (Fun v))
    | KListFun => exists v, words w [ListFun v] /\ like tr (leaf (ListFun v))
    | KDecoName => exists v, words w [Deco v] /\ like tr (leaf (Deco v))
    | KExisting => words w [Kw "existing"] /\ like tr (leaf (Kw "existing"))
    | KBreak => exists b, words w [Break b]
    | KNl => exists b, words w [Nl b]
    | KVb => exists e, words w (tokens e) /\ like tr (tree e) /\ value_shaped e = true /\
        (open e = true -> can_reduce 145 t = true) /\ (t = bang -> is_bang e = true)
    | KVal => exists e, words w (tokens e) /\ like tr (tree e) /\ value_shaped e = true /\ bare e = true /\
        (open e = true -> can_reduce 145 t = true) /\ (t = bang -> open e = true -> banged e = true)
    | KOp => exists e, words w (tokens e) /\ like (N_ L_operator [tr]) (tree e) /\ value_shaped e = true /\ bare e = true /\
        (open e = true -> can_reduce 145 t = true) /\ (t = bang -> open e = true -> banged e = true)
    | KCall => exists e, words w (tokens e) /\ like tr (tree e) /\ shaped e = true /\ lone e = true
    | KObj => exists e, words w (tokens e) /\ like tr (tree e) /\ shaped e = true /\ is_object e = true
    | KLoop => exists e, words w (tokens e) /\ like tr (tree e) /\ shaped e = true /\ is_loop e = true
    | KBody => exists e, words w (tokens e) /\ like tr (tree e) /\ is_body e && shaped e = true
    | KVarVal => exists e, words w (tokens e) /\ like tr (tree e) /\ (ordinary e || is_loop e) && shaped e = true
    | KRange => exists r e, words w (range_tokens r (tokens e)) /\ like tr (range_tree r (tree e)) /\ value_shaped e = true
    | KQS => exists k, words w [key_token k] /\ like tr (leaf (key_token k))
    | KKey => exists k, words w [key_token k] /\ like tr (key_tree k)
    | KPair => exists p, words w (pair_tokens p) /\ like tr (pair_tree p) /\ pair_shaped p = true
    | KChild => exists i bs, words w (item_tokens i ++ breaks bs) /\ likes [tr] (item_trees i) /\ item_row_shaped (i, bs) = true /\ is_child i && some bs = true
    | KBreaks => exists bs, words w (breaks bs) /\ spliced_t tr = [] /\ some bs = true
    | KCommas => exists xs, words w (flat_map comma xs) /\ likes (spliced_t tr) (map tree xs) /\ forallb value_shaped xs = true /\ some xs = true
    | KRows => exists rs, words w (flat_map row_tokens rs) /\ likes (spliced_t tr) (flat_map row_trees rs) /\ forallb row_shaped rs = true
    | KPairs => exists ps, words w (flat_map comma_pair ps) /\ likes (spliced_t tr) (map pair_tree ps) /\ forallb pair_shaped ps = true
    | KItems => exists rs, words w (flat_map (fun r => item_tokens (fst r) ++ breaks (snd r)) rs) /\
        likes (spliced_t tr) (flat_map (fun r => item_trees (fst r)) rs) /\ forallb item_row_shaped rs = true
    | KArgs => exists xs, words w (flat_map arg_tokens xs) /\ likes (spliced_t tr) (map (fun a => tree (snd a)) xs) /\
        forallb (fun a => value_shaped (snd a)) xs = true /\ some xs = true
    | KMArgs => exists xs, words w (flat_map comma xs) /\ likes (spliced_t tr) (match xs with [] => [TNone] | _ => map tree xs end) /\
        forallb value_shaped xs = true /\ (xs = [] -> t = rparen)
    | KBars => exists xs, words w (flat_map bar xs) /\ likes (spliced_t tr) (map tree xs) /\ forallb value_shaped xs = true /\ some xs = true
    | KTypeVal => exists e xs, words w (tokens e ++ flat_map bar xs) /\
        like tr (match xs with [] => tree e | _ => N_ L_type_value (tree e :: map tree xs) end) /\ value_shaped e && forallb value_shaped xs = true
    | KType => exists t, words w (type_tokens t) /\ like tr (type_tree t) /\ type_wf t = true
    | KBase => exists t, words w (type_tokens t) /\ like tr (N_ L_base_type [base_tree t]) /\ type_wf t = true /\ layers t = O
    | KUnion => exists t, words w (type_tokens t) /\ like tr (base_tree t) /\ type_wf t = true /\ layers t = O
    | KSuf => words w [Sym "["; Sym "]"] /\ like tr suffix_tree
    | KSufs => exists n, words w (suffixes n) /\ likes (spliced_t tr) (repeat suffix_tree n)
    | KBarTypes => exists ts, words w (flat_map bars_type ts) /\ likes (spliced_t tr) (map type_tree ts) /\ forallb type_wf ts = true /\ some ts = true
    | KTap => exists c, words w [Quoted c] /\ like tr (N_ L_type_api_pair [leaf (Quoted c)])
    | KMp => exists c, words w [Quoted c] /\ like tr (N_ L_module_path [leaf (Quoted c)])
    | KMeta => exists c, words w [Quoted c] /\ like tr (N_ L_string [leaf (Quoted c)])
    | KImp => exists s, words w (symbol_tokens s) /\ like tr (symbol_tree s)
    | KImps => exists ss, words w (flat_map comma_symbol ss) /\ likes (spliced_t tr) (map symbol_tree ss)
    | KImportSt => exists d ts cs, words w ts /\ likes (spliced_t tr) cs /\ decl_tokens d = Kw "import" :: ts /\ decl_tree d = N_ L_custom_import cs /\ decl_shaped d = true
    | KFuncSt => exists n ps t e, words w (func_tokens n ps t e) /\
        likes (spliced_t tr) (leaf (Name n) :: flat_map param_trees ps ++ [type_tree t; tree e]) /\
        forallb (fun p => type_wf (snd p)) ps && type_wf t && value_shaped e = true
    | KParams => exists ps, words w (flat_map comma_param ps) /\ likes (spliced_t tr) (flat_map param_trees ps) /\ forallb (fun p => type_wf (snd p)) ps = true
    | KDeco => exists d, words w (deco_tokens d) /\ like tr (deco_tree d) /\ deco_shaped d = true
    | KDecoRep => exists ds, words w (flat_map deco_tokens ds) /\ likes (spliced_t tr) (map deco_tree ds) /\ forallb deco_shaped ds = true /\ some ds = true
    | KDecos => exists ds, words w (flat_map deco_tokens ds) /\ like tr (decos_tree ds) /\ forallb deco_shaped ds = true
    | KDecl => exists d, words w (decl_tokens d) /\ like tr (decl_tree d) /\ decl_shaped d = true
    | KLines => exists p, words w (program_tokens p) /\ likes (spliced_t tr) (flat_map line_trees p) /\ program_shaped p = true
    | KStart => exists p, words w (program_tokens p) /\ like tr (program_tree p) /\ program_shaped p = true
    end.

  Definition nt_kinds : list (string * kind) :=
    [ ("start", KStart); ("element", KDecl); ("value", KVal); ("value_brackets", KVb);
      ("_import_statement", KImportSt); ("_func_statement", KFuncSt);
      ("var_value", KVarVal); ("output_value", KVarVal); ("metadata_value", KMeta);
      ("resource_value", KBody); ("module_value", KBody); ("child_resource", KChild);
      ("type_value", KTypeVal); ("data_type", KType); ("base_type", KBase); ("union_type", KUnion);
      ("array_suffix", KSuf); ("type_api_pair", KTap); ("module_path", KMp); ("import_alias", KImp);
      ("loop", KLoop); ("loop_array", KRange); ("loop_array_index", KRange); ("loop_object", KRange);
      ("deploy_condition", KBody); ("quoted_string", KQS); ("array", KVal); ("object", KObj);
      ("pair", KPair); ("key", KKey); ("lambda_expression", KVal); ("decorator", KDeco);
      ("decorators", KDecos); ("function", KCall); ("operator", KVal);
      ("__rep ((element _CPP_COMMENT_NL?)|_CPP_COMMENT_NL)", KLines);
      ("__rep ("","" import_alias)", KImps);
      ("__rep ("","" STRING data_type)", KParams);
      ("__rep _CPP_COMMENT_NL", KBreaks);
      ("__rep (""|"" value_brackets)", KBars);
      ("__rep array_suffix", KSufs);
      ("__rep (""|"" data_type)", KBarTypes);
      ("__rep ("","" value_brackets)", KCommas);
      ("__rep (value_brackets ("","" value_brackets)* _CPP_COMMENT_NL*)", KRows);
      ("__rep ("","" pair)", KPairs);
      ("__rep (((pair ("","" pair)*)|child_resource) _CPP_COMMENT_NL*)", KItems);
      ("__rep decorator", KDecoRep);
      ("__rep ("","" _CPP_COMMENT_NL? value_brackets)", KArgs);
      ("__rep [("","" value_brackets)]", KMArgs) ]
    ++ map (fun n => (n, KOp))
      [ "operator_comparison"; "operator_logical"; "operator_numeric"; "operator_accessor";
        "greater_than_or_equals"; "greater_than"; "less_than_or_equals"; "less_than"; "equals"; "not_equals";
        "equals_case_insens"; "not_equals_case_insens"; "and_op"; "or_op"; "not_op"; "coalesce"; "conditional";
        "add"; "divide"; "minus"; "modulo"; "multiply"; "substract"; "index_accessor"; "function_accessor";
        "nested_resource_accessor"; "property_accessor" ].
  Definition term_kinds : list (string * kind) :=
    [ ("STRING", KName); ("QUOTED_STRING", KQ); ("QUOTED_INTERPOLATION", KQ); ("MULTI_LINE_STRING", KMulti); ("INT", KNum);
      ("FUNCTION", KFun); ("LIST_FUNC_NAME", KListFun); ("DECO_NAME", KDecoName); ("STAR_RE", KStar); ("EXISTING", KExisting);
      ("_CPP_COMMENT_NL", KBreak); ("_NEWLINE", KNl) ].
  Definition assoc (n : string) (l : list (string * kind)) : option kind := option_map snd (find (fun e => String.eqb (fst e) n) l).
  Definition kind_of (s : sym) : kind :=
    match s with
    | T n => match assoc n term_kinds with Some k => k | None => if existsb (String.eqb n) symbols then KSym n else KKw n end
    | NT n => match assoc n nt_kinds with Some k => k | None => KStart end
    end.

  (** The parts are introduced from right to left, so that what stands behind a
      part is known. *)
  Fixpoint all_in (ks : list kind) (t : positive) (P : list ptree -> list (string * token) -> Prop) : Prop :=
    match ks with
    | [] => P [] []
    | k :: ks' => all_in ks' t (fun ts ws => forall tr w, interp k (behind ws t) w tr -> P (tr :: ts) (w ++ ws)%list)
    end.
  Definition prod_sound (p : positive) : Prop := forall m t, can_reduce p t = true ->
    all_in (map kind_of (p_rhs (the_prod p))) t (fun ts w =>
      interp (kind_of (NT (p_lhs (the_prod p)))) t w
        (put m (built (prod_label (the_prod p)) (p_expand1 (the_prod p)) (p_alias (the_prod p)) (select_t (p_raw (the_prod p)) ts)))).
End Unparse.

(** ** Small facts *)
Lemma lone_facts e : lone e = true -> ordinary e = true /\ bare e = true /\ open e = false.
Proof. destruct e; try discriminate; auto. Qed.
Lemma object_facts e : is_object e = true -> ordinary e = true /\ bare e = true /\ open e = false /\ is_body e = true.
Proof. destruct e; try discriminate; auto. Qed.
Lemma loop_facts e : is_loop e = true -> ordinary e = false /\ is_body e = true /\ open e = false.
Proof. destruct e; try discriminate; auto. Qed.
Lemma forallb_snoc {A} (f : A -> bool) l x : forallb f (l ++ [x]) = forallb f l && f x.
Proof. rewrite forallb_app. cbn [forallb]. rewrite andb_true_r. reflexivity. Qed.
Lemma some_snoc {A} (l : list A) x : some (l ++ [x]) = true.
Proof. destruct l; reflexivity. Qed.
Lemma breaks_app a b : breaks (a ++ b) = (breaks a ++ breaks b)%list.
Proof. apply map_app. Qed.
Lemma suffixes_snoc n : (suffixes n ++ [Sym "["; Sym "]"])%list = suffixes (Datatypes.S n).
Proof. unfold suffixes. change (repeat ?x (Datatypes.S n)) with ([x] ++ repeat x n)%list. induction n as [|n IH]; [reflexivity|]. cbn [repeat List.concat app] in *. rewrite IH. reflexivity. Qed.
Lemma repeat_snoc {A} (x : A) n : (repeat x n ++ [x])%list = repeat x (Datatypes.S n).
Proof. induction n as [|n IH]; [reflexivity|]. cbn [repeat app] in *. rewrite IH. reflexivity. Qed.
Lemma arrays_tokens n t : type_tokens (arrays n t) = (type_tokens t ++ suffixes n)%list.
Proof. induction n as [|n IH]; cbn [arrays type_tokens]; [unfold suffixes; cbn; rewrite app_nil_r; reflexivity|]. rewrite IH, <- app_assoc, suffixes_snoc. reflexivity. Qed.
Lemma arrays_layers n t : layers t = O -> layers (arrays n t) = n.
Proof. induction n as [|n IH]; intros H; cbn [arrays layers]; [exact H|]. rewrite IH by exact H. reflexivity. Qed.
Lemma arrays_base n t : base_tree (arrays n t) = base_tree t.
Proof. induction n as [|n IH]; cbn [arrays base_tree]; auto. Qed.
Lemma arrays_wf n t : type_wf (arrays n t) = type_wf t.
Proof. induction n as [|n IH]; cbn [arrays type_wf]; auto. Qed.
Lemma arrays_tree n t : layers t = O -> type_tree (arrays n t) = N_ L_data_type (N_ L_base_type [base_tree t] :: repeat suffix_tree n).
Proof. intros H. unfold type_tree. rewrite arrays_base, arrays_layers by exact H. reflexivity. Qed.
