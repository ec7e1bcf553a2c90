(** Derivations of abstract syntax, part 3: types, decorators, declarations and
    programs. *)
From Coq Require Import List Arith NArith PArith Bool String Lia.
From Verif Require Import Py.Str Py.Val Lark.Tree Lark.Ebnf Lark.Lalr Lark.BicepGrammar Lark.BicepTables Lark.Driver
     Lark.Shape Spec.Lexemes Spec.Types Spec.Spelling Spec.Syntax
     Proofs.LR Proofs.Refine Proofs.Complete Proofs.Lexable Proofs.Accept Proofs.Generate Proofs.SyntaxInd Proofs.Derive.
Import ListNotations.
Local Open Scope string_scope.

(** ** Trees *)
Fixpoint layers (t : ty) : nat := match t with ArrayOf t => Datatypes.S (layers t) | _ => O end.
Definition suffix_tree : ptree := N_ L_array_suffix [].
Fixpoint base_tree (t : ty) : ptree :=
  match t with
  | Named n => leaf (Name n)
  | ArrayOf t => base_tree t
  | Union ts => N_ L_union_type (map (fun t => N_ L_data_type (N_ L_base_type [base_tree t] :: repeat suffix_tree (layers t))) ts)
  end.
Definition type_tree (t : ty) : ptree := N_ L_data_type (N_ L_base_type [base_tree t] :: repeat suffix_tree (layers t)).
Definition deco_tree (d : deco) : ptree := N_ L_decorator (leaf (Deco (d_name d)) :: opt (fun e => [tree e]) (d_arg d)).
Definition decos_tree (ds : list deco) : ptree := match ds with [] => TNone | _ => N_ L_decorators (map deco_tree ds) end.
Definition maybe_name (o : option str) : ptree := match o with Some n => leaf (Name n) | None => TNone end.
Definition symbol_tree (s : symbol) : ptree :=
  match s with SName v a => N_ L_import_alias [leaf (Name v); maybe_name a] | SAll a => N_ L_import_alias [leaf Star; maybe_name a] end.
Definition or_none {A} (f : A -> ptree) (o : option A) : ptree := match o with Some a => f a | None => TNone end.
Definition param_trees (p : str * ty) : list ptree := [leaf (Name (fst p)); type_tree (snd p)].
Definition decl_tree (d : decl) : ptree :=
  match d with
  | DScope c => N_ L_scope [leaf (Quoted c)]
  | DNamespace c => N_ L_custom_import [leaf (Quoted c)]
  | DImport s c => N_ L_custom_import [symbol_tree s; leaf (Quoted c)]
  | DImports s more c => N_ L_custom_import (symbol_tree s :: map symbol_tree more ++ [leaf (Quoted c)])
  | DExtension n config alias => N_ L_extension [leaf (Name n); or_none tree config; maybe_name alias]
  | DMetadata n c => N_ L_metadata [leaf (Name n); N_ L_string [leaf (Quoted c)]]
  | DParam ds n t _ e => N_ L_param [decos_tree ds; leaf (Name n); type_tree t; or_none tree e]
  | DVar ds n t e => N_ L_var [decos_tree ds; leaf (Name n); or_none (fun a => type_tree (fst a)) t; tree e]
  | DOutput ds n t _ e => N_ L_output [decos_tree ds; leaf (Name n); type_tree t; tree e]
  | DResource ds n c ex e => N_ L_resource [decos_tree ds; leaf (Name n); N_ L_type_api_pair [leaf (Quoted c)]; existing_tree ex; tree e]
  | DModule ds n c e => N_ L_module [decos_tree ds; leaf (Name n); N_ L_module_path [leaf (Quoted c)]; tree e]
  | DType ds n e more =>
      N_ L_custom_type [decos_tree ds; leaf (Name n); match more with [] => tree e | _ => N_ L_type_value (tree e :: map tree more) end]
  | DFunc ds n params t e =>
      N_ L_custom_func (decos_tree ds :: leaf (Name n) :: flat_map param_trees params ++ [type_tree t; tree e])
  end%list.
Definition line_trees (l : line) : list ptree := match l with Declared d _ => [decl_tree d] | Blank _ => [] end.
Definition program_tree (p : list line) : ptree := N_ L_start (flat_map line_trees p).

(** ** Nonterminals *)
Definition nt_type := Eval vm_compute in nt "data_type".
Definition nt_base := Eval vm_compute in nt "base_type".
Definition nt_union := Eval vm_compute in nt "union_type".
Definition nt_suffix := Eval vm_compute in nt "array_suffix".
Definition nt_suffixes := Eval vm_compute in nt "__rep array_suffix".
Definition nt_types := Eval vm_compute in nt "__rep (""|"" data_type)".
Definition nt_deco := Eval vm_compute in nt "decorator".
Definition nt_decos := Eval vm_compute in nt "decorators".
Definition nt_drep := Eval vm_compute in nt "__rep decorator".
Definition nt_element := Eval vm_compute in nt "element".
Definition nt_lines := Eval vm_compute in nt "__rep ((element _CPP_COMMENT_NL?)|_CPP_COMMENT_NL)".
Definition nt_alias := Eval vm_compute in nt "import_alias".
Definition nt_aliases := Eval vm_compute in nt "__rep ("","" import_alias)".
Definition nt_import := Eval vm_compute in nt "_import_statement".
Definition nt_func := Eval vm_compute in nt "_func_statement".
Definition nt_params := Eval vm_compute in nt "__rep ("","" STRING data_type)".
Definition nt_var_value := Eval vm_compute in nt "var_value".
Definition nt_metadata_value := Eval vm_compute in nt "metadata_value".
Definition nt_output_value := Eval vm_compute in nt "output_value".
Definition nt_resource_value := Eval vm_compute in nt "resource_value".
Definition nt_module_value := Eval vm_compute in nt "module_value".
Definition nt_type_value := Eval vm_compute in nt "type_value".
Definition nt_more_types := Eval vm_compute in nt "__rep (""|"" value_brackets)".
Definition nt_api := Eval vm_compute in nt "type_api_pair".
Definition nt_path := Eval vm_compute in nt "module_path".

(** ** Types *)
Section type_principle.
  Variable P : ty -> Prop.
  Hypothesis Hnamed : forall n, P (Named n).
  Hypothesis Harray : forall t, P t -> P (ArrayOf t).
  Hypothesis Hunion : forall ts, Forall P ts -> P (Union ts).
  Fixpoint ty_induction (t : ty) : P t :=
    match t with
    | Named n => Hnamed n
    | ArrayOf t => Harray t (ty_induction t)
    | Union ts => Hunion ts (all P ty_induction ts)
    end.
End type_principle.
Fixpoint type_base (t : ty) : ty := match t with ArrayOf t => type_base t | _ => t end.
Fixpoint brackets (n : nat) : list tokn := match n with O => [] | Datatypes.S n => brackets n ++ [Sym "["; Sym "]"] end%list.
Lemma type_tokens_base t : type_tokens t = (type_tokens (type_base t) ++ brackets (layers t))%list.
Proof.
  induction t as [n|t IH|ts _] using ty_induction; cbn [type_base layers brackets]; rewrite ?app_nil_r; try reflexivity.
  cbn [type_tokens]. rewrite app_assoc, <- IH. reflexivity.
Qed.
Lemma base_tree_base t : base_tree t = base_tree (type_base t).
Proof. induction t as [n|t IH|ts _] using ty_induction; cbn [type_base base_tree]; auto. Qed.
Lemma gen_suffixes n : gen nt_suffixes 0 (brackets (Datatypes.S n)) (rep (repeat suffix_tree (Datatypes.S n))).
Proof.
  assert (H : gen nt_suffix 0 [Sym "["; Sym "]"] suffix_tree) by (use 115%positive [PT (Sym "["); PT (Sym "]")]).
  induction n as [|n IH].
  - use 594%positive [PN nt_suffix 0 [Sym "["; Sym "]"] suffix_tree].
  - replace (repeat suffix_tree (Datatypes.S (Datatypes.S n))) with (repeat suffix_tree (Datatypes.S n) ++ [suffix_tree])%list
      by (symmetry; rewrite <- repeat_cons; reflexivity).
    change (brackets (Datatypes.S (Datatypes.S n))) with (brackets (Datatypes.S n) ++ [Sym "["; Sym "]"])%list.
    set (ts := brackets _) in *. set (r := repeat _ _) in *. clearbody ts r.
    use 595%positive [PN nt_suffixes 0 ts (rep r); PN nt_suffix 0 [Sym "["; Sym "]"] suffix_tree].
Qed.
Definition typed (t : ty) : Prop := gen nt_type 0 (type_tokens t) (type_tree t).
Lemma of_base t : gen nt_base 0 (type_tokens (type_base t)) (N_ L_base_type [base_tree (type_base t)]) -> typed t.
Proof.
  intros H. unfold typed, type_tree. rewrite type_tokens_base, base_tree_base. destruct (layers t) as [|n].
  - set (ts := type_tokens _) in *. clearbody ts. use 111%positive [PN nt_base 0 ts (N_ L_base_type [base_tree (type_base t)])].
  - pose proof (gen_suffixes n) as Hs. set (ts := type_tokens _) in *. set (r := repeat _ _) in *. set (b := brackets _) in *. clearbody ts r b.
    use 110%positive [PN nt_base 0 ts (N_ L_base_type [base_tree (type_base t)]); PN nt_suffixes 0 b (rep r)].
Qed.
Definition bar_type (t : ty) : list tokn := Sym "|" :: type_tokens t.
Lemma gen_types : forall l, l <> [] -> Forall typed l -> gen nt_types 0 (flat_map bar_type l) (rep (map type_tree l)).
Proof.
  intros l. induction l as [|e l IH] using rev_ind; intros Hl Hf; [congruence|].
  apply Forall_app in Hf as [Hf He]. apply Forall_inv in He. unfold typed in He. rewrite flat_map_app, map_app. destruct l as [|c l].
  - use 596%positive [PT (Sym "|"); PN nt_type 0 (type_tokens e) (type_tree e)].
  - specialize (IH ltac:(discriminate) Hf).
    use 597%positive [PN nt_types 0 (flat_map bar_type (c :: l)) (rep (map type_tree (c :: l))); PT (Sym "|"); PN nt_type 0 (type_tokens e) (type_tree e)].
Qed.
Theorem gen_type t : type_wf t = true -> typed t.
Proof.
  enough (H : type_wf t = true -> gen nt_base 0 (type_tokens (type_base t)) (N_ L_base_type [base_tree (type_base t)]) ) by (intros Hw; apply of_base, H, Hw).
  induction t as [n|t IH|ts IH] using ty_induction; intros Hw; cbn [type_base].
  - use 112%positive [PT (Name n)].
  - apply IH, Hw.
  - cbn [type_wf] in Hw. apply andb_true_iff in Hw as [Hl Hw]. destruct ts as [|t [|t2 ts]]; [discriminate Hl|discriminate Hl|].
    assert (Hf : Forall typed (t :: t2 :: ts)).
    { rewrite forallb_forall in Hw. rewrite Forall_forall in *. intros x Hx. apply of_base. apply IH; auto. }
    inversion Hf as [|? ? Ht Hts]; subst. pose proof (gen_types (t2 :: ts) ltac:(discriminate) Hts) as Hg. unfold typed in Ht.
    change (base_tree (Union (t :: t2 :: ts))) with (N_ L_union_type (map type_tree (t :: t2 :: ts))). set (us := type_tokens (Union _)).
    assert (Hu : gen nt_union 0 us (N_ L_union_type (map type_tree (t :: t2 :: ts)))).
    { subst us. change (type_tokens (Union (t :: t2 :: ts))) with ([Sym "("] ++ (type_tokens t ++ flat_map bar_type (t2 :: ts)) ++ [Sym ")"])%list.
      use 114%positive [PT (Sym "("); PN nt_type 0 (type_tokens t) (type_tree t); PN nt_types 0 (flat_map bar_type (t2 :: ts)) (rep (map type_tree (t2 :: ts))); PT (Sym ")")]. }
    set (ut := N_ L_union_type _) in *. clearbody us ut. use 113%positive [PN nt_union 0 us ut].
Qed.

(** ** Decorators *)
Definition deco_known (d : deco) : Prop :=
  match d_arg d with Some e => operand e /\ same_line e = true | None => d_lead d = None end /\ (List.length (d_after d) <= 10)%nat.

Ltac trail i ps l Hl :=
  first [exfalso; cbn [List.length] in Hl; lia |
    let b := fresh "b" in let l' := fresh "l" in
    destruct l as [|b l'];
    [ solve [use i ps]
    | let j := eval vm_compute in (Pos.succ i) in
      let ps' := eval cbn [app] in (ps ++ [PT (Break b)])%list in
      trail j ps' l' Hl ] ].
Lemma gen_deco d : deco_known d -> gen nt_deco 0 (deco_tokens d) (deco_tree d).
Proof.
  destruct d as [n br a z l]. unfold deco_known, deco_tokens, deco_tree. cbn [d_name d_lead d_arg d_trail d_after]. intros [Ha Hl].
  destruct a as [e|]; [destruct Ha as [He Hs]; unfold operand in He; destruct br as [b|]|subst br]; destruct z as [z|]; cbn [opt break fst snd]; try set (te := tokens e) in *; try set (tr := tree e) in *; try clearbody te tr.
  - trail 173%positive [PT (Sym "@"); PT (Deco n); PT (Sym "("); PT (Break b); PN nt_vb (tag e) te tr; PT (Break z); PT (Sym ")")] l Hl.
  - trail 184%positive [PT (Sym "@"); PT (Deco n); PT (Sym "("); PT (Break b); PN nt_vb (tag e) te tr; PT (Sym ")")] l Hl.
  - trail 217%positive [PT (Sym "@"); PT (Deco n); PT (Sym "("); PN nt_vb (tag e) te tr; PT (Break z); PT (Sym ")")] l Hl.
  - trail 228%positive [PT (Sym "@"); PT (Deco n); PT (Sym "("); PN nt_vb (tag e) te tr; PT (Sym ")")] l Hl.
  - trail 206%positive [PT (Sym "@"); PT (Deco n); PT (Sym "("); PT (Break z); PT (Sym ")")] l Hl.
  - trail 239%positive [PT (Sym "@"); PT (Deco n); PT (Sym "("); PT (Sym ")")] l Hl.
Qed.
Lemma gen_decos ds : ds <> [] -> Forall deco_known ds -> gen nt_decos 0 (flat_map deco_tokens ds) (decos_tree ds).
Proof.
  intros Hne Hf. assert (H : gen nt_drep 0 (flat_map deco_tokens ds) (rep (map deco_tree ds))).
  { revert Hne Hf. induction ds as [|d ds IH] using rev_ind; intros Hne Hf; [congruence|].
    apply Forall_app in Hf as [Hf Hd]. apply Forall_inv in Hd. apply gen_deco in Hd. rewrite flat_map_app, map_app. destruct ds as [|c l].
    - use 624%positive [PN nt_deco 0 (deco_tokens d) (deco_tree d)].
    - specialize (IH ltac:(discriminate) Hf).
      use 625%positive [PN nt_drep 0 (flat_map deco_tokens (c :: l)) (rep (map deco_tree (c :: l))); PN nt_deco 0 (deco_tokens d) (deco_tree d)]. }
  destruct ds as [|d ds]; [congruence|]. unfold decos_tree.
  use 250%positive [PN nt_drep 0 (flat_map deco_tokens (d :: ds)) (rep (map deco_tree (d :: ds)))].
Qed.

(** ** Declarations *)
Lemma gen_symbol s : gen nt_alias 0 (symbol_tokens s) (symbol_tree s).
Proof.
  destruct s as [v [a|]|[a|]].
  - use 118%positive [PT (Name v); PT (Kw "as"); PT (Name a)].
  - use 119%positive [PT (Name v)].
  - use 120%positive [PT Star; PT (Kw "as"); PT (Name a)].
  - use 121%positive [PT Star].
Qed.
Definition comma_symbol (s : symbol) : list tokn := Sym "," :: symbol_tokens s.
Lemma gen_symbols : forall l, l <> [] -> gen nt_aliases 0 (flat_map comma_symbol l) (rep (map symbol_tree l)).
Proof.
  intros l. induction l as [|e l IH] using rev_ind; intros Hl; [congruence|]. rewrite flat_map_app, map_app. pose proof (gen_symbol e) as He. destruct l as [|c l].
  - use 586%positive [PT (Sym ","); PN nt_alias 0 (symbol_tokens e) (symbol_tree e)].
  - specialize (IH ltac:(discriminate)).
    use 587%positive [PN nt_aliases 0 (flat_map comma_symbol (c :: l)) (rep (map symbol_tree (c :: l))); PT (Sym ","); PN nt_alias 0 (symbol_tokens e) (symbol_tree e)].
Qed.
Definition comma_param (p : str * ty) : list tokn := Sym "," :: param_tokens p.
Lemma gen_params : forall l, l <> [] -> Forall (fun p => typed (snd p)) l -> gen nt_params 0 (flat_map comma_param l) (rep (flat_map param_trees l)).
Proof.
  intros l. induction l as [|[n t] l IH] using rev_ind; intros Hl Hf; [congruence|]. rewrite !flat_map_app. apply Forall_app in Hf as [Hf He]. apply Forall_inv in He. unfold typed in He. cbn [snd] in He.
  destruct l as [|c l].
  - use 588%positive [PT (Sym ","); PT (Name n); PN nt_type 0 (type_tokens t) (type_tree t)].
  - specialize (IH ltac:(discriminate) Hf).
    use 589%positive [PN nt_params 0 (flat_map comma_param (c :: l)) (rep (flat_map param_trees (c :: l))); PT (Sym ","); PT (Name n); PN nt_type 0 (type_tokens t) (type_tree t)].
Qed.
Definition bar (e : expr) : list tokn := Sym "|" :: tokens e.
Lemma gen_bars : forall l, l <> [] -> Forall operand l -> gen nt_more_types 0 (flat_map bar l) (rep (map tree l)).
Proof.
  intros l. induction l as [|e l IH] using rev_ind; intros Hl Hf; [congruence|].
  apply Forall_app in Hf as [Hf He]. apply Forall_inv in He. unfold operand in He. rewrite flat_map_app, map_app. destruct l as [|c l].
  - use 592%positive [PT (Sym "|"); PN nt_vb (tag e) (tokens e) (tree e)].
  - specialize (IH ltac:(discriminate) Hf).
    use 593%positive [PN nt_more_types 0 (flat_map bar (c :: l)) (rep (map tree (c :: l))); PT (Sym "|"); PN nt_vb (tag e) (tokens e) (tree e)].
Qed.
Lemma gen_var_value e : content e -> gen nt_var_value 0 (tokens e) (tree e).
Proof.
  unfold content. destruct (is_loop e); intros H.
  - use 92%positive [PN nt_loop 0 (tokens e) (tree e)].
  - unfold operand in H. use 91%positive [PN nt_vb (tag e) (tokens e) (tree e)].
Qed.
Lemma gen_output_value e : content e -> gen nt_output_value 0 (tokens e) (tree e).
Proof.
  unfold content. destruct (is_loop e); intros H.
  - use 95%positive [PN nt_loop 0 (tokens e) (tree e)].
  - unfold operand in H. use 94%positive [PN nt_vb (tag e) (tokens e) (tree e)].
Qed.
Lemma gen_resource_value e : body e -> gen nt_resource_value 0 (tokens e) (tree e).
Proof.
  intros [Hb H]. destruct e; try discriminate Hb; cbn [body_nt] in H; set (te := tokens _) in *; set (tr := tree _) in *; clearbody te tr.
  - use 96%positive [PN nt_object 0 te tr].
  - use 97%positive [PN nt_loop 0 te tr].
  - use 98%positive [PN nt_if 0 te tr].
Qed.
Lemma gen_module_value e : body e -> gen nt_module_value 0 (tokens e) (tree e).
Proof.
  intros [Hb H]. destruct e; try discriminate Hb; cbn [body_nt] in H; set (te := tokens _) in *; set (tr := tree _) in *; clearbody te tr.
  - use 99%positive [PN nt_object 0 te tr].
  - use 100%positive [PN nt_loop 0 te tr].
  - use 101%positive [PN nt_if 0 te tr].
Qed.
Definition type_value_tree (e : expr) (more : list expr) : ptree := match more with [] => tree e | _ => N_ L_type_value (tree e :: map tree more) end.
Lemma gen_type_value e more : operand e -> Forall operand more -> gen nt_type_value 0 (tokens e ++ flat_map bar more) (type_value_tree e more).
Proof.
  intros He Hm. unfold operand in He. destruct more as [|m ms].
  - use 109%positive [PN nt_vb (tag e) (tokens e) (tree e)].
  - pose proof (gen_bars (m :: ms) ltac:(discriminate) Hm) as H.
    use 108%positive [PN nt_vb (tag e) (tokens e) (tree e); PN nt_more_types 0 (flat_map bar (m :: ms)) (rep (map tree (m :: ms)))].
Qed.
Definition func_tokens (n : str) (params : list (str * ty)) (t : ty) (e : expr) : list tokn :=
  ([Name n; Sym "("] ++ match params with [] => [] | p :: more => param_tokens p ++ flat_map comma_param more end ++
   [Sym ")"] ++ type_tokens t ++ [Sym "=>"] ++ tokens e)%list.
Lemma gen_func n params t e : Forall (fun p => typed (snd p)) params -> typed t -> operand e ->
  exists l, gen nt_func 0 (func_tokens n params t e) (N_ l (leaf (Name n) :: flat_map param_trees params ++ [type_tree t; tree e])).
Proof.
  intros Hp Ht He. unfold typed, operand, func_tokens in *. set (tt := type_tokens t) in *. set (t' := type_tree t) in *. set (te := tokens e) in *. set (tr := tree e) in *.
  set (k := tag e) in *. assert (Hk : N.testbit 255 k = true) by apply tag_any. clearbody tt t' te tr k. destruct params as [|[p q] [|y ys]]; eexists.
  - use 90%positive [PT (Name n); PT (Sym "("); PT (Sym ")"); PN nt_type 0 tt t'; PT (Sym "=>"); PN nt_vb k te tr].
  - inversion Hp as [|? ? H1 H2]; subst. cbn [snd] in H1.
    use 89%positive [PT (Name n); PT (Sym "("); PT (Name p); PN nt_type 0 (type_tokens q) (type_tree q); PT (Sym ")"); PN nt_type 0 tt t'; PT (Sym "=>"); PN nt_vb k te tr].
  - inversion Hp as [|? ? H1 H2]; subst. cbn [snd] in H1. pose proof (gen_params (y :: ys) ltac:(discriminate) H2) as H3.
    use 88%positive [PT (Name n); PT (Sym "("); PT (Name p); PN nt_type 0 (type_tokens q) (type_tree q);
      PN nt_params 0 (flat_map comma_param (y :: ys)) (rep (flat_map param_trees (y :: ys))); PT (Sym ")"); PN nt_type 0 tt t'; PT (Sym "=>"); PN nt_vb k te tr].
Qed.
Definition element (d : decl) : Prop := gen nt_element 0 (decl_tokens d) (decl_tree d).
Lemma gen_api c : gen nt_api 0 [Quoted c] (N_ L_type_api_pair [leaf (Quoted c)]).
Proof. use 116%positive [PT (Quoted c)]. Qed.
Lemma gen_path c : gen nt_path 0 [Quoted c] (N_ L_module_path [leaf (Quoted c)]).
Proof. use 117%positive [PT (Quoted c)]. Qed.
Lemma deco_wf_known d : deco_wf d = true -> deco_known d.
Proof.
  unfold deco_wf, deco_known, value_ok. intros H. split_wf. split; [|apply Nat.leb_le; assumption].
  destruct (d_arg d) as [e|]; [|destruct (d_lead d); [discriminate|reflexivity]]. split_wf. split; [|assumption]. apply good_operand; [apply wf_good; assumption|assumption].
Qed.
Lemma value_operand e : value_ok e = true -> operand e.
Proof. unfold value_ok. intros H. split_wf. apply good_operand; [apply wf_good; assumption|assumption]. Qed.
(** The decorators in front of a declaration: none or some. *)
Ltac decorated ds Hds :=
  let dt := fresh "dt" in let dr := fresh "dr" in
  destruct ds as [|d0 ds]; [clear Hds; cbn [flat_map decos_tree app]|
    set (dt := flat_map deco_tokens (d0 :: ds)) in *; set (dr := decos_tree (d0 :: ds)) in *; clearbody dt dr].
Lemma decos_known ds : forallb deco_wf ds = true -> match ds with [] => True | _ => gen nt_decos 0 (flat_map deco_tokens ds) (decos_tree ds) end.
Proof.
  intros H. destruct ds as [|d ds]; [exact I|]. apply gen_decos; [discriminate|]. rewrite forallb_forall in H. rewrite Forall_forall. intros x Hx. apply deco_wf_known; auto.
Qed.
Theorem gen_decl d : decl_wf d = true -> element d.
Proof.
  unfold element. destruct d as [c|c|s c|s more c|n config alias|n c|ds n t q e|ds n t e|ds n t q e|ds n c ex e|ds n c e|ds n e more|ds n params t e];
    intros Hw; cbn [decl_wf] in Hw; cbn [decl_tokens decl_tree].
  - use 2%positive [PT (Kw "targetScope"); PT (Sym "="); PT (Quoted c)].
  - assert (H : exists l, gen nt_import 0 [Quoted c] (N_ l [leaf (Quoted c)])) by (eexists; use 87%positive [PT (Quoted c)]). destruct H as [l H].
    use 3%positive [PT (Kw "import"); PN nt_import 0 [Quoted c] (N_ l [leaf (Quoted c)])].
  - pose proof (gen_symbol s) as Hs. set (st := symbol_tokens s) in *. set (sr := symbol_tree s) in *. clearbody st sr.
    set (ts := (st ++ [Kw "from"; Quoted c])%list).
    assert (H : exists l, gen nt_import 0 ts (N_ l [sr; leaf (Quoted c)])) by (eexists; subst ts; use 86%positive [PN nt_alias 0 st sr; PT (Kw "from"); PT (Quoted c)]).
    destruct H as [l H]. use 3%positive [PT (Kw "import"); PN nt_import 0 ts (N_ l [sr; leaf (Quoted c)])].
  - pose proof (gen_symbol s) as Hs. set (st := symbol_tokens s) in *. set (sr := symbol_tree s) in *. clearbody st sr.
    change (fun s0 : symbol => Sym "," :: symbol_tokens s0) with comma_symbol.
    set (ts := ([Sym "{"] ++ st ++ flat_map comma_symbol more ++ [Sym "}"; Kw "from"; Quoted c])%list).
    assert (H : exists l, gen nt_import 0 ts (N_ l (sr :: map symbol_tree more ++ [leaf (Quoted c)]))).
    { subst ts. eexists. destruct more as [|m ms].
      - use 85%positive [PT (Sym "{"); PN nt_alias 0 st sr; PT (Sym "}"); PT (Kw "from"); PT (Quoted c)].
      - pose proof (gen_symbols (m :: ms) ltac:(discriminate)) as Hm.
        use 84%positive [PT (Sym "{"); PN nt_alias 0 st sr; PN nt_aliases 0 (flat_map comma_symbol (m :: ms)) (rep (map symbol_tree (m :: ms))); PT (Sym "}"); PT (Kw "from"); PT (Quoted c)]. }
    destruct H as [l H]. use 3%positive [PT (Kw "import"); PN nt_import 0 ts (N_ l (sr :: map symbol_tree more ++ [leaf (Quoted c)]))].
  - destruct config as [e|]; cbn [or_none opt].
    + assert (H : gen nt_object 0 (tokens e) (tree e)) by (destruct e; try discriminate Hw; exact (wf_good (EObject lead rows) Hw)).
      destruct alias as [a|]; cbn [maybe_name alias_tokens opt].
      * use 4%positive [PT (Kw "extension"); PT (Name n); PT (Kw "with"); PN nt_object 0 (tokens e) (tree e); PT (Kw "as"); PT (Name a)].
      * use 5%positive [PT (Kw "extension"); PT (Name n); PT (Kw "with"); PN nt_object 0 (tokens e) (tree e)].
    + destruct alias as [a|]; cbn [maybe_name alias_tokens opt].
      * use 6%positive [PT (Kw "extension"); PT (Name n); PT (Kw "as"); PT (Name a)].
      * use 7%positive [PT (Kw "extension"); PT (Name n)].
  - assert (H : gen nt_metadata_value 0 [Quoted c] (N_ L_string [leaf (Quoted c)])) by (use 93%positive [PT (Quoted c)]).
    use 8%positive [PT (Kw "metadata"); PT (Name n); PT (Sym "="); PN nt_metadata_value 0 [Quoted c] (N_ L_string [leaf (Quoted c)])].
  - split_wf. match goal with H : forallb deco_wf ds = true |- _ => apply decos_known in H; rename H into Hds end.
    match goal with H : type_wf t = true |- _ => apply gen_type in H; unfold typed in H; rename H into Ht end.
    decorated ds Hds; (destruct e as [e|]; cbn [or_none opt]; [match goal with H : value_ok e = true |- _ => apply value_operand in H; unfold operand in H end|]); destruct q; cbn [mark].
    + use 13%positive [PT (Kw "param"); PT (Name n); PN nt_type 0 (type_tokens t) (type_tree t); PT (Sym "?"); PT (Sym "="); PN nt_vb (tag e) (tokens e) (tree e)].
    + use 15%positive [PT (Kw "param"); PT (Name n); PN nt_type 0 (type_tokens t) (type_tree t); PT (Sym "="); PN nt_vb (tag e) (tokens e) (tree e)].
    + use 14%positive [PT (Kw "param"); PT (Name n); PN nt_type 0 (type_tokens t) (type_tree t); PT (Sym "?")].
    + use 16%positive [PT (Kw "param"); PT (Name n); PN nt_type 0 (type_tokens t) (type_tree t)].
    + use 9%positive [PN nt_decos 0 dt dr; PT (Kw "param"); PT (Name n); PN nt_type 0 (type_tokens t) (type_tree t); PT (Sym "?"); PT (Sym "="); PN nt_vb (tag e) (tokens e) (tree e)].
    + use 11%positive [PN nt_decos 0 dt dr; PT (Kw "param"); PT (Name n); PN nt_type 0 (type_tokens t) (type_tree t); PT (Sym "="); PN nt_vb (tag e) (tokens e) (tree e)].
    + use 10%positive [PN nt_decos 0 dt dr; PT (Kw "param"); PT (Name n); PN nt_type 0 (type_tokens t) (type_tree t); PT (Sym "?")].
    + use 12%positive [PN nt_decos 0 dt dr; PT (Kw "param"); PT (Name n); PN nt_type 0 (type_tokens t) (type_tree t)].
  - split_wf. match goal with H : forallb deco_wf ds = true |- _ => apply decos_known in H; rename H into Hds end.
    assert (He : gen nt_var_value 0 (tokens e) (tree e)) by (apply gen_var_value, good_content; [apply wf_good; assumption|assumption]).
    set (te := tokens e) in *; set (tr := tree e) in *; clearbody te tr.
    decorated ds Hds; (destruct t as [[t [|]]|]; cbn [or_none opt fst snd mark]; [| |]);
      try match goal with H : type_wf t = true |- _ => apply gen_type in H; unfold typed in H end.
    + use 20%positive [PT (Kw "var"); PT (Name n); PN nt_type 0 (type_tokens t) (type_tree t); PT (Sym "?"); PT (Sym "="); PN nt_var_value 0 te tr].
    + use 21%positive [PT (Kw "var"); PT (Name n); PN nt_type 0 (type_tokens t) (type_tree t); PT (Sym "="); PN nt_var_value 0 te tr].
    + use 22%positive [PT (Kw "var"); PT (Name n); PT (Sym "="); PN nt_var_value 0 te tr].
    + use 17%positive [PN nt_decos 0 dt dr; PT (Kw "var"); PT (Name n); PN nt_type 0 (type_tokens t) (type_tree t); PT (Sym "?"); PT (Sym "="); PN nt_var_value 0 te tr].
    + use 18%positive [PN nt_decos 0 dt dr; PT (Kw "var"); PT (Name n); PN nt_type 0 (type_tokens t) (type_tree t); PT (Sym "="); PN nt_var_value 0 te tr].
    + use 19%positive [PN nt_decos 0 dt dr; PT (Kw "var"); PT (Name n); PT (Sym "="); PN nt_var_value 0 te tr].
  - split_wf. match goal with H : forallb deco_wf ds = true |- _ => apply decos_known in H; rename H into Hds end.
    match goal with H : type_wf t = true |- _ => apply gen_type in H; unfold typed in H; rename H into Ht end.
    assert (He : gen nt_output_value 0 (tokens e) (tree e)) by (apply gen_output_value, good_content; [apply wf_good; assumption|assumption]).
    set (te := tokens e) in *; set (tr := tree e) in *; clearbody te tr.
    decorated ds Hds; destruct q; cbn [mark].
    + use 25%positive [PT (Kw "output"); PT (Name n); PN nt_type 0 (type_tokens t) (type_tree t); PT (Sym "?"); PT (Sym "="); PN nt_output_value 0 te tr].
    + use 26%positive [PT (Kw "output"); PT (Name n); PN nt_type 0 (type_tokens t) (type_tree t); PT (Sym "="); PN nt_output_value 0 te tr].
    + use 23%positive [PN nt_decos 0 dt dr; PT (Kw "output"); PT (Name n); PN nt_type 0 (type_tokens t) (type_tree t); PT (Sym "?"); PT (Sym "="); PN nt_output_value 0 te tr].
    + use 24%positive [PN nt_decos 0 dt dr; PT (Kw "output"); PT (Name n); PN nt_type 0 (type_tokens t) (type_tree t); PT (Sym "="); PN nt_output_value 0 te tr].
  - split_wf. match goal with H : forallb deco_wf ds = true |- _ => apply decos_known in H; rename H into Hds end. pose proof (gen_api c) as Hc.
    assert (He : gen nt_resource_value 0 (tokens e) (tree e)) by (apply gen_resource_value, good_body; [apply wf_good; assumption|assumption]).
    set (te := tokens e) in *; set (tr := tree e) in *; clearbody te tr.
    decorated ds Hds; destruct ex; cbn [existing_tree].
    + use 29%positive [PT (Kw "resource"); PT (Name n); PN nt_api 0 [Quoted c] (N_ L_type_api_pair [leaf (Quoted c)]); PT (Kw "existing"); PT (Sym "="); PN nt_resource_value 0 te tr].
    + use 30%positive [PT (Kw "resource"); PT (Name n); PN nt_api 0 [Quoted c] (N_ L_type_api_pair [leaf (Quoted c)]); PT (Sym "="); PN nt_resource_value 0 te tr].
    + use 27%positive [PN nt_decos 0 dt dr; PT (Kw "resource"); PT (Name n); PN nt_api 0 [Quoted c] (N_ L_type_api_pair [leaf (Quoted c)]); PT (Kw "existing"); PT (Sym "="); PN nt_resource_value 0 te tr].
    + use 28%positive [PN nt_decos 0 dt dr; PT (Kw "resource"); PT (Name n); PN nt_api 0 [Quoted c] (N_ L_type_api_pair [leaf (Quoted c)]); PT (Sym "="); PN nt_resource_value 0 te tr].
  - split_wf. match goal with H : forallb deco_wf ds = true |- _ => apply decos_known in H; rename H into Hds end. pose proof (gen_path c) as Hc.
    assert (He : gen nt_module_value 0 (tokens e) (tree e)) by (apply gen_module_value, good_body; [apply wf_good; assumption|assumption]).
    set (te := tokens e) in *; set (tr := tree e) in *; clearbody te tr.
    decorated ds Hds.
    + use 32%positive [PT (Kw "module"); PT (Name n); PN nt_path 0 [Quoted c] (N_ L_module_path [leaf (Quoted c)]); PT (Sym "="); PN nt_module_value 0 te tr].
    + use 31%positive [PN nt_decos 0 dt dr; PT (Kw "module"); PT (Name n); PN nt_path 0 [Quoted c] (N_ L_module_path [leaf (Quoted c)]); PT (Sym "="); PN nt_module_value 0 te tr].
  - split_wf. match goal with H : forallb deco_wf ds = true |- _ => apply decos_known in H; rename H into Hds end.
    assert (He : gen nt_type_value 0 (tokens e ++ flat_map bar more) (type_value_tree e more)).
    { apply gen_type_value; [apply value_operand; assumption|]. match goal with H : forallb value_ok more = true |- _ => rename H into Hf end.
      rewrite forallb_forall in Hf. rewrite Forall_forall. intros x Hx. apply value_operand; auto. }
    change (fun e0 : expr => Sym "|" :: tokens e0) with bar. change (match more with [] => tree e | _ => _ end) with (type_value_tree e more).
    set (te := (tokens e ++ _)%list) in *; set (tr := type_value_tree e more) in *; clearbody te tr.
    decorated ds Hds.
    + use 34%positive [PT (Kw "type"); PT (Name n); PT (Sym "="); PN nt_type_value 0 te tr].
    + use 33%positive [PN nt_decos 0 dt dr; PT (Kw "type"); PT (Name n); PT (Sym "="); PN nt_type_value 0 te tr].
  - split_wf. match goal with H : forallb deco_wf ds = true |- _ => apply decos_known in H; rename H into Hds end.
    assert (He : exists l, gen nt_func 0 (func_tokens n params t e) (N_ l (leaf (Name n) :: flat_map param_trees params ++ [type_tree t; tree e]))).
    { apply gen_func; [|apply gen_type; assumption|apply value_operand; assumption].
      match goal with H : forallb _ params = true |- _ => rename H into Hf end.
      rewrite forallb_forall in Hf. rewrite Forall_forall. intros x Hx. apply gen_type. exact (Hf x Hx). }
    destruct He as [l He].
    match goal with |- gen _ _ ?l _ => change l with (flat_map deco_tokens ds ++ [Kw "func"] ++ func_tokens n params t e)%list end.
    set (te := func_tokens _ _ _ _) in *. set (tr := leaf (Name n) :: _) in *. clearbody te tr. decorated ds Hds.
    + use 36%positive [PT (Kw "func"); PN nt_func 0 te (N_ l tr)].
    + use 35%positive [PN nt_decos 0 dt dr; PT (Kw "func"); PN nt_func 0 te (N_ l tr)].
Qed.

(** ** Programs *)
Definition pending_tag (b : bool) : N := if b then 1%N else 0%N.
Lemma gen_lines_more : forall p pending acc cs, gen nt_lines (pending_tag pending) acc (rep cs) -> program_wf pending p = true ->
  exists k, N.testbit 3 k = true /\ gen nt_lines k (acc ++ program_tokens p) (rep (cs ++ flat_map line_trees p)).
Proof.
  induction p as [|l p IH]; intros pending acc cs Ha Hw.
  - exists (pending_tag pending). split; [destruct pending; reflexivity|]. cbn [program_tokens flat_map]. unfold program_tokens. cbn [flat_map]. rewrite !app_nil_r. exact Ha.
  - assert (Hk : N.testbit 3 (pending_tag pending) = true) by (destruct pending; reflexivity).
    assert (Hstep : exists pending', gen nt_lines (pending_tag pending') (acc ++ line_tokens l) (rep (cs ++ line_trees l)) /\ program_wf pending' p = true).
    { destruct l as [d [b|]|b]; cbn [program_wf line_tokens line_trees break opt] in *; split_wf.
      - exists false. split; [|assumption]. assert (Hd : element d) by (apply gen_decl; assumption). unfold element in Hd.
        use 583%positive [PN nt_lines (pending_tag pending) acc (rep cs); PN nt_element 0 (decl_tokens d) (decl_tree d); PT (Break b)].
      - exists true. split; [|assumption]. assert (Hd : element d) by (apply gen_decl; assumption). unfold element in Hd.
        use 584%positive [PN nt_lines (pending_tag pending) acc (rep cs); PN nt_element 0 (decl_tokens d) (decl_tree d)].
      - exists false. split; [|assumption]. subst pending.
        use 585%positive [PN nt_lines 0 acc (rep cs); PT (Break b)]. }
    destruct Hstep as (pending' & Hs & Hp). destruct (IH _ _ _ Hs Hp) as (k & Hk' & H). exists k. split; [exact Hk'|].
    unfold program_tokens in *. cbn [flat_map]. rewrite !app_assoc. exact H.
Qed.
Theorem gen_program p : program_wf false p = true -> p <> [] -> gen start_sym 0 (program_tokens p) (program_tree p).
Proof.
  intros Hw Hne. destruct p as [|l p]; [congruence|].
  assert (Hl : exists k, N.testbit 3 k = true /\ gen nt_lines k (program_tokens (l :: p)) (rep (flat_map line_trees (l :: p)))).
  { assert (Hstep : exists pending', gen nt_lines (pending_tag pending') (line_tokens l) (rep (line_trees l)) /\ program_wf pending' p = true).
    { destruct l as [d [b|]|b]; cbn [program_wf line_tokens line_trees break opt] in *; split_wf.
      - exists false. split; [|assumption]. assert (Hd : element d) by (apply gen_decl; assumption). unfold element in Hd.
        use 580%positive [PN nt_element 0 (decl_tokens d) (decl_tree d); PT (Break b)].
      - exists true. split; [|assumption]. assert (Hd : element d) by (apply gen_decl; assumption). unfold element in Hd.
        use 581%positive [PN nt_element 0 (decl_tokens d) (decl_tree d)].
      - exists false. split; [|assumption]. use 582%positive [PT (Break b)]. }
    destruct Hstep as (pending' & Hs & Hp). exact (gen_lines_more p pending' _ _ Hs Hp). }
  destruct Hl as (k & Hk & Hl). unfold program_tree. set (ts := program_tokens _) in *. set (cs := flat_map line_trees _) in *. clearbody ts cs.
  use 1%positive [PN nt_lines k ts (rep cs)].
Qed.
