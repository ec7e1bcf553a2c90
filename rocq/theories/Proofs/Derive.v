(** Derivations of abstract syntax, part 2: expressions. *)
From Coq Require Import List Arith NArith PArith Bool String Lia.
From Verif Require Import Py.Str Py.Val Lark.Tree Lark.Ebnf Lark.Lalr Lark.BicepGrammar Lark.BicepTables Lark.Driver
     Lark.Shape Spec.Lexemes Spec.Types Spec.Spelling Spec.Syntax
     Proofs.Refine Proofs.Lexable Proofs.Generate Proofs.SyntaxInd.
Import ListNotations.
Local Open Scope string_scope.

(** ** The tree of an expression *)
Definition op_label (o : binop) : label :=
  match o with
  | Ge => L_greater_than_or_equals | Gt => L_greater_than | Le => L_less_than_or_equals | Lt => L_less_than
  | Eq => L_equals | Ne => L_not_equals | EqI => L_equals_case_insens | NeI => L_not_equals_case_insens
  | And => L_and_op | Or => L_or_op | Coalesce => L_coalesce | Add => L_add | Div => L_divide | Mod => L_modulo
  | Mul => L_multiply | Sub => L_substract
  end.
Notation N_ l cs := (TNode l None cs).
Definition operator (l : label) (cs : list ptree) : ptree := N_ L_operator [N_ l cs].
Definition range_tree (r : ranges) (over : ptree) : ptree :=
  match r with
  | OverItems x => N_ L_loop_array [leaf (Name x); over]
  | OverIndexed x i => N_ L_loop_array_index [leaf (Name x); leaf (Name i); over]
  | OverEntries x => N_ L_loop_object [leaf (Name x); over]
  end.
Definition key_tree (k : key) : ptree := N_ L_key [leaf (key_token k)].
Definition existing_tree (b : bool) : ptree := if b then leaf (Kw "existing") else TNone.
Fixpoint tree (e : expr) : ptree :=
  match e with
  | ENull => N_ L_null []
  | EBool b => N_ (if b then L_true else L_false) []
  | EInt v => N_ L_int_type [leaf (Num v)]
  | ERef v => N_ L_string [leaf (Ref v)]
  | EStr c => N_ L_string [leaf (Quoted c)]
  | EMulti c => N_ L_multi_line_string [leaf (Multi c)]
  | ENext _ a => tree a
  | EArray _ rows => N_ L_array (flat_map (fun r => let '(x, xs, _) := r in tree x :: map tree xs) rows)
  | EObject _ rows => N_ L_object (flat_map (fun r => item_trees (fst r)) rows)
  | ECall f _ first more _ =>
      N_ L_function (leaf (Fun f) :: match first with Some x => [tree x] | None => [] end ++ map (fun a => tree (snd a)) more)
  | EBin o a b => operator (op_label o) [tree a; tree b]
  | ENot a => operator L_not_op [tree a]
  | EMinus a => operator L_minus [tree a]
  | ECond c a b => operator L_conditional [tree c; tree a; tree b]
  | EDot _ a b => operator L_property_accessor [tree a; tree b]
  | EIndex _ a i => operator L_index_accessor [tree a; tree i]
  | ENested a b => operator L_nested_resource_accessor [tree a; tree b]
  | EMethod a f first more =>
      operator L_function_accessor (tree a :: leaf (ListFun f) :: match first with Some x => [tree x] | None => [] end ++
        match more with [] => [TNone] | _ => map tree more end)
  | ELambda x b => N_ L_lambda_expression [tree x; tree b]
  | ELambdas x y more b => N_ L_lambda_expression (tree x :: tree y :: map tree more ++ [tree b])
  | EParen a | EBang a => tree a
  | ELoop _ r over cond body _ => N_ L_loop [range_tree r (tree over); match cond with Some c => tree c | None => TNone end; tree body]
  | EIf _ c body => N_ L_deploy_condition [tree c; tree body]
  end%list
with item_trees (i : item) : list ptree :=
  match i with
  | Pairs k v _ more => N_ L_pair [key_tree k; tree v] :: map (fun p => let '(k, v, _) := p in N_ L_pair [key_tree k; tree v]) more
  | Child n ty existing body => [N_ L_child_resource [leaf (Name n); leaf (Quoted ty); existing_tree existing; tree body]]
  end.

(** ** Nonterminals *)
Definition nt (n : string) : positive := sym_id (NT n).
Definition nt_value := Eval vm_compute in nt "value".
Definition nt_vb := Eval vm_compute in nt "value_brackets".
Definition nt_array := Eval vm_compute in nt "array".
Definition nt_object := Eval vm_compute in nt "object".
Definition nt_function := Eval vm_compute in nt "function".
Definition nt_loop := Eval vm_compute in nt "loop".
Definition nt_if := Eval vm_compute in nt "deploy_condition".
Definition nt_operator := Eval vm_compute in nt "operator".
Definition nt_comparison := Eval vm_compute in nt "operator_comparison".
Definition nt_logical := Eval vm_compute in nt "operator_logical".
Definition nt_numeric := Eval vm_compute in nt "operator_numeric".
Definition nt_accessor := Eval vm_compute in nt "operator_accessor".
Definition nt_lambda := Eval vm_compute in nt "lambda_expression".
Definition nt_pair := Eval vm_compute in nt "pair".
Definition nt_key := Eval vm_compute in nt "key".
Definition nt_quoted := Eval vm_compute in nt "quoted_string".
Definition nt_child := Eval vm_compute in nt "child_resource".
Definition nt_breaks := Eval vm_compute in nt "__rep _CPP_COMMENT_NL".
Definition nt_commas := Eval vm_compute in nt "__rep ("","" value_brackets)".
Definition nt_rows := Eval vm_compute in nt "__rep (value_brackets ("","" value_brackets)* _CPP_COMMENT_NL*)".
Definition nt_pairs := Eval vm_compute in nt "__rep ("","" pair)".
Definition nt_items := Eval vm_compute in nt "__rep (((pair ("","" pair)*)|child_resource) _CPP_COMMENT_NL*)".
Definition nt_args := Eval vm_compute in nt "__rep ("","" _CPP_COMMENT_NL? value_brackets)".
Definition nt_margs := Eval vm_compute in nt "__rep [("","" value_brackets)]".
Definition nt_not := Eval vm_compute in nt "not_op".
Definition nt_minus := Eval vm_compute in nt "minus".
Definition nt_cond := Eval vm_compute in nt "conditional".
Definition nt_index := Eval vm_compute in nt "index_accessor".
Definition nt_method := Eval vm_compute in nt "function_accessor".
Definition nt_nested := Eval vm_compute in nt "nested_resource_accessor".
Definition nt_property := Eval vm_compute in nt "property_accessor".
Definition nt_items_of := Eval vm_compute in nt "loop_array".
Definition nt_indexed := Eval vm_compute in nt "loop_array_index".
Definition nt_entries := Eval vm_compute in nt "loop_object".
Definition op_nt (o : binop) : positive :=
  match o with
  | Ge => ltac:(let x := eval vm_compute in (nt "greater_than_or_equals") in exact x)
  | Gt => ltac:(let x := eval vm_compute in (nt "greater_than") in exact x)
  | Le => ltac:(let x := eval vm_compute in (nt "less_than_or_equals") in exact x)
  | Lt => ltac:(let x := eval vm_compute in (nt "less_than") in exact x)
  | Eq => ltac:(let x := eval vm_compute in (nt "equals") in exact x)
  | Ne => ltac:(let x := eval vm_compute in (nt "not_equals") in exact x)
  | EqI => ltac:(let x := eval vm_compute in (nt "equals_case_insens") in exact x)
  | NeI => ltac:(let x := eval vm_compute in (nt "not_equals_case_insens") in exact x)
  | And => ltac:(let x := eval vm_compute in (nt "and_op") in exact x)
  | Or => ltac:(let x := eval vm_compute in (nt "or_op") in exact x)
  | Coalesce => ltac:(let x := eval vm_compute in (nt "coalesce") in exact x)
  | Add => ltac:(let x := eval vm_compute in (nt "add") in exact x)
  | Div => ltac:(let x := eval vm_compute in (nt "divide") in exact x)
  | Mod => ltac:(let x := eval vm_compute in (nt "modulo") in exact x)
  | Mul => ltac:(let x := eval vm_compute in (nt "multiply") in exact x)
  | Sub => ltac:(let x := eval vm_compute in (nt "substract") in exact x)
  end.


(** ** Tags *)
Definition start_code (b : beginning) : N := match b with Apart => 0 | Joining => 1 | OnNextLine => 2 | Word => 3 end.
Definition tag (e : expr) : N := (start_code (begins e) + (if open e then 4 else 0))%N.
Lemma tag_any e : N.testbit 255 (tag e) = true.
Proof. unfold tag. destruct (begins e), (open e); reflexivity. Qed.
Lemma tag_here e : same_line e = true -> N.testbit 187 (tag e) = true.
Proof. unfold tag, same_line. destruct (begins e), (open e); cbn; congruence. Qed.
Lemma tag_plain e : apart e = true -> N.testbit 17 (tag e) = true.
Proof. unfold tag, apart. destruct (begins e), (open e); cbn; congruence. Qed.
Lemma tag_shut e : open e = false -> N.testbit 15 (tag e) = true.
Proof. unfold tag. intros ->. destruct (begins e); reflexivity. Qed.
Lemma tag_closed e : open e = false -> tag e = start_code (begins e).
Proof. unfold tag. intros ->. destruct (begins e); reflexivity. Qed.
Lemma tag_lt e : (tag e < 8)%N.
Proof. unfold tag. destruct (begins e), (open e); reflexivity. Qed.

Ltac shut := first [reflexivity | assumption | apply tag_any | apply tag_here; assumption | apply tag_plain; assumption | apply tag_shut; assumption].
(** Solve what remains of a rule application by reflexivity or hypotheses. *)
Ltac fin := first [shut | cbn [flat_map part_tokens app map part_tree choose make inner]; rewrite ?app_nil_r, <- ?app_assoc; cbn [app]; reflexivity].
Ltac use i ps := by_rule i ps; fin.
Ltac tags8 k Hk :=
  let H := fresh in
  assert (H : k = 0%N \/ k = 1%N \/ k = 2%N \/ k = 3%N \/ k = 4%N \/ k = 5%N \/ k = 6%N \/ k = 7%N) by lia;
  destruct H as [->|[->|[->|[->|[->|[->|[-> | ->]]]]]]].

(** ** Chains *)
Ltac use_k base k ps := let i := eval vm_compute in (match k with N0 => base | Npos p => Pos.add base p end) in use i ps.
Ltac each base x ts t :=
  match goal with |- gen _ ?k _ _ => use_k base k [PN x k ts t] end.
Lemma to_brackets k ts t : (k < 8)%N -> gen nt_value k ts t -> gen nt_vb k ts t.
Proof. intros Hk H. tags8 k Hk; each 74%positive nt_value ts t. Qed.
Lemma of_operator k ts t : (k < 8)%N -> gen nt_operator k ts t -> gen nt_value k ts t.
Proof. intros Hk H. tags8 k Hk; each 54%positive nt_operator ts t. Qed.
Lemma of_lambda k ts t : (k < 8)%N -> gen nt_lambda k ts t -> gen nt_value k ts t.
Proof. intros Hk H. tags8 k Hk; each 62%positive nt_lambda ts t. Qed.
Lemma of_comparison k ts t : (k < 8)%N -> gen nt_comparison k ts t -> gen nt_value k ts (N_ L_operator [t]).
Proof. intros Hk H. apply of_operator; [exact Hk|]. tags8 k Hk; each 266%positive nt_comparison ts t. Qed.
Lemma of_logical k ts t : (k < 8)%N -> gen nt_logical k ts t -> gen nt_value k ts (N_ L_operator [t]).
Proof. intros Hk H. apply of_operator; [exact Hk|]. tags8 k Hk; each 274%positive nt_logical ts t. Qed.
Lemma of_numeric k ts t : (k < 8)%N -> gen nt_numeric k ts t -> gen nt_value k ts (N_ L_operator [t]).
Proof. intros Hk H. apply of_operator; [exact Hk|]. tags8 k Hk; each 282%positive nt_numeric ts t. Qed.
Lemma of_accessor k ts t : (k < 8)%N -> gen nt_accessor k ts t -> gen nt_value k ts (N_ L_operator [t]).
Proof. intros Hk H. apply of_operator; [exact Hk|]. tags8 k Hk; each 290%positive nt_accessor ts t. Qed.
Lemma of_binop o k ts t : (k < 8)%N -> gen (op_nt o) k ts t -> gen nt_value k ts (N_ L_operator [t]).
Proof.
  intros Hk H. destruct o; cbn [op_nt] in H.
  - apply of_comparison; [exact Hk|]. tags8 k Hk; each 298%positive (op_nt Ge) ts t.
  - apply of_comparison; [exact Hk|]. tags8 k Hk; each 306%positive (op_nt Gt) ts t.
  - apply of_comparison; [exact Hk|]. tags8 k Hk; each 314%positive (op_nt Le) ts t.
  - apply of_comparison; [exact Hk|]. tags8 k Hk; each 322%positive (op_nt Lt) ts t.
  - apply of_comparison; [exact Hk|]. tags8 k Hk; each 330%positive (op_nt Eq) ts t.
  - apply of_comparison; [exact Hk|]. tags8 k Hk; each 338%positive (op_nt Ne) ts t.
  - apply of_comparison; [exact Hk|]. tags8 k Hk; each 346%positive (op_nt EqI) ts t.
  - apply of_comparison; [exact Hk|]. tags8 k Hk; each 354%positive (op_nt NeI) ts t.
  - apply of_logical; [exact Hk|]. tags8 k Hk; each 394%positive (op_nt And) ts t.
  - apply of_logical; [exact Hk|]. tags8 k Hk; each 402%positive (op_nt Or) ts t.
  - apply of_logical; [exact Hk|]. tags8 k Hk; each 418%positive (op_nt Coalesce) ts t.
  - apply of_numeric; [exact Hk|]. tags8 k Hk; each 451%positive (op_nt Add) ts t.
  - apply of_numeric; [exact Hk|]. tags8 k Hk; each 459%positive (op_nt Div) ts t.
  - apply of_numeric; [exact Hk|]. tags8 k Hk; each 475%positive (op_nt Mod) ts t.
  - apply of_numeric; [exact Hk|]. tags8 k Hk; each 483%positive (op_nt Mul) ts t.
  - apply of_numeric; [exact Hk|]. tags8 k Hk; each 491%positive (op_nt Sub) ts t.
Qed.

(** ** Operators *)
(** [a] stands in front of an operator, [b] behind it. *)
Lemma start_lt b : (4 + start_code b < 8)%N.
Proof. destruct b; reflexivity. Qed.
Lemma start_lt' b : (start_code b < 8)%N.
Proof. destruct b; reflexivity. Qed.
Ltac infix base a ta rest :=
  match goal with |- gen _ ?k _ _ => let k' := eval vm_compute in (k mod 4)%N in use_k base k' (PN nt_vb k' a ta :: rest) end.
Lemma gen_binop o s a ta b tb kb : N.testbit 255 kb = true -> gen nt_vb (start_code s) a ta -> gen nt_vb kb b tb ->
  gen nt_value (4 + start_code s) (a ++ [Sym (op_sign o)] ++ b) (operator (op_label o) [ta; tb]).
Proof.
  intros Hb Ha Hg. apply (of_binop o); [apply start_lt|].
  destruct o.
  - destruct s; infix 362%positive a ta [PT (Sym (op_sign Ge)); PN nt_vb kb b tb].
  - destruct s; infix 366%positive a ta [PT (Sym (op_sign Gt)); PN nt_vb kb b tb].
  - destruct s; infix 370%positive a ta [PT (Sym (op_sign Le)); PN nt_vb kb b tb].
  - destruct s; infix 374%positive a ta [PT (Sym (op_sign Lt)); PN nt_vb kb b tb].
  - destruct s; infix 378%positive a ta [PT (Sym (op_sign Eq)); PN nt_vb kb b tb].
  - destruct s; infix 382%positive a ta [PT (Sym (op_sign Ne)); PN nt_vb kb b tb].
  - destruct s; infix 386%positive a ta [PT (Sym (op_sign EqI)); PN nt_vb kb b tb].
  - destruct s; infix 390%positive a ta [PT (Sym (op_sign NeI)); PN nt_vb kb b tb].
  - destruct s; infix 434%positive a ta [PT (Sym (op_sign And)); PN nt_vb kb b tb].
  - destruct s; infix 438%positive a ta [PT (Sym (op_sign Or)); PN nt_vb kb b tb].
  - destruct s; infix 443%positive a ta [PT (Sym (op_sign Coalesce)); PN nt_vb kb b tb].
  - destruct s; infix 499%positive a ta [PT (Sym (op_sign Add)); PN nt_vb kb b tb].
  - destruct s; infix 503%positive a ta [PT (Sym (op_sign Div)); PN nt_vb kb b tb].
  - destruct s; infix 508%positive a ta [PT (Sym (op_sign Mod)); PN nt_vb kb b tb].
  - destruct s; infix 512%positive a ta [PT (Sym (op_sign Mul)); PN nt_vb kb b tb].
  - destruct s; infix 516%positive a ta [PT (Sym (op_sign Sub)); PN nt_vb kb b tb].
Qed.
Lemma gen_not a ta k : N.testbit 187 k = true -> gen nt_vb k a ta -> gen nt_value 5 (Sym "!" :: a) (operator L_not_op [ta]).
Proof.
  intros Hk Ha. apply of_logical; [reflexivity|]. assert (gen nt_not 5 (Sym "!" :: a) (N_ L_not_op [ta])) by (use 442%positive [PT (Sym "!"); PN nt_vb k a ta]).
  use 415%positive [PN nt_not 5 (Sym "!" :: a) (N_ L_not_op [ta])].
Qed.
Lemma gen_minus a ta k : N.testbit 187 k = true -> gen nt_vb k a ta -> gen nt_value 5 (Sym "-" :: a) (operator L_minus [ta]).
Proof.
  intros Hk Ha. apply of_numeric; [reflexivity|]. assert (gen nt_minus 5 (Sym "-" :: a) (N_ L_minus [ta])) by (use 507%positive [PT (Sym "-"); PN nt_vb k a ta]).
  use 472%positive [PN nt_minus 5 (Sym "-" :: a) (N_ L_minus [ta])].
Qed.
Lemma gen_cond s c tc a ta ka b tb kb : gen nt_vb (start_code s) c tc -> N.testbit 187 ka = true -> gen nt_vb ka a ta ->
  N.testbit 255 kb = true -> gen nt_vb kb b tb ->
  gen nt_value (4 + start_code s) (c ++ [Sym "?"] ++ a ++ [Sym ":"] ++ b) (operator L_conditional [tc; ta; tb]).
Proof.
  intros Hc Hka Ha Hkb Hb. apply of_logical; [apply start_lt|].
  set (ts := (c ++ _)%list). assert (H : gen nt_cond (4 + start_code s) ts (N_ L_conditional [tc; ta; tb])).
  { destruct s; infix 447%positive c tc [PT (Sym "?"); PN nt_vb ka a ta; PT (Sym ":"); PN nt_vb kb b tb]. }
  destruct s; each 426%positive nt_cond ts (N_ L_conditional [tc; ta; tb]).
Qed.
Lemma gen_dot s q a ta b tb kb : gen nt_vb (start_code s) a ta -> N.testbit 255 kb = true -> gen nt_vb kb b tb ->
  gen nt_value (4 + start_code s) (a ++ [Sym "."] ++ mark q "?" ++ b) (operator L_property_accessor [ta; tb]).
Proof.
  intros Ha Hkb Hb. apply of_accessor; [apply start_lt|].
  set (ts := (a ++ _)%list). assert (H : gen nt_property (4 + start_code s) ts (N_ L_property_accessor [ta; tb])).
  { destruct q.
    - destruct s; infix 572%positive a ta [PT (Sym "."); PT (Sym "?"); PN nt_vb kb b tb].
    - destruct s; infix 576%positive a ta [PT (Sym "."); PN nt_vb kb b tb]. }
  destruct s; each 544%positive nt_property ts (N_ L_property_accessor [ta; tb]).
Qed.
Lemma gen_nested s a ta b tb kb : gen nt_vb (start_code s) a ta -> N.testbit 255 kb = true -> gen nt_vb kb b tb ->
  gen nt_value (4 + start_code s) (a ++ [Sym "::"] ++ b) (operator L_nested_resource_accessor [ta; tb]).
Proof.
  intros Ha Hkb Hb. apply of_accessor; [apply start_lt|].
  set (ts := (a ++ _)%list). assert (H : gen nt_nested (4 + start_code s) ts (N_ L_nested_resource_accessor [ta; tb])).
  { destruct s; infix 568%positive a ta [PT (Sym "::"); PN nt_vb kb b tb]. }
  destruct s; each 536%positive nt_nested ts (N_ L_nested_resource_accessor [ta; tb]).
Qed.
Lemma gen_index s q a ta b tb kb : gen nt_vb (start_code s) a ta -> N.testbit 187 kb = true -> gen nt_vb kb b tb ->
  gen nt_value (start_code s) (a ++ [Sym "["] ++ mark q "?" ++ b ++ [Sym "]"]) (operator L_index_accessor [ta; tb]).
Proof.
  intros Ha Hkb Hb. apply of_accessor; [apply start_lt'|].
  set (ts := (a ++ _)%list). assert (H : gen nt_index (start_code s) ts (N_ L_index_accessor [ta; tb])).
  { destruct q.
    - destruct s; infix 552%positive a ta [PT (Sym "["); PT (Sym "?"); PN nt_vb kb b tb; PT (Sym "]")].
    - destruct s; infix 556%positive a ta [PT (Sym "["); PN nt_vb kb b tb; PT (Sym "]")]. }
  destruct s; each 520%positive nt_index ts (N_ L_index_accessor [ta; tb]).
Qed.
Lemma gen_lambda s a ta b tb kb : gen nt_vb (start_code s) a ta -> N.testbit 255 kb = true -> gen nt_vb kb b tb ->
  gen nt_value (4 + start_code s) (a ++ [Sym "=>"] ++ b) (N_ L_lambda_expression [ta; tb]).
Proof.
  intros Ha Hkb Hb. apply of_lambda; [apply start_lt|].
  destruct s; infix 168%positive a ta [PT (Sym "=>"); PN nt_vb kb b tb].
Qed.
Lemma gen_paren a ta k : N.testbit 255 k = true -> gen nt_value k a ta -> gen nt_vb 0 ([Sym "("] ++ a ++ [Sym ")"]) ta.
Proof. intros Hk Ha. use 83%positive [PT (Sym "("); PN nt_value k a ta; PT (Sym ")")]. Qed.
Lemma gen_paren_bang a ta k : N.testbit 255 k = true -> gen nt_value k a ta -> gen nt_vb 0 (([Sym "("] ++ a ++ [Sym ")"]) ++ [Sym "!"]) ta.
Proof. intros Hk Ha. use 82%positive [PT (Sym "("); PN nt_value k a ta; PT (Sym ")"); PT (Sym "!")]. Qed.
Lemma gen_bang s a ta : gen nt_value (start_code s) a ta -> gen nt_vb (start_code s) (a ++ [Sym "!"]) ta.
Proof.
  intros Ha. destruct s.
  - use 70%positive [PN nt_value 0 a ta; PT (Sym "!")].
  - use 71%positive [PN nt_value 1 a ta; PT (Sym "!")].
  - use 72%positive [PN nt_value 2 a ta; PT (Sym "!")].
  - use 73%positive [PN nt_value 3 a ta; PT (Sym "!")].
Qed.

(** ** Sequences *)
Notation rep cs := (N_ L_nocallback cs).
(** What is known about an operand. *)
Definition operand (e : expr) : Prop := gen nt_vb (tag e) (tokens e) (tree e).
Lemma gen_breaks : forall l, l <> [] -> gen nt_breaks 0 (breaks l) (rep []).
Proof.
  intros l. induction l as [|b l IH] using rev_ind; intros Hl; [congruence|]. unfold breaks in *. rewrite map_app. destruct l as [|c l].
  - use 590%positive [PT (Break b)].
  - specialize (IH ltac:(discriminate)). use 591%positive [PN nt_breaks 0 (map Break (c :: l)) (rep []); PT (Break b)].
Qed.
Definition comma (e : expr) : list tokn := Sym "," :: tokens e.
Lemma gen_commas : forall l, l <> [] -> Forall operand l -> gen nt_commas 0 (flat_map comma l) (rep (map tree l)).
Proof.
  intros l. induction l as [|e l IH] using rev_ind; intros Hl Hf; [congruence|].
  apply Forall_app in Hf as [Hf He]. apply Forall_inv in He. rewrite flat_map_app, map_app. destruct l as [|c l].
  - use 598%positive [PT (Sym ","); PN nt_vb (tag e) (tokens e) (tree e)].
  - specialize (IH ltac:(discriminate) Hf).
    use 599%positive [PN nt_commas 0 (flat_map comma (c :: l)) (rep (map tree (c :: l))); PT (Sym ","); PN nt_vb (tag e) (tokens e) (tree e)].
Qed.

(** ** Arrays *)
Definition row_tokens (r : expr * list expr * list str) : list tokn :=
  let '(x, xs, brs) := r in (tokens x ++ flat_map comma xs ++ breaks brs)%list.
Definition row_trees (r : expr * list expr * list str) : list ptree := let '(x, xs, _) := r in tree x :: map tree xs.
Definition row_operands (r : expr * list expr * list str) : Prop := let '(x, xs, _) := r in operand x /\ Forall operand xs.
Definition row_tag (broken : bool) : N := if broken then 0%N else 1%N.
Ltac value x := constr:(PN nt_vb (tag x) (tokens x) (tree x)).
Lemma gen_row x xs brs : same_line x = true -> row_operands (x, xs, brs) ->
  gen nt_rows (row_tag (some brs)) (row_tokens (x, xs, brs)) (rep (row_trees (x, xs, brs))).
Proof.
  intros Hl [Hx Hxs]. cbn [row_tokens row_trees]. unfold operand in Hx.
  destruct xs as [|y ys], brs as [|b bs]; try (pose proof (gen_commas (y :: ys) ltac:(discriminate) Hxs) as Hc); try (pose proof (gen_breaks (b :: bs) ltac:(discriminate)) as Hb); cbn [some row_tag].
  - use 603%positive [PN nt_vb (tag x) (tokens x) (tree x)].
  - use 602%positive [PN nt_vb (tag x) (tokens x) (tree x); PN nt_breaks 0 (breaks (b :: bs)) (rep [])].
  - use 601%positive [PN nt_vb (tag x) (tokens x) (tree x); PN nt_commas 0 (flat_map comma (y :: ys)) (rep (map tree (y :: ys)))].
  - use 600%positive [PN nt_vb (tag x) (tokens x) (tree x); PN nt_commas 0 (flat_map comma (y :: ys)) (rep (map tree (y :: ys))); PN nt_breaks 0 (breaks (b :: bs)) (rep [])].
Qed.
Lemma gen_row_more broken acc cs x xs brs : gen nt_rows (row_tag broken) acc (rep cs) ->
  (if broken then same_line x else apart x) = true -> row_operands (x, xs, brs) ->
  gen nt_rows (row_tag (some brs)) (acc ++ row_tokens (x, xs, brs)) (rep (cs ++ row_trees (x, xs, brs))).
Proof.
  intros Ha Hl [Hx Hxs]. cbn [row_tokens row_trees]. unfold operand in Hx.
  destruct xs as [|y ys], brs as [|b bs]; try (pose proof (gen_commas (y :: ys) ltac:(discriminate) Hxs) as Hc); try (pose proof (gen_breaks (b :: bs) ltac:(discriminate)) as Hb);
    destruct broken; cbn [some row_tag] in *.
  - use 610%positive [PN nt_rows 0 acc (rep cs); PN nt_vb (tag x) (tokens x) (tree x)].
  - use 611%positive [PN nt_rows 1 acc (rep cs); PN nt_vb (tag x) (tokens x) (tree x)].
  - use 608%positive [PN nt_rows 0 acc (rep cs); PN nt_vb (tag x) (tokens x) (tree x); PN nt_breaks 0 (breaks (b :: bs)) (rep [])].
  - use 609%positive [PN nt_rows 1 acc (rep cs); PN nt_vb (tag x) (tokens x) (tree x); PN nt_breaks 0 (breaks (b :: bs)) (rep [])].
  - use 606%positive [PN nt_rows 0 acc (rep cs); PN nt_vb (tag x) (tokens x) (tree x); PN nt_commas 0 (flat_map comma (y :: ys)) (rep (map tree (y :: ys)))].
  - use 607%positive [PN nt_rows 1 acc (rep cs); PN nt_vb (tag x) (tokens x) (tree x); PN nt_commas 0 (flat_map comma (y :: ys)) (rep (map tree (y :: ys)))].
  - use 604%positive [PN nt_rows 0 acc (rep cs); PN nt_vb (tag x) (tokens x) (tree x); PN nt_commas 0 (flat_map comma (y :: ys)) (rep (map tree (y :: ys))); PN nt_breaks 0 (breaks (b :: bs)) (rep [])].
  - use 605%positive [PN nt_rows 1 acc (rep cs); PN nt_vb (tag x) (tokens x) (tree x); PN nt_commas 0 (flat_map comma (y :: ys)) (rep (map tree (y :: ys))); PN nt_breaks 0 (breaks (b :: bs)) (rep [])].
Qed.
Lemma gen_rows_more : forall rows broken acc cs, gen nt_rows (row_tag broken) acc (rep cs) -> rows_ok broken rows = true -> Forall row_operands rows ->
  exists k, N.testbit 3 k = true /\ gen nt_rows k (acc ++ flat_map row_tokens rows) (rep (cs ++ flat_map row_trees rows)).
Proof.
  induction rows as [|[[x xs] brs] rows IH]; intros broken acc cs Ha Hok Hf.
  - exists (row_tag broken). split; [destruct broken; reflexivity|]. cbn [flat_map]. rewrite !app_nil_r. exact Ha.
  - cbn [rows_ok] in Hok. apply andb_true_iff in Hok as [H1 H2]. inversion Hf as [|? ? Hr Hrs]; subst.
    destruct (IH _ _ _ (gen_row_more broken acc cs x xs brs Ha H1 Hr) H2 Hrs) as (k & Hk & H). exists k. split; [exact Hk|].
    cbn [flat_map]. rewrite !app_assoc. exact H.
Qed.
Lemma gen_rows rows : rows <> [] -> rows_ok true rows = true -> Forall row_operands rows ->
  exists k, N.testbit 3 k = true /\ gen nt_rows k (flat_map row_tokens rows) (rep (flat_map row_trees rows)).
Proof.
  intros Hne Hok Hf. destruct rows as [|[[x xs] brs] rows]; [congruence|]. cbn [rows_ok] in Hok. apply andb_true_iff in Hok as [H1 H2].
  inversion Hf as [|? ? Hr Hrs]; subst. exact (gen_rows_more rows _ _ _ (gen_row x xs brs H1 Hr) H2 Hrs).
Qed.
Lemma gen_array lead rows : rows_ok true rows = true -> Forall row_operands rows ->
  gen nt_value 1 (tokens (EArray lead rows)) (tree (EArray lead rows)).
Proof.
  intros Hok Hf. change (tokens (EArray lead rows)) with ([Sym "["] ++ breaks lead ++ flat_map row_tokens rows ++ [Sym "]"])%list.
  change (tree (EArray lead rows)) with (N_ L_array (flat_map row_trees rows)).
  set (ts := (_ ++ _)%list). assert (Ha : gen nt_array 0 ts (N_ L_array (flat_map row_trees rows))).
  { destruct lead as [|b bs]; try (pose proof (gen_breaks (b :: bs) ltac:(discriminate)) as Hb);
      (destruct rows as [|r rows]; [|destruct (gen_rows (r :: rows) ltac:(discriminate) Hok Hf) as (k & Hk & Hr)]).
    - use 157%positive [PT (Sym "["); PT (Sym "]")].
    - use 156%positive [PT (Sym "["); PN nt_rows k (flat_map row_tokens (r :: rows)) (rep (flat_map row_trees (r :: rows))); PT (Sym "]")].
    - use 155%positive [PT (Sym "["); PN nt_breaks 0 (breaks (b :: bs)) (rep []); PT (Sym "]")].
    - use 154%positive [PT (Sym "["); PN nt_breaks 0 (breaks (b :: bs)) (rep []); PN nt_rows k (flat_map row_tokens (r :: rows)) (rep (flat_map row_trees (r :: rows))); PT (Sym "]")]. }
  use 50%positive [PN nt_array 0 ts (N_ L_array (flat_map row_trees rows))].
Qed.

(** ** Objects *)
Definition key_ts (k : key) : list tokn := [key_token k].
Lemma gen_key k : gen nt_key 0 [key_token k] (key_tree k).
Proof.
  destruct k as [v|c|].
  - assert (H : gen nt_quoted 0 [Key v] (leaf (Key v))) by (use 151%positive [PT (Key v)]). use 167%positive [PN nt_quoted 0 [Key v] (leaf (Key v))].
  - assert (H : gen nt_quoted 0 [Quoted c] (leaf (Quoted c))) by (use 153%positive [PT (Quoted c)]). use 167%positive [PN nt_quoted 0 [Quoted c] (leaf (Quoted c))].
  - use 166%positive [PT (Kw "resource")].
Qed.
(** What is known about the value of a key and about the body of a resource. *)
Definition content (e : expr) : Prop := if is_loop e then gen nt_loop 0 (tokens e) (tree e) else operand e.
Definition body_nt (e : expr) : positive := match e with EObject _ _ => nt_object | ELoop _ _ _ _ _ _ => nt_loop | _ => nt_if end.
Definition body (e : expr) : Prop := is_body e = true /\ gen (body_nt e) 0 (tokens e) (tree e).
Definition pair_tokens (p : key * expr * bool) : list tokn := let '(k, v, q) := p in ([key_token k; Sym ":"] ++ tokens v ++ mark q "?")%list.
Definition pair_tree (p : key * expr * bool) : ptree := let '(k, v, _) := p in N_ L_pair [key_tree k; tree v].
Definition pair_known (p : key * expr * bool) : Prop := let '(_, v, q) := p in content v /\ Syntax.pair_ok v q = true.
Definition pair_tag (p : key * expr * bool) : N := let '(_, _, q) := p in if q then 1%N else 0%N.
Lemma pair_tag_3 p : N.testbit 3 (pair_tag p) = true.
Proof. destruct p as [[k v] q]. destruct q; reflexivity. Qed.
Lemma gen_pair p : pair_known p -> gen nt_pair (pair_tag p) (pair_tokens p) (pair_tree p).
Proof.
  destruct p as [[k v] q]. intros [Hv Hq]. unfold content, Syntax.pair_ok in *. cbn [pair_tokens pair_tree pair_tag]. pose proof (gen_key k) as Hk.
  destruct (is_loop v) eqn:Hl, q.
  - use 164%positive [PN nt_key 0 [key_token k] (key_tree k); PT (Sym ":"); PN nt_loop 0 (tokens v) (tree v); PT (Sym "?")].
  - use 165%positive [PN nt_key 0 [key_token k] (key_tree k); PT (Sym ":"); PN nt_loop 0 (tokens v) (tree v)].
  - apply andb_true_iff in Hq as [_ Hq]. cbn [negb orb] in Hq. apply negb_true_iff in Hq. unfold operand in Hv.
    use 162%positive [PN nt_key 0 [key_token k] (key_tree k); PT (Sym ":"); PN nt_vb (tag v) (tokens v) (tree v); PT (Sym "?")].
  - unfold operand in Hv. use 163%positive [PN nt_key 0 [key_token k] (key_tree k); PT (Sym ":"); PN nt_vb (tag v) (tokens v) (tree v)].
Qed.
Definition comma_pair (p : key * expr * bool) : list tokn := Sym "," :: pair_tokens p.
Lemma gen_pairs : forall l, l <> [] -> Forall pair_known l -> gen nt_pairs 0 (flat_map comma_pair l) (rep (map pair_tree l)).
Proof.
  intros l. induction l as [|e l IH] using rev_ind; intros Hl Hf; [congruence|].
  apply Forall_app in Hf as [Hf He]. apply Forall_inv in He. apply gen_pair in He. pose proof (pair_tag_3 e) as Ht. rewrite flat_map_app, map_app. destruct l as [|c l].
  - use 612%positive [PT (Sym ","); PN nt_pair (pair_tag e) (pair_tokens e) (pair_tree e)].
  - specialize (IH ltac:(discriminate) Hf).
    use 613%positive [PN nt_pairs 0 (flat_map comma_pair (c :: l)) (rep (map pair_tree (c :: l))); PT (Sym ","); PN nt_pair (pair_tag e) (pair_tokens e) (pair_tree e)].
Qed.
Definition item_known (i : item) : Prop :=
  match i with
  | Pairs k v q more => pair_known (k, v, q) /\ Forall pair_known more
  | Child _ _ _ e => body e
  end.
Lemma pairs_tokens k v q more : item_tokens (Pairs k v q more) = (pair_tokens (k, v, q) ++ flat_map comma_pair more)%list.
Proof.
  cbn [item_tokens pair_tokens]. rewrite <- !app_assoc. do 3 f_equal. apply flat_map_ext. intros [[k' v'] q']. reflexivity.
Qed.
Lemma gen_child n ty ex e brs : body e -> brs <> [] ->
  gen nt_child 0 (item_tokens (Child n ty ex e) ++ breaks brs) (N_ L_child_resource [leaf (Name n); leaf (Quoted ty); existing_tree ex; tree e]).
Proof.
  intros [Hb He] Hbr. pose proof (gen_breaks brs Hbr) as Hn. cbn [item_tokens]. destruct e; cbn [is_body body_nt] in Hb, He; try discriminate Hb; set (te := tokens _) in *; set (tr := tree _) in *; clearbody te tr; destruct ex.
  - use 102%positive [PT (Kw "resource"); PT (Name n); PT (Quoted ty); PT (Kw "existing"); PT (Sym "="); PN nt_object 0 te tr; PN nt_breaks 0 (breaks brs) (rep [])].
  - use 105%positive [PT (Kw "resource"); PT (Name n); PT (Quoted ty); PT (Sym "="); PN nt_object 0 te tr; PN nt_breaks 0 (breaks brs) (rep [])].
  - use 103%positive [PT (Kw "resource"); PT (Name n); PT (Quoted ty); PT (Kw "existing"); PT (Sym "="); PN nt_loop 0 te tr; PN nt_breaks 0 (breaks brs) (rep [])].
  - use 106%positive [PT (Kw "resource"); PT (Name n); PT (Quoted ty); PT (Sym "="); PN nt_loop 0 te tr; PN nt_breaks 0 (breaks brs) (rep [])].
  - use 104%positive [PT (Kw "resource"); PT (Name n); PT (Quoted ty); PT (Kw "existing"); PT (Sym "="); PN nt_if 0 te tr; PN nt_breaks 0 (breaks brs) (rep [])].
  - use 107%positive [PT (Kw "resource"); PT (Name n); PT (Quoted ty); PT (Sym "="); PN nt_if 0 te tr; PN nt_breaks 0 (breaks brs) (rep [])].
Qed.
Definition irow_tokens (r : item * list str) : list tokn := (item_tokens (fst r) ++ breaks (snd r))%list.
Definition irow_trees (r : item * list str) : list ptree := item_trees (fst r).
Lemma pairs_trees k v q more : item_trees (Pairs k v q more) = pair_tree (k, v, q) :: map pair_tree more.
Proof. reflexivity. Qed.
Lemma some_ne {A} (l : list A) : some l = true -> l <> [].
Proof. destruct l; [discriminate|congruence]. Qed.
Lemma gen_irow i brs : item_known i -> (some brs || match i with Child _ _ _ _ => false | _ => true end) = true ->
  gen nt_items (row_tag (some brs)) (irow_tokens (i, brs)) (rep (irow_trees (i, brs))).
Proof.
  intros Hi Hb. unfold irow_tokens, irow_trees. cbn [fst snd]. destruct i as [k v q more|n ty ex e]; cbn [item_known] in Hi.
  - destruct Hi as [Hp Hps]. rewrite pairs_tokens, pairs_trees. apply gen_pair in Hp. set (p := (k, v, q)) in *. clearbody p. pose proof (pair_tag_3 p) as Ht.
    destruct more as [|y ys], brs as [|b bs]; try (pose proof (gen_pairs (y :: ys) ltac:(discriminate) Hps) as Hc); try (pose proof (gen_breaks (b :: bs) ltac:(discriminate)) as Hn); cbn [some row_tag].
    + use 617%positive [PN nt_pair (pair_tag p) (pair_tokens p) (pair_tree p)].
    + use 616%positive [PN nt_pair (pair_tag p) (pair_tokens p) (pair_tree p); PN nt_breaks 0 (breaks (b :: bs)) (rep [])].
    + use 615%positive [PN nt_pair (pair_tag p) (pair_tokens p) (pair_tree p); PN nt_pairs 0 (flat_map comma_pair (y :: ys)) (rep (map pair_tree (y :: ys)))].
    + use 614%positive [PN nt_pair (pair_tag p) (pair_tokens p) (pair_tree p); PN nt_pairs 0 (flat_map comma_pair (y :: ys)) (rep (map pair_tree (y :: ys))); PN nt_breaks 0 (breaks (b :: bs)) (rep [])].
  - rewrite orb_false_r in Hb. rewrite Hb. apply some_ne in Hb. pose proof (gen_child n ty ex e brs Hi Hb) as H. cbn [row_tag].
    set (ts := (_ ++ _)%list) in *. cbn [item_trees]. set (t := N_ L_child_resource _) in *. clearbody ts t. use 618%positive [PN nt_child 0 ts t].
Qed.
Lemma gen_irow_more acc cs i brs : gen nt_items 0 acc (rep cs) -> item_known i -> (some brs || match i with Child _ _ _ _ => false | _ => true end) = true ->
  gen nt_items (row_tag (some brs)) (acc ++ irow_tokens (i, brs)) (rep (cs ++ irow_trees (i, brs))).
Proof.
  intros Ha Hi Hb. unfold irow_tokens, irow_trees. cbn [fst snd]. destruct i as [k v q more|n ty ex e]; cbn [item_known] in Hi.
  - destruct Hi as [Hp Hps]. rewrite pairs_tokens, pairs_trees. apply gen_pair in Hp. set (p := (k, v, q)) in *. clearbody p. pose proof (pair_tag_3 p) as Ht.
    destruct more as [|y ys], brs as [|b bs]; try (pose proof (gen_pairs (y :: ys) ltac:(discriminate) Hps) as Hc); try (pose proof (gen_breaks (b :: bs) ltac:(discriminate)) as Hn); cbn [some row_tag].
    + use 622%positive [PN nt_items 0 acc (rep cs); PN nt_pair (pair_tag p) (pair_tokens p) (pair_tree p)].
    + use 621%positive [PN nt_items 0 acc (rep cs); PN nt_pair (pair_tag p) (pair_tokens p) (pair_tree p); PN nt_breaks 0 (breaks (b :: bs)) (rep [])].
    + use 620%positive [PN nt_items 0 acc (rep cs); PN nt_pair (pair_tag p) (pair_tokens p) (pair_tree p); PN nt_pairs 0 (flat_map comma_pair (y :: ys)) (rep (map pair_tree (y :: ys)))].
    + use 619%positive [PN nt_items 0 acc (rep cs); PN nt_pair (pair_tag p) (pair_tokens p) (pair_tree p); PN nt_pairs 0 (flat_map comma_pair (y :: ys)) (rep (map pair_tree (y :: ys))); PN nt_breaks 0 (breaks (b :: bs)) (rep [])].
  - rewrite orb_false_r in Hb. rewrite Hb. apply some_ne in Hb. pose proof (gen_child n ty ex e brs Hi Hb) as H. cbn [row_tag].
    set (ts := (item_tokens _ ++ _)%list) in *. cbn [item_trees]. set (t := N_ L_child_resource _) in *. clearbody ts t. use 623%positive [PN nt_items 0 acc (rep cs); PN nt_child 0 ts t].
Qed.
Lemma gen_items_more : forall rows broken acc cs, gen nt_items (row_tag broken) acc (rep cs) -> (broken || negb (some rows)) = true -> Syntax.items_ok rows = true ->
  Forall (fun r => item_known (fst r)) rows ->
  exists k, N.testbit 3 k = true /\ gen nt_items k (acc ++ flat_map irow_tokens rows) (rep (cs ++ flat_map irow_trees rows)).
Proof.
  induction rows as [|[i brs] rows IH]; intros broken acc cs Ha Hb Hok Hf.
  - exists (row_tag broken). split; [destruct broken; reflexivity|]. cbn [flat_map]. rewrite !app_nil_r. exact Ha.
  - cbn [some negb] in Hb. rewrite orb_false_r in Hb. subst broken. cbn [Syntax.items_ok] in Hok. apply andb_true_iff in Hok as [H1 H2]. inversion Hf as [|? ? Hr Hrs]; subst. cbn [fst] in Hr.
    assert (H3 : (some brs || match i with Child _ _ _ _ => false | _ => true end) = true).
    { apply orb_true_iff in H1 as [H1|H1]; [rewrite H1; reflexivity|]. apply andb_true_iff in H1 as [_ H1]. rewrite H1. apply orb_true_r. }
    assert (H4 : (some brs || negb (some rows)) = true).
    { apply orb_true_iff in H1 as [H1|H1]; [rewrite H1; reflexivity|]. apply andb_true_iff in H1 as [H1 _]. rewrite H1. apply orb_true_r. }
    destruct (IH _ _ _ (gen_irow_more acc cs i brs Ha Hr H3) H4 H2 Hrs) as (k & Hk & H). exists k. split; [exact Hk|].
    cbn [flat_map]. rewrite !app_assoc. exact H.
Qed.
Lemma gen_items rows : rows <> [] -> Syntax.items_ok rows = true -> Forall (fun r => item_known (fst r)) rows ->
  exists k, N.testbit 3 k = true /\ gen nt_items k (flat_map irow_tokens rows) (rep (flat_map irow_trees rows)).
Proof.
  intros Hne Hok Hf. destruct rows as [|[i brs] rows]; [congruence|]. cbn [Syntax.items_ok] in Hok. apply andb_true_iff in Hok as [H1 H2]. inversion Hf as [|? ? Hr Hrs]; subst. cbn [fst] in Hr.
  assert (H3 : (some brs || match i with Child _ _ _ _ => false | _ => true end) = true).
  { apply orb_true_iff in H1 as [H1|H1]; [rewrite H1; reflexivity|]. apply andb_true_iff in H1 as [_ H1]. rewrite H1. apply orb_true_r. }
  assert (H4 : (some brs || negb (some rows)) = true).
  { apply orb_true_iff in H1 as [H1|H1]; [rewrite H1; reflexivity|]. apply andb_true_iff in H1 as [H1 _]. rewrite H1. apply orb_true_r. }
  exact (gen_items_more rows _ _ _ (gen_irow i brs Hr H3) H4 H2 Hrs).
Qed.
Lemma gen_object lead rows : Syntax.items_ok rows = true -> Forall (fun r => item_known (fst r)) rows ->
  gen nt_object 0 (tokens (EObject lead rows)) (tree (EObject lead rows)).
Proof.
  intros Hok Hf. change (tokens (EObject lead rows)) with ([Sym "{"] ++ breaks lead ++ flat_map irow_tokens rows ++ [Sym "}"])%list.
  change (tree (EObject lead rows)) with (N_ L_object (flat_map irow_trees rows)).
  destruct lead as [|b bs]; try (pose proof (gen_breaks (b :: bs) ltac:(discriminate)) as Hb);
    (destruct rows as [|r rows]; [|destruct (gen_items (r :: rows) ltac:(discriminate) Hok Hf) as (k & Hk & Hr)]).
  - use 161%positive [PT (Sym "{"); PT (Sym "}")].
  - use 160%positive [PT (Sym "{"); PN nt_items k (flat_map irow_tokens (r :: rows)) (rep (flat_map irow_trees (r :: rows))); PT (Sym "}")].
  - use 159%positive [PT (Sym "{"); PN nt_breaks 0 (breaks (b :: bs)) (rep []); PT (Sym "}")].
  - use 158%positive [PT (Sym "{"); PN nt_breaks 0 (breaks (b :: bs)) (rep []); PN nt_items k (flat_map irow_tokens (r :: rows)) (rep (flat_map irow_trees (r :: rows))); PT (Sym "}")].
Qed.

(** ** Calls *)
Definition arg_tokens (a : option str * expr) : list tokn := ([Sym ","] ++ break (fst a) ++ tokens (snd a))%list.
Definition arg_tree (a : option str * expr) : ptree := tree (snd a).
Definition arg_known (a : option str * expr) : Prop := operand (snd a) /\ same_line (snd a) = true.
Lemma gen_args : forall l, l <> [] -> Forall arg_known l -> gen nt_args 0 (flat_map arg_tokens l) (rep (map arg_tree l)).
Proof.
  intros l. induction l as [|[br e] l IH] using rev_ind; intros Hl Hf; [congruence|].
  apply Forall_app in Hf as [Hf He]. apply Forall_inv in He as [He Hs]. unfold operand in He. cbn [snd] in *. rewrite flat_map_app, map_app.
  destruct l as [|c l]; [|specialize (IH ltac:(discriminate) Hf)]; destruct br as [b|].
  - use 626%positive [PT (Sym ","); PT (Break b); PN nt_vb (tag e) (tokens e) (tree e)].
  - use 627%positive [PT (Sym ","); PN nt_vb (tag e) (tokens e) (tree e)].
  - use 628%positive [PN nt_args 0 (flat_map arg_tokens (c :: l)) (rep (map arg_tree (c :: l))); PT (Sym ","); PT (Break b); PN nt_vb (tag e) (tokens e) (tree e)].
  - use 629%positive [PN nt_args 0 (flat_map arg_tokens (c :: l)) (rep (map arg_tree (c :: l))); PT (Sym ","); PN nt_vb (tag e) (tokens e) (tree e)].
Qed.
Definition first_known (lead : option str) (first : option expr) (more : list (option str * expr)) : Prop :=
  match first with Some x => operand x /\ same_line x = true | None => lead = None /\ more = [] end.
Lemma gen_call f lead first more trail : first_known lead first more -> Forall arg_known more ->
  gen nt_function 0 (tokens (ECall f lead first more trail)) (tree (ECall f lead first more trail)).
Proof.
  intros H1 Hm. change (tree (ECall f lead first more trail)) with
    (N_ L_function (leaf (Fun f) :: match first with Some x => [tree x] | None => [] end ++ map arg_tree more)).
  change (tokens (ECall f lead first more trail)) with ([Fun f] ++ break lead ++ match first with Some x => tokens x | None => [] end ++
    flat_map arg_tokens more ++ break trail ++ [Sym ")"])%list.
  destruct first as [e|]; cbn [first_known] in H1; [|destruct H1 as [-> ->]; destruct trail as [b|]].
  2: use 258%positive [PT (Fun f); PT (Break b); PT (Sym ")")].
  2: use 265%positive [PT (Fun f); PT (Sym ")")].
  - destruct H1 as [He Hs]. unfold operand in He.
    destruct more as [|y ys]; [|pose proof (gen_args (y :: ys) ltac:(discriminate) Hm) as Hc]; destruct lead as [b|], trail as [z|].
    + use 253%positive [PT (Fun f); PT (Break b); PN nt_vb (tag e) (tokens e) (tree e); PT (Break z); PT (Sym ")")].
    + use 254%positive [PT (Fun f); PT (Break b); PN nt_vb (tag e) (tokens e) (tree e); PT (Sym ")")].
    + use 261%positive [PT (Fun f); PN nt_vb (tag e) (tokens e) (tree e); PT (Break z); PT (Sym ")")].
    + use 262%positive [PT (Fun f); PN nt_vb (tag e) (tokens e) (tree e); PT (Sym ")")].
    + use 251%positive [PT (Fun f); PT (Break b); PN nt_vb (tag e) (tokens e) (tree e); PN nt_args 0 (flat_map arg_tokens (y :: ys)) (rep (map arg_tree (y :: ys))); PT (Break z); PT (Sym ")")].
    + use 252%positive [PT (Fun f); PT (Break b); PN nt_vb (tag e) (tokens e) (tree e); PN nt_args 0 (flat_map arg_tokens (y :: ys)) (rep (map arg_tree (y :: ys))); PT (Sym ")")].
    + use 259%positive [PT (Fun f); PN nt_vb (tag e) (tokens e) (tree e); PN nt_args 0 (flat_map arg_tokens (y :: ys)) (rep (map arg_tree (y :: ys))); PT (Break z); PT (Sym ")")].
    + use 260%positive [PT (Fun f); PN nt_vb (tag e) (tokens e) (tree e); PN nt_args 0 (flat_map arg_tokens (y :: ys)) (rep (map arg_tree (y :: ys))); PT (Sym ")")].
Qed.
Lemma gen_margs : forall l, l <> [] -> Forall operand l -> gen nt_margs 0 (flat_map comma l) (rep (map tree l)).
Proof.
  intros l. induction l as [|e l IH] using rev_ind; intros Hl Hf; [congruence|].
  apply Forall_app in Hf as [Hf He]. apply Forall_inv in He. unfold operand in He. rewrite flat_map_app, map_app. destruct l as [|c l].
  - use 630%positive [PT (Sym ","); PN nt_vb (tag e) (tokens e) (tree e)].
  - specialize (IH ltac:(discriminate) Hf).
    use 632%positive [PN nt_margs 0 (flat_map comma (c :: l)) (rep (map tree (c :: l))); PT (Sym ","); PN nt_vb (tag e) (tokens e) (tree e)].
Qed.
Lemma gen_no_margs : gen nt_margs 1 [] (rep [TNone]).
Proof. by_rule 631%positive (@nil part); reflexivity. Qed.
Lemma gen_method s a ta f first more : gen nt_vb (start_code s) a ta -> match first with Some x => operand x | None => more = [] end -> Forall operand more ->
  gen nt_value (start_code s) (a ++ [Sym "."; ListFun f; Sym "("] ++ match first with Some x => tokens x | None => [] end ++ flat_map comma more ++ [Sym ")"])
    (operator L_function_accessor (ta :: leaf (ListFun f) :: match first with Some x => [tree x] | None => [] end ++ match more with [] => [TNone] | _ => map tree more end)).
Proof.
  intros Ha H1 Hm. apply of_accessor; [apply start_lt'|]. pose proof gen_no_margs as Hn.
  set (ts := (a ++ _)%list). set (t := TNode L_function_accessor _ _). assert (H : gen nt_method (start_code s) ts t).
  { subst ts t. destruct first as [x|]; [|subst more]; [destruct more as [|y ys]|].
    3: destruct s; infix 564%positive a ta [PT (Sym "."); PT (ListFun f); PT (Sym "("); PN nt_margs 1 [] (rep [TNone]); PT (Sym ")")].
    - unfold operand in H1.
      destruct s; infix 560%positive a ta [PT (Sym "."); PT (ListFun f); PT (Sym "("); PN nt_vb (tag x) (tokens x) (tree x); PN nt_margs 1 [] (rep [TNone]); PT (Sym ")")].
    - unfold operand in H1. pose proof (gen_margs (y :: ys) ltac:(discriminate) Hm) as Hc.
      destruct s; infix 560%positive a ta [PT (Sym "."); PT (ListFun f); PT (Sym "("); PN nt_vb (tag x) (tokens x) (tree x);
        PN nt_margs 0 (flat_map comma (y :: ys)) (rep (map tree (y :: ys))); PT (Sym ")")]. }
  clearbody ts t. destruct s; each 528%positive nt_method ts t.
Qed.
Lemma gen_lambdas x y more b : more <> [] -> operand x -> operand y -> Forall operand more -> operand b ->
  gen nt_value 4 (tokens (ELambdas x y more b)) (tree (ELambdas x y more b)).
Proof.
  intros Hne Hx Hy Hm Hb. apply of_lambda; [reflexivity|]. cbn [tokens tree]. pose proof (gen_commas more Hne Hm) as Hc. unfold operand in *.
  change (fun z : expr => Sym "," :: tokens z) with comma.
  use 172%positive [PT (Sym "("); PN nt_vb (tag x) (tokens x) (tree x); PT (Sym ","); PN nt_vb (tag y) (tokens y) (tree y);
    PN nt_commas 0 (flat_map comma more) (rep (map tree more)); PT (Sym ")"); PT (Sym "=>"); PN nt_vb (tag b) (tokens b) (tree b)].
Qed.

(** ** Loops and conditions *)
Definition range_nt (r : ranges) : positive := match r with OverItems _ => nt_items_of | OverIndexed _ _ => nt_indexed | OverEntries _ => nt_entries end.
Lemma gen_range r e : operand e -> gen (range_nt r) 0 (range_tokens r (tokens e)) (range_tree r (tree e)).
Proof.
  intros He. unfold operand in He. destruct r as [x|x i|x]; cbn [range_nt range_tokens range_tree].
  - use 146%positive [PT (Name x); PT (Kw "in"); PN nt_vb (tag e) (tokens e) (tree e)].
  - use 147%positive [PT (Sym "("); PT (Name x); PT (Sym ","); PT (Name i); PT (Sym ")"); PT (Kw "in"); PN nt_vb (tag e) (tokens e) (tree e)].
  - use 148%positive [PT (Name x); PT (Kw "in"); PT (Kw "items"); PT (Sym "("); PN nt_vb (tag e) (tokens e) (tree e); PT (Sym ")")].
Qed.
Lemma gen_loop lead r e c b trail : operand e -> operand b ->
  match c with Some c => operand c /\ apart b = true | None => True end ->
  gen nt_loop 0 (tokens (ELoop lead r e c b trail)) (tree (ELoop lead r e c b trail)).
Proof.
  intros He Hb Hc. pose proof (gen_range r e He) as Hr. cbn [tokens tree]. unfold operand in Hb.
  set (tr := range_tokens _ _) in *. set (rt := range_tree _ _) in *. clearbody tr rt.
  destruct r as [x|x i|x]; cbn [range_nt] in Hr; clear e He;
  destruct lead as [l|], c as [c|], trail as [z|]; try match type of Hc with _ /\ _ => destruct Hc as [Hc Hp]; unfold operand in Hc end; cbn [break opt app].
  - use 122%positive [PT (Sym "["); PT (Break l); PT (Kw "for"); PN nt_items_of 0 tr rt; PT (Sym ":"); PN nt_vb (tag c) (tokens c) (tree c); PN nt_vb (tag b) (tokens b) (tree b); PT (Break z); PT (Sym "]")].
  - use 123%positive [PT (Sym "["); PT (Break l); PT (Kw "for"); PN nt_items_of 0 tr rt; PT (Sym ":"); PN nt_vb (tag c) (tokens c) (tree c); PN nt_vb (tag b) (tokens b) (tree b); PT (Sym "]")].
  - use 124%positive [PT (Sym "["); PT (Break l); PT (Kw "for"); PN nt_items_of 0 tr rt; PT (Sym ":"); PN nt_vb (tag b) (tokens b) (tree b); PT (Break z); PT (Sym "]")].
  - use 125%positive [PT (Sym "["); PT (Break l); PT (Kw "for"); PN nt_items_of 0 tr rt; PT (Sym ":"); PN nt_vb (tag b) (tokens b) (tree b); PT (Sym "]")].
  - use 134%positive [PT (Sym "["); PT (Kw "for"); PN nt_items_of 0 tr rt; PT (Sym ":"); PN nt_vb (tag c) (tokens c) (tree c); PN nt_vb (tag b) (tokens b) (tree b); PT (Break z); PT (Sym "]")].
  - use 135%positive [PT (Sym "["); PT (Kw "for"); PN nt_items_of 0 tr rt; PT (Sym ":"); PN nt_vb (tag c) (tokens c) (tree c); PN nt_vb (tag b) (tokens b) (tree b); PT (Sym "]")].
  - use 136%positive [PT (Sym "["); PT (Kw "for"); PN nt_items_of 0 tr rt; PT (Sym ":"); PN nt_vb (tag b) (tokens b) (tree b); PT (Break z); PT (Sym "]")].
  - use 137%positive [PT (Sym "["); PT (Kw "for"); PN nt_items_of 0 tr rt; PT (Sym ":"); PN nt_vb (tag b) (tokens b) (tree b); PT (Sym "]")].
  - use 126%positive [PT (Sym "["); PT (Break l); PT (Kw "for"); PN nt_indexed 0 tr rt; PT (Sym ":"); PN nt_vb (tag c) (tokens c) (tree c); PN nt_vb (tag b) (tokens b) (tree b); PT (Break z); PT (Sym "]")].
  - use 127%positive [PT (Sym "["); PT (Break l); PT (Kw "for"); PN nt_indexed 0 tr rt; PT (Sym ":"); PN nt_vb (tag c) (tokens c) (tree c); PN nt_vb (tag b) (tokens b) (tree b); PT (Sym "]")].
  - use 128%positive [PT (Sym "["); PT (Break l); PT (Kw "for"); PN nt_indexed 0 tr rt; PT (Sym ":"); PN nt_vb (tag b) (tokens b) (tree b); PT (Break z); PT (Sym "]")].
  - use 129%positive [PT (Sym "["); PT (Break l); PT (Kw "for"); PN nt_indexed 0 tr rt; PT (Sym ":"); PN nt_vb (tag b) (tokens b) (tree b); PT (Sym "]")].
  - use 138%positive [PT (Sym "["); PT (Kw "for"); PN nt_indexed 0 tr rt; PT (Sym ":"); PN nt_vb (tag c) (tokens c) (tree c); PN nt_vb (tag b) (tokens b) (tree b); PT (Break z); PT (Sym "]")].
  - use 139%positive [PT (Sym "["); PT (Kw "for"); PN nt_indexed 0 tr rt; PT (Sym ":"); PN nt_vb (tag c) (tokens c) (tree c); PN nt_vb (tag b) (tokens b) (tree b); PT (Sym "]")].
  - use 140%positive [PT (Sym "["); PT (Kw "for"); PN nt_indexed 0 tr rt; PT (Sym ":"); PN nt_vb (tag b) (tokens b) (tree b); PT (Break z); PT (Sym "]")].
  - use 141%positive [PT (Sym "["); PT (Kw "for"); PN nt_indexed 0 tr rt; PT (Sym ":"); PN nt_vb (tag b) (tokens b) (tree b); PT (Sym "]")].
  - use 130%positive [PT (Sym "["); PT (Break l); PT (Kw "for"); PN nt_entries 0 tr rt; PT (Sym ":"); PN nt_vb (tag c) (tokens c) (tree c); PN nt_vb (tag b) (tokens b) (tree b); PT (Break z); PT (Sym "]")].
  - use 131%positive [PT (Sym "["); PT (Break l); PT (Kw "for"); PN nt_entries 0 tr rt; PT (Sym ":"); PN nt_vb (tag c) (tokens c) (tree c); PN nt_vb (tag b) (tokens b) (tree b); PT (Sym "]")].
  - use 132%positive [PT (Sym "["); PT (Break l); PT (Kw "for"); PN nt_entries 0 tr rt; PT (Sym ":"); PN nt_vb (tag b) (tokens b) (tree b); PT (Break z); PT (Sym "]")].
  - use 133%positive [PT (Sym "["); PT (Break l); PT (Kw "for"); PN nt_entries 0 tr rt; PT (Sym ":"); PN nt_vb (tag b) (tokens b) (tree b); PT (Sym "]")].
  - use 142%positive [PT (Sym "["); PT (Kw "for"); PN nt_entries 0 tr rt; PT (Sym ":"); PN nt_vb (tag c) (tokens c) (tree c); PN nt_vb (tag b) (tokens b) (tree b); PT (Break z); PT (Sym "]")].
  - use 143%positive [PT (Sym "["); PT (Kw "for"); PN nt_entries 0 tr rt; PT (Sym ":"); PN nt_vb (tag c) (tokens c) (tree c); PN nt_vb (tag b) (tokens b) (tree b); PT (Sym "]")].
  - use 144%positive [PT (Sym "["); PT (Kw "for"); PN nt_entries 0 tr rt; PT (Sym ":"); PN nt_vb (tag b) (tokens b) (tree b); PT (Break z); PT (Sym "]")].
  - use 145%positive [PT (Sym "["); PT (Kw "for"); PN nt_entries 0 tr rt; PT (Sym ":"); PN nt_vb (tag b) (tokens b) (tree b); PT (Sym "]")].
Qed.
Lemma gen_if lead c b : operand c -> operand b -> gen nt_if 0 (tokens (EIf lead c b)) (tree (EIf lead c b)).
Proof.
  intros Hc Hb. unfold operand in *. cbn [tokens tree]. destruct lead as [l|].
  - use 149%positive [PT (Break l); PT (Kw "if"); PT (Sym "("); PN nt_vb (tag c) (tokens c) (tree c); PT (Sym ")"); PN nt_vb (tag b) (tokens b) (tree b)].
  - use 150%positive [PT (Kw "if"); PT (Sym "("); PN nt_vb (tag c) (tokens c) (tree c); PT (Sym ")"); PN nt_vb (tag b) (tokens b) (tree b)].
Qed.

(** ** Every well-formed expression *)
Definition good (e : expr) : Prop :=
  match e with
  | ELoop _ _ _ _ _ _ => gen nt_loop 0 (tokens e) (tree e)
  | EIf _ _ _ => gen nt_if 0 (tokens e) (tree e)
  | EObject _ _ => gen nt_object 0 (tokens e) (tree e)
  | ECall _ _ _ _ _ => gen nt_function 0 (tokens e) (tree e)
  | EParen a => gen nt_value (tag a) (tokens a) (tree a)
  | EBang _ => operand e
  | _ => gen nt_value (tag e) (tokens e) (tree e)
  end.
Lemma good_value e : good e -> ordinary e = true -> bare e = true -> gen nt_value (tag e) (tokens e) (tree e).
Proof.
  destruct e; intros H Ho Hb; try discriminate Ho; try discriminate Hb; cbn [good] in H; try exact H.
  - change (tag _) with 0%N. set (ts := tokens _) in *. set (t := tree _) in *. clearbody ts t. use 51%positive [PN nt_object 0 ts t].
  - change (tag _) with 0%N. set (ts := tokens _) in *. set (t := tree _) in *. clearbody ts t. use 53%positive [PN nt_function 0 ts t].
Qed.
Lemma good_operand e : good e -> ordinary e = true -> operand e.
Proof.
  intros H Ho. destruct (bare e) eqn:Hb.
  - apply to_brackets; [apply tag_lt|]. apply good_value; assumption.
  - destruct e; try discriminate Hb; cbn [good] in H; [|exact H]. exact (gen_paren _ _ _ (tag_any e) H).
Qed.
Lemma good_content e : good e -> (ordinary e || is_loop e) = true -> content e.
Proof. unfold content. intros H Ho. destruct (is_loop e) eqn:Hl; [destruct e; try discriminate Hl; exact H|]. rewrite orb_false_r in Ho. apply good_operand; assumption. Qed.
Lemma good_body e : good e -> is_body e = true -> body e.
Proof. intros H Hb. split; [exact Hb|]. destruct e; try discriminate Hb; exact H. Qed.
Lemma tag_open e s : open e = true -> begins e = s -> tag e = (4 + start_code s)%N.
Proof. unfold tag. intros -> ->. apply N.add_comm. Qed.
Lemma tag_open' e s : open e && match begins e, s with Apart, Apart | Joining, Joining | OnNextLine, OnNextLine | Word, Word => true | _, _ => false end = true -> tag e = (4 + start_code s)%N.
Proof. intros H. apply andb_true_iff in H as [H1 H2]. apply tag_open; [exact H1|]. destruct (begins e), s; congruence. Qed.
Ltac split_wf :=
  repeat match goal with H : (_ && _)%bool = true |- _ => apply andb_true_iff in H; destruct H end;
  repeat match goal with H : negb _ = true |- _ => apply negb_true_iff in H end.
Lemma good_next br a : lone a = true -> good a -> gen nt_value 2 (Nl br :: tokens a) (tree a).
Proof.
  intros Hl Ha. destruct a; try discriminate Hl.
  - use 37%positive [PT (Nl br); PT (Kw "null")].
  - destruct b; [use 39%positive [PT (Nl br); PT (Kw "true")] | use 41%positive [PT (Nl br); PT (Kw "false")]].
  - use 43%positive [PT (Nl br); PT (Num v)].
  - use 45%positive [PT (Nl br); PT (Ref v)].
  - use 47%positive [PT (Nl br); PT (Quoted c)].
  - cbn [good] in Ha. set (ts := tokens _) in *. set (t := tree _) in *. clearbody ts t. use 52%positive [PT (Nl br); PN nt_function 0 ts t].
Qed.
Lemma lone_start a : lone a = true -> ordinary a = true.
Proof. destruct a; cbn; congruence. Qed.
Theorem wf_good e : wf e = true -> good e.
Proof.
  revert e. apply (expr_induction (fun e => wf e = true -> good e) (fun i => item_wf i = true -> item_known i)).
  - intros _. use 38%positive [PT (Kw "null")].
  - intros b _. destruct b; [use 40%positive [PT (Kw "true")] | use 42%positive [PT (Kw "false")]].
  - intros v _. use 44%positive [PT (Num v)].
  - intros v _. use 46%positive [PT (Ref v)].
  - intros v _. use 48%positive [PT (Quoted v)].
  - intros v _. use 49%positive [PT (Multi v)].
  - intros br a IH H. cbn [wf] in H. split_wf. exact (good_next br a ltac:(assumption) (IH ltac:(assumption))).
  - intros lead rows IH H. cbn [wf] in H. split_wf. apply gen_array; [assumption|].
    match goal with H : forallb _ rows = true |- _ => rename H into Hf end. rewrite forallb_forall in Hf. rewrite Forall_forall in *.
    intros [[x xs] brs] Hin. specialize (IH _ Hin). specialize (Hf _ Hin). cbn [fst snd] in *. destruct IH as [IHx IHxs]. split_wf.
    split; [apply good_operand; auto|]. match goal with H : forallb _ xs = true |- _ => rename H into Hxs end.
    rewrite forallb_forall in Hxs. rewrite Forall_forall in *. intros y Hy. specialize (Hxs y Hy). split_wf. apply good_operand; auto.
  - intros lead rows IH H. cbn [wf] in H. split_wf. apply gen_object; [assumption|].
    match goal with H : forallb _ rows = true |- _ => rename H into Hf end. rewrite forallb_forall in Hf. rewrite Forall_forall in *. auto.
  - intros f lead first more trail IHf IH H. cbn [wf] in H. apply andb_true_iff in H as [H1 H]. apply gen_call.
    + destruct first as [x|]; cbn [first_known maybe] in *; split_wf; [split; [apply good_operand; auto | assumption]|].
      destruct lead, more; try discriminate. split; reflexivity.
    + rewrite forallb_forall in H. rewrite Forall_forall in *. intros a Ha. specialize (H _ Ha). split_wf.
      split; [apply good_operand; auto | assumption].
  - intros o a b IHa IHb H. cbn [wf] in H. split_wf. cbn [good]. rewrite (tag_open' _ (begins a)) by (cbn; destruct (begins _); reflexivity).
    apply (gen_binop o (begins a) _ _ _ _ (tag b)); [apply tag_any| |apply good_operand; auto]. rewrite <- tag_closed by assumption. apply good_operand; auto.
  - intros a IHa H. cbn [wf] in H. split_wf. apply (gen_not _ _ (tag a)); [apply tag_here; assumption | apply good_operand; auto].
  - intros a IHa H. cbn [wf] in H. split_wf. apply (gen_minus _ _ (tag a)); [apply tag_here; assumption | apply good_operand; auto].
  - intros c a b IHc IHa IHb H. cbn [wf] in H. split_wf. cbn [good]. rewrite (tag_open' _ (begins c)) by (cbn; destruct (begins _); reflexivity).
    apply (gen_cond (begins c) _ _ _ _ (tag a) _ _ (tag b)); [|apply tag_here; assumption|apply good_operand; auto|apply tag_any|apply good_operand; auto].
    rewrite <- tag_closed by assumption. apply good_operand; auto.
  - intros s a b IHa IHb H. cbn [wf] in H. split_wf. cbn [good]. rewrite (tag_open' _ (begins a)) by (cbn; destruct (begins _); reflexivity).
    apply (gen_dot (begins a) s _ _ _ _ (tag b)); [|apply tag_any|apply good_operand; auto]. rewrite <- tag_closed by assumption. apply good_operand; auto.
  - intros s a b IHa IHb H. cbn [wf] in H. split_wf. cbn [good]. rewrite (tag_closed (EIndex s a b) eq_refl). cbn [begins].
    apply (gen_index (begins a) s _ _ _ _ (tag b)); [|apply tag_here; assumption|apply good_operand; auto]. rewrite <- tag_closed by assumption. apply good_operand; auto.
  - intros a b IHa IHb H. cbn [wf] in H. split_wf. cbn [good]. rewrite (tag_open' _ (begins a)) by (cbn; destruct (begins _); reflexivity).
    apply (gen_nested (begins a) _ _ _ _ (tag b)); [|apply tag_any|apply good_operand; auto]. rewrite <- tag_closed by assumption. apply good_operand; auto.
  - intros a f first more IHa IHf IH H. cbn [wf] in H. split_wf. cbn [good]. rewrite (tag_closed (EMethod a f first more) eq_refl). cbn [begins].
    apply (gen_method (begins a) _ _ f first more); [rewrite <- tag_closed by assumption; apply good_operand; auto| |].
    { destruct first as [x|]; cbn [maybe] in *; [split_wf; apply good_operand; auto|]. destruct more; [reflexivity|discriminate]. }
    match goal with H : forallb _ more = true |- _ => rename H into Hf end. rewrite forallb_forall in Hf. rewrite Forall_forall in *.
    intros y Hy. specialize (Hf y Hy). split_wf. apply good_operand; auto.
  - intros a b IHa IHb H. cbn [wf] in H. split_wf. cbn [good]. rewrite (tag_open' _ (begins a)) by (cbn; destruct (begins _); reflexivity).
    apply (gen_lambda (begins a) _ _ _ _ (tag b)); [|apply tag_any|apply good_operand; auto]. rewrite <- tag_closed by assumption. apply good_operand; auto.
  - intros x y more b IHx IHy IH IHb H. cbn [wf] in H. split_wf. apply gen_lambdas; try (apply good_operand; auto).
    + apply some_ne; assumption.
    + match goal with H : forallb _ more = true |- _ => rename H into Hf end. rewrite forallb_forall in Hf. rewrite Forall_forall in *.
      intros z Hz. specialize (Hf z Hz). split_wf. apply good_operand; auto.
  - intros a IH H. cbn [wf] in H. split_wf. cbn [good]. apply good_value; auto.
  - intros a IH H. cbn [wf] in H. split_wf. cbn [good]. match goal with H : (_ || _)%bool = true |- _ => rename H into Hp end.
    destruct (is_paren a) eqn:Hq.
    + destruct a; try discriminate Hq. cbn [good] in IH. exact (gen_paren_bang _ _ _ (tag_any a) (IH ltac:(assumption))).
    + cbn [orb] in Hp. split_wf. unfold operand. rewrite (tag_closed (EBang a) eq_refl). cbn [begins tokens tree]. apply gen_bang.
      rewrite <- tag_closed by assumption. apply good_value; auto.
  - intros lead r over cond b trail IHo IHc IHb H. cbn [wf] in H. split_wf. apply gen_loop; try (apply good_operand; auto).
    destruct cond as [c|]; [|exact I]. split_wf. split; [apply good_operand; auto | assumption].
  - intros lead c b IHc IHb H. cbn [wf] in H. split_wf. apply gen_if; apply good_operand; auto.
  - intros k v q more IHv IH H. cbn [item_wf] in H. split_wf. cbn [item_known]. split; [split; [|assumption]|].
    + apply good_content; [auto|]. match goal with H : Syntax.pair_ok _ _ = true |- _ => unfold Syntax.pair_ok in H end. split_wf. assumption.
    + match goal with H : forallb _ more = true |- _ => rename H into Hf end. rewrite forallb_forall in Hf. rewrite Forall_forall in *.
      intros [[k' v'] q'] Hin. specialize (IH _ Hin). specialize (Hf _ Hin). cbn [fst snd] in *. cbn beta iota in Hf. split_wf.
      split; [|assumption]. apply good_content; [auto|]. unfold Syntax.pair_ok in *. split_wf. assumption.
  - intros n ty ex b IH H. cbn [item_wf] in H. split_wf. apply good_body; auto.
Qed.
