(** The trees Lark can build for bicep.lark: a grammar of trees, and the proof
    that every accepted text yields a tree of it. *)
From Coq Require Import List Arith NArith PArith Bool String Lia.
From Verif Require Import Py.Str Py.Val Lark.Regex Lark.Terminals Lark.Lexer Lark.Ebnf Lark.Tree
     Lark.Lalr Lark.BicepGrammar Lark.BicepTables Lark.Driver Lark.Shape
     Proofs.Base Proofs.Regex Proofs.LR Proofs.Lexer Proofs.Parse Proofs.Grammar.
Import ListNotations.
Local Open Scope string_scope.

(** Sorts of subtrees. *)
Inductive sort :=
| sTok (n : string)       (* a token of the given terminal *)
| sOpt (s : sort)         (* or the placeholder None *)
| sStart | sElem
| sVal                    (* value, value_brackets *)
| sVarVal                 (* value or loop *)
| sObj | sEnt             (* object; its entries: pair or child_resource *)
| sBody                   (* object, loop or deploy_condition *)
| sKey | sLoop | sLoopTy | sCond | sDecos | sDeco
| sType | sBase | sUnion | sSuf | sTAP | sMP | sImp | sOp | sTV | sMetaVal.

(** Labels of two-operand operators (bicep.lark:112-169). *)
Definition binary_label (l : label) : bool :=
  match l with
  | L_greater_than_or_equals | L_greater_than | L_less_than_or_equals | L_less_than
  | L_equals | L_not_equals | L_equals_case_insens | L_not_equals_case_insens
  | L_and_op | L_or_op | L_coalesce | L_add | L_divide | L_modulo | L_multiply | L_substract
  | L_index_accessor | L_nested_resource_accessor | L_property_accessor => true
  | _ => false
  end.
Definition unary_label (l : label) : bool := match l with L_not_op | L_minus => true | _ => false end.

Section TreeGrammar.
  Variable E : pyenv.
  Definition tk (n : string) (t : token) : Prop := ttype t = u n /\ tok_ok E n (tval t).

  Inductive ok : sort -> ptree -> Prop :=
  | ok_tok n t : tk n t -> ok (sTok n) (TTok t)
  | ok_none s : ok (sOpt s) TNone
  | ok_some s t : ok s t -> ok (sOpt s) t
  (* bicep.lark:1 *)
  | ok_start m cs : oks sElem cs -> ok sStart (TNode L_start m cs)
  (* bicep.lark:3-13 *)
  | ok_scope m a : ok (sTok "QUOTED_INTERPOLATION") a -> ok sElem (TNode L_scope (Some m) [a])
  | ok_import_ns m a : ok (sTok "QUOTED_INTERPOLATION") a -> ok sElem (TNode L_custom_import (Some m) [a])
  | ok_import m c cs a : ok sImp c -> oks sImp cs -> ok (sTok "QUOTED_INTERPOLATION") a ->
      ok sElem (TNode L_custom_import (Some m) (c :: cs ++ [a]))
  | ok_extension m a b c : ok (sTok "STRING") a -> ok (sOpt sObj) b -> ok (sOpt (sTok "STRING")) c ->
      ok sElem (TNode L_extension (Some m) [a; b; c])
  | ok_metadata m a b : ok (sTok "STRING") a -> ok sMetaVal b -> ok sElem (TNode L_metadata (Some m) [a; b])
  | ok_param m d a t v : ok (sOpt sDecos) d -> ok (sTok "STRING") a -> ok sType t -> ok (sOpt sVal) v ->
      ok sElem (TNode L_param (Some m) [d; a; t; v])
  | ok_var m d a t v : ok (sOpt sDecos) d -> ok (sTok "STRING") a -> ok (sOpt sType) t -> ok sVarVal v ->
      ok sElem (TNode L_var (Some m) [d; a; t; v])
  | ok_output m d a t v : ok (sOpt sDecos) d -> ok (sTok "STRING") a -> ok sType t -> ok sVarVal v ->
      ok sElem (TNode L_output (Some m) [d; a; t; v])
  | ok_resource m d a t x v : ok (sOpt sDecos) d -> ok (sTok "STRING") a -> ok sTAP t ->
      ok (sOpt (sTok "EXISTING")) x -> ok sBody v -> ok sElem (TNode L_resource (Some m) [d; a; t; x; v])
  | ok_module m d a t v : ok (sOpt sDecos) d -> ok (sTok "STRING") a -> ok sMP t -> ok sBody v ->
      ok sElem (TNode L_module (Some m) [d; a; t; v])
  | ok_ctype m d a v : ok (sOpt sDecos) d -> ok (sTok "STRING") a -> ok sTV v ->
      ok sElem (TNode L_custom_type (Some m) [d; a; v])
  | ok_cfunc m d a ps t v : ok (sOpt sDecos) d -> ok (sTok "STRING") a -> okp ps -> ok sType t -> ok sVal v ->
      ok sElem (TNode L_custom_func (Some m) (d :: a :: ps ++ [t; v]))
  (* bicep.lark:15-28 *)
  | ok_null m : ok sVal (TNode L_null (Some m) [])
  | ok_true m : ok sVal (TNode L_true (Some m) [])
  | ok_false m : ok sVal (TNode L_false (Some m) [])
  | ok_int m a : ok (sTok "INT") a -> ok sVal (TNode L_int_type (Some m) [a])
  | ok_ident m a : ok (sTok "STRING") a -> ok sVal (TNode L_string (Some m) [a])
  | ok_string m a : ok (sTok "QUOTED_INTERPOLATION") a -> ok sVal (TNode L_string (Some m) [a])
  | ok_mls m a : ok (sTok "MULTI_LINE_STRING") a -> ok sVal (TNode L_multi_line_string (Some m) [a])
  | ok_array m cs : oks sVal cs -> ok sVal (TNode L_array (Some m) cs)
  | ok_vobj t : ok sObj t -> ok sVal t
  | ok_function m f cs : ok (sTok "FUNCTION") f -> oks sVal cs -> ok sVal (TNode L_function (Some m) (f :: cs))
  | ok_operator m a : ok sOp a -> ok sVal (TNode L_operator (Some m) [a])
  | ok_lambda m a b cs : ok sVal a -> ok sVal b -> oks sVal cs -> ok sVal (TNode L_lambda_expression (Some m) (a :: b :: cs))
  (* bicep.lark:38-50 *)
  | ok_varval t : ok sVal t -> ok sVarVal t
  | ok_varloop t : ok sLoop t -> ok sVarVal t
  | ok_metaval m a : ok (sTok "QUOTED_INTERPOLATION") a -> ok sMetaVal (TNode L_string (Some m) [a])
  | ok_body_obj t : ok sObj t -> ok sBody t
  | ok_body_loop t : ok sLoop t -> ok sBody t
  | ok_body_cond t : ok sCond t -> ok sBody t
  | ok_child m a b x v : ok (sTok "STRING") a -> ok (sTok "QUOTED_INTERPOLATION") b ->
      ok (sOpt (sTok "EXISTING")) x -> ok sBody v -> ok sEnt (TNode L_child_resource (Some m) [a; b; x; v])
  | ok_tv_val t : ok sVal t -> ok sTV t
  | ok_tv m a b cs : ok sVal a -> ok sVal b -> oks sVal cs -> ok sTV (TNode L_type_value (Some m) (a :: b :: cs))
  (* bicep.lark:54-63 *)
  | ok_type m a cs : ok sBase a -> oks sSuf cs -> ok sType (TNode L_data_type (Some m) (a :: cs))
  | ok_base_name m a : ok (sTok "STRING") a -> ok sBase (TNode L_base_type (Some m) [a])
  | ok_base_union m a : ok sUnion a -> ok sBase (TNode L_base_type (Some m) [a])
  | ok_union m a b cs : ok sType a -> ok sType b -> oks sType cs -> ok sUnion (TNode L_union_type (Some m) (a :: b :: cs))
  | ok_suffix m : ok sSuf (TNode L_array_suffix (Some m) [])
  | ok_tap m a : ok (sTok "QUOTED_INTERPOLATION") a -> ok sTAP (TNode L_type_api_pair (Some m) [a])
  | ok_mp m a : ok (sTok "QUOTED_INTERPOLATION") a -> ok sMP (TNode L_module_path (Some m) [a])
  | ok_imp m a b : ok (sTok "STRING") a -> ok (sOpt (sTok "STRING")) b -> ok sImp (TNode L_import_alias (Some m) [a; b])
  | ok_imp_star m a b : ok (sTok "STAR_RE") a -> ok (sOpt (sTok "STRING")) b -> ok sImp (TNode L_import_alias (Some m) [a; b])
  (* bicep.lark:67-77 *)
  | ok_loop m a c v : ok sLoopTy a -> ok (sOpt sVal) c -> ok sVal v -> ok sLoop (TNode L_loop (Some m) [a; c; v])
  | ok_loop_array m a v : ok (sTok "STRING") a -> ok sVal v -> ok sLoopTy (TNode L_loop_array (Some m) [a; v])
  | ok_loop_index m a b v : ok (sTok "STRING") a -> ok (sTok "STRING") b -> ok sVal v ->
      ok sLoopTy (TNode L_loop_array_index (Some m) [a; b; v])
  | ok_loop_object m a v : ok (sTok "STRING") a -> ok sVal v -> ok sLoopTy (TNode L_loop_object (Some m) [a; v])
  | ok_cond m c v : ok sVal c -> ok sVal v -> ok sCond (TNode L_deploy_condition (Some m) [c; v])
  (* bicep.lark:81-91 *)
  | ok_object m cs : oks sEnt cs -> ok sObj (TNode L_object (Some m) cs)
  | ok_pair m k v : ok sKey k -> ok sVarVal v -> ok sEnt (TNode L_pair (Some m) [k; v])
  | ok_key_resource m a : ok (sTok "resource") a -> ok sKey (TNode L_key (Some m) [a])
  | ok_key_ident m a : ok (sTok "STRING") a -> ok sKey (TNode L_key (Some m) [a])
  | ok_key_quoted m a : ok (sTok "QUOTED_STRING") a -> ok sKey (TNode L_key (Some m) [a])
  | ok_key_interp m a : ok (sTok "QUOTED_INTERPOLATION") a -> ok sKey (TNode L_key (Some m) [a])
  (* bicep.lark:95-101 *)
  | ok_deco0 m a : ok (sTok "DECO_NAME") a -> ok sDeco (TNode L_decorator (Some m) [a])
  | ok_deco1 m a v : ok (sTok "DECO_NAME") a -> ok sVal v -> ok sDeco (TNode L_decorator (Some m) [a; v])
  | ok_decos m c cs : ok sDeco c -> oks sDeco cs -> ok sDecos (TNode L_decorators (Some m) (c :: cs))
  (* bicep.lark:105-169 *)
  | ok_binary l m a b : binary_label l = true -> ok sVal a -> ok sVal b -> ok sOp (TNode l (Some m) [a; b])
  | ok_unary l m a : unary_label l = true -> ok sVal a -> ok sOp (TNode l (Some m) [a])
  | ok_conditional m a b c : ok sVal a -> ok sVal b -> ok sVal c -> ok sOp (TNode L_conditional (Some m) [a; b; c])
  | ok_facc m a f c cs : ok sVal a -> ok (sTok "LIST_FUNC_NAME") f -> ok (sOpt sVal) c -> oks (sOpt sVal) cs ->
      ok sOp (TNode L_function_accessor (Some m) (a :: f :: c :: cs))
  with oks : sort -> list ptree -> Prop :=
  | oks_nil s : oks s []
  | oks_cons s c cs : ok s c -> oks s cs -> oks s (c :: cs)
  (* parameters of a function declaration: name, type, name, type, ... *)
  with okp : list ptree -> Prop :=
  | okp_nil : okp []
  | okp_cons a t cs : ok (sTok "STRING") a -> ok sType t -> okp cs -> okp (a :: t :: cs).

  Lemma oks_app s a b : oks s a -> oks s b -> oks s (a ++ b).
  Proof. induction a as [|x a IH]; intros Ha Hb; [exact Hb|]. inversion Ha; subst. constructor; auto. Qed.
  Lemma oks_one s c : ok s c -> oks s [c].
  Proof. intros H. constructor; [exact H|constructor]. Qed.
  Lemma okp_app a : forall b, okp a -> okp b -> okp (a ++ b).
  Proof.
    assert (H : forall n a, List.length a <= n -> forall b, okp a -> okp b -> okp (a ++ b)).
    { induction n as [|n IH]; intros [|x [|y l]] Hl b Ha Hb; cbn [List.length] in Hl; try lia; try exact Hb;
      try (inversion Ha; fail). inversion Ha; subst. cbn [app]. constructor; auto. apply IH; auto. lia. }
    intros b. eapply H. reflexivity.
  Qed.
  Lemma oks_Forall s l : oks s l <-> Forall (ok s) l.
  Proof.
    split; intros H.
    - induction l as [|x l IH]; inversion H; subst; constructor; auto.
    - induction H; constructor; auto.
  Qed.

  (** ** Kinds of grammar symbols *)
  Inductive kind :=
  | K1 (s : sort)
  | KMany (s : sort)        (* inlined: a list of trees of the sort *)
  | KMany1 (s : sort)       (* non-empty *)
  | KPairs | KNone | KImport | KFunc | KQuoted.
  Definition interp (k : kind) (t : ptree) : Prop :=
    match k with
    | K1 s => ok s t
    | KMany s => exists l m cs, t = TNode l m cs /\ oks s cs
    | KMany1 s => exists l m c cs, t = TNode l m (c :: cs) /\ ok s c /\ oks s cs
    | KPairs => exists l m cs, t = TNode l m cs /\ okp cs
    | KNone => exists l m, t = TNode l m []
    | KImport => exists l m cs, t = TNode l m cs /\
        ((exists a, cs = [a] /\ ok (sTok "QUOTED_INTERPOLATION") a) \/
         (exists c cs' a, cs = (c :: cs' ++ [a])%list /\ ok sImp c /\ oks sImp cs' /\ ok (sTok "QUOTED_INTERPOLATION") a))
    | KFunc => exists l m a ps t' v, t = TNode l m (a :: ps ++ [t'; v])%list /\
        ok (sTok "STRING") a /\ okp ps /\ ok sType t' /\ ok sVal v
    | KQuoted => ok (sTok "STRING") t \/ ok (sTok "QUOTED_STRING") t \/ ok (sTok "QUOTED_INTERPOLATION") t
    end.
  Definition nt_kinds : list (string * kind) :=
    [ ("start", K1 sStart); ("element", K1 sElem); ("value", K1 sVal); ("value_brackets", K1 sVal);
      ("_import_statement", KImport); ("_func_statement", KFunc);
      ("var_value", K1 sVarVal); ("output_value", K1 sVarVal); ("metadata_value", K1 sMetaVal);
      ("resource_value", K1 sBody); ("module_value", K1 sBody); ("child_resource", K1 sEnt);
      ("type_value", K1 sTV); ("data_type", K1 sType); ("base_type", K1 sBase); ("union_type", K1 sUnion);
      ("array_suffix", K1 sSuf); ("type_api_pair", K1 sTAP); ("module_path", K1 sMP); ("import_alias", K1 sImp);
      ("loop", K1 sLoop); ("loop_array", K1 sLoopTy); ("loop_array_index", K1 sLoopTy); ("loop_object", K1 sLoopTy);
      ("deploy_condition", K1 sCond); ("quoted_string", KQuoted); ("array", K1 sVal); ("object", K1 sObj);
      ("pair", K1 sEnt); ("key", K1 sKey); ("lambda_expression", K1 sVal); ("decorator", K1 sDeco);
      ("decorators", K1 sDecos); ("function", K1 sVal); ("operator", K1 sVal);
      ("__rep ((element _CPP_COMMENT_NL?)|_CPP_COMMENT_NL)", KMany sElem);
      ("__rep ("","" import_alias)", KMany sImp);
      ("__rep ("","" STRING data_type)", KPairs);
      ("__rep _CPP_COMMENT_NL", KNone);
      ("__rep (""|"" value_brackets)", KMany1 sVal);
      ("__rep array_suffix", KMany sSuf);
      ("__rep (""|"" data_type)", KMany1 sType);
      ("__rep ("","" value_brackets)", KMany1 sVal);
      ("__rep (value_brackets ("","" value_brackets)* _CPP_COMMENT_NL*)", KMany sVal);
      ("__rep ("","" pair)", KMany sEnt);
      ("__rep (((pair ("","" pair)*)|child_resource) _CPP_COMMENT_NL*)", KMany sEnt);
      ("__rep decorator", KMany1 sDeco);
      ("__rep ("","" _CPP_COMMENT_NL? value_brackets)", KMany sVal);
      ("__rep [("","" value_brackets)]", KMany1 (sOpt sVal)) ]
    ++ map (fun n => (n, K1 sOp))
      [ "operator_comparison"; "operator_logical"; "operator_numeric"; "operator_accessor";
        "greater_than_or_equals"; "greater_than"; "less_than_or_equals"; "less_than"; "equals"; "not_equals";
        "equals_case_insens"; "not_equals_case_insens"; "and_op"; "or_op"; "not_op"; "coalesce"; "conditional";
        "add"; "divide"; "minus"; "modulo"; "multiply"; "substract"; "index_accessor"; "function_accessor";
        "nested_resource_accessor"; "property_accessor" ].
  Definition kind_of (s : sym) : kind :=
    match s with
    | T n => K1 (sTok n)
    | NT n => match find (fun e => String.eqb (fst e) n) nt_kinds with Some e => snd e | None => K1 sStart end
    end.

  (** Shaping on trees alone. *)
  Definition spliced_t (t : ptree) : list ptree := match t with TNode _ _ cs => cs | _ => [] end.
  Fixpoint select_t (raw : list rawsym) (ts : list ptree) : list ptree :=
    match raw with
    | [] => []
    | Hole :: raw' => TNone :: select_t raw' ts
    | Sym _ sl :: raw' =>
        match ts with
        | [] => []
        | t :: ts' => match sl with Keep => t :: select_t raw' ts' | Drop => select_t raw' ts'
                      | Splice => spliced_t t ++ select_t raw' ts' end
        end
    end.
  Lemma select_select_t raw : forall vs, select raw vs = select_t raw (map sv_tree vs).
  Proof.
    induction raw as [|[|x sl] raw IH]; intros vs; [reflexivity| |].
    - cbn [select select_t]. rewrite IH. reflexivity.
    - destruct vs as [|v vs]; [reflexivity|]. cbn [select select_t map]. destruct sl; rewrite IH; reflexivity.
  Qed.
  Definition put (m : meta) (t : ptree) : ptree :=
    match t with TNode l m' cs => TNode l (match m' with Some _ => m' | None => m end) cs | _ => t end.
  Lemma sv_tree_propagate raw t : sv_tree (propagate raw t) = put (span raw) t.
  Proof. destruct t; reflexivity. Qed.
  Definition built (l : label) (ex : bool) (alias : option string) (cs : list ptree) : ptree :=
    match ex, alias, cs with true, None, [c] => c | _, _, _ => TNode l None cs end.

  Definition node_sort (s : sort) : bool := match s with sStart | sOpt _ => false | _ => true end.
  Lemma put_ok s t m : ok s t -> node_sort s = true -> put m t = t.
  Proof. induction 1; intros Hs; try discriminate Hs; try reflexivity; apply IHok; reflexivity. Qed.
  Lemma oks_snoc s a c : oks s a -> ok s c -> oks s (a ++ [c]).
  Proof. intros Ha Hc. apply oks_app; [exact Ha|apply oks_one; exact Hc]. Qed.
  Lemma okp_snoc a c t : okp a -> ok (sTok "STRING") c -> ok sType t -> okp (a ++ [c; t]).
  Proof. intros Ha Hc Ht. apply okp_app; [exact Ha|]. constructor; auto. constructor. Qed.

  Fixpoint all_in (ks : list kind) (P : list ptree -> Prop) : Prop :=
    match ks with
    | [] => P []
    | k :: ks' => forall t, interp k t -> all_in ks' (fun ts => P (t :: ts))
    end.
  Lemma all_in_elim ks : forall P ts, all_in ks P -> Forall2 interp ks ts -> P ts.
  Proof.
    induction ks as [|k ks IH]; intros P ts H HF; inversion HF; subst; [exact H|].
    match goal with Hi : interp k _ |- _ => specialize (H _ Hi) end.
    exact (IH (fun ts => P (_ :: ts)) _ H ltac:(eassumption)).
  Qed.

  Definition prod_sound (pr : prod) : Prop := forall m,
    (nonnull (NT (p_lhs pr)) = true -> m <> None) ->
    all_in (map kind_of (p_rhs pr)) (fun ts =>
      interp (kind_of (NT (p_lhs pr))) (put m (built (prod_label pr) (p_expand1 pr) (p_alias pr) (select_t (p_raw pr) ts)))).
  Ltac open_interp :=
    repeat match goal with
    | H : exists _, _ |- _ => destruct H
    | H : _ /\ _ |- _ => destruct H
    | H : ?t = TNode _ _ _ |- _ => subst t
    end.
  Ltac start_prod :=
    intros m Hm;
    match type of Hm with ?b = true -> _ => let k := eval vm_compute in b in change b with k in Hm end;
    match goal with |- all_in ?ks (fun ts => interp ?k (put _ (built ?l ?e ?a (select_t ?r _)))) =>
      let ks' := eval vm_compute in ks in let k' := eval vm_compute in k in let l' := eval vm_compute in l in
      let e' := eval vm_compute in e in let a' := eval vm_compute in a in let r' := eval vm_compute in r in
      change (all_in ks' (fun ts => interp k' (put m (built l' e' a' (select_t r' ts))))) end;
    first [ (destruct m as [m|]; [|exfalso; apply Hm; reflexivity]; clear Hm) | clear Hm ];
    cbn [interp all_in select_t spliced_t built put];
    intros; open_interp;
    cbn [interp all_in select_t spliced_t built put app];
    rewrite ?app_nil_r, <- ?app_assoc; cbn [app].
  Ltac lists := repeat first [ assumption | apply oks_nil | apply okp_nil | apply oks_cons | apply oks_app
                             | apply okp_app | apply okp_cons | apply ok_none | apply ok_some; assumption ].
  Ltac node := lists; econstructor; lists; try reflexivity; fail.
  Ltac finish :=
    try (erewrite put_ok; [|eassumption|reflexivity]);
    try match goal with
    | |- exists _, _ => do 2 eexists;
           first [ do 3 eexists; split; [reflexivity|]; split; lists; fail
                 | do 2 eexists; split; [reflexivity|]; split; lists; fail
                 | eexists; split; [reflexivity|]; lists; fail
                 | reflexivity ]
    | |- ok _ _ => first [assumption | node]
    end.
  (** The productions in short runs, so that no proof term repeats the whole list. *)
  Fixpoint runs (k : nat) (l : list prod) : list (list prod) :=
    match k with
    | O => [l]
    | Datatypes.S k' => firstn 12 l :: runs k' (skipn 12 l)
    end.
  Definition prod_runs := Eval vm_compute in runs 28 bicep_prods.
  Lemma prod_runs_ok : bicep_prods = List.concat prod_runs.
  Proof. vm_compute. reflexivity. Qed.
  Lemma prods_sound : Forall prod_sound bicep_prods.
  Proof.
    rewrite prod_runs_ok. apply Forall_concat. unfold prod_runs.
    repeat (apply Forall_cons; [repeat (apply Forall_cons; [start_prod; finish|])|]).
    all: try apply Forall_nil.
    (* import statements *)
    - match goal with H : _ \/ _ |- _ => destruct H as [(a & -> & Ha)|(c & cs' & a & -> & Hc & Hcs & Ha)] end; node.
    - do 3 eexists. split; [reflexivity|]. right. do 3 eexists. split; [reflexivity|]. auto.
    - do 3 eexists. split; [reflexivity|]. right. exists t0, [], t3. split; [reflexivity|]. split; [|split]; lists.
    - do 3 eexists. split; [reflexivity|]. right. exists t, [], t1. split; [reflexivity|]. split; [|split]; lists.
    - do 3 eexists. split; [reflexivity|]. left. eauto.
    (* function statements *)
    - do 2 eexists. exists t, (t1 :: t2 :: x1), t5, t7. split; [reflexivity|]. repeat split; lists.
    - do 2 eexists. exists t, [t1; t2], t4, t6. split; [reflexivity|]. repeat split; lists.
    - do 2 eexists. exists t, [], t2, t4. split; [reflexivity|]. repeat split; lists.
    (* child resources *)
    - apply ok_child; lists. apply ok_body_obj. assumption.
    - apply ok_child; lists. apply ok_body_loop. assumption.
    - apply ok_child; lists. apply ok_body_cond. assumption.
    - apply ok_child; lists. apply ok_body_obj. assumption.
    - apply ok_child; lists. apply ok_body_loop. assumption.
    - apply ok_child; lists. apply ok_body_cond. assumption.
    (* keys and pairs *)
    - left. assumption.
    - right. left. assumption.
    - right. right. assumption.
    - apply ok_pair; [assumption|]. apply ok_varval. assumption.
    - apply ok_pair; [assumption|]. apply ok_varval. assumption.
    - apply ok_pair; [assumption|]. apply ok_varloop. assumption.
    - apply ok_pair; [assumption|]. apply ok_varloop. assumption.
    - match goal with H : _ \/ _ |- _ => destruct H as [H|[H|H]] end; node.
  Qed.

  Lemma build_built p cs : build_node p cs = built (prod_label p) (p_expand1 p) (p_alias p) cs.
  Proof. reflexivity. Qed.

  (** Every derivation is shaped into a tree of the right kind. *)
  Lemma shape_ok : forall c s, wf s c -> Forall (known_tok E) (leaves c) -> interp (kind_of s) (sv_tree (shape c)).
  Proof.
    fix IH 1. intros c s Hw Hk. destruct c as [n t|p cs].
    - inversion Hw; subst. cbn [shape sv_tree kind_of interp]. cbn [leaves] in Hk. inversion Hk as [|e l He Hl]; subst.
      constructor. exact He.
    - inversion Hw as [|p' cs' Hin Hall]; subst.
      assert (Hsh : shape (Br p cs) = propagate (map shape cs) (build_node (the_prod p) (select (p_raw (the_prod p)) (map shape cs)))) by reflexivity.
      rewrite Hsh, sv_tree_propagate, build_built, select_select_t.
      pose proof prods_sound as Hps. rewrite Forall_forall in Hps. specialize (Hps _ Hin).
      refine (all_in_elim _ (fun ts => interp _ (put _ (built _ _ _ (select_t _ ts)))) _ (Hps _ _) _).
      + intros Hn.
        pose proof (nonnull_leaves (Br p cs) _ Hw Hn) as Hne.
        rewrite raw_span.
        2:{ clear -Hall. induction Hall as [|s c l l' H HF IH2]; constructor; [|exact IH2]. exact (sh_pos _ _ (shaped_all c s H)). }
        unfold lines_of. change (flat_map leaves cs) with (leaves (Br p cs)).
        destruct (line_both (leaves (Br p cs))) as [(_ & _ & H3)|(a & b & H1 & H2)]; [contradiction|]. rewrite H1, H2. discriminate.
      + clear Hw Hin Hsh Hps. cbn [leaves] in Hk. revert Hall Hk. generalize (p_rhs (the_prod p)). revert cs.
        fix IHcs 1. intros [|c cs] rhs Hall Hk; inversion Hall as [|s0 c0 l0 l1 Hc Hcs]; subst; cbn [map]; constructor.
        * apply (IH c s0 Hc). cbn [flat_map] in Hk. apply Forall_app in Hk. tauto.
        * apply (IHcs cs l0 Hcs). cbn [flat_map] in Hk. apply Forall_app in Hk. tauto.
  Qed.

  Theorem lark_parse_ok text t : lark_parse E text = Ok t -> ok sStart t.
  Proof.
    unfold lark_parse, bind. destruct (parse_cst E text) as [c|e] eqn:Hc; [|discriminate].
    intros H. inversion H; subst. destruct (parse_cst_wf E text c Hc) as [Hw Hr].
    exact (shape_ok c _ Hw (reads_known _ _ _ _ Hr)).
  Qed.
End TreeGrammar.
