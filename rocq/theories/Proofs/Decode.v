(** The plain program can be read off the tree. *)
From Coq Require Import List Arith NArith Bool String Lia.
From Verif Require Import Py.Str Py.Val Lark.Tree Lark.Shape Spec.Lexemes Spec.Types Spec.Spelling Spec.Syntax Spec.Plain Spec.Trees
     Proofs.Base Proofs.State Proofs.Generate Proofs.SyntaxInd Proofs.Derive Proofs.DerivePrograms Proofs.Plain Proofs.Like.
Import ListNotations.
Local Open Scope string_scope.

(** ** Expressions *)
Definition unquoted (n : nat) (s : str) : str := firstn (List.length s - 2 * n) (skipn n s).
Definition is_name (k : token) : bool := str_eqb (ttype k) (u "STRING").
Definition key_of (t : ptree) : key :=
  match t with
  | TNode L_key _ [TTok k] => if is_name k then KName (tval k) else if str_eqb (ttype k) (u "resource") then KResource else KQuoted (unquoted 1 (tval k))
  | _ => KResource
  end.
Definition is_there (t : ptree) : bool := match t with TNone => false | _ => true end.
Definition val_of (t : ptree) : str := match t with TTok k => tval k | _ => [] end.
Definition binary (l : label) : option binop :=
  match l with
  | L_greater_than_or_equals => Some Ge | L_greater_than => Some Gt | L_less_than_or_equals => Some Le | L_less_than => Some Lt
  | L_equals => Some Eq | L_not_equals => Some Ne | L_equals_case_insens => Some EqI | L_not_equals_case_insens => Some NeI
  | L_and_op => Some And | L_or_op => Some Or | L_coalesce => Some Coalesce | L_add => Some Add | L_divide => Some Div | L_modulo => Some Mod
  | L_multiply => Some Mul | L_substract => Some Sub
  | _ => None
  end.
Fixpoint decode (t : ptree) : expr :=
  match t with
  | TNode L_true _ _ => EBool true
  | TNode L_false _ _ => EBool false
  | TNode L_int_type _ [k] => EInt (val_of k)
  | TNode L_string _ [TTok k] => if is_name k then ERef (tval k) else EStr (unquoted 1 (tval k))
  | TNode L_multi_line_string _ [k] => EMulti (unquoted 3 (val_of k))
  | TNode L_array _ cs => EArray [] (map (fun c => (decode c, [], [])) cs)
  | TNode L_object _ cs => EObject [] (map (fun c =>
      (match c with
       | TNode L_pair _ [k; v] => Pairs (key_of k) (decode v) false []
       | TNode _ _ [n; ty; x; b] => Child (val_of n) (unquoted 1 (val_of ty)) (is_there x) (decode b)
       | _ => Pairs KResource ENull false []
       end, [])) cs)
  | TNode L_function _ (f :: args) => plain_call (removelast (val_of f)) None (map decode args)
  | TNode L_operator _ [TNode l _ cs] =>
      match cs with
      | [a] => match l with L_not_op => ENot (decode a) | _ => EMinus (decode a) end
      | [a; b] =>
          match binary l with
          | Some o => EBin o (decode a) (decode b)
          | None => match l with L_property_accessor => EDot false (decode a) (decode b) | L_index_accessor => EIndex false (decode a) (decode b)
                    | _ => ENested (decode a) (decode b) end
          end
      | a :: f :: rest =>
          match l with
          | L_conditional => match rest with [c] => ECond (decode a) (decode f) (decode c) | _ => ENull end
          | _ =>
              match rest with
              | [TNone] => EMethod (decode a) (val_of f) None []
              | [x; TNone] => EMethod (decode a) (val_of f) (Some (decode x)) []
              | [x] => EMethod (decode a) (val_of f) None [decode x]
              | x :: more => EMethod (decode a) (val_of f) (Some (decode x)) (map decode more)
              | [] => ENull
              end
          end
      | [] => ENull
      end
  | TNode L_lambda_expression _ (x :: y :: rest) =>
      match rest with
      | [] => ELambda (decode x) (decode y)
      | _ => let es := map decode rest in ELambdas (decode x) (decode y) (removelast es) (last es ENull)
      end
  | TNode L_loop _ [r; c; b] =>
      match r with
      | TNode l _ (x :: rest) =>
          let over := match rest with [o] => decode o | [_; o] => decode o | _ => ENull end in
          ELoop None (match l with L_loop_array => OverItems (val_of x) | L_loop_object => OverEntries (val_of x) | _ => OverIndexed (val_of x) (match rest with [i; _] => val_of i | _ => [] end) end)
            over (match c with TNone => None | _ => Some (decode c) end) (decode b) None
      | _ => ENull
      end
  | TNode L_deploy_condition _ [c; b] => EIf None (decode c) (decode b)
  | _ => ENull
  end.
Lemma unquoted_app n a c b : List.length a = n -> List.length b = n -> unquoted n (a ++ c ++ b)%list = c.
Proof.
  intros Ha Hb. unfold unquoted. rewrite skipn_app, <- Ha, skipn_all, Nat.sub_diag, !app_length. cbn [skipn app].
  replace (List.length a + (List.length c + List.length b) - 2 * List.length a) with (List.length c) by lia.
  rewrite firstn_app, Nat.sub_diag, firstn_all. cbn. apply app_nil_r.
Qed.
Lemma unquote1 c : unquoted 1 (quote c) = c.
Proof. exact (unquoted_app 1 [39%N] c [39%N] eq_refl eq_refl). Qed.
Lemma unquote3 c : unquoted 3 (triple_quote c) = c.
Proof. exact (unquoted_app 3 (u "'''") c (u "'''") eq_refl eq_refl). Qed.
Lemma key_of_tree k : key_of (key_tree k) = k.
Proof. destruct k as [v|c|]; [reflexivity|exact (f_equal KQuoted (unquote1 c))|reflexivity]. Qed.
Lemma tree_there e : exists l cs, tree e = TNode l None cs.
Proof.
  revert e. apply (expr_induction (fun e => exists l cs, tree e = TNode l None cs) (fun _ => True)); intros; cbn [tree]; unfold operator; eauto.
Qed.
Definition decode_item (c : ptree) : item * list str :=
  (match c with
   | TNode L_pair _ [k; v] => Pairs (key_of k) (decode v) false []
   | TNode _ _ [n; ty; x; b] => Child (val_of n) (unquoted 1 (val_of ty)) (is_there x) (decode b)
   | _ => Pairs KResource ENull false []
   end, []).
Lemma plain_call_first f first more : plain_call f None (match first with Some x => [x] | None => [] end ++ more)%list = plain_call f first more.
Proof. destruct first, more; reflexivity. Qed.
Lemma last_snoc {A} (l : list A) x d : last (l ++ [x])%list d = x.
Proof. apply last_last. Qed.
Theorem decode_tree : forall e, decode (tree e) = plain e.
Proof.
  apply (expr_induction (fun e => decode (tree e) = plain e)
          (fun i => map decode_item (item_trees i) = map (fun i => (i, [])) (plain_items i)));
    try reflexivity; intros; cbn [plain plain_items tree item_trees].
  - destruct b; reflexivity.
  - exact (f_equal EStr (unquote1 c)).
  - exact (f_equal EMulti (unquote3 c)).
  - assumption.
  - cbn [decode]. f_equal. match goal with H : Forall _ rows |- _ => rename H into HF end.
    induction HF as [|[[x xs] brs] rows [Hx Hxs] HF IH]; [reflexivity|]. cbn [fst snd] in *. cbn [flat_map]. rewrite map_app, IH. cbn [map]. rewrite Hx, map_map. f_equal. f_equal.
    apply map_Forall. eapply Forall_impl; [|exact Hxs]. intros a Ha. cbn in *. congruence.
  - cbn [decode]. f_equal. match goal with H : Forall _ rows |- _ => rename H into HF end. change (map _ ?l) with (map decode_item l) at 1.
    induction HF as [|[i brs] rows Hi HF IH]; [reflexivity|]. cbn [fst] in Hi. cbn [flat_map fst]. rewrite map_app, IH, Hi. reflexivity.
  - cbn [decode]. change (val_of (leaf (Fun f))) with (f ++ [40%N])%list. rewrite removelast_last, map_app, map_map. etransitivity; [|apply plain_call_first].
    f_equal. f_equal; [destruct first; cbn [maybe map] in *; congruence|]. apply map_Forall; assumption.
  - cbn [decode operator]. destruct o; cbn; congruence.
  - cbn. congruence.
  - cbn. congruence.
  - cbn. congruence.
  - cbn. congruence.
  - cbn. congruence.
  - cbn. congruence.
  - assert (Hm : map decode (map tree more) = map plain more) by (rewrite map_map; apply map_Forall; assumption).
    unfold operator. destruct first as [x|], more as [|y [|z more]]; cbn [app map maybe] in *; cbn [decode]; rewrite ?H; cbn [map] in Hm.
    + destruct (tree_there x) as (l & cs & Hx). rewrite <- H0, Hx. reflexivity.
    + destruct (tree_there y) as (l & cs & Hy). destruct (tree_there x) as (l' & cs' & Hx). injection Hm as Hy'. rewrite <- H0, <- Hy', Hx, Hy. reflexivity.
    + destruct (tree_there y) as (l & cs & Hy). destruct (tree_there x) as (l' & cs' & Hx). injection Hm as Hy' Hz Hm. rewrite <- H0, <- Hy', <- Hz, <- Hm, Hx, Hy. reflexivity.
    + reflexivity.
    + destruct (tree_there y) as (l & cs & Hy). injection Hm as Hy'. rewrite <- Hy', Hy. reflexivity.
    + destruct (tree_there y) as (l & cs & Hy). destruct (tree_there z) as (l' & cs' & Hz'). injection Hm as Hy' Hz Hm. rewrite <- Hy', <- Hz, <- Hm, Hy, Hz'. reflexivity.
  - cbn. congruence.
  - cbn [decode]. rewrite H, H0. destruct (map tree more ++ [tree b])%list as [|z zs] eqn:Hz; [destruct more; discriminate Hz|]. rewrite <- Hz, map_app. cbn [map].
    rewrite removelast_last, last_last, H2, map_map. f_equal. apply map_Forall. assumption.
  - assumption.
  - assumption.
  - assert (Hc : match match cond with Some c => tree c | None => TNone end with TNone => None | _ => Some (decode match cond with Some c => tree c | None => TNone end) end
                 = match cond with Some c => Some (plain c) | None => None end).
    { destruct cond as [c|]; [|reflexivity]. cbn [maybe] in *. destruct (tree_there c) as (l & cs & Hx). rewrite <- H0, Hx. reflexivity. }
    destruct r; cbn [range_tree decode]; rewrite H, H1, Hc; reflexivity.
  - cbn. congruence.
  - cbn [map]. unfold decode_item at 1. rewrite key_of_tree, H. f_equal. rewrite !map_map. apply map_Forall. eapply Forall_impl; [|exact H0].
    intros [[k' v'] q'] Hx. cbn [fst snd] in Hx. unfold decode_item. rewrite key_of_tree, Hx. reflexivity.
  - cbn [map]. unfold decode_item. change (val_of (leaf (Quoted ty))) with (quote ty). rewrite H, unquote1. destruct ex; reflexivity.
Qed.

(** ** Types, decorators and declarations *)
Fixpoint wrap (n : nat) (t : ty) : ty := match n with O => t | Datatypes.S n => ArrayOf (wrap n t) end.
Fixpoint decode_base (t : ptree) : ty :=
  match t with
  | TTok k => Named (tval k)
  | TNode _ _ cs => Union (map (fun c => match c with TNode _ _ (TNode _ _ [b] :: sfx) => wrap (List.length sfx) (decode_base b) | _ => Union [] end) cs)
  | TNone => Union []
  end.
Definition decode_type (t : ptree) : ty := match t with TNode _ _ (TNode _ _ [b] :: sfx) => wrap (List.length sfx) (decode_base b) | _ => Union [] end.
Lemma decode_base_tree t : wrap (layers t) (decode_base (base_tree t)) = t.
Proof.
  induction t as [n|t IH|ts IH] using ty_induction; [reflexivity|cbn [layers base_tree wrap]; congruence|].
  cbn [layers base_tree wrap decode_base]. f_equal. rewrite map_map. rewrite <- (map_id ts) at 2. apply map_Forall. eapply Forall_impl; [|exact IH].
  intros a Ha. cbn in *. rewrite repeat_length. exact Ha.
Qed.
Lemma decode_type_tree t : decode_type (type_tree t) = t.
Proof. cbn [decode_type type_tree]. rewrite repeat_length. apply decode_base_tree. Qed.

Definition option_of {A} (f : ptree -> A) (t : ptree) : option A := match t with TNone => None | _ => Some (f t) end.
Lemma option_tree o : option_of decode (or_none tree o) = option_map plain o.
Proof. destruct o as [e|]; [|reflexivity]. cbn [or_none option_map]. destruct (tree_there e) as (l & cs & H). rewrite <- decode_tree, H. reflexivity. Qed.
Lemma option_name o : option_of val_of (maybe_name o) = o.
Proof. destruct o; reflexivity. Qed.
Definition decode_deco (t : ptree) : deco :=
  match t with
  | TNode _ _ (n :: arg) => {| d_name := val_of n; d_lead := None; d_arg := option_map decode (hd_error arg); d_trail := None; d_after := [] |}
  | _ => {| d_name := []; d_lead := None; d_arg := None; d_trail := None; d_after := [] |}
  end.
Definition decode_decos (t : ptree) : list deco := match t with TNode _ _ ds => map decode_deco ds | _ => [] end.
Lemma decode_decos_tree ds : decode_decos (decos_tree ds) = map plain_deco ds.
Proof.
  assert (H : map decode_deco (map deco_tree ds) = map plain_deco ds).
  { rewrite map_map. apply map_ext. intros d. unfold deco_tree, decode_deco, plain_deco. destruct (d_arg d) as [e|]; cbn; rewrite ?decode_tree; reflexivity. }
  destruct ds; [reflexivity|exact H].
Qed.
Definition decode_symbol (t : ptree) : symbol :=
  match t with
  | TNode _ _ [TTok k; a] => if is_name k then SName (tval k) (option_of val_of a) else SAll (option_of val_of a)
  | _ => SAll None
  end.
Lemma decode_symbol_tree s : decode_symbol (symbol_tree s) = s.
Proof. destruct s as [v a|a]; cbn; rewrite option_name; reflexivity. Qed.
Fixpoint decode_params (l : list ptree) : list (str * ty) :=
  match l with n :: t :: l => (val_of n, decode_type t) :: decode_params l | _ => [] end.
Lemma decode_params_tree ps l : List.length l < 2 -> decode_params (flat_map param_trees ps ++ l)%list = ps.
Proof.
  intros Hl. induction ps as [|[n t] ps IH]; [destruct l as [|a [|b l]]; [reflexivity|reflexivity|cbn in Hl; lia]|].
  cbn [flat_map param_trees app fst snd decode_params]. rewrite IH, decode_type_tree. reflexivity.
Qed.
Definition string_of (t : ptree) : str := unquoted 1 (val_of t).
Definition inside (t : ptree) : ptree := match t with TNode _ _ [x] => x | _ => TNone end.
Definition decode_decl (t : ptree) : decl :=
  match t with
  | TNode L_scope _ [c] => DScope (string_of c)
  | TNode L_custom_import _ [c] => DNamespace (string_of c)
  | TNode L_custom_import _ (s :: rest) => DImports (decode_symbol s) (map decode_symbol (removelast rest)) (string_of (last rest TNone))
  | TNode L_extension _ [n; c; a] => DExtension (val_of n) (option_of decode c) (option_of val_of a)
  | TNode L_metadata _ [n; c] => DMetadata (val_of n) (string_of (inside c))
  | TNode L_param _ [ds; n; t; e] => DParam (decode_decos ds) (val_of n) (decode_type t) false (option_of decode e)
  | TNode L_var _ [ds; n; t; e] => DVar (decode_decos ds) (val_of n) (option_of (fun t => (decode_type t, false)) t) (decode e)
  | TNode L_output _ [ds; n; t; e] => DOutput (decode_decos ds) (val_of n) (decode_type t) false (decode e)
  | TNode L_resource _ [ds; n; c; x; e] => DResource (decode_decos ds) (val_of n) (string_of (inside c)) (is_there x) (decode e)
  | TNode L_module _ [ds; n; c; e] => DModule (decode_decos ds) (val_of n) (string_of (inside c)) (decode e)
  | TNode L_custom_type _ [ds; n; v] =>
      match v with
      | TNode L_type_value _ (e :: more) => DType (decode_decos ds) (val_of n) (decode e) (map decode more)
      | _ => DType (decode_decos ds) (val_of n) (decode v) []
      end
  | TNode L_custom_func _ (ds :: n :: rest) =>
      DFunc (decode_decos ds) (val_of n) (decode_params (removelast (removelast rest))) (decode_type (last (removelast rest) TNone)) (decode (last rest TNone))
  | _ => DScope []
  end.
Lemma string_of_leaf c : string_of (leaf (Quoted c)) = c.
Proof. exact (unquote1 c). Qed.
Lemma tree_not_type e : match tree e with TNode L_type_value _ _ => False | _ => True end.
Proof.
  revert e. apply (expr_induction (fun e => match tree e with TNode L_type_value _ _ => False | _ => True end) (fun _ => True)); intros; cbn [tree]; try exact I; try assumption.
  destruct b; exact I.
Qed.
Theorem decode_decl_tree d : decode_decl (decl_tree d) = plain_decl d.
Proof.
  destruct d; cbn [decl_tree plain_decl decode_decl inside]; rewrite ?string_of_leaf, ?decode_decos_tree, ?decode_type_tree, ?option_tree, ?decode_tree, ?option_name; try reflexivity.
  - cbn [removelast last map]. rewrite decode_symbol_tree, string_of_leaf. reflexivity.
  - match goal with |- context [(map symbol_tree more ++ ?l)%list] => destruct (map symbol_tree more ++ l)%list as [|z zs] eqn:Hz end; [destruct more; discriminate Hz|]. rewrite <- Hz.
    rewrite removelast_last, last_last, decode_symbol_tree, string_of_leaf, map_map. f_equal. rewrite <- (map_id more) at 2. apply map_ext, decode_symbol_tree.
  - destruct t as [[t q]|]; [|reflexivity]. cbn [or_none option_of fst]. f_equal. f_equal. change (option_of (fun t => (decode_type t, false)) (type_tree t)) with (Some (decode_type (type_tree t), false)).
    rewrite decode_type_tree. reflexivity.
  - destruct existing; reflexivity.
  - destruct more as [|x more].
    + pose proof (tree_not_type v) as Hn. destruct (tree_there v) as (l & cs & He). rewrite He in Hn. rewrite <- decode_tree, He. destruct l; try reflexivity. contradiction.
    + rewrite decode_tree. f_equal. rewrite map_map. apply map_ext, decode_tree.
  - change [type_tree t; tree b] with ([type_tree t] ++ [tree b])%list. rewrite app_assoc, !removelast_last, !last_last, decode_type_tree, decode_tree.
    rewrite <- (app_nil_r (flat_map _ _)), decode_params_tree by (cbn; lia). reflexivity.
Qed.
Definition decode_program (t : ptree) : list decl := match t with TNode _ _ ds => map decode_decl ds | _ => [] end.
Theorem decode_program_tree p : decode_program (program_tree p) = plain_program p.
Proof.
  unfold program_tree, decode_program, plain_program. induction p as [|[d br|br] p IH]; cbn [flat_map line_trees app map]; rewrite ?IH, ?decode_decl_tree; reflexivity.
Qed.

(** ** Up to positions *)
Definition norm_token (k : token) : token :=
  {| ttype := if str_eqb (ttype k) (u "QUOTED_STRING") then u "QUOTED_INTERPOLATION" else ttype k; tval := tval k; tline := 0; tend := 0 |}.
Fixpoint norm (t : ptree) : ptree :=
  match t with TNode l _ cs => TNode l None (map norm cs) | TTok k => TTok (norm_token k) | TNone => TNone end.
Lemma like_norm : forall a b, like a b -> norm a = norm b.
Proof.
  apply (ptree_all (fun a => forall b, like a b -> norm a = norm b)).
  - intros t b H. inversion H as [? k Ht Hv| |]; subst. cbn [norm]. unfold norm_token. rewrite Hv. destruct Ht as [->|[-> ->]]; reflexivity.
  - intros b H. inversion H. reflexivity.
  - intros l m cs IH b H. inversion H as [| |? ? ? ? cs' HF]; subst. cbn [norm]. f_equal. clear H.
    induction HF as [|x y xs ys Hx HF IHF]; [reflexivity|]. inversion IH; subst. cbn [map]. f_equal; auto.
Qed.
Definition fixed (t : ptree) : Prop := norm t = t.
Lemma fixed_node l cs : Forall fixed cs -> fixed (TNode l None cs).
Proof. intros H. unfold fixed. cbn [norm]. f_equal. rewrite <- (map_id cs) at 2. apply map_Forall. exact H. Qed.
Lemma fixed_map {A} (f : A -> ptree) l : Forall (fun a => fixed (f a)) l -> Forall fixed (map f l).
Proof. intros H. apply Forall_map. exact H. Qed.
Lemma fixed_maps {A} (f : A -> list ptree) l : Forall (fun a => Forall fixed (f a)) l -> Forall fixed (flat_map f l).
Proof. induction 1; cbn [flat_map]; [constructor|apply Forall_app; auto]. Qed.
Lemma fixed_none : fixed TNone. Proof. reflexivity. Qed.
Lemma fixed_key k : fixed (key_tree k).
Proof. destruct k; reflexivity. Qed.
Lemma fixed_existing b : fixed (existing_tree b).
Proof. destruct b; reflexivity. Qed.
Lemma fixed_tree : forall e, fixed (tree e).
Proof.
  apply (expr_induction (fun e => fixed (tree e)) (fun i => Forall fixed (item_trees i))); try reflexivity; intros; cbn [tree item_trees]; unfold operator; auto;
    try (repeat (apply fixed_node; repeat apply Forall_cons; try apply Forall_nil; auto using fixed_none, fixed_key, fixed_existing; try reflexivity); fail).
  - apply fixed_node, fixed_maps. eapply Forall_impl; [|eassumption]. intros [[x xs] brs] [Hx Hxs]. constructor; [exact Hx|]. apply fixed_map. exact Hxs.
  - apply fixed_node, fixed_maps. assumption.
  - apply fixed_node. constructor; [reflexivity|]. apply Forall_app. split; [destruct first; [constructor; [assumption|constructor]|constructor]|]. apply fixed_map. assumption.
  - apply fixed_node. constructor; [|constructor]. apply fixed_node. constructor; [assumption|]. constructor; [reflexivity|]. apply Forall_app.
    split; [destruct first; [constructor; [assumption|constructor]|constructor]|]. destruct more; [constructor; [reflexivity|constructor]|]. apply fixed_map. assumption.
  - apply fixed_node. constructor; [assumption|]. constructor; [assumption|]. apply Forall_app. split; [apply fixed_map; assumption|]. constructor; [assumption|constructor].
  - apply fixed_node. constructor; [destruct r; apply fixed_node; repeat apply Forall_cons; try apply Forall_nil; try reflexivity; assumption|].
    constructor; [destruct cond; [assumption|reflexivity]|]. constructor; [assumption|constructor].
  - constructor; [apply fixed_node; repeat apply Forall_cons; try apply Forall_nil; auto using fixed_key|]. apply fixed_map. eapply Forall_impl; [|eassumption].
    intros [[k' v'] q'] Hx. apply fixed_node; repeat apply Forall_cons; try apply Forall_nil; auto using fixed_key.
  - constructor; [|constructor]. apply fixed_node; repeat apply Forall_cons; try apply Forall_nil; auto using fixed_existing; reflexivity.
Qed.
Lemma fixed_suffixes n : Forall fixed (repeat suffix_tree n).
Proof. induction n; constructor; [reflexivity|assumption]. Qed.
Lemma fixed_base t : fixed (base_tree t).
Proof.
  induction t as [n|t IH|ts IH] using ty_induction; [reflexivity|exact IH|]. cbn [base_tree]. apply fixed_node, fixed_map. eapply Forall_impl; [|exact IH].
  intros a Ha. apply fixed_node. constructor; [|apply fixed_suffixes]. apply fixed_node. constructor; [exact Ha|constructor].
Qed.
Lemma fixed_type t : fixed (type_tree t).
Proof. apply fixed_node. constructor; [|apply fixed_suffixes]. apply fixed_node. constructor; [apply fixed_base|constructor]. Qed.
Lemma fixed_decos ds : fixed (decos_tree ds).
Proof.
  assert (H : Forall fixed (map deco_tree ds)).
  { apply fixed_map, Forall_forall. intros d _. apply fixed_node. constructor; [reflexivity|]. destruct (d_arg d); constructor; [apply fixed_tree|constructor]. }
  destruct ds; [reflexivity|apply fixed_node; exact H].
Qed.
Lemma fixed_or {A} (f : A -> ptree) o : (forall a, fixed (f a)) -> fixed (or_none f o).
Proof. intros H. destruct o; [apply H|reflexivity]. Qed.
Lemma fixed_name o : fixed (maybe_name o).
Proof. destruct o; reflexivity. Qed.
Lemma fixed_symbol s : fixed (symbol_tree s).
Proof. destruct s; (apply fixed_node; constructor; [reflexivity|]; constructor; [apply fixed_name|constructor]). Qed.
Lemma fixed_symbols l : Forall fixed (map symbol_tree l).
Proof. apply fixed_map, Forall_forall. intros s _. apply fixed_symbol. Qed.
Lemma fixed_trees l : Forall fixed (map tree l).
Proof. apply fixed_map, Forall_forall. intros s _. apply fixed_tree. Qed.
Lemma fixed_decl d : fixed (decl_tree d).
Proof.
  destruct d; cbn [decl_tree]; apply fixed_node;
    repeat (first [apply Forall_nil | apply Forall_cons | apply Forall_app; split]; auto using fixed_decos, fixed_type, fixed_tree, fixed_existing, fixed_name, fixed_symbol, fixed_symbols, fixed_or);
    try reflexivity.
  - destruct more; [apply fixed_tree|]. apply fixed_node. constructor; [apply fixed_tree|]. apply fixed_trees.
  - apply fixed_maps, Forall_forall. intros [n' t'] _. repeat constructor. apply fixed_type.
Qed.
Theorem fixed_program p : fixed (program_tree p).
Proof. apply fixed_node, fixed_maps, Forall_forall. intros [d br|br] _; cbn [line_trees]; repeat constructor. apply fixed_decl. Qed.

(** ** One program *)
Theorem program_tree_plain p q : program_tree p = program_tree q <-> plain_program p = plain_program q.
Proof.
  split; intros H; [rewrite <- !decode_program_tree, H; reflexivity|]. rewrite !program_plain, H. reflexivity.
Qed.
Theorem like_plain x p q : like x (program_tree p) -> like x (program_tree q) -> plain_program p = plain_program q.
Proof.
  intros Hp Hq. apply program_tree_plain. rewrite <- (fixed_program p), <- (fixed_program q). rewrite <- (like_norm _ _ Hp). apply like_norm, Hq.
Qed.
