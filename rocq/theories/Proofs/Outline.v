(** What [create_tree] prints is the outline of the program. *)
From Coq Require Import List Arith NArith PArith Bool String Lia.
From Verif Require Import Py.Str Py.Val Lark.Tree Spec.Types Spec.Spelling Spec.Syntax Spec.Outline Spec.Numbering
     Proofs.State Proofs.Generate Proofs.SyntaxInd Proofs.Derive Proofs.DerivePrograms.
Import ListNotations.
Local Open Scope string_scope.

Fixpoint plan (t : ptree) : outline :=
  match t with
  | TNode l _ cs => Heading (label_name l) (map plan cs)
  | TTok k => Entry (tval k)
  | TNone => nothing
  end.
Lemma indent_blanks n : indent n = repeat 32%N (2 * n).
Proof. unfold indent. induction n as [|n IH]; [reflexivity|]. cbn [repeat List.concat]. rewrite IH. replace (2 * Datatypes.S n) with (2 + 2 * n) by lia. reflexivity. Qed.
Lemma pretty_rows : forall t n, pretty_at n t = flat_map row_text (rows n (plan t)).
Proof.
  apply (ptree_all (fun t => forall n, pretty_at n t = flat_map row_text (rows n (plan t)))).
  - intros k n. cbn [plan rows flat_map]. unfold row_text. cbn [fst snd pretty_at]. rewrite app_nil_r, indent_blanks. reflexivity.
  - intros n. cbn [plan]. unfold nothing. cbn [rows flat_map]. unfold row_text. cbn [fst snd pretty_at]. rewrite app_nil_r, indent_blanks. reflexivity.
  - intros l m cs IH n.
    assert (Hm : List.concat (map (pretty_at (Datatypes.S n)) cs) = flat_map row_text (flat_map (rows (Datatypes.S n)) (map plan cs))).
    { induction IH as [|c cs Hc HF IHF]; [reflexivity|]. cbn [map List.concat flat_map]. rewrite flat_map_app, <- IHF, Hc. reflexivity. }
    assert (Hh : ((indent n ++ label_name l) ++ [10%N] ++ List.concat (map (pretty_at (Datatypes.S n)) cs)
                 = flat_map row_text ((n, label_name l) :: flat_map (rows (Datatypes.S n)) (map plan cs)))%list).
    { rewrite Hm. cbn [flat_map]. unfold row_text at 2. cbn [fst snd]. rewrite indent_blanks, <- !app_assoc. reflexivity. }
    assert (Hs : forall s : str, ((indent n ++ label_name l) ++ [9%N] ++ s ++ [10%N] = flat_map row_text [(n, label_name l ++ [9%N] ++ s)])%list).
    { intros s. cbn [flat_map]. unfold row_text. cbn [fst snd]. rewrite indent_blanks, app_nil_r, <- !app_assoc. reflexivity. }
    destruct cs as [|c [|c' cs]]; [exact Hh| |].
    + destruct c; [exact Hh| |]; cbn [pretty_at leaf_text plan map rows]; apply Hs.
    + destruct c; exact Hh.
Qed.

Lemma map_flat {A B C} (f : A -> B) (g : C -> list A) (h : C -> list B) l : Forall (fun c => map f (g c) = h c) l -> map f (flat_map g l) = flat_map h l.
Proof. induction 1 as [|c l Hc HF IH]; [reflexivity|]. cbn [flat_map]. rewrite map_app, Hc, IH. reflexivity. Qed.
Lemma map_same {A B C} (f : B -> C) (g : A -> B) (h : A -> C) l : Forall (fun a => f (g a) = h a) l -> map f (map g l) = map h l.
Proof. induction 1 as [|c l Hc HF IH]; [reflexivity|]. cbn [map]. rewrite Hc, IH. reflexivity. Qed.

Lemma plan_range r over over' : plan over = over' -> plan (range_tree r over) = range_outline r over'.
Proof. intros <-. destruct r; reflexivity. Qed.
Lemma plan_key k : plan (key_tree k) = key_outline k.
Proof. destruct k; reflexivity. Qed.
Lemma plan_existing b : plan (existing_tree b) = existing_outline b.
Proof. destruct b; reflexivity. Qed.
Lemma plan_exprs : (forall e, plan (tree e) = expr_outline e) /\ (forall i, map plan (item_trees i) = item_outlines i).
Proof.
  assert (HP : forall l, Forall (fun e => plan (tree e) = expr_outline e) l -> map plan (map tree l) = map expr_outline l) by (intros; apply map_same; assumption).
  apply syntax_induction; try (intros; reflexivity);
    try (intros; cbn [tree expr_outline plan map]; unfold operator, operation; cbn [plan map]; unfold heading; cbn [label_name]; congruence).
  - intros []; reflexivity.
  - intros lead rows IH. cbn [tree expr_outline plan]. unfold heading. f_equal. apply map_flat. eapply Forall_impl; [|exact IH].
    intros [[x xs] brs] [H1 H2]. cbn [fst snd] in *. cbn [map]. rewrite H1, (HP _ H2). reflexivity.
  - intros lead rows IH. cbn [tree expr_outline plan]. unfold heading. f_equal. apply map_flat. exact IH.
  - intros f lead first more trail H1 H2. cbn [tree expr_outline plan map]. unfold heading.
    rewrite map_app, (map_same plan (fun a => tree (snd a)) (fun a => expr_outline (snd a)) _ H2).
    destruct first as [x|]; [cbn [map]; rewrite H1|]; reflexivity.
  - intros o a b Ha Hb. destruct o; cbn [tree expr_outline op_label op_name]; unfold operator, operation, heading; cbn [plan map label_name]; rewrite Ha, Hb; reflexivity.
  - intros a f first more Ha H1 H2. cbn [tree expr_outline]. unfold operator, operation. cbn [plan map]. rewrite Ha, map_app.
    replace (map plan match first with Some x => [tree x] | None => [] end) with match first with Some x => [expr_outline x] | None => [] end
      by (destruct first as [x|]; [cbn [map]; rewrite H1|]; reflexivity).
    destruct more as [|y more]; [reflexivity|]. rewrite (HP _ H2). reflexivity.
  - intros x y more b Hx Hy Hm Hb. cbn [tree expr_outline plan map]. rewrite map_app, Hx, Hy, (HP _ Hm). cbn [map]. rewrite Hb. reflexivity.
  - intros lead r over cond body trail Ho Hc Hb. cbn [tree expr_outline plan map]. rewrite (plan_range _ _ _ Ho), Hb.
    destruct cond as [c|]; [rewrite Hc|]; reflexivity.
  - intros k v q more Hv Hm. cbn [item_trees item_outlines map plan]. rewrite plan_key, Hv. unfold heading at 1. f_equal.
    apply map_same. eapply Forall_impl; [|exact Hm]. intros [[k' v'] q'] H. cbn [fst snd plan map] in *. rewrite plan_key, H. reflexivity.
  - intros n ty ex body Hb. cbn [item_trees item_outlines map plan]. rewrite plan_existing, Hb. reflexivity.
Qed.
Definition plan_expr e : plan (tree e) = expr_outline e := proj1 plan_exprs e.
Lemma map_repeat {A B} (f : A -> B) a n : map f (repeat a n) = repeat (f a) n.
Proof. induction n as [|n IH]; [reflexivity|]. cbn [repeat map]. rewrite IH. reflexivity. Qed.
Lemma layers_depth : forall t, layers t = array_depth t.
Proof. fix IH 1. intros [n|t|ts]; [reflexivity| |reflexivity]. cbn [layers array_depth]. rewrite IH. reflexivity. Qed.
Lemma plan_base : forall t, plan (base_tree t) = base_outline t.
Proof.
  fix IH 1. intros [n|t|ts]; [reflexivity|exact (IH t)|]. cbn [base_tree base_outline plan]. unfold heading at 1. f_equal.
  induction ts as [|t ts IHts]; [reflexivity|]. cbn [map]. rewrite IHts. f_equal. cbn [plan map]. rewrite (IH t), map_repeat, layers_depth. reflexivity.
Qed.
Lemma plan_type t : plan (type_tree t) = type_outline t.
Proof. unfold type_tree, type_outline. cbn [plan map]. rewrite plan_base, map_repeat, layers_depth. reflexivity. Qed.
Lemma plan_deco d : plan (deco_tree d) = deco_outline d.
Proof. unfold deco_tree, deco_outline. cbn [plan map]. destruct (d_arg d) as [e|]; cbn [opt map]; rewrite ?plan_expr; reflexivity. Qed.
Lemma plan_decos ds : plan (decos_tree ds) = decos_outline ds.
Proof.
  destruct ds as [|d ds]; [reflexivity|]. cbn [decos_tree decos_outline plan]. unfold heading. f_equal. apply map_same.
  apply Forall_forall. intros x _. apply plan_deco.
Qed.
Lemma plan_symbol s : plan (symbol_tree s) = symbol_outline s.
Proof. destruct s as [v [a|]|[a|]]; reflexivity. Qed.
Lemma plan_maybe {A} (f : A -> ptree) g o : (forall a, plan (f a) = g a) -> plan (or_none f o) = maybe_shown g o.
Proof. intros H. destruct o as [a|]; [exact (H a)|reflexivity]. Qed.
Lemma plan_name o : plan (maybe_name o) = maybe_shown Entry o.
Proof. destruct o; reflexivity. Qed.
Lemma plan_all {A} (f : A -> ptree) g l : (forall a, plan (f a) = g a) -> map plan (map f l) = map g l.
Proof. intros H. apply map_same. apply Forall_forall. auto. Qed.
Lemma plan_decl d : plan (decl_tree d) = decl_outline d.
Proof.
  destruct d; cbn [decl_tree decl_outline plan map or_none maybe_shown];
    rewrite ?map_app, ?plan_decos, ?plan_symbol, ?plan_type, ?plan_expr, ?plan_existing, ?plan_name, ?(plan_maybe _ _ _ plan_expr),
      ?(plan_maybe _ _ _ (fun a => plan_type (fst a))), ?(plan_all _ _ _ plan_symbol); try reflexivity.
  - destruct more as [|y more]; [rewrite plan_expr; reflexivity|]. cbn [plan map]. rewrite !plan_expr, (plan_all _ _ _ plan_expr). reflexivity.
  - cbn [map]. rewrite plan_type, plan_expr. unfold heading at 1. cbn [app]. do 3 f_equal.
    f_equal. apply map_flat. apply Forall_forall. intros [n' t'] _. unfold param_trees. cbn [map fst snd plan]. rewrite plan_type. reflexivity.
Qed.
Theorem plan_program p : plan (program_tree p) = program_outline p.
Proof.
  unfold program_tree, program_outline. cbn [plan]. unfold heading. f_equal. apply map_flat. apply Forall_forall.
  intros [d br|br] _; [|reflexivity]. cbn [line_trees line_outlines map]. rewrite plan_decl. reflexivity.
Qed.
Theorem pretty_program p : pretty (program_tree p) = outline_text (program_outline p).
Proof. unfold pretty, outline_text. rewrite pretty_rows, plan_program. reflexivity. Qed.
