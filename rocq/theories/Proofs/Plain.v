(** Marks and layout leave no trace in the trees. *)
From Coq Require Import List Arith NArith PArith Bool String Lia.
From Verif Require Import Py.Str Py.Val Lark.Tree Spec.Types Spec.Spelling Spec.Syntax Spec.Plain
     Proofs.Generate Proofs.SyntaxInd Proofs.Derive Proofs.DerivePrograms.
Import ListNotations.

Lemma map_Forall {A B} (f g : A -> B) l : Forall (fun x => f x = g x) l -> map f l = map g l.
Proof. induction 1 as [|x l Hx Hl IH]; cbn [map]; congruence. Qed.
Lemma tree_plain_call f first more :
  tree (plain_call f first more) = N_ L_function (leaf (Fun f) :: match first with Some x => [tree x] | None => [] end ++ map tree more)%list.
Proof. unfold plain_call. destruct first, more; cbn [tree map app]; rewrite ?map_map; reflexivity. Qed.
Lemma tree_plain_method a f first more :
  tree (plain_method a f first more) = operator L_function_accessor (tree a :: leaf (ListFun f) :: match first with Some x => [tree x] | None => [] end ++
        match more with [] => [TNone] | _ => map tree more end)%list.
Proof. unfold plain_method. destruct first, more as [|x [|y more]]; reflexivity. Qed.
Lemma tree_plain : forall e, tree (plain e) = tree e.
Proof.
  apply (expr_induction (fun e => tree (plain e) = tree e)
          (fun i => flat_map (fun r => item_trees (fst r)) (map (fun i => (i, [] : list str)) (plain_items i)) = item_trees i));
    try reflexivity; intros; cbn [plain plain_items tree item_trees]; try congruence.
  - f_equal. match goal with H : Forall _ rows |- _ => rename H into HF end.
    induction HF as [|[[x xs] brs] rows [Hx Hxs] HF IH]; [reflexivity|]. cbn [fst snd] in *. cbn [flat_map app]. rewrite flat_map_app, IH, Hx. cbn [app map]. f_equal. f_equal.
    clear -Hxs. induction Hxs as [|y xs Hy Hxs IH]; [reflexivity|]. cbn [map flat_map app]. rewrite Hy, IH. reflexivity.
  - f_equal. match goal with H : Forall _ rows |- _ => rename H into HF end.
    induction HF as [|[i brs] rows Hi HF IH]; [reflexivity|]. cbn [fst] in Hi. cbn [flat_map fst]. rewrite flat_map_app, IH, Hi. reflexivity.
  - assert (Hm : map tree (map (fun a : option str * expr => plain (snd a)) more) = map (fun a => tree (snd a)) more) by (rewrite map_map; apply map_Forall; assumption).
    rewrite <- Hm, tree_plain_call. do 2 f_equal. f_equal. destruct first; cbn [maybe] in *; congruence.
  - assert (Hm : map tree (map plain more) = map tree more) by (rewrite map_map; apply map_Forall; assumption).
    rewrite tree_plain_method, H, Hm. do 3 f_equal. f_equal; [destruct first; cbn [maybe] in *; congruence|]. destruct more; reflexivity.
  - rewrite map_map, H, H0, H2. do 4 f_equal. apply map_Forall. assumption.
  - rewrite H, H1. destruct cond as [c|]; cbn [maybe] in *; congruence.
  - cbn [map flat_map fst item_trees app]. rewrite H. f_equal. clear -H0.
    induction H0 as [|[[k' v'] q'] more Hx Hm IH]; [reflexivity|]. cbn [fst snd] in Hx. cbn [map flat_map fst item_trees app]. rewrite Hx, IH. reflexivity.
  - cbn [map flat_map fst item_trees app]. rewrite H. reflexivity.
Qed.
Lemma tree_plains l : map tree (map plain l) = map tree l.
Proof. rewrite map_map. apply map_ext, tree_plain. Qed.
Lemma decos_plain ds : decos_tree (map plain_deco ds) = decos_tree ds.
Proof.
  destruct ds as [|d ds]; [reflexivity|]. cbn [map decos_tree]. f_equal. change (deco_tree (plain_deco d) :: map deco_tree (map plain_deco ds)) with (map deco_tree (map plain_deco (d :: ds))).
  rewrite map_map. apply (map_ext (fun x => deco_tree (plain_deco x)) deco_tree). intros a. unfold deco_tree, plain_deco. cbn. destruct (d_arg a) as [e|]; cbn [option_map opt]; rewrite ?tree_plain; reflexivity.
Qed.
Lemma decl_plain d : decl_tree (plain_decl d) = decl_tree d.
Proof.
  destruct d; cbn [plain_decl decl_tree]; rewrite ?decos_plain, ?tree_plain; try reflexivity.
  - destruct config as [e|]; cbn [option_map or_none]; rewrite ?tree_plain; reflexivity.
  - destruct default as [e|]; cbn [option_map or_none]; rewrite ?tree_plain; reflexivity.
  - destruct t as [[t q]|]; reflexivity.
  - destruct more as [|x more]; [reflexivity|]. change (plain x :: map plain more) with (map plain (x :: more)). cbn [map]. rewrite tree_plain, tree_plains. reflexivity.
Qed.
Lemma program_plain p : program_tree p = N_ L_start (map decl_tree (plain_program p)).
Proof.
  unfold program_tree, plain_program. f_equal. induction p as [|[d br|br] p IH]; cbn [flat_map line_trees app map]; rewrite ?IH, ?decl_plain; reflexivity.
Qed.
