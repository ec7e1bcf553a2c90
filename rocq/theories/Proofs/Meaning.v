(** The report of an expression is what its abstract syntax says. *)
From Coq Require Import List Arith NArith ZArith Bool String Lia.
From Verif Require Import Py.Str Py.Val Lark.Tree Lark.Shape Lark.Terminals
  Pycep.Utils Pycep.Decorators Pycep.Functions Pycep.Transformer
  Spec.Json Spec.Schema Spec.Lexemes Spec.Text Spec.Program Spec.Reports Spec.Parts Spec.Values Spec.Functions Spec.Numbering
  Proofs.Base Proofs.JsonLemmas Proofs.TokenForms Proofs.TreeGrammar Proofs.Transform Proofs.State Proofs.Quiet
  Proofs.Children Proofs.Elements Proofs.Parts Proofs.Values
  Spec.Types Spec.Spelling Spec.Syntax Spec.Meaning Proofs.Lexable Proofs.Generate Proofs.SyntaxInd Proofs.Derive Proofs.Like
  Props.Values Props.Constructs Props.Functions.
Import ListNotations.
Local Open Scope string_scope.

Section Meaning.
  Variable E : pyenv.
  Variable ln : bool.
  Variable src : str.
  Notation tf := (transform E ln).
  Notation report := (report E).
  Definition good (t : ptree) : Prop := part_of E src t /\ (ln = true -> has_child t = false).
  Lemma good_child l m cs c : good (TNode l m cs) -> In c cs -> good c.
  Proof.
    intros [H1 H2] Hc. split; [exact (part_child E src l m cs c H1 Hc)|]. intros Hl. specialize (H2 Hl). cbn [has_child] in H2.
    apply orb_false_iff in H2 as [_ H2]. destruct (has_child c) eqn:He; [|reflexivity].
    assert (existsb has_child cs = true) by (apply existsb_exists; eauto). congruence.
  Qed.
  Lemma good_children l m cs : good (TNode l m cs) -> Forall good cs.
  Proof. intros H. apply Forall_forall. intros c. exact (good_child l m cs c H). Qed.

  (** Parts of trees that are alike. *)
  Lemma same_node_inv t l cs : like t (N_ l cs) -> exists m cs', t = TNode l m cs' /\ Forall2 like cs' cs.
  Proof. intros H. inversion H; subst. eauto. Qed.
  Lemma same_leaf_inv t k : like t (leaf k) -> exists k', t = TTok k' /\ alike (ttype k') (u (tname k)) /\ tval k' = text k.
  Proof. intros H. inversion H; subst. eauto. Qed.
  Lemma same_none_inv t : like t TNone -> t = TNone.
  Proof. intros H. inversion H. reflexivity. Qed.

  Definition P (e : expr) : Prop := forall t, good t -> like t (tree e) -> tf t = report e.
  Definition tup (kv : str * pyval) : pyval := PTup [PStr (fst kv); snd kv].
  Definition Q (i : item) : Prop := forall ts, Forall good ts -> Forall2 like ts (item_trees i) ->
    all_ok tf ts = let* ps := item_report E i in Ok (map tup ps).

  (** ** Lists of parts *)
  Lemma all_ok_flat {A B} (g : A -> result (list B)) (h : B -> pyval) (tr : A -> list ptree) l :
    Forall (fun a => forall ts, Forall good ts -> Forall2 like ts (tr a) -> all_ok tf ts = let* x := g a in Ok (map h x)) l ->
    forall ts, Forall good ts -> Forall2 like ts (flat_map tr l) -> all_ok tf ts = let* x := collect g l in Ok (map h x).
  Proof.
    induction 1 as [|a l Ha Hl IH]; intros ts Hg Hs; cbn [flat_map] in Hs.
    - inversion Hs; subst. reflexivity.
    - apply Forall2_app_inv_r in Hs as (t1 & t2 & H1 & H2 & ->). apply Forall_app in Hg as [G1 G2].
      rewrite all_ok_app, (Ha t1 G1 H1), (IH t2 G2 H2). cbn [collect].
      destruct (g a) as [x|e]; [|reflexivity]. cbn [bind]. destruct (collect g l) as [y|e]; [|reflexivity]. cbn [bind]. rewrite map_app. reflexivity.
  Qed.
  Lemma all_ok_parts {A} (f : A -> expr) l : Forall (fun a => P (f a)) l ->
    forall ts, Forall good ts -> Forall2 like ts (map (fun a => tree (f a)) l) -> all_ok tf ts = collect (fun a => single (report (f a))) l.
  Proof.
    intros Hl ts Hg Hs. assert (Hm : map (fun a => tree (f a)) l = flat_map (fun a => [tree (f a)]) l) by (clear; induction l; cbn; congruence).
    rewrite Hm in Hs.
    rewrite (all_ok_flat (fun a => single (report (f a))) (fun v => v) (fun a => [tree (f a)]) l) with (ts := ts).
    - destruct (collect _ l) as [x|e]; [|reflexivity]. cbn [bind]. rewrite map_id. reflexivity.
    - eapply Forall_impl; [|exact Hl]. intros a Ha t G H. inversion H as [|t1 ? ts1 ? H1 H2]; subst. inversion H2; subst.
      inversion G; subst. cbn [all_ok]. rewrite (Ha t1 ltac:(assumption) H1). destruct (report (f a)); reflexivity.
    - exact Hg.
    - exact Hs.
  Qed.

  Ltac kids := repeat match goal with
    | H : Forall2 like _ [] |- _ => inversion H; subst; clear H
    | H : Forall2 like _ (_ :: _) |- _ => inversion H; subst; clear H
    | H : like _ (TNode _ None _) |- _ => let m := fresh "m" in let cs := fresh "cs" in apply same_node_inv in H as (m & cs & -> & H)
    | H : like _ (leaf _) |- _ => let k := fresh "k" in let Ht := fresh "Hk" in let Hv := fresh "Hv" in
        apply same_leaf_inv in H as (k & -> & Ht & Hv)
    | H : like _ TNone |- _ => apply same_none_inv in H; subst
    end.
  Ltac good H := first [exact H | eapply good_child; [good H|cbn [In]; auto 10]].
  Lemma good_node l m cs : good (TNode l m cs) -> l <> L_start ->
    tf (TNode l m cs) = let* vs := all_ok tf cs in wrap l (callv E ln l m vs).
  Proof. intros [H _]. exact (part_node E ln src l m cs H). Qed.
  Lemma good_shape l m cs : good (TNode l m cs) -> node_shape E l cs.
  Proof. intros [H _]. exact (part_shape E src l m cs H). Qed.
  Ltac node H := rewrite (good_node _ _ _ H ltac:(discriminate)).

  Lemma first_case first : maybe P first -> forall ts, Forall good ts -> Forall2 like ts match first with Some x => [tree x] | None => [] end ->
    all_ok tf ts = match first with Some x => single (report x) | None => Ok [] end.
  Proof.
    intros IH ts Hg Hs. destruct first as [x|]; kids; [|reflexivity]. inversion Hg; subst. cbn [maybe all_ok] in *.
    rewrite IH by assumption. destruct (report x); reflexivity.
  Qed.
  Lemma number_denotes v n : denotes v n -> number v = n.
  Proof.
    induction 1 as [|s n d Hs IH Hd]; [reflexivity|]. unfold number. rewrite fold_left_app. cbn [fold_left]. fold (number s). rewrite IH. lia.
  Qed.
  Lemma trim_trimmed c r : trimmed c r -> trim c = r.
  Proof.
    destruct 1 as [s|s Hs]; [reflexivity|]. destruct s as [|x s]; [reflexivity|]. cbn [trim].
    destruct x as [|p]; [reflexivity|]. do 4 (destruct p as [p|p|]; try reflexivity). exfalso. exact (Hs s eq_refl).
  Qed.
  Lemma op_label_start o : op_label o <> L_start.
  Proof. destruct o; discriminate. Qed.
  Lemma operator_node m mo l cs v : good (TNode L_operator m [TNode l mo cs]) -> tf (TNode l mo cs) = v ->
    tf (TNode L_operator m [TNode l mo cs]) = let* x := v in Ok (operation x).
  Proof. intros H Hv. node H. cbn [all_ok]. rewrite Hv. destruct v; reflexivity. Qed.

  Ltac op G := unfold operator in *; kids; rewrite (operator_node _ _ _ _ _ G eq_refl);
    pose proof (good_child _ _ _ _ G (or_introl eq_refl)) as G';
    rewrite (good_node _ _ _ G' ltac:(discriminate || apply op_label_start)); cbn [all_ok].
  Ltac gk G := eapply good_child; [exact G|cbn [In]; tauto].
  Lemma kept_nulls n vs : forall k, kept k (vs ++ repeat PNone n)%list = kept k vs.
  Proof.
    induction vs as [|v vs IH]; intros k; cbn [app kept].
    - revert k. induction n as [|n IH]; intros k; [reflexivity|]. cbn [repeat kept truthy]. apply IH.
    - rewrite !IH. reflexivity.
  Qed.
  Lemma cb_loop_condition va vc vb : cb_loop [va; vc; vb] = let* c := condition vc in Ok (loop_report va c vb).
  Proof.
    destruct vc; try reflexivity. unfold cb_loop, condition. cbn [py_get bind]. destruct (aget (u "function") d) as [f|]; [|reflexivity].
    destruct f; try reflexivity. cbn [py_get bind]. destruct (aget (u "type") d0) as [ty|]; [|reflexivity]. destruct (eq_lit ty (u "if")); reflexivity.
  Qed.
  Lemma report_pairs k v q more : item_report E (Pairs k v q more) =
    let* x := report v in
    let* ps := collect (fun p : key * expr * bool => let '(k', v', _) := p in let* x' := report v' in Ok [(key_text k', x')]) more in
    Ok ((key_text k, x) :: ps).
  Proof. reflexivity. Qed.
  Lemma report_child n ty ex body : item_report E (Child n ty ex body) =
    let* v := report body in
    Ok [(Schema.reserved_key, PDict [(u "__name__", PStr n); (u "__attrs__", PDict
      [(u "decorators", PList []); (u "type", PStr ty); (u "api_version", PStr []); (u "existing", PBool ex); (u "config", v)])])].
  Proof. reflexivity. Qed.
  Lemma pair_case t k v : good t -> like t (N_ L_pair [key_tree k; tree v]) -> P v ->
    tf t = let* x := report v in Ok (tup (key_text k, x)).
  Proof.
    intros G H Pv. unfold key_tree in H. kids. assert (Gk : good (TNode L_key m0 [TTok k0])) by gk G. assert (Gx : good x0) by gk G.
    destruct (good_shape _ _ _ G) as (k' & v' & [= <- <-] & _ & Hok). node G. cbn [all_ok]. node Gk. tokens.
    unfold callv at 1. cbn [call cb_key arg_at nth_error bind pure]. unfold wrap at 1. cbn [py_str' py_str bind].
    assert (Hx : tf x0 = report v) by (apply Pv; assumption).
    rewrite Hx. destruct (report v) as [w|e] eqn:Hw; [|reflexivity]. cbn [bind]. unfold callv. cbn [call cb_pair pure].
    rewrite (json_untoken w (varval_json E ln x0 w Hok Hx)). unfold py_str', wrap. cbn [py_str pure bind]. rewrite Hv. destruct k; reflexivity.
  Qed.
  Lemma range_case r over tr : good tr -> like tr (range_tree r (tree over)) -> P over ->
    tf tr = let* v := report over in Ok (range_report E r v).
  Proof.
    intros Gr H Po. destruct r; cbn [range_tree] in H; kids; cbn [Spelling.text] in *; node Gr; cbn [all_ok]; rewrite !transform_tok.
    - rewrite (Po x1) by (assumption || gk Gr). destruct (report over) as [v|e]; [|reflexivity]. unfold callv, wrap. cbn [call]. unfold cb_loop_array, cb_loop_array_index, cb_loop_object, pure, py_str'. cbn [bind py_str]. rewrite Hv. reflexivity.
    - rewrite (Po x2) by (assumption || gk Gr). destruct (report over) as [v|e]; [|reflexivity]. unfold callv, wrap. cbn [call]. unfold cb_loop_array, cb_loop_array_index, cb_loop_object, pure, py_str'. cbn [bind py_str]. rewrite Hv, Hv0. reflexivity.
    - rewrite (Po x1) by (assumption || gk Gr). destruct (report over) as [v|e]; [|reflexivity]. unfold callv, wrap. cbn [call]. unfold cb_loop_array, cb_loop_array_index, cb_loop_object, pure, py_str'. cbn [bind py_str]. rewrite Hv. reflexivity.
  Qed.
  Lemma existing_case t ex : like t (existing_tree ex) -> exists v, tf t = Ok v /\ truthy v = ex.
  Proof.
    destruct ex; cbn [existing_tree]; intros H; kids; [|exists PNone; split; reflexivity].
    exists (PTok k). split; [apply transform_tok|]. cbn [truthy]. rewrite Hv. reflexivity.
  Qed.
  Lemma meanings : (forall e, P e) /\ (forall i, Q i).
  Proof.
    assert (H1 : P ENull). { intros t G H. cbn [tree] in H. kids. node G. reflexivity. }
    assert (H2 : forall b, P (EBool b)). { intros b t G H. cbn [tree] in H. destruct b; kids; node G; reflexivity. }
    assert (H3 : forall v, P (EInt v)).
    { intros v t G H. cbn [tree] in H. kids. cbn [Spelling.text] in Hv. destruct (C28_integers E ln src _ _ (proj1 G)) as (_ & _ & n & Hn & Hr).
      rewrite Hr, Hv in *. cbn [Spec.Meaning.report]. rewrite (number_denotes v n Hn). reflexivity. }
    assert (H4 : forall v, P (ERef v)).
    { intros v t G H. cbn [tree] in H. kids. cbn [Spelling.text] in Hv. node G. tokens. unfold callv.
      cbn [call arg_at nth_error cb_string bind pure transform_string_token].
      assert (Ht : ttype k = u "STRING") by (destruct Hk as [Hk|[_ Hk]]; [exact Hk|discriminate Hk]). rewrite Ht, Hv. reflexivity. }
    assert (H5 : forall c, P (EStr c)).
    { intros c t G H. cbn [tree] in H. kids. cbn [Spelling.text] in Hv. node G. tokens. unfold callv.
      cbn [call arg_at nth_error cb_string bind pure transform_string_token].
      assert (Ht : ttype k = u "QUOTED_INTERPOLATION").
      { destruct Hk as [Hk|[Hk _]]; [exact Hk|]. destruct (good_shape _ _ _ G) as (k0 & [= <-] & [[Ht _]|[Ht _]]); rewrite Hk in Ht; discriminate Ht. }
      rewrite Ht, Hv, slice_quote. reflexivity. }
    assert (H6 : forall c, P (EMulti c)).
    { intros c t G H. cbn [tree] in H. kids. cbn [Spelling.text] in Hv. destruct (C30_multi_line E ln src _ _ (proj1 G)) as (_ & b & r & Hb & Ht & Hr).
      rewrite Hr. cbn [Spec.Meaning.report]. rewrite Hv in Hb. unfold triple_quote in Hb. apply app_inv_head in Hb.
      apply app_inv_tail in Hb. subst b. rewrite (trim_trimmed c r Ht). reflexivity. }
    assert (H7 : forall br a, P a -> P (ENext br a)) by (intros br a IH t G H; exact (IH t G H)).
    assert (H8 : forall lead rows, Forall (fun r => P (fst (fst r)) /\ Forall P (snd (fst r))) rows -> P (EArray lead rows)).
    { intros lead rows IH t G H. cbn [tree] in H. kids. rewrite (C29_arrays E ln src m cs (proj1 G)). cbn [Spec.Meaning.report].
      rewrite (all_ok_flat (fun r : expr * list expr * list str => let '(x, xs, _) := r in
          let* v := report x in let* vs := collect (fun y => single (report y)) xs in Ok (v :: vs)) (fun v => v)
        (fun r : expr * list expr * list str => let '(x, xs, _) := r in tree x :: map tree xs) rows) with (ts := cs).
      - destruct (collect _ rows) as [x|e]; [|reflexivity]. cbn [bind]. rewrite map_id. reflexivity.
      - eapply Forall_impl; [|exact IH]. intros [[x xs] brs] [Hx Hxs] ts Gt Ht. cbn [fst snd] in *. inversion Ht as [|t1 ? ts1 ? E1 E2]; subst.
        inversion Gt as [|? ? G1 G2]; subst. cbn [all_ok]. rewrite (Hx t1 G1 E1).
        rewrite (all_ok_parts (fun y => y) xs Hxs ts1 G2 E2). destruct (report x) as [v|e]; [|reflexivity]. cbn [bind].
        destruct (collect _ xs) as [vs|e]; [|reflexivity]. cbn [bind]. rewrite map_id. reflexivity.
      - exact (good_children _ _ _ G).
      - exact H. }
    assert (H9 : forall lead rows, Forall (fun r => Q (fst r)) rows -> P (EObject lead rows)).
    { intros lead rows IH t G H. cbn [tree] in H. kids. node G.
      rewrite (all_ok_flat (fun r : item * list str => item_report E (fst r)) tup (fun r => item_trees (fst r)) rows) with (ts := cs).
      - cbn [Spec.Meaning.report]. destruct (collect _ rows) as [ps|e]; [|reflexivity]. cbn [bind]. unfold callv. cbn [call].
        assert (Ht : tuple_pairs (map tup ps) = Ok ps).
        { clear. induction ps as [|[k v] ps IH]; [reflexivity|]. cbn [map tup tuple_pairs str_text fst snd]. rewrite IH. reflexivity. }
        unfold cb_object. rewrite Ht. reflexivity.
      - exact IH.
      - exact (good_children _ _ _ G).
      - exact H. }
    assert (H10 : forall f lead first more trail, maybe P first -> Forall (fun a => P (snd a)) more -> P (ECall f lead first more trail)).
    { intros f lead first more trail IHf IH t G H. cbn [tree] in H. kids. destruct (C22_calls E ln src _ _ (proj1 G)) as (k' & ns & n & vs & [= <- <-] & _ & Hn & _ & _ & Hr).
      cbn [Spelling.text] in Hv. rewrite Hv, app_assoc in Hn. apply app_inv_tail in Hn. subst f. set (f := (ns ++ n)%list) in *.
      pose proof (good_children _ _ _ G) as Gs. inversion Gs as [|? ? _ Gs']; subst.
      assert (Ha : all_ok tf l = let* v := match first with Some x => single (report x) | None => Ok [] end in
        let* vs := collect (fun a => single (report (snd a))) more in Ok (v ++ vs)%list).
      { match goal with H : Forall2 like l _ |- _ => apply Forall2_app_inv_r in H as (t1 & t2 & S1 & S2 & ->) end. apply Forall_app in Gs' as [Gt1 Gt2].
        rewrite all_ok_app, (first_case first IHf t1 Gt1 S1), (all_ok_parts (fun a => snd a) more IH t2 Gt2 S2). reflexivity. }
      assert (Hc : report (ECall f lead first more trail) = let* vs := all_ok tf l in call_report f vs).
      { rewrite Ha. cbn [Spec.Meaning.report]. destruct first as [x|]; [destruct (report x) as [v|e]; [|reflexivity]|]; cbn [single bind];
          destruct (collect _ more) as [vs|e]; reflexivity. }
      rewrite Hc. destruct (all_ok tf l) as [ws|e] eqn:Hw; cbn [bind].
      - apply Hr. reflexivity.
      - node G. tokens. rewrite Hw. reflexivity. }
    assert (H11 : forall o a b, P a -> P b -> P (EBin o a b)).
    { intros o a b Pa Pb t G H. cbn [tree] in H. op G. rewrite (Pa x), (Pb x0) by (assumption || gk G'). cbn [Spec.Meaning.report].
      destruct (report a) as [va|e]; [|reflexivity]. destruct (report b) as [vb|e]; [|reflexivity]. destruct o; reflexivity. }
    assert (H12 : forall a, P a -> P (ENot a)).
    { intros a Pa t G H. cbn [tree] in H. op G. rewrite (Pa x) by (assumption || gk G'). cbn [Spec.Meaning.report]. destruct (report a); reflexivity. }
    assert (H13 : forall a, P a -> P (EMinus a)).
    { intros a Pa t G H. cbn [tree] in H. op G. rewrite (Pa x) by (assumption || gk G'). cbn [Spec.Meaning.report]. destruct (report a); reflexivity. }
    assert (H14 : forall c a b, P c -> P a -> P b -> P (ECond c a b)).
    { intros c a b Pc Pa Pb t G H. cbn [tree] in H. op G. rewrite (Pc x), (Pa x0), (Pb x1) by (assumption || gk G'). cbn [Spec.Meaning.report].
      destruct (report c); [|reflexivity]. destruct (report a); [|reflexivity]. destruct (report b); reflexivity. }
    assert (H15 : forall s a b, P a -> P b -> P (EDot s a b)).
    { intros s a b Pa Pb t G H. cbn [tree] in H. op G. rewrite (Pa x), (Pb x0) by (assumption || gk G'). cbn [Spec.Meaning.report].
      destruct (report a) as [va|e]; [|reflexivity]. destruct (report b) as [vb|e]; reflexivity. }
    assert (H16 : forall s a b, P a -> P b -> P (EIndex s a b)).
    { intros s a b Pa Pb t G H. cbn [tree] in H. op G. rewrite (Pa x), (Pb x0) by (assumption || gk G'). cbn [Spec.Meaning.report].
      destruct (report a) as [va|e]; [|reflexivity]. destruct (report b) as [vb|e]; reflexivity. }
    assert (H17 : forall a b, P a -> P b -> P (ENested a b)).
    { intros a b Pa Pb t G H. cbn [tree] in H. op G. rewrite (Pa x), (Pb x0) by (assumption || gk G'). cbn [Spec.Meaning.report].
      destruct (report a) as [va|e]; [|reflexivity]. destruct (report b) as [vb|e]; reflexivity. }
    assert (H18 : forall a f first more, P a -> maybe P first -> Forall P more -> P (EMethod a f first more)).
    { intros a f first more Pa Pf IH t G H. cbn [tree] in H. unfold operator in H. kids.
      rewrite (operator_node _ _ _ _ _ G eq_refl). pose proof (good_child _ _ _ _ G (or_introl eq_refl)) as G'.
      pose proof (good_children _ _ _ G') as Gs. inversion Gs as [|? ? Ga Gs1]; subst. inversion Gs1 as [|? ? _ Gs2]; subst.
      match goal with H : Forall2 like _ (_ ++ _) |- _ => apply Forall2_app_inv_r in H as (t1 & t2 & S1 & S2 & ->) end.
      apply Forall_app in Gs2 as [Gt1 Gt2].
      assert (Hx : tf x = report a) by (apply Pa; assumption).
      pose proof (first_case first Pf t1 Gt1 S1) as Ht.
      assert (Hn : exists n, all_ok tf t2 = let* vs := collect (fun y => single (report y)) more in Ok (vs ++ repeat PNone n)%list).
      { destruct more as [|y more]; [kids; exists 1; reflexivity|exists 0]. rewrite (all_ok_parts (fun y => y) (y :: more) IH t2 Gt2 S2).
        destruct (collect _ (y :: more)) as [vs|e]; [|reflexivity]. cbn [bind repeat]. rewrite app_nil_r. reflexivity. }
      destruct Hn as (n & Hn). cbn [Spelling.text] in Hv. cbn [Spec.Meaning.report].
      destruct (report a) as [va|e]; [|node G'; cbn [all_ok]; rewrite Hx; reflexivity]. cbn [bind].
      destruct (match first with Some x => single (report x) | None => Ok [] end) as [v|e]; [|node G'; cbn [all_ok]; rewrite Hx, transform_tok, all_ok_app, Ht; reflexivity]. cbn [bind].
      destruct (collect _ more) as [vs|e]; [|node G'; cbn [all_ok]; rewrite Hx, transform_tok, all_ok_app, Ht, Hn; reflexivity]. cbn [bind] in Hn |- *.
      rewrite (C34_function_accessor E ln src _ _ _ _ va ((v ++ vs) ++ repeat PNone n)%list (proj1 G') Hx); [|rewrite all_ok_app, Ht, Hn, <- app_assoc; reflexivity].
      cbn [bind]. rewrite Hv, kept_nulls. reflexivity. }
    assert (H19 : forall x b, P x -> P b -> P (ELambda x b)).
    { intros x b Px Pb t G H. cbn [tree] in H. kids. cbn [Spec.Meaning.report].
      assert (Hx : tf x0 = report x) by (apply Px; [gk G|assumption]). assert (Hb : tf x1 = report b) by (apply Pb; [gk G|assumption]).
      destruct (report x) as [vx|e]; [|node G; cbn [all_ok]; rewrite Hx; reflexivity]. cbn [bind].
      destruct (report b) as [vb|e]; [|node G; cbn [all_ok]; rewrite Hx, Hb; reflexivity]. cbn [bind].
      apply (C34_lambda E ln src m [x0] x1 [vx] vb (proj1 G)); [discriminate| |exact Hb]. cbn [all_ok]. rewrite Hx. reflexivity. }
    assert (H20 : forall x y more b, P x -> P y -> Forall P more -> P b -> P (ELambdas x y more b)).
    { intros x y more b Px Py Pm Pb t G H. cbn [tree] in H. kids. cbn [Spec.Meaning.report].
      match goal with H : Forall2 like _ (map tree more ++ _) |- _ => apply Forall2_app_inv_r in H as (t1 & t2 & S1 & S2 & ->) end. kids.
      pose proof (good_children _ _ _ G) as Gs. inversion Gs as [|? ? Gx Gs1]; subst. inversion Gs1 as [|? ? Gy Gs2]; subst.
      apply Forall_app in Gs2 as [Gt1 Gt2]. inversion Gt2 as [|? ? Gb _]; subst.
      assert (Hx : tf x0 = report x) by (apply Px; assumption). assert (Hy : tf x1 = report y) by (apply Py; assumption).
      assert (Hm : all_ok tf t1 = collect (fun z => single (report z)) more) by (apply (all_ok_parts (fun y => y)); assumption).
      assert (Hb : tf x2 = report b) by (apply Pb; assumption).
      destruct (report x) as [vx|e]; [|node G; cbn [all_ok]; rewrite Hx; reflexivity]. cbn [bind].
      destruct (report y) as [vy|e]; [|node G; cbn [all_ok]; rewrite Hx, Hy; reflexivity]. cbn [bind].
      destruct (collect _ more) as [vs|e]; [|node G; cbn [all_ok]; rewrite Hx, Hy, all_ok_app, Hm; reflexivity]. cbn [bind].
      destruct (report b) as [vb|e]; [|node G; cbn [all_ok]; rewrite Hx, Hy, all_ok_app, Hm; cbn [all_ok bind]; rewrite Hb; reflexivity]. cbn [bind].
      apply (C34_lambda E ln src m (x0 :: x1 :: t1) x2 (vx :: vy :: vs) vb (proj1 G)); [discriminate| |exact Hb]. cbn [all_ok]. rewrite Hx, Hy, Hm. reflexivity. }
    assert (H21 : forall a, P a -> P (EParen a)) by (intros a IH t G H; exact (IH t G H)).
    assert (H22 : forall a, P a -> P (EBang a)) by (intros a IH t G H; exact (IH t G H)).
    assert (H23 : forall lead r over cond body trail, P over -> maybe P cond -> P body -> P (ELoop lead r over cond body trail)).
    { intros lead r over cond body trail Po Pc Pb t G H. cbn [tree] in H. kids. rename x into tr, x0 into tc, x1 into tb.
      assert (Hr : tf tr = let* v := report over in Ok (range_report E r v)).
      { apply range_case; [gk G|assumption|exact Po]. }
      assert (Hc : tf tc = match cond with Some c => report c | None => Ok PNone end).
      { destruct cond as [c|]; [apply Pc; [gk G|assumption]|]. kids. reflexivity. }
      assert (Hb : tf tb = report body) by (apply Pb; [gk G|assumption]).
      cbn [Spec.Meaning.report].
      destruct (report over) as [vo|e]; [|node G; cbn [all_ok]; rewrite Hr; reflexivity]. cbn [bind].
      destruct (match cond with Some c => report c | None => Ok PNone end) as [vc|e]; [|node G; cbn [all_ok]; rewrite Hr, Hc; reflexivity]. cbn [bind].
      destruct (report body) as [vb|e]; [|node G; cbn [all_ok]; rewrite Hr, Hc, Hb; reflexivity]. cbn [bind] in *.
      rewrite (loop_node E ln src m tr tc tb _ _ _ (proj1 G) Hr Hc Hb), cb_loop_condition. destruct (condition vc); reflexivity. }
    assert (H24 : forall lead c body, P c -> P body -> P (EIf lead c body)).
    { intros lead c body Pc Pb t G H. cbn [tree] in H. kids. node G. cbn [all_ok]. rewrite (Pc x), (Pb x0) by (assumption || gk G).
      cbn [Spec.Meaning.report]. destruct (report c) as [vc|e]; [|reflexivity]. destruct (report body) as [vb|e]; reflexivity. }
    assert (H25 : forall k v q more, P v -> Forall (fun p => P (snd (fst p))) more -> Q (Pairs k v q more)).
    { intros k v q more Pv Pm ts Gs H. cbn [item_trees] in H. inversion H as [|t1 ? ts1 ? S1 S2]; subst. inversion Gs as [|? ? G1 G2]; subst.
      rewrite report_pairs. cbn [all_ok]. rewrite (pair_case t1 k v G1 S1 Pv).
      assert (Hm : all_ok tf ts1 = let* ps := collect (fun p : key * expr * bool => let '(k', v', _) := p in let* x' := report v' in Ok [(key_text k', x')]) more in Ok (map tup ps)).
      { apply (all_ok_flat _ tup (fun p : key * expr * bool => let '(k, v, _) := p in [N_ L_pair [key_tree k; tree v]])).
        - eapply Forall_impl; [|exact Pm]. intros [[k' v'] q'] Pv' ts Gt Ht. inversion Ht as [|t2 ? ts2 ? S3 S4]; subst. inversion S4; subst.
          inversion Gt; subst. cbn [all_ok]. rewrite (pair_case t2 k' v') by assumption. destruct (report v'); reflexivity.
        - exact G2.
        - clear - S2. assert (Hm : flat_map (fun p : key * expr * bool => let '(k, v, _) := p in [N_ L_pair [key_tree k; tree v]]) more
            = map (fun p : key * expr * bool => let '(k, v, _) := p in N_ L_pair [key_tree k; tree v]) more)
            by (clear; induction more as [|[[k v] q] more IH]; [reflexivity|]; cbn [flat_map map app]; rewrite IH; reflexivity).
          rewrite Hm. exact S2. }
      rewrite Hm. destruct (report v) as [x|e]; [|reflexivity]. cbn [bind]. destruct (collect _ more) as [ps|e]; reflexivity. }
    assert (H26 : forall n ty ex body, P body -> Q (Child n ty ex body)).
    { intros n ty ex body Pb ts Gs H. cbn [item_trees] in H. kids. inversion Gs as [|? ? G _]; subst. rewrite report_child. cbn [all_ok].
      assert (Hl : ln = false).
      { destruct ln eqn:Hl; [|reflexivity]. destruct G as [_ G]. specialize (G Hl). discriminate. }
      match goal with H : like _ (existing_tree ex) |- _ => destruct (existing_case _ _ H) as (vx & Hvx & Htx) end.
      node G. cbn [all_ok]. rewrite !transform_tok, Hvx. match goal with H : like ?x (tree body) |- _ => rewrite (Pb x) by (assumption || gk G) end.
      destruct (report body) as [v|e]; [|reflexivity]. cbn [bind]. unfold callv. cbn [call pure]. unfold cb_child_resource, with_lines_child. rewrite Hl.
      cbn [Spelling.text] in *. cbn [bind pure py_str py_str']. rewrite Htx. unfold py_str', wrap. cbn [py_str].
      repeat match goal with H : tval _ = _ |- _ => rewrite H; clear H end. rewrite slice_quote. reflexivity. }
    split; [apply (expr_induction P Q)|apply (item_induction P Q)]; assumption.
  Qed.
  Lemma expr_meaning e t : good t -> like t (tree e) -> tf t = report e.
  Proof. exact (proj1 meanings e t). Qed.
End Meaning.
