(** The transformer commutes with forgetting token positions and the line
    numbers of child resources. *)
From Coq Require Import List Arith NArith ZArith Bool String Lia.
From Verif Require Import Py.Str Py.Val Pycep.Utils Pycep.Decorators Pycep.Functions Pycep.Transformer Lark.Tree
  Spec.Json Spec.Schema Spec.Trees Spec.Program Spec.Reports Spec.Numbering
  Proofs.Base Proofs.JsonLemmas Proofs.TreeGrammar Proofs.Transform Proofs.State Proofs.Quiet Proofs.Children.
Import ListNotations.
Local Open Scope string_scope.

Section PyvalInd.
  Variable P : pyval -> Prop.
  Hypothesis Hnone : P PNone.
  Hypothesis Hbool : forall b, P (PBool b).
  Hypothesis Hint : forall z, P (PInt z).
  Hypothesis Hstr : forall s, P (PStr s).
  Hypothesis Helem : forall s, P (PElem s).
  Hypothesis Htok : forall t, P (PTok t).
  Hypothesis Hlist : forall l, Forall P l -> P (PList l).
  Hypothesis Htup : forall l, Forall P l -> P (PTup l).
  Hypothesis Hdict : forall d, Forall (fun kv => P (snd kv)) d -> P (PDict d).
  Fixpoint pyval_all (v : pyval) : P v :=
    let go := fix go l : Forall P l := match l with [] => Forall_nil _ | x :: l' => Forall_cons _ (pyval_all x) (go l') end in
    match v with
    | PNone => Hnone | PBool b => Hbool b | PInt z => Hint z | PStr s => Hstr s | PElem s => Helem s | PTok t => Htok t
    | PList l => Hlist l (go l)
    | PTup l => Htup l (go l)
    | PDict d => Hdict d ((fix god d : Forall (fun kv => P (snd kv)) d :=
        match d with [] => Forall_nil _ | kv :: d' => Forall_cons _ (pyval_all (snd kv)) (god d') end) d)
    end.
End PyvalInd.

Definition rmap {A B} (f : A -> B) (r : result A) : result B := match r with Ok a => Ok (f a) | Err e => Err e end.
Lemma rmap_bind {A B C} (f : B -> C) (m : result A) (k : A -> result B) : rmap f (bind m k) = bind m (fun a => rmap f (k a)).
Proof. destruct m; reflexivity. Qed.
Lemma bind_rmap {A B C} (f : A -> B) (m : result A) (k : B -> result C) : bind (rmap f m) k = bind m (fun a => k (f a)).
Proof. destruct m; reflexivity. Qed.
Lemma bind_ext {A B} (m : result A) (f g : A -> result B) : (forall a, m = Ok a -> f a = g a) -> bind m f = bind m g.
Proof. destruct m; intros H; [apply H; reflexivity|reflexivity]. Qed.

Section Erase.
  Variable E : pyenv.
  Variable p : token -> token.
  Hypothesis p_type : forall t, ttype (p t) = ttype t.
  Hypothesis p_val : forall t, tval (p t) = tval t.
  Variable q : meta -> meta.
  Variable b : bool.

  Definition rec' (w : pyval) : pyval := if b then record_without_lines w else w.
  Definition ev (k : str) (w : pyval) : pyval := if b && str_eqb k reserved_key then record_without_lines w else w.
  Fixpoint er (v : pyval) : pyval :=
    match v with
    | PTok t => PTok (p t)
    | PList l => PList (map er l)
    | PTup [k; w] => PTup [er k; match str_text k with Some s => ev s (er w) | None => er w end]
    | PTup l => PTup (map er l)
    | PDict d => PDict (map (fun kv => (fst kv, ev (fst kv) (er (snd kv)))) d)
    | _ => v
    end.
  Definition emap (d : list (str * pyval)) : list (str * pyval) := map (fun kv => (fst kv, ev (fst kv) (er (snd kv)))) d.
  Lemma er_dict d : er (PDict d) = PDict (emap d).
  Proof. reflexivity. Qed.
  Fixpoint tr (t : ptree) : ptree :=
    match t with
    | TTok t => TTok (p t)
    | TNone => TNone
    | TNode l m cs => TNode l (q m) (map tr cs)
    end.

  Lemma ev_other k w : str_eqb k reserved_key = false -> ev k w = w.
  Proof. intros H. unfold ev. rewrite H, andb_false_r. reflexivity. Qed.
  Lemma ev_off k w : b = false -> ev k w = w.
  Proof. intros H. unfold ev. rewrite H. reflexivity. Qed.
  Lemma str_text_er v : str_text (er v) = str_text v.
  Proof. destruct v; try reflexivity; [cbn; rewrite p_val; reflexivity|]. destruct l as [|x [|y [|]]]; reflexivity. Qed.
  Lemma truthy_er v : truthy (er v) = truthy v.
  Proof.
    destruct v; try reflexivity; cbn; [rewrite p_val; reflexivity|destruct l; reflexivity|destruct l as [|x [|y [|]]]; reflexivity|destruct d; reflexivity].
  Qed.
  Lemma eq_lit_er v s : eq_lit (er v) s = eq_lit v s.
  Proof. unfold eq_lit. rewrite str_text_er. reflexivity. Qed.
  Lemma py_int_er v : py_int E (er v) = py_int E v.
  Proof. destruct v; try reflexivity; cbn; [rewrite p_val; reflexivity|]. destruct l as [|x [|y [|]]]; reflexivity. Qed.
  Lemma or_empty_er v : or_empty (er v) = er (or_empty v).
  Proof. unfold or_empty. rewrite truthy_er. destruct (truthy v); reflexivity. Qed.
  Lemma untoken_er v : untoken (er v) = er (untoken v).
  Proof. destruct v; try reflexivity; cbn; [rewrite p_val; reflexivity|]. destruct l as [|x [|y [|]]]; reflexivity. Qed.
  Lemma tst_er v : transform_string_token (er v) = rmap er (transform_string_token v).
  Proof.
    destruct v; try reflexivity; [|destruct l as [|x [|y [|]]]; reflexivity]. cbn [er transform_string_token]. rewrite p_type, p_val.
    destruct (str_eqb _ _); [reflexivity|]. destruct (negb _); reflexivity.
  Qed.

  (** Dictionaries. *)
  Lemma aget_emap k d : aget k (emap d) = option_map (fun x => ev k (er x)) (aget k d).
  Proof.
    induction d as [|[k' v] d IH]; [reflexivity|]. cbn [emap map aget fst snd]. destruct (str_eqb_spec k k') as [->|]; [reflexivity|exact IH].
  Qed.
  Lemma aset_emap k v d : aset k (ev k (er v)) (emap d) = emap (aset k v d).
  Proof.
    induction d as [|[k' w] d IH]; [reflexivity|]. cbn [emap map aset fst snd]. destruct (str_eqb_spec k k') as [->|]; cbn [map fst snd]; [reflexivity|].
    f_equal. exact IH.
  Qed.
  Lemma adel_emap k d : adel k (emap d) = emap (adel k d).
  Proof.
    induction d as [|[k' w] d IH]; [reflexivity|]. cbn [emap map adel fst snd]. destruct (str_eqb k k'); [reflexivity|]. cbn [map fst snd]. f_equal. exact IH.
  Qed.
  Lemma dict_of_emap l : dict_of (emap l) = emap (dict_of l).
  Proof.
    induction l as [|[k v] l IH] using rev_ind; [reflexivity|]. unfold emap. rewrite map_app. cbn [map fst snd].
    rewrite !dict_of_snoc. fold (emap l). rewrite IH, aset_emap. reflexivity.
  Qed.
  Lemma emap_app a c : emap (a ++ c)%list = (emap a ++ emap c)%list.
  Proof. apply map_app. Qed.
  Lemma emap_cons k v d : str_eqb k reserved_key = false -> emap ((k, v) :: d) = (k, er v) :: emap d.
  Proof. intros H. cbn [emap map fst snd]. rewrite (ev_other _ _ H). reflexivity. Qed.
  Lemma getitem_er v k : py_getitem (er v) k = rmap (fun x => ev k (er x)) (py_getitem v k).
  Proof.
    destruct v; try reflexivity; [destruct l as [|x [|y [|]]]; reflexivity|]. cbn [er py_getitem]. fold (emap d). rewrite aget_emap. destruct (aget k d); reflexivity.
  Qed.
  Lemma get_er v k x : str_eqb k reserved_key = false -> py_get (er v) k (er x) = rmap er (py_get v k x).
  Proof.
    intros Hk. destruct v; try reflexivity; [destruct l as [|a [|c [|]]]; reflexivity|]. cbn [er py_get]. fold (emap d). rewrite aget_emap.
    destruct (aget k d); cbn [option_map rmap]; rewrite ?(ev_other _ _ Hk); reflexivity.
  Qed.
  Lemma setitem_er v k x : py_setitem (er v) k (ev k (er x)) = rmap er (py_setitem v k x).
  Proof.
    destruct v; try reflexivity; [destruct l as [|a [|c [|]]]; reflexivity|]. cbn [er py_setitem]. fold (emap d). rewrite aset_emap. reflexivity.
  Qed.
  Lemma arg_at_er i l : arg_at i (map er l) = rmap er (arg_at i l).
  Proof. unfold arg_at. rewrite nth_error_map. destruct (nth_error l i); reflexivity. Qed.
  Definition free (pre : str) : Prop := forall s, str_eqb (pre ++ s)%list reserved_key = false.
  Lemma numbered_er pre l : free pre -> forall n, numbered pre n (map er l) = emap (numbered pre n l).
  Proof.
    intros Hp. induction l as [|v l IH]; intros n; [reflexivity|]. cbn [map numbered]. rewrite (emap_cons _ _ _ (Hp _)), IH. reflexivity.
  Qed.
  Lemma head_er l : head_or_none (map er l) = er (head_or_none l).
  Proof. destruct l; reflexivity. Qed.
  Lemma last_er l d : last (map er l) (er d) = er (last l d).
  Proof. induction l as [|v [|w l] IH]; try reflexivity. exact IH. Qed.
  Lemma removelast_map {A B} (f : A -> B) l : removelast (map f l) = map f (removelast l).
  Proof. induction l as [|v [|w l] IH]; try reflexivity. cbn [map removelast] in *. f_equal. exact IH. Qed.

  (** ** Functions *)
  Lemma fdict_er ty ps : fdict ty (emap ps) = rmap er (fdict ty ps).
  Proof.
    unfold fdict. cbn [rmap]. rewrite er_dict, !emap_cons by reflexivity. rewrite er_dict, dict_of_emap. reflexivity.
  Qed.
  Lemma ftype_er ty : ftype ty = rmap er (ftype ty).
  Proof. unfold ftype. cbn [rmap]. rewrite er_dict, emap_cons by reflexivity. reflexivity. Qed.
  Definition commutes (f : fn) : Prop := forall n args, f n (map er args) = rmap er (f n args).
  Lemma free_arg : free (u "arg_"). Proof. intros s. reflexivity. Qed.
  Lemma free_operand : free (u "operand_"). Proof. intros s. reflexivity. Qed.
  Lemma free_name : free (u "resource_name_"). Proof. intros s. reflexivity. Qed.
  Lemma free_var : free (u "var_"). Proof. intros s. reflexivity. Qed.
  Lemma free_extra : free (u "extra_string_"). Proof. intros s. reflexivity. Qed.
  Ltac entries := rewrite ?emap_app; repeat (rewrite emap_cons by reflexivity); rewrite ?emap_app; repeat (rewrite emap_cons by reflexivity);
    repeat match goal with |- context [er ?x :: map er ?l] => change (er x :: map er l) with (map er (x :: l)) end;
    rewrite ?numbered_er by (intros ?; reflexivity); rewrite ?head_er;
    first [reflexivity | rewrite <- ?numbered_er by (intros ?; reflexivity); reflexivity].
  Ltac fn := intros n args;
    first
    [ exact (ftype_er _)
    | match goal with |- ?f _ _ = _ => unfold f end; unfold f_index0, f_two; rewrite ?arg_at_er;
      first [ (destruct (arg_at 0 args); cbn [rmap bind]; [rewrite <- fdict_er; f_equal; entries; fail|reflexivity])
            | (destruct args as [|a args]; cbn [map];
               first [reflexivity | rewrite <- fdict_er; f_equal; entries; fail])
            | (destruct args as [|a [|c args]]; cbn [map];
               first [reflexivity | rewrite <- fdict_er; f_equal; entries; fail])
            | (destruct args as [|a [|c [|d [|e [|f [|g args]]]]]]; cbn [map rmap bind arg_at nth_error List.length Nat.eqb Nat.leb skipn head_or_none];
               first [reflexivity | rewrite <- fdict_er; f_equal; entries; fail]) ] ].
  Lemma f_resource_group_er : commutes f_resource_group.
  Proof.
    intros n args. unfold f_resource_group.
    destruct args as [|a [|c [|d args]]]; cbn [map]; try reflexivity; rewrite ?truthy_er;
      match goal with |- context [if ?x then _ else _] => destruct x end; rewrite <- fdict_er; f_equal; entries.
  Qed.
  Lemma functions_er : Forall (fun nf => commutes (snd nf)) FUNCTIONS.
  Proof.
    unfold FUNCTIONS. repeat (apply Forall_cons; [cbn [snd]; first [exact f_resource_group_er | fn]|]). apply Forall_nil.
  Qed.
  Lemma unknown_er : commutes f_unknown_func.
  Proof.
    intros n args. unfold f_unknown_func. rewrite numbered_er, dict_of_emap by exact free_arg. cbn [rmap]. rewrite er_dict.
    repeat (rewrite emap_cons by reflexivity). reflexivity.
  Qed.
End Erase.
