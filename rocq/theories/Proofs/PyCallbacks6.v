(** pycep/transformer.py: running its text is calling the model's callbacks.
    Part 6: module_path and its regular expressions. *)
From Coq Require Import List NArith ZArith Bool String Ascii Lia.
From Verif Require Import Py.Str Py.Val Python.Syntax Python.Eval Python.Program Proofs.Base Proofs.PyHeap Proofs.PyRun Proofs.PyLoops Proofs.PyMethods.
From Verif Require Import Pycep.Utils Lark.Tree.
From Verif Require Pycep.Transformer.
Import ListNotations.
Local Open Scope string_scope.

Definition same_piece (a b : Transformer.piece) : Prop :=
  match a, b with
  | Transformer.Lit s, Transformer.Lit t => s = t
  | Transformer.Plus f, Transformer.Plus g => forall c, f c = g c
  | _, _ => False
  end.
Lemma span_ext f g : (forall c, f c = g c) -> forall s, Transformer.span f s = Transformer.span g s.
Proof. intros H. induction s as [|c s IH]; cbn; [reflexivity|]. now rewrite H, IH. Qed.
Lemma re_match_ext : forall a b, Forall2 same_piece a b -> forall s, Transformer.re_match a s = Transformer.re_match b s.
Proof.
  induction 1 as [|x y a b Hp _ IH]; intros s; [reflexivity|]. destruct x as [t|f], y as [t'|g]; try contradiction; cbn in Hp |- *.
  - subst. now rewrite IH.
  - rewrite (span_ext f g Hp). induction (List.length (Transformer.span g s)) as [|n IHn]; [reflexivity|]. now rewrite IH, IHn.
Qed.
Definition groups (ps : list Transformer.piece) : nat := List.length (filter (fun p => match p with Transformer.Plus _ => true | _ => false end) ps).
Lemma re_match_groups : forall ps s gs, Transformer.re_match ps s = Some gs -> List.length gs = groups ps.
Proof.
  induction ps as [|[t|f] ps IH]; intros s gs; cbn.
  - intros [= <-]. reflexivity.
  - destruct (starts_with t s); [|discriminate]. apply IH.
  - induction (List.length (Transformer.span f s)) as [|n IHn]; [discriminate|].
    destruct (Transformer.re_match ps (skipn (S n) s)) eqn:Em; [|exact IHn]. intros [= <-]. cbn. now rewrite (IH _ _ Em).
Qed.
(** The pattern of a constant [re.compile(r"...")]. *)
Definition pattern_of (x : string) : str :=
  match entry_of pycep x with Some (Constant (ECall _ [APos (EStr s)])) => u s | _ => [] end.
Definition pieces_of (x : string) : option (list rpiece) :=
  let l := map ascii_of_N (pattern_of x) in rx_parse (S (List.length l)) l.
Lemma regex_is E x ps P s : pieces_of x = Some ps -> Forall2 same_piece (map (piece_of E) ps) P ->
  regex_match E (pattern_of x) s = Got (match Transformer.re_match P s with Some gs => VMatch (combine (group_names ps) gs) | None => VNone end).
Proof. intros Hp Hs. unfold regex_match. unfold pieces_of in Hp. rewrite Hp. cbn [some]. now rewrite (re_match_ext _ _ Hs). Qed.
Section C.
  Variable E : pyenv.
  Variable rt : Pycep.Main.path -> result str.
  Ltac piece := first [reflexivity | let c := fresh "c" in intros c; unfold Transformer.cls_with; cbn [existsb class_fn contains_char u];
     cbv [u contains_char String.list_ascii_of_string map existsb]; repeat match goal with |- context [N_of_ascii ?a] => let r := eval compute in (N_of_ascii a) in change (N_of_ascii a) with r end; rewrite ?orb_false_r; rewrite ?orb_assoc; try reflexivity].
  Ltac regex_tac x := let ps := eval vm_compute in (pieces_of x) in lazymatch ps with Some ?q => eapply (regex_is E x q); [vm_cast_no_check (@eq_refl _ (Some q))|] end;
    cbn [map piece_of]; repeat (apply Forall2_cons; [cbn [same_piece]; piece|]); apply Forall2_nil.
  Lemma re_PUBLIC_BICEP_REGISTRY_PATTERN s : regex_match E (pattern_of "PUBLIC_BICEP_REGISTRY_PATTERN") s = Got (match Transformer.re_match (Transformer.PUBLIC_BICEP_REGISTRY_PATTERN E) s with Some gs => VMatch (combine ["path"; "tag"] gs) | None => VNone end).
  Proof. regex_tac "PUBLIC_BICEP_REGISTRY_PATTERN". Qed.
  Lemma re_PRIVATE_BICEP_REGISTRY_PATTERN s : regex_match E (pattern_of "PRIVATE_BICEP_REGISTRY_PATTERN") s = Got (match Transformer.re_match (Transformer.PRIVATE_BICEP_REGISTRY_PATTERN E) s with Some gs => VMatch (combine ["registry_name"; "path"; "tag"] gs) | None => VNone end).
  Proof. regex_tac "PRIVATE_BICEP_REGISTRY_PATTERN". Qed.
  Lemma re_BICEP_REGISTRY_ALIAS_PATTERN s : regex_match E (pattern_of "BICEP_REGISTRY_ALIAS_PATTERN") s = Got (match Transformer.re_match (Transformer.BICEP_REGISTRY_ALIAS_PATTERN E) s with Some gs => VMatch (combine ["alias"; "path"; "tag"] gs) | None => VNone end).
  Proof. regex_tac "BICEP_REGISTRY_ALIAS_PATTERN". Qed.
  Lemma re_TEMPLATE_SPEC_ALIAS_PATTERN s : regex_match E (pattern_of "TEMPLATE_SPEC_ALIAS_PATTERN") s = Got (match Transformer.re_match (Transformer.TEMPLATE_SPEC_ALIAS_PATTERN E) s with Some gs => VMatch (combine ["alias"; "path"; "tag"] gs) | None => VNone end).
  Proof. regex_tac "TEMPLATE_SPEC_ALIAS_PATTERN". Qed.
  Lemma re_TEMPLATE_SPEC_PATTERN s : regex_match E (pattern_of "TEMPLATE_SPEC_PATTERN") s = Got (match Transformer.re_match (Transformer.TEMPLATE_SPEC_PATTERN E) s with Some gs => VMatch (combine ["sub_id"; "rg_id"; "name"; "version"] gs) | None => VNone end).
  Proof. regex_tac "TEMPLATE_SPEC_PATTERN". Qed.
  Lemma text_module_path : cb_like E rt "module_path" (Transformer.cb_module_path E).
  Proof.
    cb0; args 1; [finish|]. cbv beta iota zeta delta [Transformer.cb_module_path arg_at nth_error bind].
    assert (H0 := re_PUBLIC_BICEP_REGISTRY_PATTERN). assert (L0 := re_match_groups (Transformer.PUBLIC_BICEP_REGISTRY_PATTERN E)).
    let r := eval vm_compute in (pattern_of "PUBLIC_BICEP_REGISTRY_PATTERN") in replace (pattern_of "PUBLIC_BICEP_REGISTRY_PATTERN") with r in H0 by (vm_cast_no_check (@eq_refl _ r)).
    change (groups (Transformer.PUBLIC_BICEP_REGISTRY_PATTERN E)) with 2 in L0.
    remember (Transformer.re_match (Transformer.PUBLIC_BICEP_REGISTRY_PATTERN E)) as r0 eqn:E0. clear E0.
    assert (H1 := re_PRIVATE_BICEP_REGISTRY_PATTERN). assert (L1 := re_match_groups (Transformer.PRIVATE_BICEP_REGISTRY_PATTERN E)).
    let r := eval vm_compute in (pattern_of "PRIVATE_BICEP_REGISTRY_PATTERN") in replace (pattern_of "PRIVATE_BICEP_REGISTRY_PATTERN") with r in H1 by (vm_cast_no_check (@eq_refl _ r)).
    change (groups (Transformer.PRIVATE_BICEP_REGISTRY_PATTERN E)) with 3 in L1.
    remember (Transformer.re_match (Transformer.PRIVATE_BICEP_REGISTRY_PATTERN E)) as r1 eqn:E1. clear E1.
    assert (H2 := re_BICEP_REGISTRY_ALIAS_PATTERN). assert (L2 := re_match_groups (Transformer.BICEP_REGISTRY_ALIAS_PATTERN E)).
    let r := eval vm_compute in (pattern_of "BICEP_REGISTRY_ALIAS_PATTERN") in replace (pattern_of "BICEP_REGISTRY_ALIAS_PATTERN") with r in H2 by (vm_cast_no_check (@eq_refl _ r)).
    change (groups (Transformer.BICEP_REGISTRY_ALIAS_PATTERN E)) with 3 in L2.
    remember (Transformer.re_match (Transformer.BICEP_REGISTRY_ALIAS_PATTERN E)) as r2 eqn:E2. clear E2.
    assert (H3 := re_TEMPLATE_SPEC_ALIAS_PATTERN). assert (L3 := re_match_groups (Transformer.TEMPLATE_SPEC_ALIAS_PATTERN E)).
    let r := eval vm_compute in (pattern_of "TEMPLATE_SPEC_ALIAS_PATTERN") in replace (pattern_of "TEMPLATE_SPEC_ALIAS_PATTERN") with r in H3 by (vm_cast_no_check (@eq_refl _ r)).
    change (groups (Transformer.TEMPLATE_SPEC_ALIAS_PATTERN E)) with 3 in L3.
    remember (Transformer.re_match (Transformer.TEMPLATE_SPEC_ALIAS_PATTERN E)) as r3 eqn:E3. clear E3.
    assert (H4 := re_TEMPLATE_SPEC_PATTERN). assert (L4 := re_match_groups (Transformer.TEMPLATE_SPEC_PATTERN E)).
    let r := eval vm_compute in (pattern_of "TEMPLATE_SPEC_PATTERN") in replace (pattern_of "TEMPLATE_SPEC_PATTERN") with r in H4 by (vm_cast_no_check (@eq_refl _ r)).
    change (groups (Transformer.TEMPLATE_SPEC_PATTERN E)) with 4 in L4.
    remember (Transformer.re_match (Transformer.TEMPLATE_SPEC_PATTERN E)) as r4 eqn:E4. clear E4.
    let x := eval cbv in (u "br:") in change (u "br:") with x. let x := eval cbv in (u "br/") in change (u "br/") with x.
    let x := eval cbv in (u "ts:") in change (u "ts:") with x. let x := eval cbv in (u "ts/") in change (u "ts/") with x.
    remember (slice_1_m1 (py_str E p)) as fp eqn:Ef. 
    repeat (match goal with |- context [if starts_with ?k fp then _ else _] => destruct (starts_with k fp) eqn:? end).
    - destruct (r0 fp) as [gs|] eqn:E0.
      + specialize (L0 _ _ E0). destruct gs as [|g1 [|g2 [|]]]; try discriminate L0. clear L0. subst fp. finish.
      + destruct (r1 fp) as [gs|] eqn:E1.
        * specialize (L1 _ _ E1). destruct gs as [|g1 [|g2 [|g3 [|]]]]; try discriminate L1. subst fp. finish.
        * subst fp. finish.
    - destruct (r2 fp) as [gs|] eqn:E2.
      + specialize (L2 _ _ E2). destruct gs as [|g1 [|g2 [|g3 [|]]]]; try discriminate L2. subst fp. finish.
      + subst fp. finish.
    - destruct (r4 fp) as [gs|] eqn:E4.
      + specialize (L4 _ _ E4). destruct gs as [|g1 [|g2 [|g3 [|g4 [|]]]]]; try discriminate L4. subst fp. finish.
      + subst fp. finish.
    - destruct (r3 fp) as [gs|] eqn:E3.
      + specialize (L3 _ _ E3). destruct gs as [|g1 [|g2 [|g3 [|]]]]; try discriminate L3. subst fp. finish.
      + subst fp. finish.
    - subst fp. finish.
  Qed.
End C.
