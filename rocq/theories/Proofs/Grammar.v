(** Derivations over the named grammar (Lark/BicepGrammar.v), and the lines that
    position propagation writes into the tree. *)
From Coq Require Import List Arith NArith PArith Bool String Lia.
From Verif Require Import Py.Str Py.Val Lark.Regex Lark.Terminals Lark.Lexer Lark.Ebnf Lark.Tree
     Lark.Lalr Lark.BicepGrammar Lark.BicepTables Lark.Driver Lark.Shape
     Proofs.Base Proofs.Regex Proofs.LR Proofs.Lexer Proofs.Parse.
Import ListNotations.

(** [wf s c]: [c] is a derivation of the symbol [s]. *)
Inductive wf : sym -> cst -> Prop :=
| wf_leaf n t : wf (T n) (Leaf n t)
| wf_br p cs : In (the_prod p) bicep_prods -> Forall2 wf (p_rhs (the_prod p)) cs ->
    wf (NT (p_lhs (the_prod p))) (Br p cs).

(** ** From numbered to named derivations *)
#[local] Transparent prod_info bicep_gram bicep_tables.
Definition all_syms : list sym := map T term_names ++ map NT nt_names.
Definition sym_map : PM.t sym := Eval vm_compute in pm_of (map (fun s => (sym_id s, s)) all_syms).
Definition sym_named (x : positive) : option sym := PM.find x sym_map.
Definition is_sym (o : option sym) (s : sym) : bool := match o with Some s' => sym_eqb s' s | None => false end.
Lemma syms_injective : forallb (fun s => is_sym (sym_named (sym_id s)) s) all_syms = true.
Proof. vm_compute. reflexivity. Qed.
Lemma lexed_known : forallb (fun t => mem_str (t_name t) ignored || mem_str (t_name t) term_names) sorted_terminals = true.
Proof. vm_compute. reflexivity. Qed.
(** Production [p] of the tables is production [the_prod p] of the grammar. *)
Definition prod_ok (p x : positive) (rhs : list positive) : bool :=
  Pos.eqb p root_id ||
  (Pos.leb p (Pos.pred root_id) &&
   is_sym (sym_named x) (NT (p_lhs (the_prod p))) &&
   list_eqb Pos.eqb rhs (map sym_id (p_rhs (the_prod p))) &&
   forallb (fun s => is_sym (sym_named (sym_id s)) s) (p_rhs (the_prod p)) ).
Lemma prods_ok : forallb (fun e => let '(p, (x, rhs, _)) := e in prod_ok p x rhs) (PM.elements prod_info) = true.
Proof. vm_compute. reflexivity. Qed.
Lemma the_prods_in : forall p, (p < root_id)%positive -> nth_error bicep_prods (pred (Pos.to_nat p)) = Some (the_prod p).
Proof.
  assert (H : forall i, (i < List.length bicep_prods)%nat ->
     nth_error bicep_prods i = Some (the_prod (Pos.of_nat (Datatypes.S i)))).
  { intros i Hi. assert (Hb : forallb (fun i =>
       match nth_error bicep_prods i with
       | Some a => let b := the_prod (Pos.of_nat (Datatypes.S i)) in
           String.eqb (p_lhs a) (p_lhs b) && list_eqb rawsym_eqb (p_raw a) (p_raw b) &&
           match p_alias a, p_alias b with Some x, Some y => String.eqb x y | None, None => true | _, _ => false end
           && Bool.eqb (p_expand1 a) (p_expand1 b) && N.eqb (p_prio a) (p_prio b)
       | None => false end) (seq 0 (List.length bicep_prods)) = true) by (vm_compute; reflexivity).
    rewrite forallb_forall in Hb. specialize (Hb i). rewrite in_seq in Hb. specialize (Hb (conj (Nat.le_0_l _) Hi)).
    cbv beta in Hb. destruct (nth_error bicep_prods i) as [a|]; [|discriminate].
    f_equal. set (b := the_prod _) in *. clearbody b. destruct a, b. cbn in Hb.
    repeat (apply andb_true_iff in Hb as [Hb ?]).
    assert (Hraw : forall l l', list_eqb rawsym_eqb l l' = true -> l = l').
    { induction l as [|x l IH]; intros [|y l'] Hl; cbn in Hl; try discriminate; [reflexivity|].
      apply andb_true_iff in Hl as [Hx Hl]. f_equal; [|apply IH; exact Hl].
      destruct x as [|[n|n] sl], y as [|[n'|n'] sl']; cbn in Hx; try discriminate; [reflexivity| |];
      apply andb_true_iff in Hx as [Hx1 Hx2]; apply String.eqb_eq in Hx1; subst;
      destruct sl, sl'; try discriminate; reflexivity. }
    apply String.eqb_eq in Hb. subst. f_equal.
    - apply Hraw. assumption.
    - destruct p_alias, p_alias0; try discriminate; [|reflexivity]. f_equal. apply String.eqb_eq. assumption.
    - apply Bool.eqb_prop. assumption.
    - apply N.eqb_eq. assumption. }
  intros p Hp. rewrite H.
  - rewrite Nat.succ_pred by (pose proof (Pos2Nat.is_pos p); lia). rewrite Pos2Nat.id. reflexivity.
  - assert (Hr : Pos.to_nat root_id = Datatypes.S (List.length bicep_prods)) by (vm_compute; reflexivity).
    apply Pos2Nat.inj_lt in Hp. pose proof (Pos2Nat.is_pos p). lia.
Qed.
Lemma start_named : sym_named start_sym = Some (NT "start").
Proof. vm_compute. reflexivity. Qed.
Lemma root_lhs : forall x rhs k, PM.find root_id prod_info = Some (x, rhs, k) -> sym_named x = Some (NT "$root").
Proof. intros x rhs k H. vm_compute in H. inversion H. vm_compute. reflexivity. Qed.
Definition no_root (s : sym) : bool := negb (sym_eqb s (NT "$root")).
Lemma rhs_no_root : forallb (fun p => forallb no_root (p_rhs p)) bicep_prods = true.
Proof. vm_compute. reflexivity. Qed.
#[local] Opaque prod_info bicep_gram bicep_tables.

Lemma sym_eqb_eq a b : sym_eqb a b = true -> a = b.
Proof. destruct a, b; cbn; try discriminate; intros H; apply String.eqb_eq in H; congruence. Qed.
Lemma is_sym_eq o s : is_sym o s = true -> o = Some s.
Proof. destruct o as [x|]; cbn; [|discriminate]. intros H. apply sym_eqb_eq in H. congruence. Qed.

Definition known_tok (E : pyenv) (e : string * token) : Prop := ttype (snd e) = u (fst e) /\ tok_ok E (fst e) (tval (snd e)).
Lemma reads_known E ts s line : reads E ts s line -> Forall (known_tok E) ts.
Proof. intros H. induction H; constructor; auto. split; assumption. Qed.

Lemma known_name E n t : known_tok E (n, t) -> sym_named (term_id n) = Some (T n).
Proof.
  intros [_ (acc & tm & Hin & Hn & Hig & _)]. cbn [fst snd] in *.
  pose proof lexed_known as H. rewrite forallb_forall in H. specialize (H tm Hin). cbv beta in H.
  rewrite Hn, Hig in H. cbn [orb] in H. unfold mem_str in H. apply existsb_exists in H as (x & Hx & He).
  apply String.eqb_eq in He. subst x.
  pose proof syms_injective as Hi. rewrite forallb_forall in Hi. specialize (Hi (T n)).
  apply is_sym_eq. apply Hi. apply in_or_app. left. apply in_map. exact Hx.
Qed.

Definition leaf_named (e : string * token) : Prop := sym_named (term_id (fst e)) = Some (T (fst e)).
Lemma wfn_wf_named : forall c x, wfn x c -> Forall leaf_named (leaves c) ->
  sym_named x <> Some (NT "$root") -> exists s, sym_named x = Some s /\ wf s c.
Proof.
  fix IH 1. intros c x Hw Hk Hroot. destruct c as [n t|p cs].
  - inversion Hw; subst. exists (T n). split; [|constructor].
    cbn [leaves] in Hk. inversion Hk; subst. assumption.
  - inversion Hw as [|p' x' rhs k cs' Hp Hall]; subst.
    assert (Hne : p <> root_id) by (intros ->; apply Hroot; exact (root_lhs _ _ _ Hp)).
    pose proof prods_ok as Hok. rewrite forallb_forall in Hok. specialize (Hok _ (In_elements_find _ _ _ Hp)).
    cbv beta iota in Hok. unfold prod_ok in Hok. apply Pos.eqb_neq in Hne. rewrite Hne in Hok. cbn [orb] in Hok.
    apply andb_true_iff in Hok as [Hok Hknown]. apply andb_true_iff in Hok as [Hok Hrhs].
    apply andb_true_iff in Hok as [Hle Hlhs]. apply Pos.leb_le in Hle.
    assert (Hlt : (p < root_id)%positive).
    { clear -Hle. unfold root_id in *. cbn in Hle. lia. }
    apply is_sym_eq in Hlhs. exists (NT (p_lhs (the_prod p))). split; [exact Hlhs|].
    pose proof (the_prods_in p Hlt) as Hin. apply nth_error_In in Hin.
    constructor; [exact Hin|].
    pose proof rhs_no_root as Hnr. rewrite forallb_forall in Hnr. specialize (Hnr _ Hin).
    assert (Hrhs' : rhs = map sym_id (p_rhs (the_prod p))).
    { clear -Hrhs. revert Hrhs. generalize (map sym_id (p_rhs (the_prod p))). revert rhs.
      induction rhs as [|a l IHl]; intros [|b l'] H; cbn in H; try discriminate; [reflexivity|].
      apply andb_true_iff in H as [H1 H2]. apply Pos.eqb_eq in H1. apply IHl in H2. congruence. }
    subst rhs. cbn [leaves] in Hk. clear Hp Hrhs Hw Hlhs Hroot.
    revert Hall Hk Hknown Hnr. generalize (p_rhs (the_prod p)). revert cs.
    fix IHcs 1. intros [|c cs] rhs Hall Hk Hknown Hnr; destruct rhs as [|s rhs]; cbn [map] in Hall; inversion Hall; subst.
    + constructor.
    + cbn [flat_map] in Hk. apply Forall_app in Hk as [Hk1 Hk2]. cbn [forallb] in Hknown, Hnr.
      apply andb_true_iff in Hknown as [Hkn1 Hkn2]. apply andb_true_iff in Hnr as [Hnr1 Hnr2].
      apply is_sym_eq in Hkn1. constructor.
      * match goal with H : wfn (sym_id s) c |- _ => destruct (IH c (sym_id s) H Hk1) as (s' & Hs' & Hwf) end.
        -- rewrite Hkn1. intros He. inversion He; subst. discriminate.
        -- rewrite Hkn1 in Hs'. inversion Hs'; subst. exact Hwf.
      * apply IHcs; assumption.
Qed.
Lemma wfn_wf E c x : wfn x c -> Forall (known_tok E) (leaves c) ->
  sym_named x <> Some (NT "$root") -> exists s, sym_named x = Some s /\ wf s c.
Proof. intros Hw Hk. apply wfn_wf_named; [exact Hw|]. revert Hk. apply Forall_impl. intros [n t]. apply known_name. Qed.

Theorem parse_cst_wf E text c : parse_cst E text = Ok c ->
  wf (NT "start") c /\ reads E (leaves c) text 1.
Proof.
  intros H. pose proof (parse_cst_sound E text) as Hs. rewrite H in Hs. destruct Hs as [Hw Hr].
  split; [|exact Hr]. destruct (wfn_wf E c start_sym Hw (reads_known _ _ _ _ Hr)) as (s & Hs & Hwf).
  - rewrite start_named. discriminate.
  - rewrite start_named in Hs. inversion Hs; subst. exact Hwf.
Qed.

(** ** Lines *)
Definition first_line (l : list (string * token)) : option N :=
  match l with [] => None | e :: _ => Some (tline (snd e)) end.
Definition last_line (l : list (string * token)) : option N :=
  match rev l with [] => None | e :: _ => Some (tend (snd e)) end.
Lemma first_line_app a b : first_line (a ++ b) = match first_line a with Some x => Some x | None => first_line b end.
Proof. destruct a; reflexivity. Qed.
Lemma last_line_app a b : last_line (a ++ b) = match last_line b with Some x => Some x | None => last_line a end.
Proof. unfold last_line. rewrite rev_app_distr. destruct (rev b); reflexivity. Qed.
Lemma first_some_app {A B} (f : A -> option B) a b :
  first_some f (a ++ b) = match first_some f a with Some x => Some x | None => first_some f b end.
Proof. induction a as [|x a IH]; cbn [app first_some]; [reflexivity|]. destruct (f x); auto. Qed.
Lemma line_both l : (first_line l = None /\ last_line l = None /\ l = []) \/
  exists a b, first_line l = Some a /\ last_line l = Some b.
Proof.
  destruct l as [|e l]; [left; auto|right].
  assert (H : rev (e :: l) <> []) by (intros H; apply (f_equal (@List.length _)) in H; rewrite rev_length in H; discriminate).
  unfold last_line. destruct (rev (e :: l)) as [|e' l'] eqn:Hr; [contradiction|]. cbn [first_line]. eauto.
Qed.

Definition pos_ok (c : cst) : Prop :=
  start_of (shape c) = first_line (leaves c) /\ end_of (shape c) = last_line (leaves c).
Lemma raw_first cs : Forall pos_ok cs -> first_some start_of (map shape cs) = first_line (flat_map leaves cs).
Proof.
  induction 1 as [|c cs [H1 H2] Hcs IH]; [reflexivity|]. cbn [map first_some flat_map].
  rewrite first_line_app, H1, IH. reflexivity.
Qed.
Lemma raw_last cs : Forall pos_ok cs -> first_some end_of (rev (map shape cs)) = last_line (flat_map leaves cs).
Proof.
  induction 1 as [|c cs [H1 H2] Hcs IH]; [reflexivity|]. cbn [map rev flat_map].
  rewrite last_line_app, first_some_app, IH. cbn [first_some]. rewrite H2.
  destruct (last_line (flat_map leaves cs)); [reflexivity|]. destruct (last_line (leaves c)); reflexivity.
Qed.
Definition lines_of (l : list (string * token)) : meta :=
  match first_line l, last_line l with Some a, Some b => Some (a, b) | _, _ => None end.
Lemma raw_span cs : Forall pos_ok cs -> span (map shape cs) = lines_of (flat_map leaves cs).
Proof. intros H. unfold span, lines_of. rewrite (raw_first _ H), (raw_last _ H). reflexivity. Qed.

Definition is_keep (r : rawsym) : bool := match r with Sym _ Keep => true | _ => false end.
Definition keeps_token (r : rawsym) : bool :=
  match r with
  | Sym (T _) Keep => true
  | Sym (NT n) Keep => String.eqb n "quoted_string"
  | _ => false
  end.
Definition expand_ok (p : prod) : bool :=
  negb (p_expand1 p && match p_alias p with None => true | Some _ => false end) ||
  (existsb is_keep (p_raw p) &&
   (negb (existsb keeps_token (p_raw p)) ||
    (String.eqb (p_lhs p) "quoted_string" && match p_raw p with [_] => true | _ => false end))).
Lemma expands_ok : forallb expand_ok bicep_prods = true.
Proof. vm_compute. reflexivity. Qed.

Lemma select_keep_some raw : forall vs, existsb is_keep raw = true -> List.length (flat_map sym_of raw) = List.length vs ->
  exists n x l' l, nth_error (flat_map sym_of raw) n = Some x /\ In (Sym x Keep) raw /\
    exists v, nth_error vs n = Some v /\ select raw vs = l' ++ sv_tree v :: l.
Proof.
  induction raw as [|r raw IH]; intros vs Hk Hlen; [discriminate|].
  destruct r as [|x sl]; cbn [existsb is_keep] in Hk.
  - destruct (IH vs Hk Hlen) as (n & y & l' & l & H1 & H2 & v & H3 & H4).
    exists n, y, (TNone :: l'), l. cbn [flat_map sym_of app select].
    split; [exact H1|]. split; [right; exact H2|]. exists v. split; [exact H3|]. rewrite H4. reflexivity.
  - cbn [flat_map sym_of app List.length] in Hlen. destruct vs as [|v vs]; [discriminate|].
    cbn [flat_map sym_of app]. destruct sl; cbn [select].
    + exists 0, x, [], (select raw vs). cbn [nth_error]. split; [reflexivity|]. split; [left; reflexivity|]. eauto.
    + injection Hlen as Hlen. destruct (IH vs Hk Hlen) as (n & y & l' & l & H1 & H2 & w & H3 & H4).
      exists (Datatypes.S n), y, l', l. cbn [nth_error]. split; [exact H1|]. split; [right; exact H2|]. eauto.
    + injection Hlen as Hlen. destruct (IH vs Hk Hlen) as (n & y & l' & l & H1 & H2 & w & H3 & H4).
      exists (Datatypes.S n), y, (spliced v ++ l'), l. cbn [nth_error].
      split; [exact H1|]. split; [right; exact H2|]. exists w. split; [exact H3|].
      rewrite H4. apply app_assoc.
Qed.

Lemma Forall2_len {A B} (R : A -> B -> Prop) l l' : Forall2 R l l' -> List.length l = List.length l'.
Proof. induction 1; cbn [List.length]; congruence. Qed.
Lemma Forall2_nth {A B} (R : A -> B -> Prop) l l' : Forall2 R l l' -> forall n a b,
  nth_error l n = Some a -> nth_error l' n = Some b -> R a b.
Proof.
  induction 1 as [|x y l l' HR H IH]; intros [|n] a b Ha Hb; cbn in *; try discriminate.
  - congruence.
  - eapply IH; eassumption.
Qed.

(** What is known about the tree node built for a derivation. *)
Record shaped (s : sym) (c : cst) : Prop := {
  sh_pos : pos_ok c;
  sh_none : sv_tree (shape c) <> TNone;
  sh_tok : forall t, sv_tree (shape c) = TTok t ->
     (exists n, leaves c = [(n, t)]) /\ match s with T _ => True | NT n => n = "quoted_string"%string end
}.

Lemma shaped_all : forall c s, wf s c -> shaped s c.
Proof.
  fix IH 1. intros c s Hw. destruct c as [n t|p cs].
  - inversion Hw; subst. split; cbn [shape sv_tree].
    + split; reflexivity.
    + discriminate.
    + intros t' Ht. inversion Ht; subst. split; [exists n; reflexivity|exact I].
  - inversion Hw as [|p' cs' Hin Hall]; subst.
    assert (Hsh : Forall2 shaped (p_rhs (the_prod p)) cs).
    { clear Hw Hin. revert Hall. generalize (p_rhs (the_prod p)). revert cs.
      fix IHcs 1. intros [|c cs] rhs Hall; inversion Hall as [|s0 c0 l0 l1 Hc Hcs]; subst; constructor.
      - exact (IH c s0 Hc).
      - exact (IHcs cs l0 Hcs). }
    assert (Hpos : Forall pos_ok cs).
    { clear -Hsh. induction Hsh as [|x c l l' H HF IH2]; constructor; [exact (sh_pos _ _ H)|exact IH2]. }
    pose proof expands_ok as Hex. rewrite forallb_forall in Hex. specialize (Hex _ Hin).
    cbn [shape]. set (raw := map shape cs) in *. set (pr := the_prod p) in *.
    assert (Hspan : span raw = lines_of (leaves (Br p cs))) by (apply raw_span; exact Hpos).
    destruct (build_node pr (select (p_raw pr) raw)) as [l m ch|t|] eqn:Hb.
    + assert (Hshape : shape (Br p cs) = propagate raw (TNode l m ch)) by (rewrite <- Hb; reflexivity).
      split; [|rewrite Hshape; discriminate|rewrite Hshape; cbn [propagate sv_tree]; discriminate].
      unfold pos_ok. rewrite Hshape. cbn [propagate]. unfold start_of, end_of. cbn [sv_tree sv_cont].
      rewrite Hspan. unfold lines_of. destruct (line_both (leaves (Br p cs))) as [(H1 & H2 & H3)|(a & b & H1 & H2)]; rewrite H1, H2.
      * destruct m as [[a b]|]; [|split; reflexivity].
        exfalso. unfold build_node in Hb.
        destruct (p_expand1 pr) eqn:He; [|inversion Hb]. destruct (p_alias pr) eqn:Ha; [inversion Hb|].
        destruct (select (p_raw pr) raw) as [|c0 [|c1 rest]] eqn:Hsel; [inversion Hb| |inversion Hb].
        subst c0. unfold expand_ok in Hex. rewrite He, Ha in Hex. cbn [andb negb orb] in Hex.
        apply andb_true_iff in Hex as [Hk _].
        destruct (select_keep_some (p_raw pr) raw Hk) as (n & x & l' & l0 & Hn & _ & v & Hv & Hs).
        { unfold raw. rewrite map_length. exact (Forall2_len _ _ _ Hsh). }
        rewrite Hsel in Hs. destruct l' as [|y l']; [|destruct l'; discriminate].
        cbn [app] in Hs. injection Hs as Hs _. unfold raw in Hv. rewrite nth_error_map in Hv.
        destruct (nth_error cs n) as [c|] eqn:Hc; [|discriminate]. injection Hv as Hv. subst v.
        pose proof (Forall2_nth _ _ _ Hsh n x c Hn Hc) as [[Hp1 _] _ _].
        unfold start_of in Hp1. rewrite <- Hs in Hp1.
        apply nth_error_In in Hc. cbn [leaves] in H3.
        assert (Hlc : leaves c = []).
        { apply incl_l_nil. rewrite <- H3. intros e Hein. apply in_flat_map. eauto. }
        rewrite Hlc in Hp1. discriminate.
      * destruct m as [[a' b']|]; split; reflexivity.
    + unfold build_node in Hb.
      destruct (p_expand1 pr) eqn:He; [|discriminate]. destruct (p_alias pr) eqn:Ha; [discriminate|].
      destruct (select (p_raw pr) raw) as [|c0 [|c1 rest]] eqn:Hsel; [discriminate| |discriminate].
      subst c0. unfold expand_ok in Hex. rewrite He, Ha in Hex. cbn [andb negb orb] in Hex.
      apply andb_true_iff in Hex as [Hk Htk].
      destruct (select_keep_some (p_raw pr) raw Hk) as (n & x & l' & l0 & Hn & Hinx & v & Hv & Hs).
      { unfold raw. rewrite map_length. exact (Forall2_len _ _ _ Hsh). }
      rewrite Hsel in Hs. destruct l' as [|y l']; [|destruct l'; discriminate].
      cbn [app] in Hs. injection Hs as Hs _. unfold raw in Hv. rewrite nth_error_map in Hv.
      destruct (nth_error cs n) as [c|] eqn:Hc; [|discriminate]. injection Hv as Hv. subst v.
      pose proof (Forall2_nth _ _ _ Hsh n x c Hn Hc) as [_ _ Hp3]. destruct (Hp3 t (eq_sym Hs)) as [(n0 & Hlv) Hxq].
      assert (Hkt : existsb keeps_token (p_raw pr) = true).
      { apply existsb_exists. exists (Sym x Keep). split; [exact Hinx|]. destruct x; [reflexivity|]. cbn. subst. reflexivity. }
      rewrite Hkt in Htk. cbn [negb orb] in Htk. apply andb_true_iff in Htk as [Hlhs Hone].
      apply String.eqb_eq in Hlhs. destruct (p_raw pr) as [|r [|r2 rs]] eqn:Hraw; [discriminate| |discriminate].
      destruct Hinx as [->|[]].
      assert (Hcs : cs = [c]).
      { unfold p_rhs in Hsh. fold pr in Hsh. rewrite Hraw in Hsh. cbn [flat_map sym_of app] in Hsh.
        inversion Hsh as [|a b ll ll' Hab Hrest]; subst. inversion Hrest; subst. destruct n; cbn in Hc; [congruence|destruct n; discriminate]. }
      assert (Hshape : shape (Br p cs) = {| sv_tree := TTok t; sv_cont := None |}).
      { change (shape (Br p cs)) with (propagate raw (build_node pr (select (p_raw pr) raw))).
        rewrite Hraw, Hsel. unfold build_node. rewrite He, Ha. reflexivity. }
      assert (Hlvs : leaves (Br p cs) = [(n0, t)]) by (subst cs; cbn [leaves flat_map]; rewrite app_nil_r; exact Hlv).
      split.
      * unfold pos_ok. rewrite Hshape, Hlvs. split; reflexivity.
      * rewrite Hshape. cbn [sv_tree]. discriminate.
      * intros t' Ht'. rewrite Hshape in Ht'. cbn [sv_tree] in Ht'. inversion Ht'; subst t'.
        split; [eauto|exact Hlhs].
    + exfalso. unfold build_node in Hb.
      destruct (p_expand1 pr) eqn:He; [|discriminate]. destruct (p_alias pr) eqn:Ha; [discriminate|].
      destruct (select (p_raw pr) raw) as [|c0 [|c1 rest]] eqn:Hsel; [discriminate| |discriminate].
      subst c0. unfold expand_ok in Hex. rewrite He, Ha in Hex. cbn [andb negb orb] in Hex.
      apply andb_true_iff in Hex as [Hk _].
      destruct (select_keep_some (p_raw pr) raw Hk) as (n & x & l' & l0 & Hn & Hinx & v & Hv & Hs).
      { unfold raw. rewrite map_length. exact (Forall2_len _ _ _ Hsh). }
      rewrite Hsel in Hs. destruct l' as [|y l']; [|destruct l'; discriminate].
      cbn [app] in Hs. injection Hs as Hs _. unfold raw in Hv. rewrite nth_error_map in Hv.
      destruct (nth_error cs n) as [c|] eqn:Hc; [|discriminate]. injection Hv as Hv. subst v.
      pose proof (Forall2_nth _ _ _ Hsh n x c Hn Hc) as [_ Hp2 _]. congruence.
Qed.

(** ** Non-empty derivations *)
Definition nullable_nts : list string := ["start"; "__rep [("","" value_brackets)]"]%string.
Definition nonnull (s : sym) : bool := match s with T _ => true | NT n => negb (mem_str n nullable_nts) end.
Lemma nonnull_ok : forallb (fun p => negb (nonnull (NT (p_lhs p))) || existsb nonnull (p_rhs p)) bicep_prods = true.
Proof. vm_compute. reflexivity. Qed.
Lemma nonnull_leaves : forall c s, wf s c -> nonnull s = true -> leaves c <> [].
Proof.
  fix IH 1. intros c s Hw Hn. destruct c as [n t|p cs]; [discriminate|].
  inversion Hw as [|p' cs' Hin Hall]; subst.
  pose proof nonnull_ok as Hok. rewrite forallb_forall in Hok. specialize (Hok _ Hin). cbv beta in Hok.
  rewrite Hn in Hok. cbn [negb orb] in Hok. cbn [leaves].
  clear Hin Hw Hn. revert Hall Hok. generalize (p_rhs (the_prod p)). revert cs.
  fix IHcs 1. intros [|c cs] rhs Hall Hok; inversion Hall; subst; [discriminate|].
  cbn [existsb] in Hok. apply orb_true_iff in Hok as [Hok|Hok]; cbn [flat_map].
  - intros He. apply app_eq_nil in He as [He _]. revert He. eapply IH; eassumption.
  - intros He. apply app_eq_nil in He as [_ He]. revert He. eapply IHcs; eassumption.
Qed.
