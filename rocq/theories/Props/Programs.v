(** C31, C33: import statements and user-defined functions in whole programs. *)
From Coq Require Import List Arith NArith ZArith Bool String Lia.
From Verif Require Import Py.Str Py.Val Lark.Tree Lark.Shape Lark.Terminals
  Pycep.Utils Pycep.Transformer Pycep.Main Pycep.Bicep
  Spec.Json Spec.Schema Spec.Outcomes Spec.Calls Spec.Text Spec.Trees Spec.Lexemes Spec.Program Spec.Reports Spec.Children Spec.Declarations
  Spec.Parts Spec.Values
  Proofs.Base Proofs.Grammar Proofs.JsonLemmas Proofs.TokenForms Proofs.TreeGrammar Proofs.Transform Proofs.State Proofs.Tokens Proofs.EndToEnd Proofs.Quiet Proofs.Program
  Proofs.Children Proofs.Elements Proofs.Documents Proofs.Parts Proofs.Values Props.Calls Props.Documents Props.Values.
Import ListNotations.
Local Open Scope string_scope.

Lemma oks_of E cs : Forall (ok E sElem) cs -> oks E sElem cs.
Proof. induction 1; constructor; auto. Qed.
Lemma own_not_imports c p : In p (own_decl c) -> fst p <> u "imports".
Proof.
  destruct c as [l m cs| |]; cbn [own_decl]; try contradiction. destruct l; try contradiction;
    try (cbn [In]; intros [<-|[]]; discriminate);
    destruct cs as [|[] cs]; try contradiction; try destruct cs as [|[] cs]; try contradiction; cbn [In]; intros [<-|[]]; discriminate.
Qed.
Section Last.
  Variables (E : pyenv) (fs : path -> result str) (ln : bool).
  Lemma split_program text fp t a c b v : source fs text fp t -> program E t (a ++ c :: b)%list -> bicep_parse E fs ln text fp = Ok v ->
    exists o1 i1 h1 o i h o2 i2 h2, outline E ln c o i h /\ all_of (outline E ln) b o2 i2 h2 /\ oks E sElem b /\ ok E sElem c /\
      map key_of o2 = flat_map own_decl b /\ map key_of i2 = flat_map import_decl b /\
      Forall (fun e => e_kind e = u "imports") (i1 ++ i ++ i2) /\
      Forall (fun e => e_kind e = u "resources") (h1 ++ h ++ h2) /\
      v = document (default_scope ln :: (o1 ++ o ++ o2) ++ (i1 ++ i ++ i2) ++ (h1 ++ h ++ h2))%list.
  Proof.
    intros Hs Hp Hv. destruct (parse_outline E fs ln text fp t v Hs Hv) as (cs' & own & imps & ch & Hp' & Ha & ->).
    pose proof (program_unique E t cs' _ Hp' Hp). subst cs'. pose proof (program_ok E t _ Hp) as Hok.
    pose proof (outlines_names E ln _ own imps ch Hok Ha) as (_ & Himp & Hch).
    apply all_of_app in Ha as (o1 & i1 & h1 & o2 & i2 & h2 & Ha1 & Ha2 & -> & -> & ->).
    inversion Ha2 as [|c0 cs0 o i h o2' i2' h2' Hd Hds]; subst.
    apply oks_Forall in Hok. apply Forall_app in Hok as [_ Hok]. inversion Hok as [|? ? Hc Hb]; subst. apply oks_of in Hb.
    destruct (outlines_names E ln b o2' i2' h2' Hb Hds) as (Hk1 & Hk2 & _).
    exists o1, i1, h1, o, i, h, o2', i2', h2'. repeat split; try assumption.
    apply Forall_forall. intros e He. apply (in_map key_of) in He. rewrite Himp in He. apply in_flat_map in He as (x & _ & He). apply import_kind in He. exact He.
  Qed.
End Last.

(** ** C31 *)
Definition symbol_names (cs : list ptree) : list str :=
  flat_map (fun c => match c with TNode L_import_alias _ (TTok n :: _) => [tval n] | _ => [] end) cs.
Definition imported_names (b : list ptree) : list str := map snd (flat_map import_decl b).
Lemma imported_last E ln text fp fs t a c b v i1 e i2 : source fs text fp t -> program E t (a ++ c :: b)%list -> bicep_parse E fs ln text fp = Ok v ->
  (forall o i h, outline E ln c o i h -> i = (i1 ++ e :: i2)%list) -> ~ In (e_name e) (map e_name i2) -> ~ In (e_name e) (imported_names b) ->
  lookup (u "imports") (e_name e) v = Some (e_attrs e).
Proof.
  intros Hs Hp Hv Hc Hn2 Hnb. destruct (split_program E fs ln text fp t a c b v Hs Hp Hv) as (o1 & j1 & h1 & o & i & h & o2 & j2 & h2 & Ho & _ & _ & _ & _ & Hk2 & Hi & Hh & ->).
  rewrite (Hc _ _ _ Ho) in Hi |- *. apply lookup_spec.
  exists (default_scope ln :: (o1 ++ o ++ o2) ++ j1 ++ i1)%list, e, (i2 ++ j2 ++ h1 ++ h ++ h2)%list.
  split; [cbn [app]; rewrite <- ?app_assoc; cbn [app]; reflexivity|].
  assert (He : e_kind e = u "imports").
  { rewrite Forall_forall in Hi. apply Hi. rewrite !in_app_iff. cbn [In]. tauto. }
  split; [exact He|]. split; [reflexivity|]. split; [reflexivity|].
  intros e' Hin Hk Hnm. apply in_app_or in Hin as [Hin|Hin].
  - apply Hn2. rewrite <- Hnm. apply in_map. exact Hin.
  - apply in_app_or in Hin as [Hin|Hin].
    + apply Hnb. unfold imported_names. rewrite <- Hk2, map_map. rewrite <- Hnm. apply (in_map (fun x => snd (key_of x)) _ _ Hin).
    + rewrite Forall_forall in Hh. rewrite (Hh e' Hin) in Hk. discriminate.
Qed.
Lemma app_last_inj {A} (l l' : list A) x y : (l ++ [x] = l' ++ [y])%list -> l = l' /\ x = y.
Proof. apply app_inj_tail. Qed.
(** Importing symbols: one entry each, with the path between the quotes, the
    alias iff one is written, and the lines of the statement. *)
Theorem C31_symbols : forall E fs ln text fp t a m xs mi n al ys p b v, source fs text fp t ->
  program E t (a ++ TNode L_custom_import m (xs ++ TNode L_import_alias mi [TTok n; al] :: ys ++ [TTok p]) :: b)%list ->
  bicep_parse E fs ln text fp = Ok v ->
  ~ In (tval n) (symbol_names ys) -> ~ In (tval n) (imported_names b) ->
  exists path, tval p = quote path /\
    lookup (u "imports") (tval n) v = Some (PDict ((u "file_path", PStr path) :: alias_of al ++ lines ln m)).
Proof.
  intros E fs ln text fp t a m xs mi n al ys p b v Hs Hp Hv Hny Hnb.
  destruct (split_program E fs ln text fp t a _ b v Hs Hp Hv) as (o1 & j1 & h1 & o & i & h & o2 & j2 & h2 & Ho & _).
  assert (Hsh : forall o i h, outline E ln (TNode L_custom_import m (xs ++ TNode L_import_alias mi [TTok n; al] :: ys ++ [TTok p])) o i h ->
    exists path is1 is2, tval p = quote path /\ i = (is1 ++ ent "imports" (tval n) ((u "file_path", PStr path) :: alias_of al ++ lines ln m) :: is2)%list /\
      Forall2 (imported ln path m) xs is1 /\ Forall2 (imported ln path m) ys is2).
  { clear. intros o i h [Hd|? ? ? ? ? Hbad]; [|discriminate].
    remember (TNode L_custom_import m (xs ++ TNode L_import_alias mi [TTok n; al] :: ys ++ [TTok p])) as c eqn:Hc.
    destruct Hd; try discriminate Hc; injection Hc as Hm Hc; subst m0.
    - destruct xs as [|x0 [|? ?]]; discriminate.
    - change (c :: cs ++ [TTok t])%list with ((c :: cs) ++ [TTok t])%list in Hc. rewrite app_comm_cons, app_assoc in Hc.
      apply app_inj_tail in Hc as [Hc [= <-]]. rewrite Hc in H0. apply Forall2_app_inv_l in H0 as (is1 & is2 & H1 & H2 & ->).
      inversion H2 as [|? e ? is3 Hi H3]; subst. inversion Hi; subst. exists s, is1, is3. auto. }
  destruct (Hsh _ _ _ Ho) as (path & is1 & is2 & Hq & _ & HF1 & HF2). exists path. split; [exact Hq|].
  assert (Hdet : forall ys is is', Forall2 (imported ln path m) ys is -> Forall2 (imported ln path m) ys is' -> is = is').
  { clear. intros ys is is' H. revert is'. induction H as [|y i ys is Hi H IH]; intros is' H'; inversion H' as [|? ? ? ? Hi' H'']; subst; [reflexivity|].
    f_equal; [|auto]. destruct Hi. inversion Hi'. reflexivity. }
  apply (imported_last E ln text fp fs t a _ b v is1 (ent "imports" (tval n) ((u "file_path", PStr path) :: alias_of al ++ lines ln m)) is2 Hs Hp Hv); [|clear -HF2 Hny|exact Hnb].
  - intros o' i' h' Ho'. destruct (Hsh _ _ _ Ho') as (path' & is1' & is2' & Hq' & -> & HF1' & HF2').
    rewrite Hq in Hq'. apply quote_inj in Hq'. subst path'. rewrite (Hdet _ _ _ HF1 HF1'), (Hdet _ _ _ HF2 HF2'). reflexivity.
  - cbn [ent e_name]. intros Hin. apply Hny. clear Hny. revert Hin.
    induction HF2 as [|y i ys is Hi H IH]; cbn [map]; [auto|]. destruct Hi. cbn [In e_name ent]. cbn [symbol_names flat_map app]. intros [Hin|Hin]; [left; exact Hin|right; apply IH; exact Hin].
Qed.
(** Importing a namespace: the name between the quotes, no attributes at all. *)
Theorem C31_namespaces : forall E fs ln text fp t a m p b v, source fs text fp t ->
  program E t (a ++ TNode L_custom_import m [TTok p] :: b)%list -> bicep_parse E fs ln text fp = Ok v ->
  exists name, tval p = quote name /\
    (~ In name (imported_names b) -> lookup (u "imports") name v = Some (PDict [])).
Proof.
  intros E fs ln text fp t a m p b v Hs Hp Hv.
  destruct (split_program E fs ln text fp t a _ b v Hs Hp Hv) as (o1 & j1 & h1 & o & i & h & o2 & j2 & h2 & Ho & _).
  assert (Hsh : forall o i h, outline E ln (TNode L_custom_import m [TTok p]) o i h -> exists s, tval p = quote s /\ i = [ent "imports" s []]).
  { clear. intros o i h [Hd|? ? ? ? ? Hbad]; [|discriminate]. remember (TNode L_custom_import m [TTok p]) as c eqn:Hc.
    destruct Hd; try discriminate Hc; injection Hc as Hm Hc; subst.
    - eauto.
    - destruct cs; discriminate. }
  destruct (Hsh _ _ _ Ho) as (s & Hq & _). exists s. split; [exact Hq|]. intros Hn.
  apply (imported_last E ln text fp fs t a _ b v [] (ent "imports" s []) [] Hs Hp Hv); [|cbn; tauto|exact Hn].
  intros o' i' h' Ho'. destruct (Hsh _ _ _ Ho') as (s' & Hq' & ->). rewrite Hq in Hq'. apply quote_inj in Hq'. subst. reflexivity.
Qed.
(** These are all the import statements there are; a wildcard import is always called [*]. *)
Theorem C31_statements : forall E text m cs, part_of E text (TNode L_custom_import m cs) ->
  (exists p, cs = [TTok p]) \/
  exists ss p, cs = (ss ++ [TTok p])%list /\ ss <> [] /\
    Forall (fun c => exists mi n al, c = TNode L_import_alias mi [TTok n; al] /\ (al = TNone \/ exists k, al = TTok k /\ ident E (tval k)) /\
      (ident E (tval n) \/ tval n = u "*")) ss.
Proof.
  intros E text m cs H. apply part_ok in H as (s & H). remember (TNode L_custom_import m cs) as c eqn:Hc.
  revert Hc. induction H; intros Hc; try discriminate Hc; auto; try (injection Hc as -> _ _; discriminate); injection Hc as <- <-.
  - left. apply tok_inv in H as (p & -> & _). eauto.
  - right. apply tok_inv in H1 as (p & -> & _). exists (c :: cs0), p. split; [reflexivity|]. split; [discriminate|].
    assert (Hsym : forall c, ok E sImp c -> exists mi n al, c = TNode L_import_alias mi [TTok n; al] /\ (al = TNone \/ exists k, al = TTok k /\ ident E (tval k)) /\
      (ident E (tval n) \/ tval n = u "*")).
    { clear. intros c H. inversion H; subst.
      - apply tok_inv in H0 as (n & -> & [_ Hn]). exists (Some m), n, b. split; [reflexivity|]. split; [|left; exact (tok_string E _ Hn)].
        apply opt_tok_inv in H1 as [->|(k & -> & [_ Hk])]; [auto|]. right. exists k. split; [reflexivity|exact (tok_string E _ Hk)].
      - apply tok_inv in H0 as (n & -> & [_ Hn]). exists (Some m), n, b. split; [reflexivity|]. split; [|right; exact (tok_star E _ Hn)].
        apply opt_tok_inv in H1 as [->|(k & -> & [_ Hk])]; [auto|]. right. exists k. split; [reflexivity|exact (tok_string E _ Hk)]. }
    constructor; [apply Hsym; assumption|]. apply oks_Forall in H0. eapply Forall_impl; [|exact H0]. exact Hsym.
Qed.
(** What a user would expect of two wildcard imports under different aliases,
    an entry for each, does not hold: only the last one is reported. *)
Definition wildcards_text : str := u ("import * as a from 'x.bicep'" ++ nl ++ "import * as b from 'y.bicep'" ++ nl ++ "import {f, g as h} from 'z.bicep'" ++ nl ++ "import 'az@1.0.0'").
Theorem C31_wildcards_kept_refuted : exists cs v, program env0 wildcards_text cs /\ bicep_parse env0 ex_fs true (Some wildcards_text) None = Ok v /\
  List.length (flat_map (fun c => match c with TNode L_custom_import _ (TNode L_import_alias _ [TTok n; _] :: _) => if str_eqb (tval n) (u "*") then [c] else [] | _ => [] end) cs) = 2 /\
  exists d g, v = PDict d /\ aget (u "imports") d = Some (PDict g) /\
    g = [(u "*", PDict [(u "file_path", PStr (u "y.bicep")); (u "alias", PStr (u "b")); (u "__start_line__", PInt 2); (u "__end_line__", PInt 2)]);
         (u "f", PDict [(u "file_path", PStr (u "z.bicep")); (u "__start_line__", PInt 3); (u "__end_line__", PInt 3)]);
         (u "g", PDict [(u "file_path", PStr (u "z.bicep")); (u "alias", PStr (u "h")); (u "__start_line__", PInt 3); (u "__end_line__", PInt 3)]);
         (u "az@1.0.0", PDict [])].
Proof. do 2 eexists. split; [eexists; vm_compute; reflexivity|]. split; [vm_compute; reflexivity|]. split; [vm_compute; reflexivity|]. do 2 eexists. split; [reflexivity|]. split; vm_compute; reflexivity. Qed.
Example C31_ex : exists a m xs mi n al ys p b v, program env0 wildcards_text (a ++ TNode L_custom_import m (xs ++ TNode L_import_alias mi [TTok n; al] :: ys ++ [TTok p]) :: b)%list /\
  bicep_parse env0 ex_fs true (Some wildcards_text) None = Ok v /\ tval n = u "g" /\ ~ In (tval n) (symbol_names ys) /\ ~ In (tval n) (imported_names b) /\ List.length a = 2 /\ List.length xs = 1 /\ List.length b = 1.
Proof.
  eexists [_; _], _, [_], _, _, _, [], _, [_], _. split; [eexists; vm_compute; reflexivity|]. split; [vm_compute; reflexivity|]. split; [vm_compute; reflexivity|].
  repeat split; vm_compute; intuition discriminate.
Qed.

(** ** C33 *)
Lemma own_last E ln text fp fs t a c b v e : source fs text fp t -> program E t (a ++ c :: b)%list -> bicep_parse E fs ln text fp = Ok v ->
  (forall o i h, outline E ln c o i h -> o = [e]) -> e_kind e <> u "imports" -> e_kind e <> u "resources" -> ~ In (key_of e) (flat_map own_decl b) ->
  lookup (e_kind e) (e_name e) v = Some (e_attrs e).
Proof.
  intros Hs Hp Hv Hc Hki Hkr Hnb. destruct (split_program E fs ln text fp t a c b v Hs Hp Hv) as (o1 & j1 & h1 & o & i & h & o2 & j2 & h2 & Ho & _ & _ & _ & Hk1 & _ & Hi & Hh & ->).
  rewrite (Hc _ _ _ Ho). apply lookup_spec.
  exists (default_scope ln :: o1)%list, e, (o2 ++ (j1 ++ i ++ j2) ++ h1 ++ h ++ h2)%list.
  split; [cbn [app]; rewrite <- ?app_assoc; cbn [app]; reflexivity|]. split; [reflexivity|]. split; [reflexivity|]. split; [reflexivity|].
  intros e' Hin Hk Hnm. apply in_app_or in Hin as [Hin|Hin].
  - apply Hnb. rewrite <- Hk1. replace (key_of e) with (key_of e') by (unfold key_of; congruence). apply in_map. exact Hin.
  - apply in_app_or in Hin as [Hin|Hin]; rewrite Forall_forall in *; [rewrite (Hi e' Hin) in Hk|rewrite (Hh e' Hin) in Hk]; congruence.
Qed.
Lemma parameters_det E ln ps : forall a b, parameters E ln ps a -> parameters E ln ps b -> a = b.
Proof. intros a b H. revert b. induction H as [|n t v cs ps' Ht H IH]; intros b Hb; inversion Hb; subst; [reflexivity|]. f_equal; [congruence|auto]. Qed.
(** The report of a func declaration. *)
Definition func_attrs (ln : bool) (m : meta) (decorators : pyval) (args : list (str * pyval)) (type expression : pyval) : pyval :=
  PDict ([(u "decorators", decorators); (u "args", PDict (dict_of args)); (u "type", type); (u "expression", expression)] ++ lines ln m).
Theorem C33_functions : forall E fs ln text fp t a m d n ps ty x b v, source fs text fp t ->
  program E t (a ++ TNode L_custom_func m (d :: TTok n :: ps ++ [ty; x]) :: b)%list -> bicep_parse E fs ln text fp = Ok v ->
  ~ In (u "functions", tval n) (flat_map own_decl b) ->
  exists vd args vt vx, decorators_of E ln d vd /\ parameters E ln ps args /\ transform E ln ty = Ok vt /\ transform E ln x = Ok vx /\
    lookup (u "functions") (tval n) v = Some (func_attrs ln m vd args vt vx).
Proof.
  intros E fs ln text fp t a m d n ps ty x b v Hs Hp Hv Hnb.
  destruct (split_program E fs ln text fp t a _ b v Hs Hp Hv) as (o1 & j1 & h1 & o & i & h & o2 & j2 & h2 & Ho & _).
  assert (Hsh : forall o i h, outline E ln (TNode L_custom_func m (d :: TTok n :: ps ++ [ty; x])) o i h ->
    exists vd args vt vx, decorators_of E ln d vd /\ parameters E ln ps args /\ transform E ln ty = Ok vt /\ transform E ln x = Ok vx /\
      o = [{| e_kind := u "functions"; e_name := tval n; e_attrs := func_attrs ln m vd args vt vx |}]).
  { clear. intros o i h [Hd|? ? ? ? ? Hbad]; [|discriminate].
    remember (TNode L_custom_func m (d :: TTok n :: ps ++ [ty; x])) as c eqn:Hc. destruct Hd; try discriminate Hc.
    injection Hc as Hm Hd' Hn Hc. subst m0 d0 n0. change [t; x0] with ([t] ++ [x0])%list in Hc. change [ty; x] with ([ty] ++ [x])%list in Hc.
    rewrite !app_assoc in Hc. apply app_inj_tail in Hc as [Hc ->]. apply app_inj_tail in Hc as [-> ->]. do 4 eexists. repeat split; eassumption. }
  destruct (Hsh _ _ _ Ho) as (vd & args & vt & vx & H1 & H2 & H3 & H4 & _). exists vd, args, vt, vx. repeat split; try assumption.
  apply (own_last E ln text fp fs t a _ b v {| e_kind := u "functions"; e_name := tval n; e_attrs := func_attrs ln m vd args vt vx |} Hs Hp Hv); try discriminate; [|exact Hnb].
  intros o' i' h' Ho'. destruct (Hsh _ _ _ Ho') as (vd' & args' & vt' & vx' & H1' & H2' & H3' & H4' & ->).
  rewrite (parameters_det E ln ps _ _ H2 H2'). rewrite H3 in H3'. rewrite H4 in H4'. injection H3' as ->. injection H4' as ->.
  replace vd' with vd; [reflexivity|]. unfold decorators_of in *. destruct (given d); congruence.
Qed.
(** Later parameters of the same name win; order of first mention. *)
Theorem C33_duplicate_parameters : forall (args : list (str * pyval)),
  map fst (dict_of args) = firsts (map fst args) /\ forall k v, In (k, v) (dict_of args) <-> last_of k args v.
Proof. intros args. destruct (C29_keys_and_values args) as (H1 & _ & H2). auto. Qed.
(** A func declaration has the parts above, and it fails only when one of them does. *)
Theorem C33_shape : forall E text m cs, part_of E text (TNode L_custom_func m cs) ->
  exists d n ps ty x, cs = (d :: TTok n :: ps ++ [ty; x])%list /\ ident E (tval n) /\ Nat.Even (List.length ps).
Proof.
  intros E text m cs H. apply part_ok in H as (s & H). remember (TNode L_custom_func m cs) as c eqn:Hc.
  revert Hc. induction H; intros Hc; try discriminate Hc; auto; try (injection Hc as -> _ _; discriminate); injection Hc as <- <-.
  apply tok_inv in H0 as (n & -> & [_ Hn]). exists d, n, ps, t, v. split; [reflexivity|]. split; [exact (tok_string E _ Hn)|].
  clear -H1. induction H1 as [|a0 t0 cs H H' H1 IH]; [exists 0; reflexivity|]. destruct IH as (k & IH). exists (Datatypes.S k). cbn [List.length]. rewrite IH. lia.
Qed.
Theorem C33_always_reported : forall E ln text m cs vs, part_of E text (TNode L_custom_func m cs) ->
  all_ok (transform E ln) cs = Ok vs -> exists v, transform E ln (TNode L_custom_func m cs) = Ok v.
Proof.
  intros E ln text m cs vs H Hvs. rewrite (part_node E ln text _ _ _ H ltac:(discriminate)), Hvs. cbn [bind].
  apply part_ok in H as (s & H). remember (TNode L_custom_func m cs) as c eqn:Hc.
  revert Hc. induction H; intros Hc; try discriminate Hc; auto; try (injection Hc as -> _ _; discriminate); injection Hc as <- <-.
  apply tok_inv in H0 as (n & -> & _). cbn [all_ok] in Hvs. destruct (transform E ln d) as [vd|]; [|discriminate]. rewrite transform_tok in Hvs.
  rewrite all_ok_app in Hvs. destruct (all_ok (transform E ln) ps) as [ws|] eqn:Hps; [|discriminate].
  destruct (params_val E ln ps ws H1 Hps) as (args & Hz & _).
  cbn [bind all_ok] in Hvs. destruct (transform E ln t) as [vt|]; [|discriminate]. destruct (transform E ln v) as [vx|]; [|discriminate].
  cbn [bind] in Hvs. injection Hvs as <-. unfold callv. cbn [call pure cb_custom_func].
  rewrite rev_app_distr. cbn [rev app]. rewrite rev_involutive, Hz. cbn [bind]. destruct m0 as [s0 e0].
  destruct ln; cbn; eexists; reflexivity.
Qed.
Definition func_text : str := u ("@description('d')" ++ nl ++ "func f(a string, b int[], a bool) object => { x: a }").
Example C33_ex : exists m d n ps ty x v, program env0 func_text [TNode L_custom_func m (d :: TTok n :: ps ++ [ty; x])] /\ List.length ps = 6 /\
  bicep_parse env0 ex_fs true (Some func_text) None = Ok v.
Proof. eexists _, _, _, [_; _; _; _; _; _], _, _, _. split; [eexists; vm_compute; reflexivity|]. split; [reflexivity|]. vm_compute. reflexivity. Qed.

(** All theorems of this file at once (the walk over the proofs is slow). *)
Definition programs_theorems := (@C31_symbols,
  @C31_namespaces,
  @C31_statements,
  @C31_wildcards_kept_refuted,
  @C33_functions,
  @C33_duplicate_parameters,
  @C33_shape,
  @C33_always_reported).
Print Assumptions programs_theorems.
