(** C15, C35: where things stand in the text. *)
From Coq Require Import List Arith NArith ZArith Bool String Lia.
From Verif Require Import Py.Str Py.Val Lark.Tree Lark.Ebnf Lark.BicepGrammar Lark.Driver Lark.Shape Lark.Terminals
  Pycep.Utils Pycep.Transformer Pycep.Main Pycep.Bicep
  Spec.Json Spec.Schema Spec.Outcomes Spec.Trees Spec.Calls Spec.Text Spec.Lexemes Spec.Program Spec.Reports Spec.Children Spec.Declarations
  Spec.Parts Spec.Sentences Spec.Layout
  Proofs.Base Proofs.Lexer Proofs.Parse Proofs.Grammar Proofs.TreeGrammar Proofs.Sentences Proofs.Program
  Proofs.EndToEnd Proofs.Children Proofs.Elements Proofs.Documents Proofs.Parts Proofs.Layout Props.Calls Props.Documents.
Import ListNotations.
Local Open Scope string_scope.

(** ** C35 *)
(** The text is gaps and declarations, and each declaration is tokens and blanks. *)
Theorem C35_text : forall E t cs, program E t cs -> laid_out E bicep_rules 1 cs t.
Proof. intros E t cs (m & H). exact (text_laid_out E t m cs H). Qed.
(** The tokens of the whole text are a sentence of the grammar. *)
Theorem C35_sentence : forall E t cs, program E t cs ->
  exists b x e ts, t = (b ++ x ++ e)%list /\ blank b /\ blank e /\ derives bicep_rules (ENT "start") (map fst ts) /\
    Forall (fun k => lexeme E (fst k) (tval (snd k))) ts /\ flat_map named_toks cs = named_of ts /\
    ((ts = [] /\ x = []) \/ spelled (1 + count_nl b) ts x).
Proof.
  intros E t cs (m & H). unfold lark_parse, bind in H. destruct (parse_cst E t) as [c|e] eqn:Hc; [|discriminate].
  destruct (parse_cst_wf E t c Hc) as [Hw Hr]. pose proof (wf_derives "start" c Hw eq_refl) as Hd.
  pose proof (kept_named E c _ Hw (reads_known _ _ _ _ Hr)) as Hn. injection H as H. rewrite H in Hn.
  assert (Hn' : flat_map named_toks cs = named_of (leaves c)).
  { rewrite <- Hn. rewrite named_toks_eq. cbn [toks]. rewrite filter_flat_map. reflexivity. }
  destruct (leaves c) as [|k ts] eqn:Hl.
  - inversion Hr; subst. exists t, [], [], []. rewrite !app_nil_r. repeat split; auto; constructor.
  - rewrite <- (app_nil_r (k :: ts)) in Hr. destruct (reads_piece E (k :: ts) [] t 1%N Hr ltac:(discriminate)) as (ig & x & s2 & -> & Hb & Hsp & Hlx & _ & Hrd).
    inversion Hrd; subst. exists ig, x, s2, (k :: ts). repeat split; auto.
Qed.
(** Every node of the tree stands for a piece of the text. *)
Theorem C35_nodes : forall E t l m kids, part_of E t (TNode l m kids) -> l <> L_start ->
  exists r mm, In r bicep_rules /\ makes r l /\ m = Some mm /\ stands E bicep_rules t (ENT (r_name r)) mm (TNode l m kids).
Proof. exact node_stands. Qed.

(** ** C15 *)
Definition has_lines (a b : Z) (attrs : pyval) : Prop :=
  exists d, attrs = PDict d /\ aget (u "__start_line__") d = Some (PInt a) /\ aget (u "__end_line__") d = Some (PInt b).
Definition meta_of (t : ptree) : meta := match t with TNode _ m _ => m | _ => None end.
Definition is_namespace (t : ptree) : bool := match t with TNode L_custom_import _ [TTok _] => true | _ => false end.

Lemma own_lines E c own imps ch a b : declares E true c own imps ch -> meta_of c = Some (a, b) ->
  Forall (fun e => has_lines (Z.of_N a) (Z.of_N b) (e_attrs e)) own.
Proof.
  intros H Hm. destruct H; cbn [meta_of] in Hm; subst; try constructor; try constructor; unfold ent; cbn [e_attrs];
    eexists; (split; [reflexivity|]); try (split; reflexivity).
  - destruct (truthy v), a0; split; reflexivity.
  - destruct (given t); split; reflexivity.
Qed.
Lemma import_lines E c own imps ch a b : declares E true c own imps ch -> meta_of c = Some (a, b) ->
  Forall (fun e => has_lines (Z.of_N a) (Z.of_N b) (e_attrs e) \/ is_namespace c = true /\ e_attrs e = PDict []) imps.
Proof.
  intros H Hm. destruct H; cbn [meta_of] in Hm; subst; try constructor.
  - right. split; reflexivity.
  - constructor.
  - match goal with H : Forall2 _ _ es |- _ => clear -H; induction H as [|x e xs es Hx _ IH]; constructor; auto end.
    left. destruct Hx as [mi n al]. eexists. split; [reflexivity|]. destruct al; split; reflexivity.
Qed.
Lemma last_child_in es c : last_child es = Some c -> In c es.
Proof.
  unfold last_child. assert (H : forall acc, fold_left (fun acc e => match e with TNode L_child_resource _ _ => Some e | _ => acc end) es acc = Some c -> acc = Some c \/ In c es).
  { induction es as [|e es IH]; intros acc Hf; cbn [fold_left] in Hf; [auto|]. destruct (IH _ Hf) as [H|H]; [|right; right; exact H].
    destruct e as [[] m cs|t|]; auto. injection H as H. right. left. exact H. }
  intros Hf. destruct (H None Hf) as [H'|H']; [discriminate|exact H'].
Qed.
Lemma child_entries_lines E n ty api body cfg es : lifts E true n ty api body cfg es ->
  Forall (fun e => exists m kids, within (TNode L_child_resource m kids) body /\
    forall a b, m = Some (a, b) -> has_lines (Z.of_N a) (Z.of_N b - 1) (e_attrs e)) es.
Proof.
  intros H. induction H as [| n ty api m es ps mc cname ctype x body tyname cfg cfg' rest Hpe Hlc Hty Hl IH Hdep | |]; try constructor.
  - exists mc, [TTok cname; TTok ctype; x; body]. split.
    + apply within_child with (TNode L_child_resource mc [TTok cname; TTok ctype; x; body]); [apply last_child_in; exact Hlc|constructor].
    + intros a b ->. eexists. split; [reflexivity|]. split; reflexivity.
  - revert IH. apply Forall_impl. intros e (m' & kids & Hw & He). exists m', kids. split; [|exact He].
    apply within_child with (TNode L_child_resource mc [TTok cname; TTok ctype; x; body]); [apply last_child_in; exact Hlc|].
    apply within_child with body; [right; right; right; left; reflexivity|exact Hw].
Qed.
Lemma laid_out_stands E g : forall line cs s, laid_out E g line cs s -> forall pre, line = (1 + count_nl pre)%N ->
  Forall (fun c => exists a b, meta_of c = Some (a, b) /\ stands E g (pre ++ s)%list (ENT "element") (a, b) c) cs.
Proof.
  intros line cs s H. induction H as [|line b x rest l kids cs ts Hg Hp Hn Hl IH]; intros pre Hline; constructor.
  - do 2 eexists. split; [reflexivity|]. exists (pre ++ b)%list, x, rest, ts. rewrite <- !app_assoc. split; [reflexivity|].
    assert (H1 : (1 + count_nl (pre ++ b)%list)%N = (line + count_nl b)%N) by (rewrite count_nl_app; lia).
    assert (H2 : (1 + count_nl (pre ++ b ++ x)%list)%N = (line + count_nl (b ++ x)%list)%N) by (rewrite !count_nl_app; lia).
    rewrite H1, H2. auto.
  - specialize (IH (pre ++ b ++ x)%list). rewrite <- !app_assoc in IH. apply IH. rewrite !count_nl_app. lia.
Qed.
Lemma declares_all_each E ln cs own imps ch : declares_all E ln cs own imps ch -> forall e, In e (own ++ imps ++ ch)%list ->
  exists c o i h, In c cs /\ declares E ln c o i h /\ (In e o \/ In e i \/ In e h).
Proof.
  intros H. induction H as [|c cs own imps ch own' imps' ch' Hd Hds IH]; intros e He; [destruct He|].
  assert (Hc : (In e own \/ In e imps \/ In e ch) \/ In e (own' ++ imps' ++ ch')%list).
  { rewrite !in_app_iff in *. tauto. }
  destruct Hc as [Hc|Hc].
  - exists c, own, imps, ch. split; [left; reflexivity|auto].
  - destruct (IH e Hc) as (c' & o & i & h & Hin & H). exists c', o, i, h. split; [right; exact Hin|exact H].
Qed.
(** Reported lines are those of the declaration in the text; [b] is the line on
    which its last token ends. For a child resource that token is a line break,
    and the report is one less. *)
Theorem C15_lines : forall E fs text fp t cs v k n attrs, source fs text fp t -> ~ contains reserved_key t -> program E t cs ->
  bicep_parse E fs true text fp = Ok v -> lookup k n v = Some attrs ->
  (k = u "globals" /\ n = u "scope" /\ forallb (fun c => negb (is_scope c)) cs = true /\ has_lines 0 0 attrs) \/
  (exists c a b, In c cs /\ In (k, n) (own_decl c ++ import_decl c) /\ stands E bicep_rules t (ENT "element") (a, b) c /\
     (has_lines (Z.of_N a) (Z.of_N b) attrs \/ is_namespace c = true /\ attrs = PDict [])) \/
  (exists c m kids a b, In c cs /\ In (k, n) (child_decl c) /\ within (TNode L_child_resource m kids) c /\
     stands E bicep_rules t (ENT "child_resource") (a, b) (TNode L_child_resource m kids) /\ has_lines (Z.of_N a) (Z.of_N b - 1) attrs).
Proof.
  intros E fs text fp t cs v k n attrs Hs Hno Hp Hv Hl.
  destruct (parse_declares E fs true text fp t v Hs Hno Hv) as (cs' & own & imps & ch & Hp' & Hd & ->).
  rewrite (program_unique E t cs' cs Hp' Hp) in *. clear Hp'.
  apply lookup_spec in Hl as (es1 & e & es2 & Hes & <- & <- & <- & Hlast).
  pose proof (laid_out_stands E bicep_rules _ _ _ (C35_text E t cs Hp) [] eq_refl) as Hst. rewrite Forall_forall in Hst.
  destruct es1 as [|e0 es1]; cbn [app] in Hes; injection Hes as He Hes.
  - left. subst e. split; [reflexivity|]. split; [reflexivity|]. split; [|exists [(u "value", PStr (u "resourceGroup")); (u "__start_line__", PInt 0); (u "__end_line__", PInt 0)]; auto].
    apply forallb_forall. intros c Hc. destruct (is_scope c) eqn:Hsc; [|reflexivity]. exfalso.
    destruct c as [l m kids| |]; try discriminate. destruct l; try discriminate.
    assert (Hin : exists o, In (ent "globals" (u "scope") o) own).
    { clear -Hd Hc. induction Hd as [|c0 cs own imps ch own' imps' ch' Hd Hds IH]; [destruct Hc|]. destruct Hc as [->|Hc].
      - inversion Hd; subst. eexists. apply in_or_app. left. left. reflexivity.
      - destruct (IH Hc) as (o & Ho). exists o. apply in_or_app. right. exact Ho. }
    destruct Hin as (o & Ho). apply (Hlast (ent "globals" (u "scope") o)); [rewrite <- Hes; apply in_or_app; left; exact Ho|reflexivity|reflexivity].
  - right. assert (Hin : In e (own ++ imps ++ ch)%list) by (rewrite Hes; apply in_elt). clear es1 es2 e0 He Hes Hlast.
    destruct (declares_all_each E true cs own imps ch Hd e Hin) as (c & o & i & h & Hc & Hdc & Hcase).
    destruct (Hst c Hc) as (a & b & Hm & Hstand). cbn [app] in Hstand.
    pose proof (program_ok E t cs Hp) as Hok. apply oks_Forall in Hok. rewrite Forall_forall in Hok.
    destruct (declares_names E true c o i h (Hok c Hc) Hdc) as (Hn1 & Hn2 & Hn3).
    assert (Hkey : forall l, In e l -> In (e_kind e, e_name e) (map key_of l)) by (intros l He; apply (in_map key_of) in He; exact He).
    destruct Hcase as [He|[He|He]].
    + left. exists c, a, b. split; [exact Hc|]. split; [apply in_or_app; left; rewrite <- Hn1; apply Hkey; exact He|]. split; [exact Hstand|].
      left. pose proof (own_lines E c o i h a b Hdc Hm) as HF. rewrite Forall_forall in HF. exact (HF e He).
    + left. exists c, a, b. split; [exact Hc|]. split; [apply in_or_app; right; rewrite <- Hn2; apply Hkey; exact He|]. split; [exact Hstand|].
      pose proof (import_lines E c o i h a b Hdc Hm) as HF. rewrite Forall_forall in HF. exact (HF e He).
    + right. assert (Hch : exists m kids, within (TNode L_child_resource m kids) c /\ forall a b, m = Some (a, b) -> has_lines (Z.of_N a) (Z.of_N b - 1) (e_attrs e)).
      { destruct Hdc; try destruct He.
        match goal with H : lifts _ _ _ _ _ _ _ _ |- _ => apply child_entries_lines in H; rewrite Forall_forall in H; destruct (H e He) as (m' & kids & Hw & Hlines) end.
        exists m', kids. split; [|exact Hlines]. apply within_child with body; [do 4 right; left; reflexivity|exact Hw]. }
      destruct Hch as (m & kids & Hw & Hlines). destruct Hp as (ms & Hp).
      assert (Hpart : part_of E t (TNode L_child_resource m kids)).
      { exists (TNode L_start ms cs). split; [exact Hp|]. apply within_child with c; [exact Hc|exact Hw]. }
      destruct (node_stands E t _ _ _ Hpart ltac:(discriminate)) as (r & [a' b'] & Hr & Hmk & -> & Hst').
      assert (Hrn : r_name r = "child_resource").
      { clear -Hr Hmk. destruct Hmk as (e & al & Ha & Hn). unfold bicep_rules in Hr. cbn [In] in Hr.
        repeat (destruct Hr as [<-|Hr]; [try reflexivity; cbn [r_alts In r_name] in Ha; repeat (destruct Ha as [Ha|Ha]; [injection Ha as <- <-; discriminate Hn|]); destruct Ha|]).
        destruct Hr. }
      rewrite Hrn in Hst'. exists c, (Some (a', b')), kids, a', b'. repeat split; auto. rewrite <- Hn3. apply Hkey. exact He.
Qed.
Lemma pair_eq {A B} (a c : A) (b d : B) : (a, b) = (c, d) -> a = c /\ b = d.
Proof. intros H. split; congruence. Qed.
Theorem C15_bounds : forall E g t e a b c, stands E g t e (a, b) c -> (1 <= a <= b)%N /\ (b <= 1 + count_nl t)%N.
Proof.
  intros E g t e a b c (pre & x & post & ts & -> & _ & _ & Hm). apply pair_eq in Hm as [-> ->]. rewrite !count_nl_app. lia.
Qed.
Lemma laid_out_after E g line cs s : laid_out E g line cs s -> forall c a b, In c cs -> meta_of c = Some (a, b) -> (line <= a)%N.
Proof.
  induction 1 as [|line b x rest l kids cs ts Hg Hp Hn Hl IH]; intros c a e Hin Hm; [destruct Hin|]. destruct Hin as [<-|Hin].
  - cbn [meta_of] in Hm. injection Hm as <- _. lia.
  - specialize (IH c a e Hin Hm). lia.
Qed.
(** A declaration starts no earlier than the one before it ends. *)
Theorem C15_ordered : forall E t x c1 y c2 z a1 b1 a2 b2, program E t (x ++ c1 :: y ++ c2 :: z)%list ->
  meta_of c1 = Some (a1, b1) -> meta_of c2 = Some (a2, b2) -> (b1 <= a2)%N.
Proof.
  intros E t x c1 y c2 z a1 b1 a2 b2 Hp H1 H2. apply C35_text in Hp. revert Hp. generalize 1%N, t. clear t.
  induction x as [|c0 x IH]; cbn [app]; intros line t Hl; inversion Hl; subst.
  - cbn [meta_of] in H1. injection H1 as <- <-. eapply laid_out_after; [eassumption| |exact H2]. apply in_elt.
  - eapply IH. eassumption.
Qed.
(** A child resource up to, and without, the line breaks that end it. *)
Definition child_proper : ebnf :=
  ESeq [EStr "resource"; ETerm "STRING"; ETerm "QUOTED_INTERPOLATION"; EMaybe (ETerm "EXISTING"); EStr "=";
        EAlt [ENT "object"; ENT "loop"; ENT "deploy_condition"]].
Lemma seq_split g l1 : forall l2 w, derives_seq g (l1 ++ l2) w -> exists w1 w2, w = (w1 ++ w2)%list /\ derives_seq g l1 w1 /\ derives_seq g l2 w2.
Proof.
  induction l1 as [|e l1 IH]; intros l2 w H; cbn [app] in H; [exists [], w; repeat split; [constructor|exact H]|].
  inversion H; subst. destruct (IH _ _ ltac:(eassumption)) as (w1 & w2 & -> & Hw1 & Hw2). eexists (_ ++ w1)%list, w2. rewrite <- app_assoc.
  repeat split; [constructor; eassumption|exact Hw2].
Qed.
Lemma child_sentence w : derives bicep_rules (ENT "child_resource") w ->
  exists w1 w2, w = (w1 ++ w2)%list /\ derives bicep_rules child_proper w1 /\ derives bicep_rules (EPlus (ETerm "_CPP_COMMENT_NL")) w2.
Proof.
  intros H. inversion H as [| | |n r e al w' Hr Hn Ha Hd| | | | | | | | |]; subst.
  assert (Hf : In r (filter (fun r => String.eqb (r_name r) "child_resource") bicep_rules)) by (apply filter_In; split; [exact Hr|apply String.eqb_eq; exact Hn]).
  clear Hr Hn H. vm_compute in Hf. destruct Hf as [<-|[]]. cbn [r_alts In] in Ha. destruct Ha as [Ha|[]]. injection Ha as <- <-.
  inversion Hd; subst. match goal with H : derives_seq _ _ _ |- _ => apply (seq_split _ [_; _; _; _; _; _] [_]) in H as (w1 & w2 & -> & Hw1 & Hw2) end.
  inversion Hw2 as [|e l w0 w0' He Hl]; subst. inversion Hl; subst. exists w1, w0. rewrite app_nil_r. split; [reflexivity|]. split; [constructor; exact Hw1|exact He].
Qed.
Lemma spelled_split : forall ts1 ts2 a x, ts1 <> [] -> ts2 <> [] -> spelled a (ts1 ++ ts2) x ->
  exists x1 b x2, x = (x1 ++ b ++ x2)%list /\ blank b /\ spelled a ts1 x1 /\ spelled (a + count_nl (x1 ++ b)%list)%N ts2 x2.
Proof.
  induction ts1 as [|[n t] ts1 IH]; intros ts2 a x H1 H2 H; [contradiction|]. cbn [app] in H.
  destruct ts1 as [|k ts1].
  - cbn [app] in H. inversion H; subst; [contradiction|]. exists (tval t), b, x0. split; [reflexivity|]. split; [assumption|].
    split; [apply sp_one; auto|]. replace (tline t + count_nl (tval t ++ b)%list)%N with (tend t + count_nl b)%N; [assumption|]. rewrite count_nl_app. lia.
  - inversion H as [|a' n' t' b ts x' Hty Hv Hl He Hb Hsp]; subst.
    destruct (IH ts2 _ x' ltac:(discriminate) H2 Hsp) as (x1 & b2 & x2 & -> & Hb2 & Hs1 & Hs2).
    exists (tval t ++ b ++ x1)%list, b2, x2. split; [rewrite <- !app_assoc; reflexivity|]. split; [exact Hb2|]. split; [apply sp_more; auto|].
    replace (tline t + count_nl ((tval t ++ b ++ x1) ++ b2)%list)%N with (tend t + count_nl b + count_nl (x1 ++ b2)%list)%N; [exact Hs2|].
    rewrite !count_nl_app. lia.
Qed.
Lemma feeds_count s : feeds s -> (1 <= count_nl s)%N.
Proof. induction 1 as [| |a b Ha IHa Hb IHb]; [vm_compute; discriminate|vm_compute; discriminate|rewrite count_nl_app; lia]. Qed.
Lemma break_count s : line_break s -> (1 <= count_nl s)%N.
Proof. intros [f Hf|b f _ Hf]; [exact (feeds_count f Hf)|]. rewrite !count_nl_app. pose proof (feeds_count f Hf). lia. Qed.
(** What is reported as last line of a child resource: the line it ends on plus
    one less than the line feeds before the last one that follows directly. *)
Theorem C15_child_end : forall E t a b c, stands E bicep_rules t (ENT "child_resource") (a, b) c ->
  exists before x sep breaks after ts1 ts2, t = (before ++ x ++ sep ++ breaks ++ after)%list /\ blank sep /\
    piece_of E bicep_rules child_proper a ts1 x /\
    piece_of E bicep_rules (EPlus (ETerm "_CPP_COMMENT_NL")) (1 + count_nl (before ++ x ++ sep)%list)%N ts2 breaks /\
    a = (1 + count_nl before)%N /\
    (1 <= count_nl (sep ++ breaks)%list)%N /\
    (Z.of_N b - 1 = Z.of_N (1 + count_nl (before ++ x)%list) + (Z.of_N (count_nl (sep ++ breaks)%list) - 1))%Z.
Proof.
  intros E t a b c (before & x & after & ts & -> & [Hsp Hlx Hd] & _ & Hm). apply pair_eq in Hm as [-> ->].
  apply child_sentence in Hd as (w1 & w2 & Hw & Hd1 & Hd2).
  apply map_eq_app in Hw as (ts1 & ts2 & -> & <- & <-). apply Forall_app in Hlx as [Hl1 Hl2].
  assert (Hn1 : ts1 <> []).
  { intros ->. cbn [map] in Hd1. inversion Hd1 as [| | | |l w Hs| | | | | | | |]; subst. inversion Hs as [|e l w w' He Hr]; subst. inversion He; subst. discriminate. }
  assert (Hn2 : ts2 <> []).
  { intros ->. cbn [map] in Hd2. inversion Hd2 as [| | | | | | | | | | |e n w Hs|]; subst. cbn [repeat] in Hs. inversion Hs as [|e l w w' He Hr]; subst. inversion He; subst. discriminate. }
  destruct (spelled_split ts1 ts2 _ x Hn1 Hn2 Hsp) as (x1 & sep & x2 & -> & Hb & Hs1 & Hs2).
  exists before, x1, sep, x2, after, ts1, ts2. split; [rewrite <- !app_assoc; reflexivity|]. split; [exact Hb|].
  split; [split; assumption|]. split.
  { split; [|exact Hl2|exact Hd2]. replace (1 + count_nl (before ++ x1 ++ sep)%list)%N with (1 + count_nl before + count_nl (x1 ++ sep)%list)%N; [exact Hs2|]. rewrite !count_nl_app. lia. }
  split; [reflexivity|].
  assert (Hc : (1 <= count_nl x2)%N).
  { destruct ts2 as [|[n2 t2] ts2]; [contradiction|]. inversion Hl2 as [|? ? Hk _]; subst. cbn [fst snd] in Hk.
    assert (Hname : n2 = "_CPP_COMMENT_NL").
    { inversion Hd2 as [| | | | | | | | | | |e n w Hs|]; subst. cbn [repeat] in Hs. inversion Hs as [|e l w w' He Hr]; subst. inversion He; subst. cbn [map fst app] in *. congruence. }
    subst n2. assert (Hbr : line_break (tval t2)) by (inversion Hk; subst; [discriminate|assumption]). apply break_count in Hbr.
    inversion Hs2; subst; [assumption|]. rewrite count_nl_app. lia. }
  split; [rewrite count_nl_app; lia|]. rewrite !count_nl_app. lia.
Qed.
(** So the last line of a child resource need not be the line it ends on: here
    the child ends on line 3 and 4 is reported. *)
Theorem C15_child_end_real_refuted : exists before x after v attrs,
  bicep_parse env0 ex_fs true (Some (before ++ x ++ after)%list) None = Ok v /\
  lookup (u "resources") (u "r__c") v = Some attrs /\ has_lines 2 4 attrs /\
  x = u ("resource c 'U' = {" ++ nl ++ "  }") /\ (1 + count_nl (before ++ x)%list = 3)%N.
Proof.
  exists (u ("resource r 'T@1' = {" ++ nl ++ "  ")), (u ("resource c 'U' = {" ++ nl ++ "  }")), (u (nl ++ nl ++ "}")).
  eexists _, _. split; [vm_compute; reflexivity|]. split; [vm_compute; reflexivity|]. split; [|split; reflexivity].
  eexists. split; [reflexivity|]. split; reflexivity.
Qed.
Definition laid : str := u ("// first" ++ nl ++ "@secure()" ++ nl ++ "param p string /* a" ++ nl ++ "b */ = 'x' # tail" ++ nl ++ nl ++ "resource r 'T@1' = {" ++ nl
  ++ "  resource c 'U' = {" ++ nl ++ "  }" ++ nl ++ "}" ++ nl ++ "import 'az'" ++ nl).
Example C15_ex : source ex_fs (Some laid) None laid /\ ~ contains reserved_key laid /\ exists cs v p r c, program env0 laid cs /\
  bicep_parse env0 ex_fs true (Some laid) None = Ok v /\
  lookup (u "parameters") (u "p") v = Some p /\ has_lines 2 4 p /\ lookup (u "resources") (u "r") v = Some r /\ has_lines 6 9 r /\
  lookup (u "resources") (u "r__c") v = Some c /\ has_lines 7 8 c /\ lookup (u "imports") (u "az") v = Some (PDict []).
Proof.
  split; [apply ex_source; do 2 eexists; reflexivity|]. split.
  - intros (a & b & H).
    assert (Hl : List.length a <= List.length laid) by (rewrite H, !app_length; lia).
    assert (Hs : forall n, n <= List.length laid -> starts_with reserved_key (skipn n laid) = false).
    { assert (Hall : forallb (fun n => negb (starts_with reserved_key (skipn n laid))) (seq 0 (Datatypes.S (List.length laid))) = true) by (vm_compute; reflexivity).
      intros n Hn. rewrite forallb_forall in Hall. apply negb_true_iff, Hall, in_seq. lia. }
    specialize (Hs _ Hl). rewrite H, skipn_app, skipn_all, Nat.sub_diag in Hs. cbn [skipn app] in Hs.
    assert (Ht : starts_with reserved_key (reserved_key ++ b)%list = true) by (apply starts_with_app; eauto). congruence.
  - eexists _, _, _, _, _. split; [eexists; vm_compute; reflexivity|]. split; [vm_compute; reflexivity|].
    split; [vm_compute; reflexivity|]. split; [eexists; split; [reflexivity|split; reflexivity]|].
    split; [vm_compute; reflexivity|]. split; [eexists; split; [reflexivity|split; reflexivity]|].
    split; [vm_compute; reflexivity|]. split; [eexists; split; [reflexivity|split; reflexivity]|]. vm_compute. reflexivity.
Qed.
Example C35_ex : exists cs l m kids, program env0 laid cs /\ part_of env0 laid (TNode l m kids) /\ l = L_child_resource.
Proof.
  eexists _, L_child_resource, _, _. split; [eexists; vm_compute; reflexivity|]. split; [|reflexivity].
  eexists. split; [vm_compute; reflexivity|]. eapply within_child; [right; left; reflexivity|].
  eapply within_child; [do 4 right; left; reflexivity|]. eapply within_child; [left; reflexivity|]. apply within_here.
Qed.

(** All theorems of this file at once (the walk over the proofs is slow). *)
Definition layout_theorems := (@C35_text,
  @C35_sentence,
  @C35_nodes,
  @C15_lines,
  @C15_bounds,
  @C15_ordered,
  @C15_child_end,
  @C15_child_end_real_refuted).
Print Assumptions layout_theorems.
