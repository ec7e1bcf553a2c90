(** Where the parts of a program stand in its text. *)
From Coq Require Import List Arith NArith PArith Bool String Lia.
From Verif Require Import Py.Str Py.Val Lark.Regex Lark.Terminals Lark.Lexer Lark.Tree Lark.Ebnf Lark.BicepGrammar Lark.Driver Lark.Shape
  Proofs.Base Proofs.Regex Proofs.Lexer Proofs.Parse Proofs.Grammar Proofs.Sentences Proofs.Tokens Proofs.TreeGrammar
  Proofs.TokenForms Proofs.Parts
  Spec.Lexemes Spec.Sentences Spec.Text Spec.Parts Spec.Layout.
Import ListNotations.

Lemma u_inj' a : forall b, u a = u b -> a = b.
Proof.
  induction a as [|c a IH]; intros [|d b] H; try discriminate H; [reflexivity|]. unfold u in H. cbn [list_ascii_of_string map] in H.
  injection H as H1 H2. f_equal; [|apply IH; exact H2]. rewrite <- (Ascii.ascii_N_embedding c), <- (Ascii.ascii_N_embedding d), H1. reflexivity.
Qed.
Lemma u_eqb a b : str_eqb (u a) (u b) = String.eqb a b.
Proof.
  destruct (str_eqb_spec (u a) (u b)) as [H|H]; symmetry.
  - apply u_inj' in H. subst. apply String.eqb_refl.
  - apply String.eqb_neq. congruence.
Qed.

(** ** Named tokens are kept *)
Definition slot_ok (r : rawsym) : bool :=
  match r with
  | Hole => true
  | Sym (T n) Keep => true
  | Sym (T n) Drop => negb (is_named n)
  | Sym (T _) Splice => false
  | Sym (NT _) Keep => true
  | Sym (NT n) Splice => negb (String.eqb n "quoted_string")
  | Sym (NT _) Drop => false
  end.
Lemma slots_ok : forallb (fun p => forallb slot_ok (p_raw p)) bicep_prods = true.
Proof. vm_compute. reflexivity. Qed.
Definition named_tok (k : token) : bool := existsb (fun n => str_eqb (ttype k) (u n)) named_terminals.
Lemma named_toks_eq t : named_toks t = filter named_tok (toks t).
Proof. reflexivity. Qed.
Lemma named_known E n t : known_tok E (n, t) -> named_tok t = is_named n.
Proof.
  intros [H _]. cbn [fst snd] in H. unfold named_tok, is_named. rewrite H. generalize named_terminals. intros l.
  induction l as [|x l IH]; [reflexivity|]. cbn [existsb]. rewrite IH, u_eqb. reflexivity.
Qed.
Lemma filter_flat_map {A B} (f : B -> bool) (g : A -> list B) l : filter f (flat_map g l) = flat_map (fun x => filter f (g x)) l.
Proof. induction l as [|x l IH]; [reflexivity|]. cbn [flat_map]. rewrite filter_app, IH. reflexivity. Qed.
Lemma named_app a b : named_of (a ++ b) = (named_of a ++ named_of b)%list.
Proof. unfold named_of. rewrite filter_app, map_app. reflexivity. Qed.

Lemma spliced_toks c n : shaped (NT n) c -> String.eqb n "quoted_string" = false -> flat_map toks (spliced (shape c)) = toks (sv_tree (shape c)).
Proof.
  intros [_ Hn Ht] Hq. unfold spliced. destruct (sv_tree (shape c)) as [l m cs|t|] eqn:Hs; [reflexivity| |contradiction].
  destruct (Ht t eq_refl) as [_ ->]. discriminate.
Qed.
Lemma select_named E : forall raw cs, forallb slot_ok raw = true -> Forall2 shaped (flat_map sym_of raw) cs -> Forall2 wf (flat_map sym_of raw) cs ->
  Forall (known_tok E) (flat_map leaves cs) ->
  Forall (fun c => filter named_tok (toks (sv_tree (shape c))) = named_of (leaves c)) cs ->
  filter named_tok (flat_map toks (select raw (map shape cs))) = named_of (flat_map leaves cs).
Proof.
  induction raw as [|[|x sl] raw IH]; intros cs Hok Hsh Hwf Hk Hc; cbn [flat_map sym_of app forallb] in *.
  - inversion Hsh; subst. reflexivity.
  - cbn [select flat_map toks app]. apply IH; assumption.
  - apply andb_true_iff in Hok as [Hs Hok]. inversion Hsh as [|? c ? cs' Hsc Hscs]; subst. inversion Hwf as [|? ? ? ? Hw Hws]; subst.
    inversion Hc as [|? ? Hcc Hccs]; subst. cbn [flat_map] in Hk. apply Forall_app in Hk as [Hkc Hkcs].
    specialize (IH cs' Hok Hscs Hws Hkcs Hccs). cbn [select map flat_map]. rewrite named_app.
    destruct x as [n|n], sl; cbn [slot_ok] in Hs; try discriminate Hs.
    + cbn [flat_map]. rewrite filter_app, Hcc, IH. reflexivity.
    + rewrite IH. inversion Hw; subst. cbn [leaves named_of filter fst]. apply negb_true_iff in Hs. unfold named_of at 2. cbn [filter fst]. rewrite Hs. reflexivity.
    + cbn [flat_map]. rewrite filter_app, Hcc, IH. reflexivity.
    + rewrite flat_map_app, filter_app, (spliced_toks c n Hsc), Hcc, IH; [reflexivity|]. apply negb_true_iff in Hs. exact Hs.
Qed.
Lemma kept_named E : forall c s, wf s c -> Forall (known_tok E) (leaves c) -> named_toks (sv_tree (shape c)) = named_of (leaves c).
Proof.
  intros c s Hw Hk. rewrite named_toks_eq. revert c s Hw Hk. fix IH 1. intros c s Hw Hk. destruct c as [n t|p cs].
  - inversion Hw; subst. cbn [shape sv_tree toks leaves filter] in *. inversion Hk as [|? ? Hkt _]; subst.
    rewrite (named_known E n t Hkt). unfold named_of. cbn [filter fst]. destruct (is_named n); reflexivity.
  - inversion Hw as [|p' cs' Hin Hall]; subst. cbn [shape leaves].
    assert (Ht : toks (sv_tree (propagate (map shape cs) (build_node (the_prod p) (select (p_raw (the_prod p)) (map shape cs))))) =
      flat_map toks (select (p_raw (the_prod p)) (map shape cs))) by (rewrite <- build_toks with (p := the_prod p); apply propagate_toks).
    rewrite Ht. pose proof slots_ok as Hsl. rewrite forallb_forall in Hsl. specialize (Hsl _ Hin). cbn [leaves] in Hk.
    apply (select_named E); auto.
    + unfold p_rhs in Hall. clear -Hall. induction Hall as [|x c l l' H Hl IHl]; constructor; [apply shaped_all; exact H|exact IHl].
    + clear Hw Hin Ht Hsl. revert Hall Hk. generalize (p_rhs (the_prod p)). revert cs.
      fix IHcs 1. intros [|c cs] rhs Hall Hk; inversion Hall as [|s0 c0 l0 l1 Hc Hcs]; subst; constructor; cbn [flat_map] in Hk; apply Forall_app in Hk as [Hk1 Hk2].
      * exact (IH c s0 Hc Hk1).
      * exact (IHcs cs l0 Hcs Hk2).
Qed.

(** ** Every node of a tree comes from a derivation of its own *)
Definition origin (c : cst) (l : label) (m : meta) (kids : list ptree) : Prop :=
  exists p cs pre post, wf (NT (p_lhs (the_prod p))) (Br p cs) /\ prod_label (the_prod p) = l /\
    leaves c = (pre ++ leaves (Br p cs) ++ post)%list /\ sv_tree (shape (Br p cs)) = TNode l m kids /\ m = lines_of (leaves (Br p cs)).
Lemma origin_up c cs p l m kids : In c cs -> origin c l m kids -> origin (Br p cs) l m kids.
Proof.
  intros Hin (q & ds & pre & post & Hw & Hl & Hlv & Ht & Hm). apply in_split in Hin as (a & b & ->).
  exists q, ds, (flat_map leaves a ++ pre)%list, (post ++ flat_map leaves b)%list. repeat split; auto.
  change (flat_map leaves (a ++ c :: b) = (flat_map leaves a ++ pre) ++ leaves (Br q ds) ++ post ++ flat_map leaves b)%list.
  rewrite flat_map_app. cbn [flat_map]. rewrite Hlv, <- !app_assoc. reflexivity.
Qed.
Lemma select_from raw : forall vs x, In x (select raw vs) -> x = TNone \/ exists v, In v vs /\ within x (sv_tree v).
Proof.
  induction raw as [|[|s sl] raw IH]; intros vs x Hin; cbn [select] in Hin; [destruct Hin| |].
  - destruct Hin as [<-|Hin]; [auto|]. exact (IH vs x Hin).
  - destruct vs as [|v vs]; [destruct Hin|].
    assert (Hrec : In x (select raw vs) -> x = TNone \/ exists v0, In v0 (v :: vs) /\ within x (sv_tree v0)).
    { intros H. destruct (IH vs x H) as [->|(w & Hw & Hx)]; [auto|]. right. exists w. split; [right; exact Hw|exact Hx]. }
    destruct sl.
    + destruct Hin as [<-|Hin]; [|auto]. right. exists v. split; [left; reflexivity|constructor].
    + auto.
    + apply in_app_or in Hin as [Hin|Hin]; [|auto]. right. exists v. split; [left; reflexivity|]. unfold spliced in Hin.
      destruct (sv_tree v) as [l m cs| |]; try destruct Hin. exact (within_child x l m cs x Hin (within_here x)).
Qed.
Lemma within_trans x y z : within x y -> within y z -> within x z.
Proof. intros H H'. induction H' as [|l m cs c Hin Hc IH]; [exact H|]. exact (within_child x l m cs c Hin IH). Qed.
Lemma build_cases p cs l m kids : build_node p cs = TNode l m kids ->
  (l = prod_label p /\ m = None /\ kids = cs) \/ (p_expand1 p = true /\ p_alias p = None /\ cs = [TNode l m kids]).
Proof.
  unfold build_node. intros H. destruct (p_expand1 p), (p_alias p), cs as [|c0 [|c1 r]]; inversion H; subst; auto.
Qed.
(** A rule that hands on its only child has a child that is not empty. *)
Lemma keeps_full : forallb (fun p => forallb (fun r => match r with Sym x Keep => nonnull x | _ => true end) (p_raw p)) bicep_prods = true.
Proof. vm_compute. reflexivity. Qed.
Lemma handed_on p cs l kids : In p bicep_prods -> Forall2 wf (p_rhs p) cs -> p_expand1 p = true -> p_alias p = None ->
  select (p_raw p) (map shape cs) = [TNode l None kids] -> False.
Proof.
  intros Hp Hall He Ha Hsel. pose proof expands_ok as Hex. rewrite forallb_forall in Hex. specialize (Hex _ Hp).
  unfold expand_ok in Hex. rewrite He, Ha in Hex. cbn [andb negb orb] in Hex. apply andb_true_iff in Hex as [Hk _].
  destruct (select_keep_some (p_raw p) (map shape cs) Hk) as (n & x & l' & l0 & Hn & Hinx & v & Hv & Hs).
  { rewrite map_length. exact (Forall2_len _ _ _ Hall). }
  rewrite Hsel in Hs. destruct l' as [|y l']; [|destruct l'; discriminate]. cbn [app] in Hs. injection Hs as Hs _.
  rewrite nth_error_map in Hv. destruct (nth_error cs n) as [c|] eqn:Hc; [|discriminate]. injection Hv as Hv. subst v.
  pose proof (Forall2_nth _ _ _ Hall n x c Hn Hc) as Hw. pose proof keeps_full as Hf. rewrite forallb_forall in Hf.
  specialize (Hf _ Hp). cbv beta in Hf. rewrite forallb_forall in Hf. specialize (Hf _ Hinx). cbv beta iota in Hf.
  destruct (shaped_all c x Hw) as [[H1 _] _ _]. unfold start_of in H1. rewrite <- Hs in H1.
  pose proof (nonnull_leaves c x Hw Hf) as Hne. destruct (leaves c); [congruence|discriminate].
Qed.
Lemma nodes_origin : forall c s, wf s c -> forall l m kids, within (TNode l m kids) (sv_tree (shape c)) -> origin c l m kids.
Proof.
  fix IH 1. intros c s Hw l m kids Hin. destruct c as [n t|p cs].
  - cbn [shape sv_tree] in Hin. inversion Hin.
  - inversion Hw as [|p' cs' Hp Hall]; subst.
    assert (HI : forall c', In c' cs -> (exists s', wf s' c') /\ (within (TNode l m kids) (sv_tree (shape c')) -> origin c' l m kids)).
    { clear Hw Hp Hin. revert Hall. generalize (p_rhs (the_prod p)). revert cs. fix IHcs 1. intros [|c cs] rhs Hall c' Hc'; [destruct Hc'|].
      inversion Hall as [|s0 c0 l0 l1 Hc Hcs]; subst. destruct Hc' as [<-|Hc'].
      - split; [eauto|]. intros H. exact (IH c s0 Hc l m kids H).
      - exact (IHcs cs l0 Hcs c' Hc'). }
    assert (Hpos : Forall pos_ok cs).
    { clear -Hall. induction Hall as [|x c l l' H HF IH2]; constructor; [exact (sh_pos _ _ (shaped_all _ _ H))|exact IH2]. }
    assert (Hsub : forall x, In x (select (p_raw (the_prod p)) (map shape cs)) -> within (TNode l m kids) x -> origin (Br p cs) l m kids).
    { intros x Hx Hwx. destruct (select_from _ _ _ Hx) as [->|(v & Hv & Hxv)]; [inversion Hwx|].
      apply in_map_iff in Hv as (c' & <- & Hc'). apply (origin_up c' cs p l m kids Hc'). apply (HI c' Hc'). exact (within_trans _ _ _ Hwx Hxv). }
    assert (Hself : forall cs0, build_node (the_prod p) (select (p_raw (the_prod p)) (map shape cs)) = TNode (prod_label (the_prod p)) None cs0 ->
      TNode l m kids = sv_tree (shape (Br p cs)) -> origin (Br p cs) l m kids).
    { intros cs0 Hb He. assert (Hs : sv_tree (shape (Br p cs)) = TNode (prod_label (the_prod p)) (span (map shape cs)) cs0) by (cbn [shape]; rewrite Hb; reflexivity).
      pose proof He as He'. rewrite Hs in He'. injection He' as -> -> ->. exists p, cs, [], []. split; [exact Hw|]. split; [reflexivity|]. split; [rewrite app_nil_r; reflexivity|].
      split; [symmetry; exact He|]. apply raw_span. exact Hpos. }
    cbn [shape] in Hin. rewrite sv_tree_propagate in Hin.
    destruct (build_node (the_prod p) (select (p_raw (the_prod p)) (map shape cs))) as [l0 m0 cs0|t|] eqn:Hb; [|inversion Hin|inversion Hin].
    destruct (build_cases _ _ _ _ _ Hb) as [(-> & -> & ->)|(He1 & Ha1 & Hone)].
    + inversion Hin as [Heq|? ? ? x Hx Hwx]; [|subst; exact (Hsub x Hx Hwx)].
      subst l m kids. apply (Hself (select (p_raw (the_prod p)) (map shape cs))); [reflexivity|]. cbn [shape]. rewrite sv_tree_propagate, Hb. reflexivity.
    + assert (Hput : put (span (map shape cs)) (TNode l0 m0 cs0) = TNode l0 m0 cs0).
      { destruct m0 as [mm|]; [reflexivity|]. destruct (handed_on _ _ _ _ Hp Hall He1 Ha1 Hone). }
      rewrite Hput in Hin. apply (Hsub (TNode l0 m0 cs0)); [rewrite Hone; left; reflexivity|exact Hin].
Qed.

(** ** The texts of the tokens *)
Lemma fixed_terminals : forallb (fun t => mem_str (t_name t) ignored || existsb (String.eqb (t_name t)) open_terminals ||
  match t_pat t with PatStr s => String.eqb s (t_name t) | _ => false end) sorted_terminals = true.
Proof. vm_compute. reflexivity. Qed.
Lemma re_named_nl : re_named "_NEWLINE" = r_newline. Proof. vm_compute. reflexivity. Qed.
Lemma re_named_cnl : re_named "_CPP_COMMENT_NL" = RSeq (ropt r_cpp_comment) r_newline. Proof. vm_compute. reflexivity. Qed.
Section Lexemes.
  Variable E : pyenv.
  Lemma feed_inv top v : lang E top (RSeq (ropt (rchar 13)) (rchar 10)) v -> feeds v.
  Proof.
    intros H. apply seq_inv in H as (x & y & -> & Hx & Hy). apply set_inv in Hy as (c & -> & Hc). apply single_set in Hc as ->.
    apply alt_inv in Hx as [Hx|Hx].
    - apply set_inv in Hx as (c & -> & Hc). apply single_set in Hc as ->. apply feeds_crlf.
    - apply eps_inv in Hx as ->. apply feeds_lf.
  Qed.
  Lemma newline_feeds top v : lang E top r_newline v -> feeds v.
  Proof.
    intros H. apply seq_inv in H as (x & y & -> & Hx & Hy). apply feed_inv in Hx. revert x Hx.
    remember (RStar true (RSeq (ropt (rchar 13)) (rchar 10))) as r eqn:Hr. revert Hr.
    induction Hy as [| | | | |g a|g a s t Hs _ Ht IHt| | |]; intros Hr pre Hpre; try discriminate Hr.
    - rewrite app_nil_r. exact Hpre.
    - injection Hr as -> ->. rewrite app_assoc. apply IHt; [reflexivity|]. apply feeds_more; [exact Hpre|]. exact (feed_inv top s Hs).
  Qed.
  Lemma break_inv top v : lang E top (RSeq (ropt r_cpp_comment) r_newline) v -> line_break v.
  Proof.
    intros H. apply seq_inv in H as (x & y & -> & Hx & Hy). apply newline_feeds in Hy. apply alt_inv in Hx as [Hx|Hx].
    - apply seq_inv in Hx as (a & b & -> & Ha & Hb). apply lang_rc_inv in Ha as ->. apply lang_star_set in Hb. apply any_set in Hb.
      rewrite <- app_assoc. apply break_comment; assumption.
    - apply eps_inv in Hx as ->. apply break_plain. exact Hy.
  Qed.
  Lemma mem_alpha x : cs_mem E {| cs_ranges := [(65, 90); (97, 122)]%N; cs_word := false; cs_neg := false |} x = is_alpha x.
  Proof.
    unfold cs_mem, is_alpha, is_lower, is_upper. cbn [cs_ranges cs_word cs_neg existsb fst snd andb].
    destruct (in_range 97 122 x), (in_range 65 90 x); reflexivity.
  Qed.
  Lemma tok_list v : tok_ok E "LIST_FUNC_NAME" v -> v <> [] /\ Forall (fun c => is_alpha c = true) v.
  Proof.
    intros H. apply tok_ok_lang in H as (top & H). rewrite re_named_list in H. unfold r_LIST_FUNC_NAME in H.
    apply seq_inv in H as (x & y & -> & Hx & H). apply look_inv in Hx as ->. apply plus_set_inv in H as [H1 H2].
    split; [exact H1|]. revert H2. apply Forall_impl. intros c Hc. rewrite <- mem_alpha. exact Hc.
  Qed.
  Lemma tok_lexeme n v : tok_ok E n v -> lexeme E n v.
  Proof.
    intros H. destruct (existsb (String.eqb n) open_terminals) eqn:Ho.
    - apply existsb_exists in Ho as (m & Hm & He). apply String.eqb_eq in He. subst m.
      unfold open_terminals in Hm. cbn [In] in Hm.
      repeat match type of Hm with _ \/ _ => destruct Hm as [Hm|Hm] end; [..|destruct Hm]; subst n.
      + apply lx_name, tok_string. exact H.
      + destruct (tok_quoted E v H) as (b & ->). constructor.
      + destruct (tok_quoted_string E v H) as (b & ->). constructor.
      + destruct (tok_multi E v H) as (b & ->). constructor.
      + apply lx_int, (tok_int E). exact H.
      + destruct (tok_function E v H) as (ns & n & -> & Hn & Hns). constructor; assumption.
      + destruct (tok_deco E v H) as (ns & n & -> & Hn & Hns). constructor; assumption.
      + destruct (tok_list v H) as [H1 H2]. constructor; assumption.
      + rewrite (tok_star E v H). constructor.
      + rewrite (tok_existing E v H). constructor.
      + apply tok_ok_lang in H as (top & H). rewrite re_named_nl in H. apply newline_feeds in H. constructor. exact H.
      + apply tok_ok_lang in H as (top & H). rewrite re_named_cnl in H. apply break_inv in H. constructor. exact H.
    - destruct H as (acc & t & Ht & <- & Hig & _ & Hl). pose proof fixed_terminals as Hf. rewrite forallb_forall in Hf.
      specialize (Hf t Ht). cbv beta in Hf. rewrite Hig, Ho in Hf. cbn [orb] in Hf.
      destruct (t_pat t) as [s|]; [|discriminate]. apply String.eqb_eq in Hf. subst s. cbn [pat_re] in Hl. apply lang_rc_inv in Hl. rewrite Hl.
      apply lx_fixed. exact Ho.
  Qed.
End Lexemes.

(** ** Pieces of the text *)
Section Pieces.
  Variable E : pyenv.
  Lemma blank_gap s : blank s -> gap s.
  Proof. induction 1; [constructor|apply gap_blank; assumption]. Qed.
  Lemma gap_app a b : gap a -> gap b -> gap (a ++ b).
  Proof.
    intros Ha Hb. induction Ha as [|x s Hx Hs IH|x s Hx Hs IH]; cbn [app]; [exact Hb| |]; rewrite <- app_assoc.
    - apply gap_blank; assumption.
    - apply gap_break; assumption.
  Qed.
  Definition lexemes (ts : list (string * token)) : Prop := Forall (fun k => lexeme E (fst k) (tval (snd k))) ts.
  Lemma last_line_cons k ts : ts <> [] -> last_line (k :: ts) = last_line ts.
  Proof. intros H. change (k :: ts) with ([k] ++ ts)%list. rewrite last_line_app. destruct (line_both ts) as [(_ & _ & H3)|(a & b & _ & H2)]; [contradiction|]. rewrite H2. reflexivity. Qed.
  Lemma reads_piece : forall ts rest s line, reads E (ts ++ rest) s line -> ts <> [] ->
    exists ig x s2, s = (ig ++ x ++ s2)%list /\ blank ig /\ spelled (line + count_nl ig)%N ts x /\ lexemes ts /\
      lines_of ts = Some (line + count_nl ig, line + count_nl (ig ++ x))%N /\ reads E rest s2 (line + count_nl (ig ++ x))%N.
  Proof.
    induction ts as [|[n t] ts IH]; intros rest s line Hr Hne; [contradiction|]. cbn [app] in Hr.
    inversion Hr as [|ig n' t' ts' rest' line' Hig Hok Hv Hty Hl1 Hl2 Hrest]; subst n' t' ts' line'.
    destruct ts as [|k ts].
    - cbn [app] in Hrest. exists ig, (tval t), rest'. split; [auto|]. split; [exact Hig|].
      assert (Hend : tend t = (line + count_nl (ig ++ tval t))%N) by (rewrite count_nl_app; lia).
      split; [apply sp_one; auto; lia|]. split; [constructor; [apply tok_lexeme; exact Hok|constructor]|].
      split; [unfold lines_of; cbn; rewrite Hl1, Hend; reflexivity|]. rewrite <- Hend. exact Hrest.
    - destruct (IH rest rest' (tend t) Hrest) as (ig2 & x & s2 & -> & Hb2 & Hsp & Hlx & Hli & Hrd); [discriminate|].
      exists ig, (tval t ++ ig2 ++ x)%list, s2. split; [rewrite <- !app_assoc; reflexivity|]. split; [exact Hig|].
      assert (Hend : (line + count_nl (ig ++ tval t ++ ig2 ++ x))%N = (tend t + count_nl (ig2 ++ x))%N) by (rewrite !count_nl_app; lia).
      split; [apply sp_more; auto; lia|]. split; [constructor; [apply tok_lexeme; exact Hok|exact Hlx]|].
      rewrite Hend. split; [|exact Hrd]. unfold lines_of in *. rewrite last_line_cons by discriminate.
      destruct (first_line (k :: ts)), (last_line (k :: ts)); try discriminate. injection Hli as _ Hli. cbn [first_line snd]. rewrite Hl1, Hli. reflexivity.
  Qed.
End Pieces.

(** ** The declarations *)
Inductive item := IElement (e : cst) | IBreak (t : token).
Definition item_leaves (i : item) : list (string * token) :=
  match i with IElement e => leaves e | IBreak t => [("_CPP_COMMENT_NL"%string, t)] end.
Definition item_trees (i : item) : list ptree := match i with IElement e => [sv_tree (shape e)] | IBreak _ => [] end.
Definition item_ok (i : item) : Prop := match i with IElement e => wf (NT "element") e | IBreak _ => True end.
Definition rep_start : string := "__rep ((element _CPP_COMMENT_NL?)|_CPP_COMMENT_NL)".
Definition k_elem := Sym (NT "element") Keep.
Definition k_nl := Sym (T "_CPP_COMMENT_NL") Drop.
Definition k_rep := Sym (NT rep_start) Splice.
Lemma rep_prods q : In q bicep_prods -> p_lhs q = rep_start ->
  In (p_raw q) [[k_elem; k_nl]; [k_elem]; [k_nl]; [k_rep; k_elem; k_nl]; [k_rep; k_elem]; [k_rep; k_nl]] /\
  p_expand1 q = false.
Proof.
  intros Hin Hl. assert (H : In q (filter (fun p => String.eqb (p_lhs p) rep_start) bicep_prods)) by (apply filter_In; split; [exact Hin|rewrite Hl; reflexivity]).
  clear Hin Hl. vm_compute in H. repeat destruct H as [<-|H]; try destruct H; (split; [vm_compute; tauto|reflexivity]).
Qed.
Lemma start_prods q : In q bicep_prods -> p_lhs q = "start"%string -> In (p_raw q) [[k_rep]; []] /\ p_expand1 q = false.
Proof.
  intros Hin Hl. assert (H : In q (filter (fun p => String.eqb (p_lhs p) "start") bicep_prods)) by (apply filter_In; split; [exact Hin|rewrite Hl; reflexivity]).
  clear Hin Hl. vm_compute in H. repeat destruct H as [<-|H]; try destruct H; (split; [vm_compute; tauto|reflexivity]).
Qed.
Lemma shape_plain p cs : p_expand1 (the_prod p) = false ->
  sv_tree (shape (Br p cs)) = TNode (prod_label (the_prod p)) (span (map shape cs)) (select (p_raw (the_prod p)) (map shape cs)).
Proof. intros H. cbn [shape]. rewrite sv_tree_propagate. unfold build_node. rewrite H. reflexivity. Qed.
Lemma rep_items : forall c, wf (NT rep_start) c ->
  exists its, leaves c = flat_map item_leaves its /\ spliced (shape c) = flat_map item_trees its /\ Forall item_ok its.
Proof.
  fix IH' 1. intros c Hw. destruct c as [n t|p cs]; [inversion Hw|].
  assert (IH : forall y, In y cs -> wf (NT rep_start) y -> exists its, leaves y = flat_map item_leaves its /\ spliced (shape y) = flat_map item_trees its /\ Forall item_ok its).
  { clear Hw. induction cs as [|z cs IHcs]; intros y Hy Hwy; [destruct Hy|]. destruct Hy as [<-|Hy]; [exact (IH' z Hwy)|exact (IHcs y Hy Hwy)]. }
  clear IH'. inversion Hw as [|p' cs' Hin Hall Hl]; subst p' cs'.
  destruct (rep_prods _ Hin Hl) as [Hraw Hex]. unfold spliced. rewrite (shape_plain p cs Hex). cbn [leaves].
  unfold p_rhs in Hall.
  assert (Hnl : forall c, wf (T "_CPP_COMMENT_NL") c -> exists t, c = Leaf "_CPP_COMMENT_NL" t) by (intros c Hc; inversion Hc; eauto).
  cbn [In] in Hraw. repeat match type of Hraw with _ \/ _ => destruct Hraw as [Hraw|Hraw] end; [..|destruct Hraw]; rewrite <- Hraw in *;
    cbn [flat_map sym_of app k_elem k_nl k_rep] in Hall;
    repeat match goal with H : Forall2 wf (_ :: _) _ |- _ => inversion H; clear H; subst | H : Forall2 wf [] _ |- _ => inversion H; clear H; subst end;
    repeat match goal with H : wf (T "_CPP_COMMENT_NL") ?c |- _ => destruct (Hnl _ H) as (? & ->); clear H end;
    cbn [map select k_elem k_nl k_rep flat_map leaves].
  - exists [IElement y; IBreak x]. cbn [flat_map item_leaves item_trees app]. repeat split; auto. constructor; [assumption|constructor; [exact I|constructor]].
  - exists [IElement y]. cbn [flat_map item_leaves item_trees app]. repeat split; auto.
  - exists [IBreak x]. cbn [flat_map item_leaves item_trees app]. repeat split; auto. constructor; [exact I|constructor].
  - destruct (IH y) as (its & Ha & Hb & Hc); [left; reflexivity|assumption|]. exists (its ++ [IElement y0; IBreak x])%list.
    rewrite !flat_map_app, Ha, Hb. cbn [flat_map item_leaves item_trees app]. repeat split; auto.
    apply Forall_app. split; [exact Hc|]. constructor; [assumption|constructor; [exact I|constructor]].
  - destruct (IH y) as (its & Ha & Hb & Hc); [left; reflexivity|assumption|]. exists (its ++ [IElement y0])%list.
    rewrite !flat_map_app, Ha, Hb. cbn [flat_map item_leaves item_trees app]. repeat split; auto.
    apply Forall_app. split; [exact Hc|]. constructor; [assumption|constructor].
  - destruct (IH y) as (its & Ha & Hb & Hc); [left; reflexivity|assumption|]. exists (its ++ [IBreak x])%list.
    rewrite !flat_map_app, Ha, Hb. cbn [flat_map item_leaves item_trees app]. repeat split; auto.
    apply Forall_app. split; [exact Hc|]. constructor; [exact I|constructor].
Qed.
Lemma start_items c : wf (NT "start") c ->
  exists its, leaves c = flat_map item_leaves its /\ spliced (shape c) = flat_map item_trees its /\ Forall item_ok its.
Proof.
  intros Hw. destruct c as [n t|p cs]; [inversion Hw|]. inversion Hw as [|p' cs' Hin Hall Hl]; subst p' cs'.
  destruct (start_prods _ Hin Hl) as [Hraw Hex]. unfold spliced. rewrite (shape_plain p cs Hex). cbn [leaves]. unfold p_rhs in Hall.
  cbn [In] in Hraw. destruct Hraw as [Hraw|[Hraw|[]]]; rewrite <- Hraw in *; cbn [flat_map sym_of app k_rep] in Hall.
  - inversion Hall as [|? c ? cs' Hc Hcs]; subst. inversion Hcs; subst. destruct (rep_items c Hc) as (its & H1 & H2 & H3).
    exists its. cbn [map select k_rep flat_map]. rewrite !app_nil_r. auto.
  - inversion Hall; subst. exists []. cbn. auto.
Qed.

Section Declarations.
  Variable E : pyenv.
  Lemma element_plain q : In q bicep_prods -> p_lhs q = "element"%string -> p_expand1 q = false.
  Proof.
    intros Hin Hl. pose proof (fun H => proj1 (forallb_forall (fun p => negb (String.eqb (p_lhs p) "element") || negb (p_expand1 p)) bicep_prods) H q Hin) as H.
    specialize (H ltac:(vm_compute; reflexivity)). cbv beta in H. rewrite Hl in H. cbn in H. apply negb_true_iff in H. exact H.
  Qed.
  Lemma element_tree e : wf (NT "element") e -> exists l kids, sv_tree (shape e) = TNode l (lines_of (leaves e)) kids.
  Proof.
    intros Hw. destruct e as [n t|p cs]; [inversion Hw|]. inversion Hw as [|p' cs' Hin Hall Hl]; subst p' cs'.
    rewrite (shape_plain p cs (element_plain _ Hin Hl)). rewrite raw_span; [eauto|].
    clear -Hall. induction Hall as [|x c l l' H HF IH2]; constructor; [exact (sh_pos _ _ (shaped_all _ _ H))|exact IH2].
  Qed.
  Lemma items_laid_out : forall its g0 s line, gap g0 -> Forall item_ok its ->
    reads E (flat_map item_leaves its) s (line + count_nl g0)%N -> laid_out E bicep_rules line (flat_map item_trees its) (g0 ++ s).
  Proof.
    induction its as [|[e|t] its IH]; intros g0 s line Hg Hok Hr; cbn [flat_map item_leaves item_trees app] in *.
    - inversion Hr; subst. apply lo_end. apply gap_app; [exact Hg|apply blank_gap; assumption].
    - inversion Hok as [|? ? Hwe Hoks]; subst. cbn [item_ok] in Hwe.
      destruct (reads_piece E (leaves e) _ s _ Hr (nonnull_leaves e (NT "element") Hwe eq_refl)) as (ig & x & s2 & -> & Hb & Hsp & Hlx & Hli & Hrd).
      assert (Hk : Forall (known_tok E) (leaves e)).
      { apply reads_known in Hr. apply Forall_app in Hr as [Hr _]. exact Hr. }
      destruct (element_tree e Hwe) as (l & kids & Ht). rewrite Ht, Hli.
      assert (Hn1 : (line + count_nl g0 + count_nl ig)%N = (line + count_nl (g0 ++ ig))%N) by (rewrite count_nl_app; lia).
      assert (Hn2 : (line + count_nl g0 + count_nl (ig ++ x))%N = (line + count_nl ((g0 ++ ig) ++ x))%N) by (rewrite !count_nl_app; lia).
      rewrite Hn1, Hn2 in *.
      replace (g0 ++ ig ++ x ++ s2)%list with ((g0 ++ ig) ++ x ++ s2)%list by (rewrite <- app_assoc; reflexivity).
      apply lo_declaration with (ts := leaves e).
      + apply gap_app; [exact Hg|apply blank_gap; exact Hb].
      + split; [exact Hsp|exact Hlx|]. apply wf_derives; [exact Hwe|vm_compute; reflexivity].
      + rewrite <- Hli, <- Ht. exact (kept_named E e _ Hwe Hk).
      + apply (IH [] s2); [constructor|exact Hoks|]. cbn [count_nl]. rewrite N.add_0_r. exact Hrd.
    - inversion Hok as [|? ? _ Hoks]; subst. inversion Hr as [|ig n' t' ts' rest line' Hig Htk Hv Hty Hl1 Hl2 Hrest]; subst n' t' ts' line'.
      replace (g0 ++ ig ++ tval t ++ rest)%list with ((g0 ++ ig ++ tval t) ++ rest)%list by (rewrite <- !app_assoc; reflexivity).
      apply IH; [|exact Hoks|].
      + apply gap_app; [exact Hg|]. apply gap_app; [apply blank_gap; exact Hig|]. rewrite <- (app_nil_r (tval t)). apply gap_break; [|constructor].
        apply tok_lexeme in Htk. inversion Htk; subst; [discriminate|assumption].
      + replace (line + count_nl (g0 ++ ig ++ tval t))%N with (tend t); [exact Hrest|]. rewrite !count_nl_app. lia.
  Qed.
  Theorem text_laid_out text m cs : lark_parse E text = Ok (TNode L_start m cs) -> laid_out E bicep_rules 1 cs text.
  Proof.
    unfold lark_parse, bind. destruct (parse_cst E text) as [c|e] eqn:Hc; [|discriminate].
    intros H. destruct (parse_cst_wf E text c Hc) as [Hw Hr]. destruct (start_items c Hw) as (its & H1 & H2 & H3).
    unfold spliced in H2. injection H as H. rewrite H in H2. rewrite H2. rewrite H1 in Hr.
    apply (items_laid_out its [] text 1%N); [constructor|exact H3|exact Hr].
  Qed.

  (** Every node of the tree. *)
  Definition no_node (l : label) : bool := match l with L_nocallback => true | _ => false end.
  Definition nameb (l : label) (x : option string) (n : string) : bool := str_eqb (label_name l) (u (match x with Some a => a | None => n end)).
  Lemma prods_named : forallb (fun p => no_node (prod_label p) ||
    existsb (fun r => String.eqb (r_name r) (p_lhs p) && existsb (fun a => nameb (prod_label p) (snd a) (r_name r)) (r_alts r)) bicep_rules) bicep_prods = true.
  Proof. vm_compute. reflexivity. Qed.
  Lemma prod_named p : In p bicep_prods -> prod_label p <> L_nocallback -> exists r, In r bicep_rules /\ r_name r = p_lhs p /\ makes r (prod_label p).
  Proof.
    intros Hin Hl. pose proof prods_named as H. rewrite forallb_forall in H. specialize (H _ Hin). cbv beta in H.
    apply orb_true_iff in H as [H|H]; [destruct (prod_label p); try discriminate; contradiction|].
    apply existsb_exists in H as (r & Hr & H). apply andb_true_iff in H as [H1 H2]. apply String.eqb_eq in H1.
    apply existsb_exists in H2 as ([e al] & Ha & H2). apply str_eqb_eq in H2. exists r. split; [exact Hr|]. split; [exact H1|]. exists e, al. split; assumption.
  Qed.
  Lemma prod_nonnull p : In p bicep_prods -> prod_label p <> L_nocallback -> prod_label p <> L_start -> nonnull (NT (p_lhs p)) = true.
  Proof.
    intros Hin H1 H2. pose proof (fun H => proj1 (forallb_forall (fun p => no_node (prod_label p) || str_eqb (label_name (prod_label p)) (label_name L_start) || nonnull (NT (p_lhs p))) bicep_prods) H p Hin) as H.
    specialize (H ltac:(vm_compute; reflexivity)). cbv beta in H. apply orb_true_iff in H as [H|H]; [|exact H]. apply orb_true_iff in H as [H|H].
    - destruct (prod_label p); try discriminate. contradiction.
    - destruct (prod_label p); try discriminate. contradiction.
  Qed.
  Lemma ok_named s l m cs : ok E s (TNode l m cs) -> l <> L_nocallback.
  Proof.
    intros H. remember (TNode l m cs) as t eqn:Ht. revert l m cs Ht.
    induction H; intros l0 m0 cs0 Ht; try discriminate; try (injection Ht as <- <- <-); try discriminate; eauto;
    match goal with H : _ ?l = true |- ?l <> _ => intros ->; discriminate end.
  Qed.
  Lemma reads_skip : forall a b s line, reads E (a ++ b) s line -> exists s1 s2, s = (s1 ++ s2)%list /\ reads E b s2 (line + count_nl s1)%N.
  Proof.
    induction a as [|[n t] a IH]; intros b s line H; cbn [app] in H.
    - exists [], s. split; [reflexivity|]. cbn [count_nl]. rewrite N.add_0_r. exact H.
    - inversion H as [|ig n' t' ts' rest line' Hig Hok Hv Hty Hl1 Hl2 Hrest]; subst n' t' ts' line'.
      destruct (IH b rest _ Hrest) as (s1 & s2 & -> & Hr). exists (ig ++ tval t ++ s1)%list, s2. split; [rewrite <- !app_assoc; reflexivity|].
      replace (line + count_nl (ig ++ tval t ++ s1))%N with (tend t + count_nl s1)%N; [exact Hr|]. rewrite !count_nl_app. lia.
  Qed.
  Theorem node_stands text l m kids : part_of E text (TNode l m kids) -> l <> L_start ->
    exists r mm, In r bicep_rules /\ makes r l /\ m = Some mm /\ stands E bicep_rules text (ENT (r_name r)) mm (TNode l m kids).
  Proof.
    intros Hpart Hl. destruct (part_ok E text _ Hpart) as (s & Hok). apply ok_named in Hok. destruct Hpart as (tree & Hp & Hin).
    unfold lark_parse, bind in Hp. destruct (parse_cst E text) as [c|e] eqn:Hc; [|discriminate]. injection Hp as <-.
    destruct (parse_cst_wf E text c Hc) as [Hw Hr]. destruct (nodes_origin c _ Hw l m kids Hin) as (p & cs & pre & post & Hwp & <- & Hlv & Ht & Hm).
    assert (Hinp : In (the_prod p) bicep_prods) by (inversion Hwp; subst; assumption).
    destruct (prod_named _ Hinp Hok) as (r & Hr1 & Hr2 & Hr3).
    rewrite Hlv in Hr. pose proof (reads_known _ _ _ _ Hr) as Hk. apply Forall_app in Hk as [_ Hk]. apply Forall_app in Hk as [Hk _].
    apply reads_skip in Hr as (s1 & s2 & -> & Hr).
    destruct (reads_piece E _ _ _ _ Hr (nonnull_leaves _ _ Hwp (prod_nonnull _ Hinp Hok Hl))) as (ig & x & s3 & -> & Hb & Hsp & Hlx & Hli & _).
    assert (Hn1 : (1 + count_nl s1 + count_nl ig)%N = (1 + count_nl (s1 ++ ig))%N) by (rewrite count_nl_app; lia).
    assert (Hn2 : (1 + count_nl s1 + count_nl (ig ++ x))%N = (1 + count_nl ((s1 ++ ig) ++ x))%N) by (rewrite !count_nl_app; lia).
    rewrite Hn1, Hn2 in *. exists r, (1 + count_nl (s1 ++ ig), 1 + count_nl ((s1 ++ ig) ++ x))%N. repeat split; auto; [congruence|].
    exists (s1 ++ ig)%list, x, s3, (leaves (Br p cs)). split; [rewrite <- app_assoc; reflexivity|]. split; [|split; [|reflexivity]].
    - split; [exact Hsp|exact Hlx|]. rewrite Hr2. apply wf_derives; [exact Hwp|]. apply existsb_exists. exists r. split; [exact Hr1|]. rewrite Hr2. apply String.eqb_refl.
    - rewrite <- Ht. exact (kept_named E _ _ Hwp Hk).
  Qed.
End Declarations.
