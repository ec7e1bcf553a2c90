(** Lexing: where the parser expects a token that is spelled so that it fits, the
    scanner returns that token; blanks and comments in front are skipped. *)
From Coq Require Import List Arith NArith PArith Bool String Lia.
From Verif Require Import Py.Str Py.Val Lark.Regex Lark.Terminals Lark.Lexer Lark.Ebnf
     Lark.Lalr Lark.BicepGrammar Lark.BicepTables Lark.Driver Spec.Lexemes Spec.Sentences Spec.Spelling
     Proofs.Base Proofs.LR Proofs.Refine Proofs.Complete Proofs.Regex Proofs.Lexer Proofs.TokenForms Proofs.Match
     Proofs.Patterns Proofs.Quotes Proofs.Lexable Proofs.Parse.
Import ListNotations.
Local Open Scope string_scope.

(** ** Finite facts *)
Lemma re_nl : re_named "_NEWLINE" = r_newline. Proof. vm_compute. reflexivity. Qed.
Lemma re_break : re_named "_CPP_COMMENT_NL" = RSeq (ropt r_cpp_comment) r_newline. Proof. vm_compute. reflexivity. Qed.
Lemma symbols_re : Forall (fun s => re_named s = rc s /\ mem_str s ignored = false /\ u s <> []) symbols.
Proof. unfold symbols. repeat (constructor; [repeat split; try reflexivity; try discriminate; vm_compute; reflexivity|]). constructor. Qed.
Lemma keywords_re : Forall (fun s => re_named (tname (Kw s)) = rc s /\ mem_str (tname (Kw s)) ignored = false /\ u s <> []) keywords.
Proof. unfold keywords. repeat (constructor; [repeat split; try reflexivity; try discriminate; vm_compute; reflexivity|]). constructor. Qed.
Lemma keywords_ident E : Forall (fun s => ident E (u s) /\ u s <> u "sys" /\ u s <> u "az") keywords.
Proof.
  unfold keywords.
  repeat (constructor; [split; [eexists _, _; split; [reflexivity|split; [reflexivity|repeat (constructor; [reflexivity|]); constructor]]|split; discriminate]|]).
  constructor.
Qed.

Definition is_blank (x : N) : bool := existsb (N.eqb x) [32; 9]%N.
Definition skip_ok (lx : lexer) : bool :=
  forallb (fun e => match pick (fun n r => lit_may (fun _ => false) (fst e) r) (lx_alts lx) with Some n => String.eqb n (snd e) | None => false end)
          [([32%N], "WS_INLINE"); ([9%N], "WS_INLINE"); (u "#", "SH_COMMENT"); (u "/*", "C_COMMENT")].
Definition skips_ok : bool := forallb (fun e => skip_ok (lexer_of (fst e))) (PM.elements (tb_action bicep_tables)).
#[local] Transparent lexer_of.
Lemma skips_ok_true : skips_ok = true.
Proof. vm_compute. reflexivity. Qed.
Lemma skip_default : skip_ok (make_lexer []) = true.
Proof. vm_compute. reflexivity. Qed.
Lemma lexer_skips s : skip_ok (lexer_of s) = true.
Proof.
  destruct (PM.find s (tb_action bicep_tables)) as [row|] eqn:H.
  - pose proof skips_ok_true as Hc. unfold skips_ok in Hc. rewrite forallb_forall in Hc. exact (Hc _ (In_elements_find _ _ _ H)).
  - unfold lexer_of, state_lexers, PM.map. rewrite PM.gmapi, H. exact skip_default.
Qed.
#[local] Opaque lexer_of.

(** ** Alternatives *)
Section Scan.
  Variable E : pyenv.
  Variable lx : lexer.
  Variable acc : list string.
  Hypothesis form : lx = make_lexer acc.
  Lemma lx_ok : lexer_ok lx. Proof. rewrite form. apply make_lexer_ok. Qed.
  Notation top := (lx_top lx).
  Lemma top_good : good top = true.
  Proof. apply ralt_good. intros r Hr. apply in_map_iff in Hr as ([n r'] & <- & Hin). apply (lo_alts _ lx_ok n r' Hin). Qed.
  Lemma top_nn : nullable top = false.
  Proof.
    apply ralt_nn.
    - intros He. apply map_eq_nil in He. exact (lo_nonempty _ lx_ok He).
    - intros r Hr. apply in_map_iff in Hr as ([n r'] & <- & Hin). apply (lo_alts _ lx_ok n r' Hin).
  Qed.
  Lemma top_nl : leads top = false.
  Proof. apply ralt_nl. intros r Hr. apply in_map_iff in Hr as ([n r'] & <- & Hin). apply (lo_alts _ lx_ok n r' Hin). Qed.
  Lemma alt_named n r : In (n, r) (lx_alts lx) -> r = re_named n.
  Proof. rewrite form. intros H. apply make_lexer_alts in H as (t & Ht & Hn & Hr & _). subst. apply re_named_eq. exact Ht. Qed.

  Notation go r s := (re_run E top (Datatypes.S (List.length s)) r s).
  Lemma pick_split M alts n : pick M alts = Some n ->
    exists b r a, alts = (b ++ (n, r) :: a)%list /\ forall m q, In (m, q) b -> M m q = false.
  Proof.
    induction alts as [|[m q] alts IH]; cbn [pick]; intros H; [discriminate|].
    destruct (M m q) eqn:Hm.
    - inversion H; subst. exists [], q, alts. split; [reflexivity|]. intros ? ? [].
    - destruct (IH H) as (b & r & a & -> & Hb). exists ((m, q) :: b), r, a. split; [reflexivity|].
      intros m' q' [Heq|Hin]; [inversion Heq; subst; exact Hm|apply Hb; exact Hin].
  Qed.
  Lemma scan_alts_pick b n r a s k rest : (forall m q, In (m, q) b -> go q s = MFail) -> go r s = MOk k rest ->
    scan_alts E top (b ++ (n, r) :: a)%list s = Some (Some (n, k, rest)).
  Proof.
    intros Hb Hr. induction b as [|[m q] b IH]; cbn [app scan_alts].
    - rewrite Hr. reflexivity.
    - rewrite (Hb m q) by (left; reflexivity). apply IH. intros m' q' Hin. apply (Hb m'). right. exact Hin.
  Qed.
  Lemma scan_pick M n s k rest : pick M (lx_alts lx) = Some n ->
    (forall m, In (m, re_named m) (lx_alts lx) -> M m (re_named m) = false -> go (re_named m) s = MFail) ->
    (In (n, re_named n) (lx_alts lx) -> go (re_named n) s = MOk k rest) ->
    scan E lx s = Some (Some (n, k, rest)) /\ In (n, re_named n) (lx_alts lx).
  Proof.
    intros Hp Hno Hyes. destruct (pick_split _ _ _ Hp) as (b & r & a & Hs & Hb).
    assert (Hin : In (n, r) (lx_alts lx)) by (rewrite Hs; apply in_app_iff; right; left; reflexivity).
    pose proof (alt_named _ _ Hin) as Hr. subst r. split; [|exact Hin]. unfold scan. rewrite Hs. apply scan_alts_pick.
    - intros m q Hq. assert (Hq' : In (m, q) (lx_alts lx)) by (rewrite Hs; apply in_app_iff; left; exact Hq).
      pose proof (alt_named _ _ Hq') as Hr. subst q. apply Hno; [exact Hq'|]. apply Hb. exact Hq.
    - apply Hyes. exact Hin.
  Qed.

  (** Failing patterns. *)
  Lemma no_go r s n : In (n, r) (lx_alts lx) -> nomatch E top r s -> go r s = MFail.
  Proof.
    intros Hin Hno. destruct (lo_alts _ lx_ok _ _ Hin) as (H1 & H2 & H3).
    apply nomatch_fail; auto using top_good, top_nn, top_nl.
  Qed.
  Lemma head_no t r n x s : In (n, r) (lx_alts lx) -> In x (heads t) -> head_may t r = false -> go r (x :: s) = MFail.
  Proof.
    intros Hin Hx Hm. apply (no_go _ _ n Hin). destruct (lo_alts _ lx_ok _ _ Hin) as (_ & H2 & _).
    apply nomatch_first; [exact top_nn|exact H2|]. unfold head_may in Hm.
    destruct (first_may r x) eqn:Hf; [|reflexivity].
    assert (existsb (first_may r) (heads t) = true) by (apply existsb_exists; eauto). congruence.
  Qed.
  Lemma clash_no next : forall p s rest, clash next p s = true -> ahead next rest = false -> ~ starts_with p (s ++ rest)%list.
  Proof.
    induction p as [|x p IH]; intros s rest Hc Hr Hs; [discriminate|].
    destruct s as [|y s]; cbn [clash app] in *.
    - destruct rest as [|z rest]; [destruct Hs; discriminate|]. apply starts_cons in Hs as [<- _]. cbn [ahead] in Hr. congruence.
    - apply starts_cons in Hs as [<- Hs]. rewrite N.eqb_refl in Hc. exact (IH _ _ Hc Hr Hs).
  Qed.
  Lemma lit_no next s rest r n : In (n, r) (lx_alts lx) -> s <> [] -> lit_may next s r = false -> ahead next rest = false ->
    go r (s ++ rest)%list = MFail.
  Proof.
    intros Hin Hs Hm Hr. apply (no_go _ _ n Hin). destruct (lo_alts _ lx_ok _ _ Hin) as (_ & H2 & _).
    unfold lit_may in Hm. apply andb_false_iff in Hm as [Hm|Hm].
    - destruct s as [|x s]; [contradiction|]. cbn [app]. apply nomatch_first; [exact top_nn|exact H2|exact Hm].
    - apply negb_false_iff in Hm. rewrite forallb_forall in Hm. apply nomatch_pre. intros p Hp.
      apply in_map_iff in Hp as ([p' e] & <- & Hp). apply (clash_no next); [exact (Hm _ Hp)|exact Hr].
  Qed.

  Lemma alnum_paren : word E 40%N = false. Proof. reflexivity. Qed.
  Lemma prefix_word p v rest (c : N) : starts_with (p ++ [c])%list (v ++ rest)%list -> Forall (fun x => word E x = true) v ->
    Forall (fun x => word E x = true) p -> word E c = false -> ahead (word E) rest = false ->
    v = p /\ ahead (N.eqb c) rest = true.
  Proof.
    intros H Hv Hp Hc Hr. destruct (starts_split _ _ _ H) as [[z Hz]|(q & Hq & Hne & Hs)].
    - rewrite Hz, !Forall_app in Hv. destruct Hv as [[_ Hv] _]. inversion Hv; subst. congruence.
    - destruct q as [|y q _] using rev_ind; [contradiction|]. rewrite app_assoc in Hq. apply app_inj_tail in Hq as [Hq <-].
      subst p. apply Forall_app in Hp as [_ Hp]. destruct q as [|y q].
      + rewrite app_nil_r. split; [reflexivity|]. cbn [app] in Hs. destruct rest as [|z rest]; [destruct Hs; discriminate|].
        apply starts_cons in Hs as [-> _]. cbn [ahead]. apply N.eqb_refl.
      + exfalso. cbn [app] in Hs. destruct rest as [|z rest]; [destruct Hs; discriminate|].
        apply starts_cons in Hs as [<- _]. inversion Hp; subst. cbn [ahead] in Hr. congruence.
  Qed.
  Lemma function_no v rest : Forall (fun x => word E x = true) v -> ahead (word E) rest = false -> ahead (is_char "(") rest = false ->
    no_namespace v rest -> nomatch E top r_FUNCTION (v ++ rest)%list.
  Proof.
    intros Hv Hr Hp Hns c rest' Hs H. unfold r_FUNCTION in H. cbn [rseq] in H.
    apply seq_inv in H as (ns & y & -> & Hnsl & H). apply seq_inv in H as (n & w & -> & Hn & H). apply lang_rc_inv in H as ->.
    apply plus_set_inv in Hn as [_ Hn].
    assert (Hw : Forall (fun x => word E x = true) n).
    { revert Hn. apply Forall_impl. intros x Hx. apply alnum_word. rewrite <- (mem_alnum E). exact Hx. }
    apply alt_inv in Hnsl as [Hnsl|Hnsl].
    - apply seq_inv in Hnsl as (a & b & -> & Ha & Hb). apply lang_rc_inv in Hb as ->.
      assert (Hin : a = u "sys" \/ a = u "az") by (apply alt_inv in Ha as [Ha|Ha]; apply lang_rc_inv in Ha; auto).
      apply (no_ns_prefix E v rest a Hin Hv Hns Hr). exists ((n ++ u "(") ++ rest')%list. rewrite Hs, <- !app_assoc. reflexivity.
    - apply eps_inv in Hnsl. subst ns. cbn [app] in Hs.
      destruct (prefix_word n v rest 40%N) as [_ Hcon]; auto.
      + exists rest'. rewrite Hs. reflexivity.
      + destruct rest as [|z rest]; [discriminate|]. cbn [ahead] in *. apply N.eqb_eq in Hcon. subst z. discriminate.
  Qed.
  Lemma digits_function_no v rest : digits v -> ahead alnum rest = false -> ahead (is_char "(") rest = false ->
    nomatch E top r_FUNCTION (v ++ rest)%list.
  Proof.
    intros [Hne Hv] Hr Hp c rest' Hs H. unfold r_FUNCTION in H. cbn [rseq] in H.
    apply seq_inv in H as (ns & y & -> & Hnsl & H). apply seq_inv in H as (n & w & -> & Hn & H). apply lang_rc_inv in H as ->.
    apply plus_set_inv in Hn as [_ Hn].
    apply alt_inv in Hnsl as [Hnsl|Hnsl].
    - apply seq_inv in Hnsl as (a & b & -> & Ha & Hb). destruct v as [|x v]; [contradiction|]. inversion Hv as [|? ? Hx _]; subst.
      apply alt_inv in Ha as [Ha|Ha]; apply lang_rc_inv in Ha as ->; cbn [u app] in Hs; inversion Hs; subst; discriminate.
    - apply eps_inv in Hnsl. subst ns. cbn [app] in Hs.
      assert (Hn' : Forall (fun x => alnum x = true) n) by (revert Hn; apply Forall_impl; intros x Hx; rewrite <- (mem_alnum E); exact Hx).
      assert (Hst : starts_with (n ++ [40%N])%list (v ++ rest)%list) by (exists rest'; rewrite Hs; reflexivity).
      destruct (starts_split _ _ _ Hst) as [[z Hz]|(q & Hq & Hnq & Hsq)].
      + rewrite Hz, !Forall_app in Hv. destruct Hv as [[_ Hv] _]. inversion Hv; subst. discriminate.
      + destruct q as [|y q _] using rev_ind; [contradiction|]. rewrite app_assoc in Hq. apply app_inj_tail in Hq as [Hq <-].
        subst n. apply Forall_app in Hn' as [_ Hq]. destruct q as [|y q]; cbn [app] in Hsq.
        * destruct rest as [|z rest]; [destruct Hsq; discriminate|]. apply starts_cons in Hsq as [<- _]. discriminate.
        * destruct rest as [|z rest]; [destruct Hsq; discriminate|]. apply starts_cons in Hsq as [<- _]. inversion Hq; subst. cbn [ahead] in Hr. congruence.
  Qed.
  Lemma list_look_inv c : lang E top list_look c ->
    (exists x w, c = (x :: u "ist" ++ w ++ u "(")%list /\ (x = 76%N \/ x = 108%N) /\ Forall (fun y => in_range 65 122 y = true) w) \/
    c = u "getSecret(".
  Proof.
    unfold list_look. cbn [rseq]. intros H. apply seq_inv in H as (a & b & -> & Ha & Hb). apply lang_rc_inv in Hb as ->.
    apply alt_inv in Ha as [Ha|Ha].
    - left. apply seq_inv in Ha as (x & y & -> & Hx & Ha). apply seq_inv in Ha as (i & w & -> & Hi & Hw). apply lang_rc_inv in Hi as ->.
      apply set_inv in Hx as (x' & -> & Hx). apply lang_star_set in Hw. exists x', w. rewrite <- !app_assoc. split; [reflexivity|]. split.
      + unfold cs_mem in Hx. cbn [cs_ranges cs_word cs_neg map fst snd existsb andb xorb] in Hx. unfold in_range in Hx.
        change (hd 0%N (u "L")) with 76%N in Hx. change (hd 0%N (u "l")) with 108%N in Hx. rewrite !orb_false_r in Hx.
        cbn [xorb] in Hx. destruct (N.leb_spec 76 x'), (N.leb_spec x' 76), (N.leb_spec 108 x'), (N.leb_spec x' 108); cbn in Hx; try discriminate; lia.
      + revert Hw. apply Forall_impl. intros y Hy. unfold cs_mem in Hy. cbn [cs_ranges cs_word cs_neg map fst snd existsb andb xorb] in Hy.
        change (hd 0%N (u "A")) with 65%N in Hy. change (hd 0%N (u "z")) with 122%N in Hy. change (hd 0%N (u "a")) with 97%N in Hy.
        unfold in_range in *. rewrite !orb_false_r in Hy. cbn [xorb] in Hy.
        destruct (N.leb_spec 65 y), (N.leb_spec y 122), (N.leb_spec 97 y); cbn in *; try discriminate; try reflexivity; lia.
    - right. apply lang_rc_inv in Ha as ->. reflexivity.
  Qed.
  Lemma list_no s : nomatch E top list_look s -> go r_LIST_FUNC_NAME s = MFail.
  Proof.
    intros H. unfold re_run, r_LIST_FUNC_NAME. fold list_look. rewrite mt_seq, mt_look.
    assert (Hm : mt E top (Datatypes.S (List.length s)) (Datatypes.S (List.length s)) list_look 0 s MOk = MFail); [|rewrite Hm; reflexivity].
    apply mt_nomatch; auto using top_good, top_nn, top_nl.
    unfold depth_ok. replace (leads list_look) with false by reflexivity. lia.
  Qed.
  Lemma ref_list_no v rest : Forall (fun x => word E x = true) v -> ahead (word E) rest = false -> ahead (is_char "(") rest = false ->
    (starts_list v -> ahead (in_range 91 96) rest = false) -> nomatch E top list_look (v ++ rest)%list.
  Proof.
    intros Hv Hr Hp Hl c rest' Hs H. destruct (list_look_inv c H) as [(x & w & -> & Hx & Hw)| ->].
    - assert (Hst : starts_with (x :: u "ist" ++ w ++ u "(")%list (v ++ rest)%list) by (exists rest'; exact Hs).
      destruct (starts_split _ _ _ Hst) as [[z Hz]|(q & Hq & Hne & Hsq)].
      + rewrite Hz in Hv. rewrite Forall_forall in Hv. specialize (Hv 40%N). rewrite alnum_paren in Hv.
        assert (Hcon : false = true); [|discriminate]. apply Hv. apply in_app_iff. left. right. apply in_app_iff. right. apply in_app_iff. right. left. reflexivity.
      + destruct q as [|y q]; [contradiction|]. destruct rest as [|z rest]; [destruct Hsq; discriminate|].
        apply starts_cons in Hsq as [<- Hsq]. cbn [ahead] in *.
        assert (Hcase : In y (x :: u "ist")%list \/ (starts_list v /\ (In y w \/ y = 40%N))).
        { assert (Hxl : word E x = true) by (destruct Hx; subst x; reflexivity).
          clear - Hq Hx. change (x :: u "ist" ++ w ++ u "(")%list with ((x :: u "ist") ++ (w ++ u "("))%list in Hq.
          set (p := (x :: u "ist")%list) in *. apply app_eq_app in Hq as (l & [[H1 H2]|[H1 H2]]).
          - destruct l as [|y' l].
            + right. rewrite app_nil_r in H1. cbn [app] in H2. split.
              * exists []. subst v. rewrite app_nil_r. destruct Hx as [->| ->]; [left|right]; subst p; symmetry; exact H1 || reflexivity.
              * destruct w as [|z w]; cbn [app] in H2; inversion H2; subst; cbn; auto.
            + left. cbn [app] in H2. inversion H2; subst. rewrite H1. apply in_app_iff. right. left. reflexivity.
          - right. split.
            + exists l. subst v. destruct Hx as [->| ->]; [left|right]; reflexivity.
            + assert (Hin : In y (w ++ u "(")%list) by (rewrite H2; apply in_app_iff; right; left; reflexivity).
              apply in_app_iff in Hin as [Hin|[Hin|[]]]; auto. }
        destruct Hcase as [Hin|[Hsl [Hin| ->]]].
        * assert (word E y = true); [|congruence]. destruct Hin as [<-|Hin]; [destruct Hx; subst x; reflexivity|].
          cbn in Hin. decompose [or] Hin; subst; try reflexivity; contradiction.
        * rewrite Forall_forall in Hw. specialize (Hw _ Hin). specialize (Hl Hsl).
          unfold word in Hr. unfold in_range in *. destruct (N.leb_spec 65 y), (N.leb_spec y 122); try discriminate.
          destruct (N.ltb_spec y 128); [|lia]. unfold is_word_ascii, is_alpha, is_lower, is_upper, in_range in Hr.
          destruct (N.leb_spec 97 y), (N.leb_spec 65 y), (N.leb_spec y 90), (N.leb_spec y 122), (N.leb_spec 91 y), (N.leb_spec y 96); cbn in Hr, Hl; try discriminate; lia.
        * vm_compute in Hp. discriminate.
    - destruct (prefix_word (u "getSecret") v rest 40%N) as [_ Hcon]; auto.
      + exists rest'. exact Hs.
      + repeat (constructor; [reflexivity|]). constructor.
      + destruct rest as [|z rest]; [discriminate|]. cbn [ahead] in *. apply N.eqb_eq in Hcon. subst z. discriminate.
  Qed.
  Lemma fun_list_no ns n rest : In ns [[]; u "sys."; u "az."] -> plain_name n -> ~ list_name (ns ++ n)%list ->
    nomatch E top list_look (((ns ++ n) ++ u "(") ++ rest)%list.
  Proof.
    intros Hns Hn Hl c rest' Hs H.
    assert (Hno : Forall (fun y => y <> 40%N /\ (in_range 65 122 y = true -> is_alpha y = true)) (ns ++ n)%list).
    { apply Forall_app. split.
      - destruct Hns as [<-|[<-|[<-|[]]]]; repeat (constructor; [split; [discriminate|intros Hx; vm_compute in Hx; try discriminate; reflexivity]|]); constructor.
      - destruct Hn as [_ Hn]. revert Hn. apply Forall_impl. intros y Hy. split; [intros ->; discriminate|].
        intros Hr. unfold alnum in Hy. apply orb_true_iff in Hy as [Hy|Hy]; [exact Hy|].
        unfold is_digit, in_range in *. destruct (N.leb_spec 65 y), (N.leb_spec y 57), (N.leb_spec 48 y); cbn in *; try discriminate; lia. }
    assert (Hcut : forall p : str, ~ In 40%N p -> starts_with (p ++ [40%N])%list (((ns ++ n) ++ u "(") ++ rest)%list -> p = (ns ++ n)%list).
    { set (v := (ns ++ n)%list) in *. assert (Hv : ~ In 40%N v).
      { intros Hin. rewrite Forall_forall in Hno. destruct (Hno _ Hin) as [Hx _]. apply Hx. reflexivity. }
      clearbody v. clear - Hv. change (u "(") with [40%N]. intros p. revert v Hv. induction p as [|y p IH]; intros v Hv Hp [z Hz].
      - destruct v as [|x v]; [reflexivity|]. cbn [app] in Hz. inversion Hz; subst. exfalso. apply Hv. left. reflexivity.
      - destruct v as [|x v]; cbn [app] in Hz; inversion Hz; subst.
        + exfalso. apply Hp. left. reflexivity.
        + f_equal. apply IH; [intros Hin; apply Hv; right; exact Hin|intros Hin; apply Hp; right; exact Hin|]. exists z. exact H1. }
    destruct (list_look_inv c H) as [(x & w & -> & Hx & Hw)| ->].
    - apply Hl. rewrite <- (Hcut (x :: u "ist" ++ w)%list).
      + assert (Hwa : Forall (fun c => is_alpha c = true) w).
        { assert (He : (x :: u "ist" ++ w)%list = (ns ++ n)%list).
          { apply Hcut.
            - intros [Hin|Hin]; [destruct Hx; subst x; discriminate|]. apply in_app_iff in Hin as [Hin|Hin].
              + cbn in Hin. decompose [or] Hin; try discriminate; contradiction.
              + rewrite Forall_forall in Hw. specialize (Hw _ Hin). vm_compute in Hw. discriminate.
            - exists rest'. rewrite Hs. cbn [app]. rewrite <- !app_assoc. reflexivity. }
          rewrite <- He in Hno. change (x :: u "ist" ++ w)%list with ((x :: u "ist") ++ w)%list in Hno. apply Forall_app in Hno as [_ Hno'].
          rewrite Forall_forall in Hno', Hw |- *. intros y Hy. apply (Hno' y Hy). apply Hw. exact Hy. }
        destruct Hx as [->| ->]; [apply (list_upper w Hwa)|apply (list_lower w Hwa)].
      + intros [Hin|Hin]; [destruct Hx; subst x; discriminate|]. apply in_app_iff in Hin as [Hin|Hin].
        * cbn in Hin. decompose [or] Hin; try discriminate; contradiction.
        * rewrite Forall_forall in Hw. specialize (Hw _ Hin). vm_compute in Hw. discriminate.
      + exists rest'. rewrite Hs. cbn [app]. rewrite <- !app_assoc. reflexivity.
    - apply Hl. rewrite <- (Hcut (u "getSecret")); [constructor| |].
      + cbn. intros Hin. decompose [or] Hin; try discriminate; contradiction.
      + exists rest'. exact Hs.
  Qed.
  Lemma qi_no c rest : go r_QUOTED_INTERPOLATION (triple_quote c ++ rest)%list = MFail.
  Proof.
    unfold re_run. set (F := Datatypes.S _). rewrite qi_eq, mt_seq, mt_look_ok.
    destruct (mt E top F F Look 0 (triple_quote c ++ rest)%list MOk) as [| |n s] eqn:Hm; [| |reflexivity]; exfalso.
    - unfold Look in Hm. rewrite mt_seq, mt_star in Hm. subst F. cbn [star_loop] in Hm.
      match type of Hm with match ?x with _ => _ end = _ => destruct x; try discriminate end.
    - revert Hm. apply (mt_fuelled E top F top_good top_nn top_nl); try reflexivity.
      + subst F. lia.
      + unfold depth_ok. replace (leads Look) with false by reflexivity. subst F. lia.
      + intros n' s' _. discriminate.
  Qed.
  Lemma qs_no c rest : nomatch E top r_QUOTED_STRING (triple_quote c ++ rest)%list.
  Proof.
    intros x y Hs H. unfold r_QUOTED_STRING in H. cbn [rseq] in H.
    apply seq_inv in H as (a & b & -> & Ha & H). apply lang_rc_inv in Ha as ->.
    apply seq_inv in H as (a & d & -> & Ha & _). apply set_inv in Ha as (z & -> & Hz).
    unfold triple_quote in Hs. cbn [u app] in Hs. inversion Hs; subst z. vm_compute in Hz. discriminate.
  Qed.
  Lemma mls_no s : no_triple_on_line s -> nomatch E top r_MULTI_LINE_STRING s.
  Proof.
    intros Ht x y Hs H. unfold r_MULTI_LINE_STRING in H. cbn [rseq] in H.
    apply seq_inv in H as (a & b & -> & Ha & H). apply lang_rc_inv in Ha as ->.
    rewrite <- app_assoc in Hs. exact (Ht [] (b ++ y)%list Hs).
  Qed.

  (** ** The token that is expected *)
  Lemma retype_same n v : ~ In v (changes lx n) -> retype (lx_unless lx) n v = n.
  Proof.
    intros H. destruct (retype_spec (lx_unless lx) n v) as [Hr|Hr]; [exact Hr|]. exfalso. apply H.
    unfold changes. apply in_flat_map. eexists. split; [exact Hr|]. cbn [fst snd]. rewrite String.eqb_refl. left. reflexivity.
  Qed.
  Lemma no_changes n v : match changes lx n with [] => true | _ => false end = true -> retype (lx_unless lx) n v = n.
  Proof. intros H. apply retype_same. destruct (changes lx n); [intros []|discriminate]. Qed.
  Lemma reserved_changes n v (res : list string) : forallb (fun v => existsb (fun w => str_eqb v (u w)) res) (changes lx n) = true ->
    ~ In v (map u res) -> retype (lx_unless lx) n v = n.
  Proof.
    intros H Hv. apply retype_same. intros Hin. rewrite forallb_forall in H. specialize (H _ Hin).
    apply existsb_exists in H as (w & Hw & Heq). apply str_eqb_eq in Heq. subst v. apply Hv. apply in_map. exact Hw.
  Qed.
  Lemma heads_check : forallb (fun x =>
      (negb (letter x) || existsb (N.eqb x) (heads (Name []))) && (negb (alnum x) || existsb (N.eqb x) (heads (Fun []))) &&
      (negb (is_digit x) || existsb (N.eqb x) (heads (Num []))))
    (map N.of_nat (seq 0 128)) = true.
  Proof. vm_compute. reflexivity. Qed.
  Lemma ascii_in x : (x < 128)%N -> In x (map N.of_nat (seq 0 128)).
  Proof. intros H. apply in_map_iff. exists (N.to_nat x). split; [apply Nnat.N2Nat.id|]. apply in_seq. lia. Qed.
  Lemma alnum_ascii x : alnum x = true -> (x < 128)%N.
  Proof. unfold alnum, is_alpha, is_lower, is_upper, is_digit, in_range. intros H. destruct (N.leb_spec x 122); [lia|]. destruct (N.leb_spec x 90); [lia|]. destruct (N.leb_spec x 57); [lia|]. rewrite !andb_false_r in H. discriminate. Qed.
  Lemma letter_ascii x : letter x = true -> (x < 128)%N.
  Proof. unfold letter. intros H. apply orb_true_iff in H as [H|H]; [apply alnum_ascii; unfold alnum; rewrite H; reflexivity|]. apply N.eqb_eq in H. subst x. reflexivity. Qed.
  Lemma heads_all x : (x < 128)%N -> (letter x = true -> In x (heads (Name []))) /\ (alnum x = true -> In x (heads (Fun []))) /\ (is_digit x = true -> In x (heads (Num []))).
  Proof.
    intros H. pose proof heads_check as Hc. rewrite forallb_forall in Hc. specialize (Hc _ (ascii_in _ H)).
    apply andb_true_iff in Hc as [Hc H3]. apply andb_true_iff in Hc as [H1 H2].
    assert (Hex : forall l, existsb (N.eqb x) l = true -> In x l).
    { intros l Hl. apply existsb_exists in Hl as (y & Hy & Hq). apply N.eqb_eq in Hq. subst y. exact Hy. }
    repeat split; intros Hx; apply Hex; rewrite Hx in *; cbn [negb orb] in *; assumption.
  Qed.
  Lemma heads_letter x : letter x = true -> In x (heads (Name [])).
  Proof. intros H. exact (proj1 (heads_all x (letter_ascii x H)) H). Qed.
  Lemma heads_alnum x : alnum x = true -> In x (heads (Fun [])).
  Proof. intros H. exact (proj1 (proj2 (heads_all x (alnum_ascii x H))) H). Qed.
  Lemma heads_digit x : is_digit x = true -> In x (heads (Num [])).
  Proof. intros H. assert (Ha : alnum x = true) by (unfold alnum; rewrite H; apply orb_true_r). exact (proj2 (proj2 (heads_all x (alnum_ascii x Ha))) H). Qed.

  (** The first character of a token. *)
  Lemma ident_head v : ident E v -> exists x v', v = x :: v' /\ In x (heads (Name [])).
  Proof. intros (x & v' & -> & Hx & _). exists x, v'. split; [reflexivity|]. apply heads_letter. exact Hx. Qed.
  Lemma is_eq n m : is n m = true -> n = m.
  Proof. apply String.eqb_eq. Qed.
  Lemma ahead_impl (p q : N -> bool) s : (forall x, q x = true -> p x = true) -> ahead p s = false -> ahead q s = false.
  Proof. intros H Hp. destruct s as [|x s]; [reflexivity|]. cbn [ahead] in *. destruct (q x) eqn:Hq; [|reflexivity]. rewrite (H _ Hq) in Hp. discriminate. Qed.
  Lemma ascii_word x : is_word_ascii x = true -> word E x = true.
  Proof.
    intros H. unfold word. destruct (N.ltb_spec x 128); [exact H|]. exfalso.
    unfold is_word_ascii, is_alpha, is_lower, is_upper, is_digit, in_range in H.
    destruct (N.leb_spec x 122); [lia|]. destruct (N.leb_spec x 90); [lia|]. destruct (N.leb_spec x 57); [lia|].
    destruct (N.eqb_spec x 95); [lia|]. rewrite !andb_false_r in H. discriminate.
  Qed.
  Definition scans (t : tokn) (rest : str) : Prop :=
    exists n, scan E lx (text t ++ rest)%list = Some (Some (n, List.length (text t), rest)) /\
              mem_str n ignored = false /\ retype (lx_unless lx) n (text t) = tname t.

  Notation L prev t := (lexable (option_map erase prev) lx (erase t)).
  Lemma reserved_ref_erase prev : reserved_ref (option_map erase prev) = reserved_ref prev.
  Proof. destruct prev as [[]|]; reflexivity. Qed.
  Lemma reserved_key_erase prev : reserved_key (option_map erase prev) = reserved_key prev.
  Proof. destruct prev as [[]|]; reflexivity. Qed.
  Lemma opens_value_erase prev : opens_value (option_map erase prev) = opens_value prev.
  Proof. destruct prev as [[]|]; reflexivity. Qed.
  Lemma list_position_erase prev : list_position (option_map erase prev) = list_position prev.
  Proof. destruct prev as [[]|]; reflexivity. Qed.

  Ltac start H n :=
    unfold lexable in H; cbn [erase text] in H |- *;
    match type of H with match ?p with _ => _ end = true => destruct p as [n|] eqn:Hpick; [|discriminate H] end.
  Lemma scan_sym prev s rest : L prev (Sym s) = true -> fits E prev (Sym s) rest -> scans (Sym s) rest.
  Proof.
    intros H [Hs Hl]. pose proof symbols_re as Hsym. rewrite Forall_forall in Hsym. destruct (Hsym _ Hs) as (Hre & Hig & Hne).
    start H n. apply andb_true_iff in H as [Hn Hr]. apply is_eq in Hn. apply is_eq in Hr. cbn [tname] in *. subst n.
    exists s. split; [|split; [exact Hig|exact Hr]]. eapply (proj1 (scan_pick _ _ _ _ _ Hpick _ _)).
    Unshelve.
    - intros m Hin Hm. cbn [rival] in Hm. eapply lit_no; eauto.
    - intros _. rewrite Hre. apply lit_ok.
  Qed.
  Lemma scan_star prev rest : L prev Star = true -> fits E prev Star rest -> scans Star rest.
  Proof.
    intros H _. start H n. apply andb_true_iff in H as [Hn Hr]. apply is_eq in Hn. apply is_eq in Hr. cbn [tname] in *. subst n.
    exists "STAR_RE". split; [|split; [reflexivity|exact Hr]]. eapply (proj1 (scan_pick _ _ _ _ _ Hpick _ _)).
    Unshelve.
    - intros m Hin Hm. cbn [rival] in Hm. eapply (lit_no (fun _ => false)); eauto; [discriminate|]. destruct rest; reflexivity.
    - intros _. rewrite re_named_star. apply lit_ok.
  Qed.
  Lemma scan_kw prev s rest : L prev (Kw s) = true -> fits E prev (Kw s) rest -> scans (Kw s) rest.
  Proof.
    intros H (Hs & Hw & Hp). pose proof keywords_re as Hk. rewrite Forall_forall in Hk. destruct (Hk _ Hs) as (Hre & Hig & Hne).
    pose proof (keywords_ident E) as Hi. rewrite Forall_forall in Hi. destruct (Hi _ Hs) as (Hid & Hsys & Haz).
    assert (Hns : no_namespace (u s) rest) by (intros [Hx|[Hx|[]]]; congruence).
    start H n. apply andb_true_iff in H as [Hn Hr]. apply is_eq in Hr.
    exists n. split; [|split; [|exact Hr]].
    2: { apply orb_true_iff in Hn as [Hn|Hn]; apply is_eq in Hn; subst n; [reflexivity|exact Hig]. }
    eapply (proj1 (scan_pick _ _ _ _ _ Hpick _ _)).
    Unshelve.
    - intros m Hin Hm. cbn [rival] in Hm. destruct (is m "STRING" || is m "DECO_NAME"); [discriminate|].
      destruct (is m "LIST_FUNC_NAME") eqn:Hml.
      { apply is_eq in Hml. subst m. rewrite re_named_list in *. apply list_no.
        change (text (Kw s)) with (u s). destruct (u s) as [|x v] eqn:Hus; [contradiction|]. cbn [hd app] in *.
        apply nomatch_first; [exact top_nn|reflexivity|]. clear - Hm.
        cbn [existsb] in Hm. change (u "Llg") with [76; 108; 103]%N in Hm. cbn [existsb] in Hm.
        destruct (N.eqb_spec x 76); [discriminate|]. destruct (N.eqb_spec x 108); [discriminate|]. destruct (N.eqb_spec x 103); [discriminate|].
        unfold list_look, first_may, rc, rset; cbn.
        destruct x as [|px]; [reflexivity|].
        unfold in_range. rewrite !orb_false_r. 
        repeat match goal with |- context[(?a <=? ?b)%N] => destruct (N.leb_spec a b) end; cbn; try reflexivity; exfalso; lia. }
      destruct (is m "FUNCTION") eqn:Hmf.
      { apply is_eq in Hmf. subst m. rewrite re_named_function in *. eapply no_go; [exact Hin|]. apply function_no; auto.
        - apply ident_word. exact Hid.
        - apply Hp. intros ->. discriminate. }
      eapply lit_no; eauto. revert Hw. apply ahead_impl. apply ascii_word.
    - intros _. apply orb_true_iff in Hn as [Hn|Hn]; apply is_eq in Hn; subst n.
      + rewrite re_named_string. apply string_ok; auto using top_good, top_nn, top_nl. split; [exact Hid|]. split; [exact Hw|exact Hns].
      + cbn [tname] in *. rewrite Hre. apply lit_ok.
  Qed.
  Lemma fits_ref_word prev v rest : fits E prev (Ref v) rest -> word_ends E v rest. Proof. intros H. apply H. Qed.
  Lemma scan_name prev v rest : L prev (Name v) = true -> fits E prev (Name v) rest -> scans (Name v) rest.
  Proof.
    intros H Hf. start H n. apply andb_true_iff in H as [Hn Hr]. apply is_eq in Hn. cbn [tname] in Hn. subst n.
    destruct (ident_head v (proj1 Hf)) as (x & v' & Hv & Hx).
    exists "STRING". split; [|split; [reflexivity|apply no_changes; exact Hr]]. eapply (proj1 (scan_pick _ _ _ _ _ Hpick _ _)).
    Unshelve.
    - intros m Hin Hm. cbn [rival] in Hm. rewrite Hv. cbn [app]. exact (head_no _ _ _ _ _ Hin Hx Hm).
    - intros _. rewrite re_named_string. apply string_ok; auto using top_good, top_nn, top_nl.
  Qed.
  Lemma scan_ref prev v rest : L prev (Ref v) = true -> fits E prev (Ref v) rest -> scans (Ref v) rest.
  Proof.
    intros H (Hw & Hp & Hres & Hlp). start H n. apply andb_true_iff in H as [Hn Hr]. apply is_eq in Hn. cbn [tname] in Hn. subst n.
    rewrite reserved_ref_erase in Hr.
    destruct (ident_head v (proj1 Hw)) as (x & v' & Hv & Hx).
    exists "STRING". split; [|split; [reflexivity|eapply reserved_changes; eassumption]]. eapply (proj1 (scan_pick _ _ _ _ _ Hpick _ _)).
    Unshelve.
    - intros m Hin Hm. cbn [rival] in Hm. apply andb_false_iff in Hm as [Hm|Hm]; [apply andb_false_iff in Hm as [Hm|Hm]|].
      + rewrite Hv. cbn [app]. exact (head_no _ _ _ _ _ Hin Hx Hm).
      + apply negb_false_iff, is_eq in Hm. subst m. rewrite re_named_function in *. eapply no_go; [exact Hin|].
        destruct Hw as (Hid & Hw & Hns). apply function_no; auto. apply ident_word. exact Hid.
      + apply negb_false_iff, andb_true_iff in Hm as [Hm Hpos]. apply is_eq in Hm. subst m. rewrite list_position_erase in Hpos.
        rewrite re_named_list in *. apply list_no. destruct Hw as (Hid & Hw & Hns). apply ref_list_no; auto. apply ident_word. exact Hid.
    - intros _. rewrite re_named_string. apply string_ok; auto using top_good, top_nn, top_nl.
  Qed.
  Lemma scan_key prev v rest : L prev (Key v) = true -> fits E prev (Key v) rest -> scans (Key v) rest.
  Proof.
    intros H (Hw & Hp & Hres). start H n. apply andb_true_iff in H as [Hn Hr]. apply is_eq in Hn. cbn [tname] in Hn. subst n.
    rewrite reserved_key_erase in Hr.
    destruct (ident_head v (proj1 Hw)) as (x & v' & Hv & Hx).
    exists "STRING". split; [|split; [reflexivity|eapply reserved_changes; eassumption]]. eapply (proj1 (scan_pick _ _ _ _ _ Hpick _ _)).
    Unshelve.
    - intros m Hin Hm. cbn [rival] in Hm. apply andb_false_iff in Hm as [Hm|Hm].
      + rewrite Hv. cbn [app]. exact (head_no _ _ _ _ _ Hin Hx Hm).
      + apply negb_false_iff, is_eq in Hm. subst m. rewrite re_named_function in *. eapply no_go; [exact Hin|].
        destruct Hw as (Hid & Hw & Hns). apply function_no; auto. apply ident_word. exact Hid.
    - intros _. rewrite re_named_string. apply string_ok; auto using top_good, top_nn, top_nl.
  Qed.
  Lemma scan_num prev v rest : L prev (Num v) = true -> fits E prev (Num v) rest -> scans (Num v) rest.
  Proof.
    intros H (Hd & Ha & Hp). start H n. apply andb_true_iff in H as [Hn Hr]. apply is_eq in Hn. cbn [tname] in Hn. subst n.
    destruct v as [|x v]; [destruct Hd; contradiction|].
    assert (Hx : In x (heads (Num []))) by (destruct Hd as [_ Hd]; inversion Hd; subst; apply heads_digit; assumption).
    exists "INT". split; [|split; [reflexivity|apply no_changes; exact Hr]]. eapply (proj1 (scan_pick _ _ _ _ _ Hpick _ _)).
    Unshelve.
    - intros m Hin Hm. cbn [rival] in Hm. apply andb_false_iff in Hm as [Hm|Hm].
      + cbn [text app]. exact (head_no _ _ _ _ _ Hin Hx Hm).
      + apply negb_false_iff, is_eq in Hm. subst m. rewrite re_named_function in *. eapply no_go; [exact Hin|].
        apply digits_function_no; auto.
    - intros _. rewrite re_named_int. apply int_ok; [exact Hd|]. revert Ha. apply ahead_impl. intros y Hy. unfold alnum. rewrite Hy. apply orb_true_r.
  Qed.
  Lemma scan_quoted prev c rest : L prev (Quoted c) = true -> fits E prev (Quoted c) rest -> scans (Quoted c) rest.
  Proof.
    intros H (Hc & Hnl & Ht). start H n. apply andb_true_iff in H as [H Hbr]. apply andb_true_iff in H as [H Hfirst]. apply andb_true_iff in H as [Hn Hr].
    apply is_eq in Hn. cbn [tname] in Hn. subst n.
    exists "QUOTED_INTERPOLATION". split; [|split; [reflexivity|apply no_changes; exact Hr]]. eapply (proj1 (scan_pick _ _ _ _ _ Hpick _ _)).
    Unshelve.
    - intros m Hin Hm. cbn [rival] in Hm. apply andb_false_iff in Hm as [Hm|Hm].
      + unfold text, quote. cbn [app]. refine (head_no _ _ _ _ _ Hin _ Hm). left. reflexivity.
      + apply negb_false_iff, is_eq in Hm. subst m. rewrite re_named_mls in *. eapply no_go; [exact Hin|]. apply mls_no. exact Ht.
    - intros Hin. rewrite re_named_qi in *. clear Hpick.
      destruct (pick _ (lx_alts lx)) as [m|] eqn:Hp in Hfirst; [|discriminate]. apply is_eq in Hfirst. subst m.
      destruct (pick_split _ _ _ Hp) as (b & r & a & Hs & Hb).
      assert (Hr' : r = r_QUOTED_INTERPOLATION).
      { rewrite <- re_named_qi. apply alt_named. rewrite Hs. apply in_app_iff. right. left. reflexivity. }
      subst r.
      assert (Htop : top = qtop (map snd b) (map snd a)).
      { unfold lx_top, qtop. rewrite Hs, map_app. reflexivity. }
      pose proof top_good as H1. pose proof top_nn as H2. pose proof top_nl as H3. rewrite Htop in H1, H2, H3.
      unfold re_run. rewrite Htop. apply (quoted_mt E _ _ H1 H2 H3) with (nested := opens_value prev).
      + intros r Hr'. apply in_map_iff in Hr' as ([m q] & <- & Hq). cbn [snd].
        assert (Hq' : In (m, q) (lx_alts lx)) by (rewrite Hs; apply in_app_iff; left; exact Hq).
        destruct (lo_alts _ lx_ok _ _ Hq') as (G1 & G2 & G3). repeat split; auto.
        specialize (Hb _ _ Hq). unfold head_may in Hb. cbn [heads existsb] in Hb.
        change (u "'") with [39%N] in Hb. cbn [existsb] in Hb. rewrite orb_false_r in Hb. exact Hb.
      + assert (Hall : forall r, In r (map snd b ++ r_QUOTED_INTERPOLATION :: map snd a)%list -> exists m, In (m, r) (lx_alts lx)).
        { intros r Hr'. change (r_QUOTED_INTERPOLATION :: map snd a) with (map snd (("QUOTED_INTERPOLATION", r_QUOTED_INTERPOLATION) :: a)) in Hr'.
          rewrite <- map_app, <- Hs in Hr'. apply in_map_iff in Hr' as ([m q] & <- & Hq). exists m. exact Hq. }
        apply orb_true_iff in Hbr as [Hbr|Hbr].
        * left. intros r Hr'. destruct (Hall _ Hr') as (m & Hm). rewrite forallb_forall in Hbr. specialize (Hbr _ Hm). cbn [snd] in Hbr.
          apply negb_true_iff in Hbr. split; [apply (lo_alts _ lx_ok _ _ Hm)|exact Hbr].
        * apply andb_true_iff in Hbr as [Hbr Hop]. rewrite opens_value_erase in Hop. apply negb_true_iff in Hop. right. split; [|exact Hop].
          apply existsb_exists in Hbr as ([m q] & Hm & Hq). cbn [fst] in Hq. apply is_eq in Hq. subst m.
          pose proof (alt_named _ _ Hm) as Hre. replace (re_named "}") with (rc "}") in Hre by (vm_compute; reflexivity). subst q.
          unfold brace. change (r_QUOTED_INTERPOLATION :: map snd a) with (map snd (("QUOTED_INTERPOLATION", r_QUOTED_INTERPOLATION) :: a)).
          rewrite <- map_app, <- Hs. apply in_map_iff. exists ("}", rc "}"). split; [reflexivity|exact Hm].
      + exact Hc.
      + exact Hnl.
      + cbn [text]. lia.
      + cbn [text]. lia.
      + exact Ht.
      + reflexivity.
  Qed.
  Lemma scan_multi prev c rest : L prev (Multi c) = true -> fits E prev (Multi c) rest -> scans (Multi c) rest.
  Proof.
    intros H Hc. start H n. apply andb_true_iff in H as [Hn Hr]. apply is_eq in Hn. cbn [tname] in Hn. subst n.
    exists "MULTI_LINE_STRING". split; [|split; [reflexivity|apply no_changes; exact Hr]]. eapply (proj1 (scan_pick _ _ _ _ _ Hpick _ _)).
    Unshelve.
    - intros m Hin Hm. cbn [rival] in Hm. apply andb_false_iff in Hm as [Hm|Hm].
      + unfold text, triple_quote. cbn [app]. refine (head_no _ _ _ _ _ Hin _ Hm). left. reflexivity.
      + apply negb_false_iff, orb_true_iff in Hm as [Hm|Hm]; apply is_eq in Hm; subst m.
        * rewrite re_named_qi. apply qi_no.
        * rewrite re_named_qs in *. eapply no_go; [exact Hin|]. apply qs_no.
    - intros _. rewrite re_named_mls. apply multi_ok. exact Hc.
  Qed.
  Lemma prefixed_head (ns n : str) : In ns [[]; u "sys."; u "az."] -> plain_name n -> exists x v, (ns ++ n)%list = x :: v /\ In x (heads (Fun [])).
  Proof.
    intros Hns [Hne Hn]. destruct Hns as [<-|[<-|[<-|[]]]].
    - destruct n as [|x n]; [contradiction|]. exists x, n. split; [reflexivity|]. inversion Hn; subst. apply heads_alnum. assumption.
    - eexists _, _. split; [reflexivity|]. apply heads_alnum. reflexivity.
    - eexists _, _. split; [reflexivity|]. apply heads_alnum. reflexivity.
  Qed.
  Lemma scan_fun prev v rest : L prev (Fun v) = true -> fits E prev (Fun v) rest -> scans (Fun v) rest.
  Proof.
    intros H ((ns & n0 & -> & Hns & Hpl) & Hlp). start H n. apply andb_true_iff in H as [Hn Hr]. apply is_eq in Hn. cbn [tname] in Hn. subst n.
    exists "FUNCTION". split; [|split; [reflexivity|apply no_changes; exact Hr]]. eapply (proj1 (scan_pick _ _ _ _ _ Hpick _ _)).
    Unshelve.
    - intros m Hin Hm. cbn [rival] in Hm. apply andb_false_iff in Hm as [Hm|Hm].
      + destruct (prefixed_head ns n0 Hns Hpl) as (x & v' & Hv & Hx). cbn [text]. rewrite Hv. cbn [app]. exact (head_no _ _ _ _ _ Hin Hx Hm).
      + apply negb_false_iff, andb_true_iff in Hm as [Hm Hpos]. apply is_eq in Hm. subst m. rewrite list_position_erase in Hpos.
        rewrite re_named_list in *. apply list_no. apply fun_list_no; auto.
    - intros _. rewrite re_named_function. cbn [text]. rewrite <- (app_assoc ns). apply function_ok; auto using top_good, top_nn, top_nl.
  Qed.
  Lemma scan_listfun prev v rest : L prev (ListFun v) = true -> fits E prev (ListFun v) rest -> scans (ListFun v) rest.
  Proof.
    intros H (Hl & Hp). start H n. apply andb_true_iff in H as [Hn Hr]. apply is_eq in Hn. cbn [tname] in Hn. subst n.
    exists "LIST_FUNC_NAME". split; [|split; [reflexivity|apply no_changes; exact Hr]]. eapply (proj1 (scan_pick _ _ _ _ _ Hpick _ _)).
    Unshelve.
    - intros m Hin Hm. cbn [rival] in Hm. destruct (list_alpha v Hl) as [Hne Ha]. destruct v as [|x v]; [contradiction|]. cbn [text app].
      refine (head_no _ _ _ _ _ Hin _ Hm). apply heads_alnum. inversion Ha; subst. unfold alnum. rewrite H1. reflexivity.
    - intros _. rewrite re_named_list. apply listfun_ok; assumption.
  Qed.
  Lemma scan_deco prev v rest : L prev (Deco v) = true -> fits E prev (Deco v) rest -> scans (Deco v) rest.
  Proof.
    intros H ((ns & n0 & -> & Hns & Hpl) & Ha & Hd). start H n. apply andb_true_iff in H as [Hn Hr]. apply is_eq in Hn. cbn [tname] in Hn. subst n.
    exists "DECO_NAME". split; [|split; [reflexivity|apply no_changes; exact Hr]]. eapply (proj1 (scan_pick _ _ _ _ _ Hpick _ _)).
    Unshelve.
    - intros m Hin Hm. cbn [rival] in Hm.
      destruct (prefixed_head ns n0) as (x & v' & Hv & Hx); [cbn in *; tauto|exact Hpl|]. cbn [text]. rewrite Hv. cbn [app]. exact (head_no _ _ _ _ _ Hin Hx Hm).
    - intros _. rewrite re_named_deco. cbn [text]. apply deco_ok; assumption.
  Qed.
  Lemma feeds_head v : feeds v -> exists x v', v = x :: v' /\ In x [10; 13]%N.
  Proof.
    induction 1 as [| |a b Ha (x & v' & -> & Hx) _ _].
    - eexists _, _. split; [reflexivity|]. left. reflexivity.
    - eexists _, _. split; [reflexivity|]. right. left. reflexivity.
    - exists x, (v' ++ b)%list. split; [reflexivity|exact Hx].
  Qed.
  Lemma scan_break prev v rest : L prev (Break v) = true -> fits E prev (Break v) rest -> scans (Break v) rest.
  Proof.
    intros H (Hl & He). start H n. apply andb_true_iff in H as [Hn Hr]. apply is_eq in Hn. cbn [tname] in Hn. subst n.
    exists "_CPP_COMMENT_NL". split; [|split; [reflexivity|apply no_changes; exact Hr]]. eapply (proj1 (scan_pick _ _ _ _ _ Hpick _ _)).
    Unshelve.
    - intros m Hin Hm. cbn [rival] in Hm. apply orb_false_iff in Hm as [Hm Hm2]. cbn [text]. destruct Hl as [f Hf|body f Hb Hf].
      + destruct (feeds_head f Hf) as (x & v' & -> & Hx). cbn [app]. exact (head_no (Break []) _ _ _ _ Hin Hx Hm).
      + rewrite <- app_assoc. eapply (lit_no (fun _ => false)); [exact Hin|discriminate|exact Hm2|]. destruct ((body ++ f) ++ rest)%list; reflexivity.
    - intros _. rewrite re_break. cbn [text]. apply break_ok; assumption.
  Qed.
  Lemma scan_nl prev v rest : L prev (Nl v) = true -> fits E prev (Nl v) rest -> scans (Nl v) rest.
  Proof.
    intros H (Hl & He). start H n. apply andb_true_iff in H as [Hn Hr]. apply is_eq in Hn. cbn [tname] in Hn. subst n.
    exists "_NEWLINE". split; [|split; [reflexivity|apply no_changes; exact Hr]]. eapply (proj1 (scan_pick _ _ _ _ _ Hpick _ _)).
    Unshelve.
    - intros m Hin Hm. cbn [rival] in Hm. destruct (feeds_head v Hl) as (x & v' & -> & Hx). cbn [text app]. exact (head_no (Nl []) _ _ _ _ Hin Hx Hm).
    - intros _. rewrite re_nl. cbn [text]. apply newline_ok; assumption.
  Qed.
  Theorem scan_tok prev t rest : L prev t = true -> fits E prev t rest -> scans t rest.
  Proof.
    destruct t; [apply scan_sym|apply scan_kw|apply scan_star|apply scan_name|apply scan_ref|apply scan_key|apply scan_num|apply scan_quoted
      |apply scan_multi|apply scan_fun|apply scan_listfun|apply scan_deco|apply scan_break|apply scan_nl].
  Qed.

  (** ** Blanks and comments *)
  Hypothesis skips : skip_ok lx = true.
  Lemma skip_pick p n : In (p, n) [([32%N], "WS_INLINE"); ([9%N], "WS_INLINE"); (u "#", "SH_COMMENT"); (u "/*", "C_COMMENT")] ->
    pick (fun _ r => lit_may (fun _ => false) p r) (lx_alts lx) = Some n.
  Proof.
    intros H. pose proof skips as Hs. unfold skip_ok in Hs. rewrite forallb_forall in Hs. specialize (Hs _ H). cbn [fst snd] in Hs.
    destruct (pick _ _) as [m|]; [|discriminate]. apply String.eqb_eq in Hs. subst m. reflexivity.
  Qed.
  Lemma skip_scan p n b rest : In (p, n) [([32%N], "WS_INLINE"); ([9%N], "WS_INLINE"); (u "#", "SH_COMMENT"); (u "/*", "C_COMMENT")] ->
    starts_with p b -> go (re_named n) (b ++ rest)%list = MOk (List.length b) rest ->
    scan E lx (b ++ rest)%list = Some (Some (n, List.length b, rest)).
  Proof.
    intros Hin [z ->] Hgo. refine (proj1 (scan_pick _ _ _ _ _ (skip_pick _ _ Hin) _ (fun _ => Hgo))).
    intros m Hm Hno. rewrite <- app_assoc. eapply (lit_no (fun _ => false)); [exact Hm| |exact Hno|].
    - destruct Hin as [Hin|[Hin|[Hin|[Hin|[]]]]]; inversion Hin; subst; discriminate.
    - destruct (z ++ rest)%list; reflexivity.
  Qed.
  Lemma next_skip f n b rest line : b <> [] -> mem_str n ignored = true -> scan E lx (b ++ rest)%list = Some (Some (n, List.length b, rest)) ->
    next_token E (Datatypes.S f) lx (b ++ rest)%list line = next_token E f lx rest (line + count_nl b)%N.
  Proof.
    intros Hb Hn Hs. cbn [next_token]. rewrite Hs, Hn. rewrite firstn_app, Nat.sub_diag, firstn_all, firstn_O, app_nil_r.
    destruct b; [contradiction|]. reflexivity.
  Qed.
  Definition blanks (w : str) : Prop := Forall (fun y => In y [32; 9]%N) w.
  Lemma skipped_ws b rest : skipped b rest -> exists w b', b = (w ++ b')%list /\ blanks w /\ skipped b' rest /\ ahead is_blank b' = false.
  Proof.
    intros H. induction H as [rest|x b rest Hx Hb IH|c b rest Hc Hb IH|c rest Hc Hr].
    - exists [], []. repeat split; constructor.
    - destruct IH as (w & b' & -> & Hw & Hb' & Ha). exists (x :: w), b'. repeat split; auto. constructor; assumption.
    - exists [], (u "/*" ++ c ++ u "*/" ++ b)%list. repeat split; [constructor|constructor; assumption].
    - exists [], (u "#" ++ c)%list. repeat split; [constructor|constructor; assumption].
  Qed.
  Lemma count_nl_blanks w : blanks w -> count_nl w = 0%N.
  Proof. induction 1 as [|x w Hx Hw IH]; [reflexivity|]. destruct Hx as [<-|[<-|[]]]; cbn [count_nl] in *; rewrite ?IH; reflexivity. Qed.
  Lemma skip_all : forall len b rest line f, List.length b <= len -> skipped b rest -> ahead is_blank rest = false ->
    List.length (b ++ rest)%list < f ->
    exists f', List.length rest < f' /\ next_token E f lx (b ++ rest)%list line = next_token E f' lx rest (line + count_nl b)%N.
  Proof.
    induction len as [|len IH]; intros b rest line f Hlen Hsk Hr Hf.
    { destruct b; [|cbn in Hlen; lia]. exists f. cbn [app count_nl] in *. rewrite N.add_0_r. split; [exact Hf|reflexivity]. }
    destruct (skipped_ws b rest Hsk) as (w & b' & -> & Hw & Hb' & Ha).
    destruct w as [|x w].
    - (* a comment, or nothing *)
      cbn [app] in *. destruct Hb' as [rest|x b rest Hx Hb|c b rest Hc Hb|c rest Hc Hrest].
      + exists f. cbn [app count_nl] in *. rewrite N.add_0_r. split; [exact Hf|reflexivity].
      + exfalso. cbn [ahead] in Ha. destruct Hx as [<-|[<-|[]]]; discriminate.
      + destruct f as [|f]; [lia|].
        destruct (IH b rest (line + count_nl (u "/*" ++ c ++ u "*/")%list)%N f) as (f' & Hf' & He).
        { rewrite !app_length in Hlen. simpl (List.length (u _)) in Hlen. lia. }
        { exact Hb. } { exact Hr. }
        { rewrite !app_length in *. simpl (List.length (u _)) in *. lia. }
        exists f'. split; [exact Hf'|].
        replace ((u "/*" ++ c ++ u "*/" ++ b) ++ rest)%list with ((u "/*" ++ c ++ u "*/") ++ (b ++ rest))%list by (rewrite <- !app_assoc; reflexivity).
        rewrite (next_skip f "C_COMMENT"); [|discriminate|reflexivity|].
        * rewrite He. f_equal. rewrite !count_nl_app. lia.
        * apply (skip_scan (u "/*")); [right; right; right; left; reflexivity|exists (c ++ u "*/")%list; reflexivity|].
          rewrite re_named_cc. apply c_comment_ok. exact Hc.
      + destruct f as [|f]; [lia|]. exists f. split.
        { rewrite !app_length in Hf. simpl (List.length (u _)) in Hf. lia. }
        apply next_skip with (n := "SH_COMMENT"); [discriminate|reflexivity|].
        apply (skip_scan (u "#")); [right; right; left; reflexivity|exists c; reflexivity|].
        rewrite re_named_sh. apply sh_ok; assumption.
    - pose proof (Forall_inv Hw) as Hx. pose proof (Forall_inv_tail Hw) as Hw'. cbn beta in Hx.
      destruct f as [|f]; [lia|].
      destruct (IH b' rest line f) as (f' & Hf' & He).
      { rewrite !app_length in Hlen. cbn [List.length] in Hlen. lia. }
      { exact Hb'. } { exact Hr. }
      { rewrite !app_length in *. cbn [List.length] in *. lia. }
      exists f'. split; [exact Hf'|]. rewrite <- app_assoc.
      rewrite (next_skip f "WS_INLINE"); [|discriminate|reflexivity|].
      + rewrite (count_nl_blanks _ Hw), N.add_0_r, He. f_equal. rewrite count_nl_app, (count_nl_blanks _ Hw). reflexivity.
      + apply (skip_scan [x]); [|exists w; reflexivity|].
        * destruct Hx as [<-|[<-|[]]]; [left|right; left]; reflexivity.
        * rewrite re_named_ws. apply ws_ok; auto. destruct b' as [|y b']; [exact Hr|exact Ha].
  Qed.
  (** The next token, behind blanks and comments. *)
  Lemma text_head prev t rest : fits E prev t rest -> text t <> [] /\ ahead is_blank (text t) = false.
  Proof.
    assert (Hl : forall x, letter x = true -> is_blank x = false).
    { intros x Hx. unfold is_blank. cbn [existsb]. destruct (N.eqb_spec x 32); [subst; discriminate|]. destruct (N.eqb_spec x 9); [subst; discriminate|]. reflexivity. }
    assert (Ha : forall x, alnum x = true -> is_blank x = false).
    { intros x Hx. unfold is_blank. cbn [existsb]. destruct (N.eqb_spec x 32); [subst; discriminate|]. destruct (N.eqb_spec x 9); [subst; discriminate|]. reflexivity. }
    assert (Hi : forall v, ident E v -> v <> [] /\ ahead is_blank v = false).
    { intros v (x & v' & -> & Hx & _). split; [discriminate|]. cbn [ahead]. auto. }
    assert (Hpre : forall ns n, In ns [[]; u "sys."; u "az."] -> plain_name n -> (ns ++ n)%list <> [] /\ ahead is_blank (ns ++ n)%list = false).
    { intros ns n Hns [Hne Hn]. destruct Hns as [<-|[<-|[<-|[]]]]; [|split; [discriminate|reflexivity]..].
      destruct n as [|x n]; [contradiction|]. split; [discriminate|]. inversion Hn; subst. cbn [app ahead]. auto. }
    assert (Hfe : forall v, feeds v -> v <> [] /\ ahead is_blank v = false).
    { intros v Hv. destruct (feeds_head v Hv) as (x & v' & -> & Hx). split; [discriminate|]. destruct Hx as [<-|[<-|[]]]; reflexivity. }
    destruct t; cbn [fits text]; intros H.
    - destruct H as [H _]. assert (Hall : Forall (fun s => u s <> [] /\ ahead is_blank (u s) = false) symbols).
      { unfold symbols. repeat (constructor; [split; [discriminate|reflexivity]|]). constructor. }
      rewrite Forall_forall in Hall. apply Hall. exact H.
    - destruct H as [H _]. pose proof (keywords_ident E) as Hk. rewrite Forall_forall in Hk. apply Hi. apply Hk. exact H.
    - split; [discriminate|reflexivity].
    - apply Hi. apply H.
    - apply Hi. apply H.
    - apply Hi. apply H.
    - destruct H as [[Hne Hd] _]. destruct v as [|x v]; [contradiction|]. split; [discriminate|]. inversion Hd; subst. cbn [ahead]. apply Ha. unfold alnum. rewrite H1. apply orb_true_r.
    - split; [discriminate|reflexivity].
    - split; [discriminate|reflexivity].
    - destruct H as [(ns & n & -> & Hns & Hn) _]. destruct (Hpre ns n Hns Hn) as [H1 H2]. destruct (ns ++ n)%list; [contradiction|]. split; [discriminate|exact H2].
    - destruct H as [H _]. destruct (list_alpha v H) as [Hne Hv]. destruct v as [|x v]; [contradiction|]. split; [discriminate|]. inversion Hv; subst. cbn [ahead]. apply Ha. unfold alnum. rewrite H2. reflexivity.
    - destruct H as [(ns & n & -> & Hns & Hn) _]. apply Hpre; [cbn in *; tauto|exact Hn].
    - destruct H as [H _]. destruct H as [f Hf|body f Hb Hf]; [apply Hfe; exact Hf|]. split; [discriminate|reflexivity].
    - apply Hfe. apply H.
  Qed.
  Theorem next_tok prev t b rest line f : L prev t = true -> fits E prev t rest -> skipped b (text t ++ rest)%list ->
    List.length (b ++ text t ++ rest)%list < f ->
    next_token E f lx (b ++ text t ++ rest)%list line =
      let a := (line + count_nl b)%N in let e := (a + count_nl (text t))%N in
      LTok (tname t) {| ttype := u (tname t); tval := text t; tline := a; tend := e |} rest e.
  Proof.
    intros HL Hf Hs Hlen. destruct (text_head _ _ _ Hf) as [Hne Hb].
    destruct (skip_all (List.length b) b (text t ++ rest)%list line f) as (f' & Hf' & ->); auto.
    { destruct (text t); [contradiction|exact Hb]. }
    destruct f' as [|f']; [lia|]. destruct (scan_tok _ _ _ HL Hf) as (n & Hsc & Hig & Hre).
    cbn [next_token]. rewrite Hsc, Hig. rewrite firstn_app, Nat.sub_diag, firstn_all, firstn_O, app_nil_r, Hre.
    destruct (text t) eqn:He; [contradiction|]. reflexivity.
  Qed.
  Theorem next_end b line f : skipped b [] -> List.length b < f -> next_token E f lx b line = LEof (line + count_nl b)%N.
  Proof.
    intros Hs Hlen. destruct (skip_all (List.length b) b [] line f) as (f' & Hf' & He); auto.
    { rewrite app_nil_r. exact Hlen. }
    rewrite app_nil_r in He. rewrite He. destruct f' as [|f']; [cbn in Hf'; lia|]. reflexivity.
  Qed.
End Scan.
