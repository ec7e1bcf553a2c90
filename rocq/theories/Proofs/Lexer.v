(** The lexer: it never runs out of steps; a token is a non-empty piece of the
    text, preceded by ignored text only. *)
From Coq Require Import List Arith NArith Bool String Lia.
From Verif Require Import Py.Str Py.Val Lark.Regex Lark.Terminals Lark.Lexer Lark.BicepTables Proofs.Base Proofs.Regex Spec.Sentences.
Import ListNotations.

(** ** Well-formedness of all scanners *)
Definition term_ok (t : terminal) : bool :=
  let r := pat_re (t_pat t) in good r && negb (nullable r) && negb (leads r).
Lemma sorted_ok : forallb term_ok sorted_terminals = true.
Proof. vm_compute. reflexivity. Qed.
Lemma emb_not_ignored : forallb (fun p => negb (mem_str (snd p) ignored) && mem_str (snd p) term_names) embedded_pairs = true.
Proof. vm_compute. reflexivity. Qed.

Definition ws_terminal : terminal := Eval vm_compute in terminal_named "WS_INLINE".
Definition ws_re : re := Eval vm_compute in pat_re (t_pat ws_terminal).
Lemma ws_in : exists t, In t sorted_terminals /\ t_name t = "WS_INLINE"%string /\ pat_re (t_pat t) = ws_re.
Proof.
  exists ws_terminal. split; [|split; reflexivity].
  unfold sorted_terminals, ws_terminal.
  repeat lazymatch goal with
         | |- In ?a (?b :: _) => first [left; reflexivity | right]
         end.
Qed.
#[global] Opaque sorted_terminals embedded_pairs.

Lemma make_lexer_alts acc n r : In (n, r) (lx_alts (make_lexer acc)) ->
  exists t, In t sorted_terminals /\ t_name t = n /\ pat_re (t_pat t) = r
            /\ (mem_str n acc || mem_str n ignored) = true.
Proof.
  unfold make_lexer. cbn [lx_alts]. rewrite in_flat_map. intros (t & Ht & H).
  match type of H with In _ (if ?b then _ else _) => destruct b eqn:Hb end; [|contradiction].
  destruct H as [H|[]]. inversion H; subst. apply andb_true_iff in Hb as [Hb _]. eauto 6.
Qed.

Record lexer_ok (lx : lexer) : Prop := {
  lo_alts : forall n r, In (n, r) (lx_alts lx) ->
      good r = true /\ nullable r = false /\ leads r = false;
  lo_nonempty : lx_alts lx <> []
}.

Lemma ralt_good l : (forall r, In r l -> good r = true) -> good (ralt l) = true.
Proof.
  induction l as [|a [|b l] IH]; intros H; [reflexivity|apply H; left; reflexivity|].
  change (good a && good (ralt (b :: l)) = true). rewrite (H a) by (left; reflexivity).
  apply IH. intros r Hr. apply H. right. exact Hr.
Qed.
Lemma ralt_nn l : l <> [] -> (forall r, In r l -> nullable r = false) -> nullable (ralt l) = false.
Proof.
  induction l as [|a [|b l] IH]; intros Hl H; [contradiction|apply H; left; reflexivity|].
  change (nullable a || nullable (ralt (b :: l)) = false). rewrite (H a) by (left; reflexivity).
  apply IH; [discriminate|]. intros r Hr. apply H. right. exact Hr.
Qed.
Lemma ralt_nl l : (forall r, In r l -> leads r = false) -> leads (ralt l) = false.
Proof.
  induction l as [|a [|b l] IH]; intros H; [reflexivity|apply H; left; reflexivity|].
  change (leads a || leads (ralt (b :: l)) = false). rewrite (H a) by (left; reflexivity).
  apply IH. intros r Hr. apply H. right. exact Hr.
Qed.

Lemma ws_alt acc : In ("WS_INLINE"%string, ws_re) (lx_alts (make_lexer acc)).
Proof.
  unfold make_lexer. cbn [lx_alts]. rewrite in_flat_map.
  destruct ws_in as (t & Ht & Hn & Hr). exists t. split; [exact Ht|]. rewrite Hn, Hr.
  change (mem_str "WS_INLINE" ignored) with true. rewrite orb_true_r. cbn [andb].
  match goal with |- In _ (if negb ?b then _ else _) => destruct b eqn:Hb end; cbn [negb]; [|left; reflexivity].
  exfalso. unfold mem_str in Hb at 1. rewrite existsb_exists in Hb. destruct Hb as (x & Hx & Heq).
  apply String.eqb_eq in Heq. subst x. apply in_map_iff in Hx as ([a b] & Hs & Hf).
  cbn [snd] in Hs. subst b. apply filter_In in Hf as [Hf _].
  pose proof emb_not_ignored as He. rewrite forallb_forall in He. specialize (He _ Hf).
  apply andb_true_iff in He as [He _]. cbn in He. discriminate.
Qed.

Lemma make_lexer_ok acc : lexer_ok (make_lexer acc).
Proof.
  split.
  - intros n r H. apply make_lexer_alts in H as (t & Ht & _ & <- & _).
    pose proof sorted_ok as Hs. rewrite forallb_forall in Hs. specialize (Hs t Ht). unfold term_ok in Hs.
    apply andb_true_iff in Hs as [Hs H3]. apply andb_true_iff in Hs as [H1 H2].
    apply negb_true_iff in H2, H3. auto.
  - intros He. pose proof (ws_alt acc) as H. rewrite He in H. exact H.
Qed.

Section Lexing.
  Variable E : pyenv.

  Lemma scan_alts_spec top alts s :
    good top = true -> nullable top = false -> leads top = false ->
    (forall n r, In (n, r) alts -> good r = true /\ nullable r = false /\ leads r = false) ->
    match scan_alts E top alts s with
    | None => False
    | Some None => True
    | Some (Some (n, k, rest)) =>
        exists r c, In (n, r) alts /\ s = c ++ rest /\ k = List.length c /\ c <> [] /\ lang E top r c
    end.
  Proof.
    intros H1 H2 H3. induction alts as [|[n r] alts IH]; intros Hal; cbn [scan_alts]; [exact I|].
    destruct (Hal n r (or_introl eq_refl)) as (Hg & Hn & Hl).
    destruct (re_run E top (Datatypes.S (List.length s)) r s) as [| |k rest] eqn:Hr.
    - specialize (IH (fun n r H => Hal n r (or_intror H))).
      destruct (scan_alts E top alts s) as [[[[n' k] rest]|]|]; auto.
      destruct IH as (r' & c & Hin & H). exists r', c. split; [right; exact Hin|exact H].
    - exact (re_run_fuel E top r s H1 H2 H3 Hg Hl Hr).
    - destruct (re_run_sound _ _ _ _ _ _ _ Hr) as (c & Hs & Hk & Hc).
      exists r, c. repeat split; auto. left; reflexivity.
      exact (lang_nonnull E top H2 r c Hc Hn).
  Qed.

  Lemma scan_spec lx s : lexer_ok lx ->
    match scan E lx s with
    | None => False
    | Some None => True
    | Some (Some (n, k, rest)) =>
        exists r c, In (n, r) (lx_alts lx) /\ s = c ++ rest /\ k = List.length c /\ c <> []
                    /\ lang E (lx_top lx) r c
    end.
  Proof.
    intros [Ha Hne]. unfold scan, lx_top. apply scan_alts_spec.
    - apply ralt_good. intros r Hr. apply in_map_iff in Hr as ([n r'] & <- & Hin). apply (Ha n r' Hin).
    - apply ralt_nn.
      + intros He. apply map_eq_nil in He. contradiction.
      + intros r Hr. apply in_map_iff in Hr as ([n r'] & <- & Hin). apply (Ha n r' Hin).
    - apply ralt_nl. intros r Hr. apply in_map_iff in Hr as ([n r'] & <- & Hin). apply (Ha n r' Hin).
    - exact Ha.
  Qed.

  Lemma count_nl_app a b : count_nl (a ++ b) = (count_nl a + count_nl b)%N.
  Proof.
    induction a as [|c a IH]; cbn [app count_nl]; [reflexivity|]. destruct (c =? 10)%N; rewrite IH; lia.
  Qed.

  (** Text made of matches of ignored terminals of the scanner. *)
  Inductive ignored_text (lx : lexer) : str -> Prop :=
  | ig_nil : ignored_text lx []
  | ig_cons n r c s : In (n, r) (lx_alts lx) -> mem_str n ignored = true ->
      lang E (lx_top lx) r c -> ignored_text lx s -> ignored_text lx (c ++ s).

  Lemma next_token_spec lx : lexer_ok lx -> forall fuel s line, List.length s < fuel ->
    match next_token E fuel lx s line with
    | LFuel => False
    | LBad rest _ => exists ig, ignored_text lx ig /\ s = ig ++ rest
    | LEof line' => ignored_text lx s /\ line' = (line + count_nl s)%N
    | LTok n' t rest line' =>
        exists ig n r, ignored_text lx ig /\ s = ig ++ tval t ++ rest /\
          tline t = (line + count_nl ig)%N /\ tend t = (tline t + count_nl (tval t))%N /\ line' = tend t /\
          tval t <> [] /\ ttype t = u n' /\
          In (n, r) (lx_alts lx) /\ mem_str n ignored = false /\ n' = retype (lx_unless lx) n (tval t) /\
          lang E (lx_top lx) r (tval t) /\
          scan E lx (tval t ++ rest) = Some (Some (n, List.length (tval t), rest))
    end.
  Proof.
    intros Hlx. induction fuel as [|fuel IH]; intros s line Hf; [lia|].
    cbn [next_token]. destruct s as [|x s].
    - split; [constructor|cbn [count_nl]; lia].
    - pose proof (scan_spec lx (x :: s) Hlx) as Hscan.
      destruct (scan E lx (x :: s)) as [[[[n k] rest]|]|] eqn:Hsc.
      + destruct Hscan as (r & c & Hin & Hs & Hk & Hc & Hl). subst k.
        assert (Hfst : firstn (List.length c) (x :: s) = c).
        { rewrite Hs. rewrite firstn_app, firstn_all, Nat.sub_diag. cbn [firstn]. apply app_nil_r. }
        rewrite Hfst. cbv zeta. destruct (mem_str n ignored) eqn:Hig.
        * assert (Hlen : List.length rest < fuel).
          { apply (f_equal (@List.length N)) in Hs. rewrite app_length in Hs.
            destruct c; [contradiction|]. cbn [List.length] in *. lia. }
          specialize (IH rest (line + count_nl c)%N Hlen).
          destruct (next_token E fuel lx rest (line + count_nl c)%N) as [n' t rest' line'|line'|rest' line'|].
          -- destruct IH as (ig & n2 & r2 & Hi & Hr & Hl1 & Hl2 & Hrest).
             exists (c ++ ig), n2, r2. rewrite Hs, Hr, <- app_assoc. split; [econstructor; eauto|].
             split; [reflexivity|]. rewrite count_nl_app. split; [lia|]. exact (conj Hl2 Hrest).
          -- destruct IH as [Hi Hl1]. split; [|subst line'; rewrite Hs, count_nl_app; lia].
             rewrite Hs. econstructor; eauto.
          -- destruct IH as (ig & Hi & Hr). exists (c ++ ig). rewrite Hs, Hr, <- app_assoc.
             split; [econstructor; eauto|reflexivity].
          -- exact IH.
        * exists [], n, r. cbn [tval tline tend ttype app count_nl]. rewrite Hs.
          repeat split; auto; try lia; try constructor; try congruence.
      + exists []. split; [constructor|reflexivity].
      + exact Hscan.
  Qed.
End Lexing.

(** ** What a token named [n] can be *)
Definition tok_ok (E : pyenv) (n : string) (v : str) : Prop :=
  exists acc t, In t sorted_terminals /\ t_name t = n /\ mem_str n ignored = false /\
    v <> [] /\ lang E (lx_top (make_lexer acc)) (pat_re (t_pat t)) v.

Lemma emb_sorted : forallb (fun p => existsb (fun t => String.eqb (t_name t) (snd p)
     && match t_pat t with PatStr s => str_eqb (str_of_term (snd p)) (u s) && negb (str_eqb (u s) [])
                         | PatRe _ _ _ => false end)
     sorted_terminals) embedded_pairs = true.
Proof. vm_compute. reflexivity. Qed.

Lemma lang_rc E top s : lang E top (rc s) (u s).
Proof.
  unfold rc. induction (u s) as [|c l IH]; cbn [fold_right]; [constructor|].
  change (c :: l) with ([c] ++ l). constructor; [|exact IH]. constructor.
  unfold cs_mem, in_range. cbn. rewrite N.leb_refl. reflexivity.
Qed.

Lemma retype_spec tbl n v : retype tbl n v = n \/ In (n, (v, retype tbl n v)) tbl.
Proof.
  induction tbl as [|[n' [v' new]] tbl IH]; cbn [retype]; [left; reflexivity|].
  destruct (String.eqb n n' && str_eqb v v') eqn:H.
  - right. left. apply andb_true_iff in H as [H1 H2]. apply String.eqb_eq in H1.
    apply str_eqb_eq in H2. subst. reflexivity.
  - destruct IH as [IH|IH]; [left; exact IH|right; right; exact IH].
Qed.

Lemma lexed_tok_ok E acc n r v : In (n, r) (lx_alts (make_lexer acc)) -> mem_str n ignored = false ->
  v <> [] -> lang E (lx_top (make_lexer acc)) r v ->
  tok_ok E (retype (lx_unless (make_lexer acc)) n v) v.
Proof.
  intros Hin Hig Hv Hl. destruct (retype_spec (lx_unless (make_lexer acc)) n v) as [->|H].
  - apply make_lexer_alts in Hin as (t & Ht & Hn & Hr & _). exists acc, t. subst. auto.
  - set (n' := retype _ n v) in *. clearbody n'.
    unfold make_lexer in H. cbn [lx_unless] in H. apply in_map_iff in H as ([a b] & Heq & Hf).
    cbn [fst snd] in Heq. inversion Heq; subst. apply filter_In in Hf as [Hf _].
    pose proof emb_not_ignored as He. rewrite forallb_forall in He. specialize (He _ Hf).
    pose proof emb_sorted as Hs. rewrite forallb_forall in Hs. specialize (Hs _ Hf).
    cbv beta in He, Hs. cbn [snd] in He, Hs. apply andb_true_iff in He as [He _]. apply negb_true_iff in He.
    apply existsb_exists in Hs as (t & Ht & Hs). apply andb_true_iff in Hs as [Hn Hp].
    apply String.eqb_eq in Hn. exists acc, t. repeat split; auto.
    destruct (t_pat t) as [s|]; [|discriminate]. apply andb_true_iff in Hp as [Hp _].
    apply str_eqb_eq in Hp. cbn [pat_re]. rewrite Hp. apply lang_rc.
Qed.

(** ** Ignored text, in plain terms *)
Lemma blank_app a b : blank a -> blank b -> blank (a ++ b).
Proof.
  intros Ha Hb. induction Ha as [|x s Hx Hs IH]; cbn [app]; [exact Hb|].
  rewrite <- app_assoc. constructor; assumption.
Qed.

Lemma single_set E x y : cs_mem E {| cs_ranges := [(x, x)]; cs_word := false; cs_neg := false |} y = true -> y = x.
Proof.
  unfold cs_mem, in_range. cbn [cs_ranges cs_word cs_neg existsb fst snd andb xorb].
  rewrite !orb_false_r. destruct (x <=? y)%N eqn:Ha; [|discriminate]. cbn [andb].
  destruct (y <=? x)%N eqn:Hb; [|discriminate]. intros _. apply N.leb_le in Ha, Hb. lia.
Qed.
Lemma lang_rc_inv E top s c : lang E top (rc s) c -> c = u s.
Proof.
  unfold rc. revert c. induction (u s) as [|x l IH]; intros c H; cbn [fold_right] in H.
  - inversion H. reflexivity.
  - inversion H as [| |a b s1 t1 H1 H2| | | | | | |]; subst. inversion H1 as [|c0 y Hy| | | | | | | |]; subst.
    apply IH in H2. subst. cbn [app]. f_equal.
    exact (single_set _ _ _ Hy).
Qed.
Lemma lang_star_set E top g cs c : lang E top (RStar g (RSet cs)) c -> Forall (fun x => cs_mem E cs x = true) c.
Proof.
  intros H. remember (RStar g (RSet cs)) as r. induction H; inversion Heqr; subst; [constructor|].
  apply Forall_app. split; [|auto]. match goal with H : lang _ _ (RSet _) _ |- _ => inversion H; subst end.
  repeat constructor. assumption.
Qed.

(** Terminal names are unique; the pattern of a named terminal. *)
Definition re_named (n : string) : re :=
  match List.find (fun t => String.eqb (t_name t) n) sorted_terminals with
  | Some t => pat_re (t_pat t)
  | None => REps
  end.
Fixpoint nodupb (l : list string) : bool :=
  match l with [] => true | x :: l' => negb (mem_str x l') && nodupb l' end.
Lemma names_nodup : nodupb (map t_name sorted_terminals) = true.
Proof. vm_compute. reflexivity. Qed.
Lemma find_named l t : nodupb (map t_name l) = true -> In t l ->
  List.find (fun t' => String.eqb (t_name t') (t_name t)) l = Some t.
Proof.
  induction l as [|x l IH]; intros Hn Hin; [contradiction|]. cbn [map nodupb] in Hn.
  apply andb_true_iff in Hn as [H1 H2]. cbn [List.find]. destruct Hin as [->|Hin].
  - rewrite String.eqb_refl. reflexivity.
  - destruct (String.eqb_spec (t_name x) (t_name t)) as [He|_]; [|apply IH; assumption].
    exfalso. apply negb_true_iff in H1. unfold mem_str in H1.
    assert (existsb (String.eqb (t_name x)) (map t_name l) = true); [|congruence].
    apply existsb_exists. exists (t_name t). split; [apply in_map; exact Hin|]. apply String.eqb_eq. exact He.
Qed.
Lemma re_named_eq t : In t sorted_terminals -> pat_re (t_pat t) = re_named (t_name t).
Proof. intros H. unfold re_named. rewrite (find_named _ _ names_nodup H). reflexivity. Qed.

Lemma tok_ok_lang E n v : tok_ok E n v -> exists top, lang E top (re_named n) v.
Proof.
  intros (acc & t & Ht & Hn & _ & _ & Hl). exists (lx_top (make_lexer acc)).
  rewrite (re_named_eq t Ht), Hn in Hl. exact Hl.
Qed.

Lemma any_set E c : Forall (fun x => cs_mem E {| cs_ranges := [(10, 10)%N]; cs_word := false; cs_neg := true |} x = true) c ->
  ~ In 10%N c.
Proof. intros H Hin. rewrite Forall_forall in H. specialize (H _ Hin). vm_compute in H. discriminate. Qed.

Lemma re_named_ws : re_named "WS_INLINE" = rplus (RAlt (rchar 32) (rchar 9)).
Proof. vm_compute. reflexivity. Qed.
Lemma re_named_sh : re_named "SH_COMMENT" = RSeq (rc "#") (RStar true (rnot [10%N])).
Proof. vm_compute. reflexivity. Qed.
Lemma re_named_cc : re_named "C_COMMENT" = RSeq (rc "/*") (RSeq (RStar false (rnot [])) (rc "*/")).
Proof. vm_compute. reflexivity. Qed.

Lemma ws_char_blank E top c : lang E top (RAlt (rchar 32) (rchar 9)) c -> blank_piece c.
Proof.
  intros H. inversion H; subst;
  match goal with H : lang _ _ (rchar _) _ |- _ => inversion H as [|cs x Hx| | | | | | | |]; subst end;
  apply single_set in Hx; subst x; constructor.
Qed.

Lemma ignored_blank_piece E acc n r c : In (n, r) (lx_alts (make_lexer acc)) -> mem_str n ignored = true ->
  lang E (lx_top (make_lexer acc)) r c -> blank c.
Proof.
  intros Hin Hig Hl. set (top := lx_top (make_lexer acc)) in *. clearbody top.
  apply make_lexer_alts in Hin as (t & Ht & Hn & Hr & _). subst r. rewrite (re_named_eq t Ht), Hn in Hl. clear t Ht Hn.
  unfold mem_str, ignored in Hig. cbn [existsb] in Hig. rewrite orb_false_r in Hig.
  apply orb_true_iff in Hig as [Hig|Hig]; [|apply orb_true_iff in Hig as [Hig|Hig]];
    apply String.eqb_eq in Hig; subst n.
  - rewrite re_named_cc in Hl. inversion Hl as [| |a b s1 t1 H1 H2| | | | | | |]; subst.
    inversion H2 as [| |a b s2 t2 H3 H4| | | | | | |]; subst.
    apply lang_rc_inv in H1, H4. subst. rewrite <- (app_nil_r (_ ++ _)). constructor; constructor.
  - rewrite re_named_sh in Hl. inversion Hl as [| |a b s1 t1 H1 H2| | | | | | |]; subst.
    apply lang_rc_inv in H1. subst. rewrite <- (app_nil_r (_ ++ _)). constructor; [|constructor].
    constructor. apply lang_star_set, any_set in H2. exact H2.
  - rewrite re_named_ws in Hl. unfold rplus in Hl.
    inversion Hl as [| |a b s1 t1 H1 H2| | | | | | |]; subst. constructor; [exact (ws_char_blank _ _ _ H1)|].
    clear Hl H1. remember (RStar true (RAlt (rchar 32) (rchar 9))) as r eqn:Hr.
    induction H2; inversion Hr; subst; [constructor|].
    constructor; [eapply ws_char_blank; eassumption|auto].
Qed.

Lemma ignored_text_blank E acc s : ignored_text E (make_lexer acc) s -> blank s.
Proof.
  intros H. induction H as [|n r c s Hin Hig Hl Hs IH]; [constructor|].
  apply blank_app; [|exact IH]. exact (ignored_blank_piece E acc n r c Hin Hig Hl).
Qed.
