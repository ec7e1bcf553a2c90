(** Top-level declarations against their specification. *)
From Coq Require Import List Arith NArith ZArith Bool String Lia.
From Verif Require Import Py.Str Py.Val Pycep.Utils Pycep.Transformer Lark.Tree
  Spec.Json Spec.Schema Spec.Trees Spec.Lexemes Spec.Program Spec.Reports Spec.Children Spec.Declarations
  Proofs.Base Proofs.JsonLemmas Proofs.TokenForms Proofs.TreeGrammar Proofs.Transform Proofs.Typing Proofs.State Proofs.Quiet
  Proofs.Program Proofs.Children.
Import ListNotations.
Local Open Scope string_scope.

(** [s.split(c)]: the pieces between the separators. *)
Lemma split_nonempty c s : split_char c s <> [].
Proof. destruct s as [|x s]; cbn [split_char]; [discriminate|]. destruct (x =? c)%N; [discriminate|]. destruct (split_char c s); discriminate. Qed.
Lemma split_one c s a : split_char c s = [a] <-> s = a /\ ~ In c s.
Proof.
  revert a. induction s as [|x s IH]; intros a; cbn [split_char].
  - split; [intros [= <-]; split; [reflexivity|intros []]|intros [<- _]; reflexivity].
  - destruct (N.eqb_spec x c) as [->|Hx].
    + split; [intros H; injection H as <- H; exfalso; exact (split_nonempty _ _ H)|intros [_ H]; exfalso; apply H; left; reflexivity].
    + destruct (split_char c s) as [|h t] eqn:Hs; [exfalso; exact (split_nonempty _ _ Hs)|]. split.
      * intros H. injection H as <- ->. destruct (proj1 (IH h) eq_refl) as [-> Hn]. split; [reflexivity|].
        intros [H|H]; [congruence|exact (Hn H)].
      * intros [<- Hn]. assert (Hs' : h :: t = [s]) by (apply IH; split; [reflexivity|intros H; apply Hn; right; exact H]).
        injection Hs' as -> ->. reflexivity.
Qed.
Lemma split_two c s a b : split_char c s = [a; b] <-> s = (a ++ c :: b)%list /\ ~ In c a /\ ~ In c b.
Proof.
  revert a. induction s as [|x s IH]; intros a; cbn [split_char].
  - split; [discriminate|]. intros [H _]. destruct a; discriminate.
  - destruct (N.eqb_spec x c) as [->|Hx].
    + split.
      * intros H. injection H as <- H. apply split_one in H as [-> Hn]. split; [reflexivity|]. split; [intros []|exact Hn].
      * intros (He & Ha & Hb). destruct a as [|y a].
        -- cbn in He. injection He as ->. f_equal. apply split_one. auto.
        -- exfalso. injection He as <- _. apply Ha. left. reflexivity.
    + destruct (split_char c s) as [|h t] eqn:Hs; [exfalso; exact (split_nonempty _ _ Hs)|]. split.
      * intros H. injection H as <- ->. destruct (proj1 (IH h) eq_refl) as (-> & Ha & Hb).
        split; [reflexivity|]. split; [|exact Hb]. intros [H|H]; [congruence|exact (Ha H)].
      * intros (He & Ha & Hb). destruct a as [|y a]; [cbn in He; injection He as H _; congruence|]. cbn in He. injection He as <- ->.
        assert (Hs' : h :: t = [a; b]).
        { apply IH. split; [reflexivity|]. split; [intros H; apply Ha; right; exact H|exact Hb]. }
        injection Hs' as -> ->. reflexivity.
Qed.

Section Elements.
  Variable E : pyenv.
  Variable ln : bool.
  Notation tf := (transform E ln).

  Lemma with_lines_app m attrs : ~ In (u "__start_line__") (map fst attrs) -> ~ In (u "__end_line__") (map fst attrs) ->
    with_lines ln (Some m) attrs = Ok (attrs ++ lines ln (Some m))%list.
  Proof.
    intros H1 H2. unfold with_lines, lines. destruct ln; [|rewrite app_nil_r; reflexivity]. destruct m as [a b].
    rewrite (aset_absent (u "__start_line__") _ attrs H1), aset_absent.
    - rewrite <- app_assoc. reflexivity.
    - rewrite map_app, in_app_iff. intros [H|[H|[]]]; [exact (H2 H)|discriminate].
  Qed.
  Lemma deco_val d w : ok E (sOpt sDecos) d -> tf d = Ok w -> decorators_of E ln d (or_empty w).
  Proof.
    intros H Hw. inversion H; subst.
    - injection Hw as <-. reflexivity.
    - unfold decorators_of. match goal with H1 : ok E sDecos d |- _ => inversion H1; subst; cbn [given]; pose proof H1 as Hd end.
      pose proof (value_of E ln true sDecos _ w Hd eq_refl ltac:(discriminate) Hw) as (l & -> & _). rewrite Hw.
      destruct l; reflexivity.
  Qed.
  Lemma alias_val a w : ok E (sOpt (sTok "STRING")) a -> tf a = Ok w ->
    (a = TNone /\ w = PNone) \/ (exists t, a = TTok t /\ w = PTok t /\ truthy w = true).
  Proof.
    intros H Hw. apply opt_tok_inv in H as [->|(t & -> & Ht)]; injection Hw as <-; [left; auto|right].
    exists t. split; [reflexivity|]. split; [reflexivity|]. destruct Ht as [_ Ht]. apply tok_string in Ht as (c & s & Hs & _). cbn [truthy]. rewrite Hs. reflexivity.
  Qed.
  Lemma params_val ps ws : okp E ps -> all_ok tf ps = Ok ws -> exists args, zip_pairs E ws = Ok args /\ parameters E ln ps args.
  Proof.
    intros H. revert ws. induction H as [|a t cs Ha Ht Hcs IH]; intros ws Hw.
    - injection Hw as <-. exists []. split; [reflexivity|constructor].
    - apply tok_inv in Ha as (ta & -> & Ha). cbn [all_ok] in Hw. rewrite transform_tok in Hw.
      destruct (tf t) as [vt|e] eqn:Hvt; [|discriminate]. destruct (all_ok tf cs) as [vs|e]; [|discriminate]. injection Hw as <-.
      destruct (IH _ eq_refl) as (args & Hz & Hp). exists ((tval ta, vt) :: args). cbn [zip_pairs]. rewrite Hz. cbn [bind py_str].
      split; [reflexivity|]. constructor; assumption.
  Qed.
  Lemma quoted_val t b : tk E "QUOTED_INTERPOLATION" t -> tval t = quote b -> transform_string_token (PTok t) = Ok (PStr b).
  Proof.
    intros [Ht _] Hb. cbn [transform_string_token]. rewrite Ht, Hb.
    change (str_eqb (u "QUOTED_INTERPOLATION") (u "MULTI_LINE_STRING")) with false.
    change (str_eqb (u "QUOTED_INTERPOLATION") (u "QUOTED_STRING")) with false.
    change (str_eqb (u "QUOTED_INTERPOLATION") (u "QUOTED_INTERPOLATION")) with true. cbn [negb orb]. rewrite slice_quote. reflexivity.
  Qed.
  Lemma imports_val m s cs ws : tk E "QUOTED_INTERPOLATION" s ->
    forall p, tval s = quote p ->
    oks E sImp cs -> all_ok tf cs = Ok ws ->
    exists es rs, import_entries E ln (Some m) (PTok s) ws = Ok rs /\ map as_entry rs = map Some es /\ Forall2 (imported ln p (Some m)) cs es.
  Proof.
    intros Hs p Hp. revert ws. induction cs as [|c cs IH]; intros ws Hok Hws.
    - injection Hws as <-. exists [], []. split; [reflexivity|]. split; [reflexivity|constructor].
    - inversion Hok as [|? ? ? Hc Hcs]; subst. cbn [all_ok] in Hws.
      destruct (tf c) as [w|e] eqn:Hw; [|discriminate]. destruct (all_ok tf cs) as [ws'|e]; [|discriminate]. injection Hws as <-.
      destruct (IH _ Hcs eq_refl) as (es & rs & Hrs & Hes & HF).
      assert (Hcv : exists mi n a wa, c = TNode L_import_alias mi [TTok n; a] /\ ok E (sOpt (sTok "STRING")) a /\ tf a = Ok wa /\
        w = PDict (if truthy wa then [(u "name", PStr (tval n)); (u "alias", py_str' E wa)] else [(u "name", PStr (tval n))])).
      { inversion Hc; subst; match goal with Ha : ok E (sTok _) ?a, Hb : ok E (sOpt (sTok "STRING")) ?b |- _ =>
          apply tok_inv in Ha as (tn & -> & Ha);
          rewrite transform_node_quiet in Hw by (cbn [forallb quiet]; rewrite (quiet_ok E _ _ Hb eq_refl); reflexivity);
          cbn [all_ok] in Hw; rewrite transform_tok in Hw; destruct (tf b) as [wa|] eqn:Hwa; [|discriminate];
          cbn [bind] in Hw; apply wrap_Ok in Hw; cbn in Hw; injection Hw as <-;
          do 4 eexists; split; [reflexivity|]; split; [exact Hb|]; split; [exact Hwa|]; reflexivity end. }
      destruct Hcv as (mi & n & a & wa & -> & Ha & Hwa & ->).
      cbn [import_entries]. unfold import_entry.
      pose proof (quoted_val _ _ Hs Hp) as Hfp.
      destruct (alias_val _ _ Ha Hwa) as [[-> ->]|(ta & -> & -> & Htr)].
      + change (py_getitem _ (u "name")) with (Ok (PStr (tval n))). cbn [bind]. rewrite Hfp. cbn [bind].
        change (py_get _ (u "alias") PNone) with (Ok PNone). cbn [bind truthy].
        rewrite with_lines_app by (cbn; intuition discriminate). cbn [bind]. rewrite Hrs. cbn [bind].
        do 2 eexists. split; [reflexivity|]. split; [|constructor; [exact (imported_symbol ln p (Some m) mi n TNone)|exact HF]].
        cbn [map]. rewrite Hes. reflexivity.
      + rewrite Htr. change (py_getitem _ (u "name")) with (Ok (PStr (tval n))). cbn [bind]. rewrite Hfp. cbn [bind].
        change (py_get _ (u "alias") PNone) with (Ok (PStr (tval ta))). cbn [bind].
        assert (Htr' : truthy (PStr (tval ta)) = true) by exact Htr. rewrite Htr'.
        rewrite with_lines_app by (cbn; intuition discriminate). cbn [bind]. rewrite Hrs. cbn [bind].
        do 2 eexists. split; [reflexivity|]. split; [|constructor; [exact (imported_symbol ln p (Some m) mi n (TTok ta))|exact HF]].
        cbn [map]. rewrite Hes. reflexivity.
  Qed.

  Lemma over_inv l m cs v st : forallb quiet cs = true -> transform_tree E ln (TNode l m cs) tstate0 = Ok (v, st) ->
    exists vs, all_ok tf cs = Ok vs /\ call E ln l m vs tstate0 = Ok (v, st).
  Proof.
    intros Hq H. rewrite (transform_over E ln l m cs Hq) in H. destruct (all_ok tf cs) as [vs|e]; [|discriminate].
    cbn [bind] in H. apply wrap_Ok in H. eauto.
  Qed.
  Lemma all_ok_cons c cs vs : all_ok tf (c :: cs) = Ok vs -> exists v vs', vs = v :: vs' /\ tf c = Ok v /\ all_ok tf cs = Ok vs'.
  Proof.
    cbn [all_ok]. destruct (tf c) as [v|]; [|discriminate]. destruct (all_ok tf cs) as [vs'|]; [|discriminate]. intros [= <-]. eauto.
  Qed.
  Lemma all_ok_nil (vs : list pyval) : all_ok tf [] = Ok vs -> vs = [].
  Proof. cbn. congruence. Qed.

  Ltac quiets := cbn [forallb quiet andb]; rewrite ?forallb_app; cbn [forallb quiet andb];
    repeat match goal with
    | H : ok E _ ?c |- context [quiet ?c] => rewrite (quiet_ok E _ _ H eq_refl)
    | H : okp E ?c |- context [forallb quiet ?c] => rewrite (quiet_okp E _ H)
    | H : oks E _ ?c |- context [forallb quiet ?c] => rewrite (quiet_oks E _ _ H eq_refl)
    end; reflexivity.
  Ltac vals H :=
    match type of H with
    | all_ok tf [] = Ok ?vs => apply all_ok_nil in H; subst vs
    | all_ok tf (_ :: _) = Ok ?vs =>
        let v := fresh "w" in let vs' := fresh "ws" in let Hv := fresh "Hw" in
        apply all_ok_cons in H as (v & vs' & -> & Hv & H);
        try (rewrite transform_tok in Hv; injection Hv as <-); vals H
    end.
  Ltac toks := repeat match goal with H : ok E (sTok _) ?a |- _ => is_var a; apply tok_inv in H as (? & -> & H) end.
  Ltac done_with tac := do 3 eexists; split; [tac|split; [right; eexists; split; reflexivity|split; reflexivity]].

  Lemma type_inv t : ok E sType t -> exists m a cs, t = TNode L_data_type (Some m) (a :: cs) /\ ok E sBase a /\ oks E sSuf cs.
  Proof. intros H. inversion H; subst. do 3 eexists. eauto. Qed.
  Lemma type_truthy t w : ok E sType t -> tf t = Ok w -> truthy w = true.
  Proof.
    intros H Hw. destruct (type_inv t H) as (m & a & cs & -> & Ha & Hcs).
    unfold transform in Hw. destruct (transform_tree E ln (TNode L_data_type (Some m) (a :: cs)) tstate0) as [[w' st]|] eqn:Ht; [|discriminate].
    cbn [bind] in Hw. injection Hw as ->. apply over_inv in Ht as (vs & Hvs & Ht); [|quiets].
    apply all_ok_cons in Hvs as (wa & ws & -> & Hwa & Hvs).
    assert (Hta : truthy wa = true).
    { inversion Ha; subst; toks.
      - unfold transform in Hwa. cbn in Hwa. injection Hwa as <-. cbn [truthy].
        match goal with Hs : tk E "STRING" _ |- _ => destruct Hs as [_ Hs]; apply tok_string in Hs as (c & s & Hs & _); rewrite Hs end. reflexivity.
      - match goal with Hu : ok E sUnion _ |- _ => pose proof Hu as Hun; inversion Hun; subst end.
        unfold transform in Hwa. destruct (transform_tree E ln (TNode L_base_type _ _) tstate0) as [[w' st']|] eqn:Ht'; [|discriminate].
        cbn [bind] in Hwa. injection Hwa as ->. apply over_inv in Ht' as (vs' & Hvs' & Ht'); [|quiets].
        apply all_ok_cons in Hvs' as (wb & wbs & -> & Hwb & Hvs'). apply all_ok_nil in Hvs' as ->.
        unfold transform in Hwb. destruct (transform_tree E ln (TNode L_union_type _ _) tstate0) as [[w' st'']|] eqn:Ht''; [|discriminate].
        cbn [bind] in Hwb. injection Hwb as ->. apply over_inv in Ht'' as (vs'' & Hvs'' & Ht''); [|quiets].
        cbn in Ht''. injection Ht'' as <- _. cbn in Ht'. injection Ht' as <- _. reflexivity. }
    unfold call, cb_data_type, pure in Ht. cbn [bind] in Ht. injection Ht as <- _.
    clear -Hta. revert wa Hta. induction ws as [|x ws IH]; intros wa Hta; cbn [fold_left]; [exact Hta|]. apply IH. reflexivity.
  Qed.

  Theorem element_declares c v st : ok E sElem c -> (is_resource c = true -> clean c = true) -> transform_tree E ln c tstate0 = Ok (v, st) ->
    exists own imps ch, declares E ln c own imps ch /\ to_entries v own /\
      map as_entry (imports st) = map Some imps /\ map as_entry (child_resources st) = map Some ch.
  Proof.
    intros Hok Hc Ht. inversion Hok; subst; toks.
    all: apply over_inv in Ht as (vs & Hvs & Ht); [|quiets].
    - (* scope *) vals Hvs. destruct H as [Hty Hq]. apply tok_quoted in Hq as (b & Hb). unfold call, cb_scope, pure in Ht. cbn [arg_at nth_error bind py_str] in Ht. rewrite Hb, slice_quote in Ht.
      match type of Ht with context [if ?x then _ else _] => destruct x eqn:Hx end; [|discriminate].
      rewrite with_lines_app in Ht by (cbn; intuition discriminate). cbn [bind] in Ht. injection Ht as <- <-.
      apply existsb_exists in Hx as (s & Hin & Hs). destruct (str_eqb_spec b s) as [->|]; [|discriminate].
      done_with ltac:(apply (decl_scope E ln (Some m) x s Hb); exact Hin).
    - (* namespace import *) vals Hvs. pose proof H as Hq. destruct Hq as [_ Hq]. apply tok_quoted in Hq as (b & Hb).
      unfold call, cb_custom_import in Ht. rewrite (quoted_val _ _ H Hb) in Ht. cbn [bind] in Ht. injection Ht as <- <-.
      do 3 eexists. split; [apply (decl_namespace E ln (Some m) x b Hb)|]. split; [left; auto|]. split; reflexivity.
    - (* imports *)
      change (c0 :: cs ++ [TTok x])%list with ((c0 :: cs) ++ [TTok x])%list in Hvs. rewrite all_ok_app in Hvs.
      destruct (all_ok tf (c0 :: cs)) as [ws|] eqn:Hws; [|discriminate]. cbn [bind all_ok] in Hvs. rewrite transform_tok in Hvs. cbn [bind] in Hvs.
      injection Hvs as <-. destruct (tok_quoted E _ (proj2 H1)) as (b & Hb).
      destruct (imports_val m x (c0 :: cs) ws H1 b Hb (oks_cons E _ _ _ H H0) Hws) as (es & rs & Hrs & Hes & HF).
      assert (Hcall : cb_custom_import E ln (Some m) (ws ++ [PTok x])%list = Ok rs).
      { apply all_ok_cons in Hws as (w & ws' & -> & _ & _). unfold cb_custom_import. cbn [app].
        destruct (ws' ++ [PTok x])%list as [|y l] eqn:Hl; [destruct ws'; discriminate|]. rewrite <- Hl.
        change (w :: (ws' ++ [PTok x]))%list with ((w :: ws') ++ [PTok x])%list. rewrite last_last, removelast_last. exact Hrs. }
      unfold call in Ht. rewrite Hcall in Ht. cbn [bind] in Ht. injection Ht as <- <-.
      do 3 eexists. split; [exact (decl_import E ln (Some m) c0 cs x b es Hb HF)|]. split; [left; auto|]. split; [exact Hes|reflexivity].
    - (* extension *) vals Hvs. unfold call, cb_extension, pure in Ht.
      destruct (alias_val _ _ H1 Hw0) as [[-> ->]|(ta & -> & -> & Htr)].
      + cbn [truthy] in Ht. rewrite with_lines_app in Ht by (destruct (truthy w); cbn; intuition discriminate).
        cbn [bind] in Ht. injection Ht as <- <-.
        done_with ltac:(exact (decl_extension E ln (Some m) x b TNone w Hw)).
      + rewrite Htr in Ht. rewrite with_lines_app in Ht by (destruct (truthy w); cbn; intuition discriminate).
        cbn [bind] in Ht. injection Ht as <- <-. rewrite <- app_assoc.
        done_with ltac:(exact (decl_extension E ln (Some m) x b (TTok ta) w Hw)).
    - (* metadata *) vals Hvs. unfold call, cb_metadata, pure in Ht.
      rewrite with_lines_app in Ht by (cbn; intuition discriminate). cbn [bind] in Ht. injection Ht as <- <-.
      done_with ltac:(exact (decl_metadata E ln (Some m) x b w Hw)).
    - (* param *) vals Hvs. unfold call, cb_param, pure in Ht.
      rewrite with_lines_app in Ht by (cbn; intuition discriminate). cbn [bind] in Ht. injection Ht as <- <-.
      done_with ltac:(exact (decl_param E ln (Some m) d x t v0 _ _ _ (deco_val _ _ H Hw) Hw0 Hw1)).
    - (* var *) vals Hvs. unfold call, cb_var, pure in Ht.
      assert (Htr : truthy w0 = given t).
      { inversion H1; subst; [injection Hw0 as <-; reflexivity|].
        match goal with Hty : ok E sType t |- _ => rewrite (type_truthy _ _ Hty Hw0); inversion Hty; subst end. reflexivity. }
      rewrite Htr in Ht. rewrite with_lines_app in Ht by (destruct (given t); cbn; intuition discriminate). cbn [bind] in Ht. injection Ht as <- <-.
      do 3 eexists; split; [exact (decl_var E ln (Some m) d x t v0 _ _ _ (deco_val _ _ H Hw) Hw0 Hw1)|split; [right; eexists; split; [|reflexivity]|split; reflexivity]].
      destruct (given t); reflexivity.
    - (* output *) vals Hvs. unfold call, cb_output, pure in Ht.
      rewrite with_lines_app in Ht by (cbn; intuition discriminate). cbn [bind] in Ht. injection Ht as <- <-.
      done_with ltac:(exact (decl_output E ln (Some m) d x t v0 _ _ _ (deco_val _ _ H Hw) Hw0 Hw1)).
    - (* resource *) vals Hvs. pose proof (clean_node _ _ _ (Hc eq_refl)) as Hcs. cbn [forallb] in Hcs. rewrite !andb_true_iff in Hcs. destruct Hcs as (_ & _ & _ & _ & Hcb & _).
      inversion H1; subst; toks.
      match goal with Hq : tk E "QUOTED_INTERPOLATION" ?t |- _ => destruct (tok_quoted E _ (proj2 Hq)) as (b & Hb); rename t into tt end.
      unfold transform in Hw0. cbn in Hw0. rewrite Hb, slice_quote in Hw0. unfold wrap in Hw0.
      destruct (split_char 64 b) as [|ty [|api [|]]] eqn:Hsp; try discriminate. cbn in Hw0. injection Hw0 as <-.
      apply split_two in Hsp as (-> & Hn1 & Hn2).
      assert (Hex : truthy w1 = given x).
      { apply opt_tok_inv in H2 as [->|(tx & -> & Hx)]; injection Hw1 as <-; [reflexivity|].
        cbn [truthy given]. destruct Hx as [_ Hx]. apply tok_existing in Hx. rewrite Hx. reflexivity. }
      pose proof (value_of E ln false sBody v0 w2 H3 eq_refl (fun _ => Hcb) Hw2) as Hbody. cbn [vok] in Hbody. destruct Hbody as (_ & (dd & ->) & _).
      unfold call, cb_resource in Ht. cbn [py_str] in Ht.
      change (py_getitem _ (u "type")) with (Ok (PStr ty)) in Ht. change (py_getitem _ (u "api_version")) with (Ok (PStr api)) in Ht. cbn [bind py_str] in Ht.
      destruct (process_child_resource E (pv_depth (PDict dd)) (tval x0) ty api (PDict dd)) as [[cfgv ch]|e] eqn:Hp; [|discriminate]. cbn [bind] in Ht.
      destruct (pcr_lifts E ln _ _ _ _ v0 dd None dd cfgv ch H3 Hcb Hw2 eq_refl Hp) as (cfg & cfg1 & es & Hl & Hes & -> & ->).
      rewrite Hex in Ht. rewrite with_lines_app in Ht by (cbn; intuition discriminate). cbn [bind] in Ht. injection Ht as <- <-.
      do 3 eexists. split; [exact (decl_resource E ln (Some m) _ d x0 tt x v0 _ ty api cfg es (deco_val _ _ H Hw) Hb Hn1 Hn2 Hl)|].
      split; [right; eexists; split; reflexivity|]. split; [reflexivity|exact Hes].
    - (* module *) vals Hvs.
      pose proof (value_of E ln true sMP _ _ H1 eq_refl ltac:(discriminate) Hw0) as Hmp. cbn [vok] in Hmp. destruct Hmp as (k & fs & det & _ & -> & _).
      unfold call, cb_module, pure in Ht.
      change (py_getitem _ (u "type")) with (Ok (PStr (u k))) in Ht. change (py_getitem _ (u "detail")) with (Ok det) in Ht. cbn [bind] in Ht.
      rewrite with_lines_app in Ht by (cbn; intuition discriminate). cbn [bind] in Ht. injection Ht as <- <-.
      done_with ltac:(exact (decl_module E ln (Some m) d x t v0 _ _ _ _ (deco_val _ _ H Hw) Hw0 Hw1)).
    - (* type *) vals Hvs. unfold call, cb_custom_type, pure in Ht.
      rewrite with_lines_app in Ht by (cbn; intuition discriminate). cbn [bind] in Ht. injection Ht as <- <-.
      done_with ltac:(exact (decl_type E ln (Some m) d x v0 _ _ (deco_val _ _ H Hw) Hw0)).
    - (* func *)
      apply all_ok_cons in Hvs as (wd & vs1 & -> & Hwd & Hvs). apply all_ok_cons in Hvs as (wn & vs2 & -> & Hwn & Hvs).
      rewrite transform_tok in Hwn. injection Hwn as <-. rewrite all_ok_app in Hvs.
      destruct (all_ok tf ps) as [ws|] eqn:Hws; [|discriminate]. cbn [bind] in Hvs.
      destruct (all_ok tf [t; v0]) as [ws2|] eqn:Hws2; [|discriminate]. cbn [bind] in Hvs. injection Hvs as <-.
      apply all_ok_cons in Hws2 as (wt & ws3 & -> & Hwt & Hws2). apply all_ok_cons in Hws2 as (wv & ws4 & -> & Hwv & Hws2). apply all_ok_nil in Hws2 as ->.
      destruct (params_val ps ws ltac:(assumption) Hws) as (args & Hz & Hpar).
      unfold call, cb_custom_func, pure in Ht. rewrite rev_app_distr in Ht. cbn [rev app] in Ht. rewrite rev_involutive, Hz in Ht. cbn [bind] in Ht.
      rewrite with_lines_app in Ht by (cbn; intuition discriminate). cbn [bind] in Ht. injection Ht as <- <-.
      done_with ltac:(exact (decl_func E ln (Some m) d x ps t v0 _ _ _ _ (deco_val _ _ H Hwd) Hpar Hwt Hwv)).
  Qed.

  (** ** The whole program *)
  Lemma to_entries_some rs es : map as_entry rs = map Some es -> Forall2 to_entries rs (map (fun e => [e]) es).
  Proof.
    revert es. induction rs as [|r rs IH]; intros [|e es] H; try discriminate; [constructor|].
    cbn [map] in *. injection H as H1 H2. constructor; [right; eauto|auto].
  Qed.
  Lemma concat_single {A} (l : list A) : List.concat (map (fun x => [x]) l) = l.
  Proof. induction l as [|x l IH]; cbn; congruence. Qed.
  Lemma map_as_app rs rs' es es' : map as_entry rs = map Some es -> map as_entry rs' = map Some es' ->
    map as_entry (rs ++ rs')%list = map Some (es ++ es')%list.
  Proof. intros H1 H2. rewrite !map_app. congruence. Qed.

  (** Any description of single declarations extends to programs. *)
  Inductive all_of (D : ptree -> list entry -> list entry -> list entry -> Prop) : list ptree -> list entry -> list entry -> list entry -> Prop :=
  | ao_nil : all_of D [] [] [] []
  | ao_cons c cs own imps ch own' imps' ch' : D c own imps ch -> all_of D cs own' imps' ch' ->
      all_of D (c :: cs) (own ++ own') (imps ++ imps') (ch ++ ch').
  Definition described (D : ptree -> list entry -> list entry -> list entry -> Prop) (c : ptree) : Prop :=
    forall v st, transform_tree E ln c tstate0 = Ok (v, st) ->
      exists own imps ch, D c own imps ch /\ to_entries v own /\
        map as_entry (imports st) = map Some imps /\ map as_entry (child_resources st) = map Some ch.
  Lemma elements_described D cs outs : Forall (described D) cs -> Forall2 (reported E ln) cs outs ->
    exists own imps ch ess, all_of D cs own imps ch /\
      Forall2 to_entries (map fst outs) ess /\ List.concat ess = own /\
      map as_entry (imports (collect outs)) = map Some imps /\ map as_entry (child_resources (collect outs)) = map Some ch.
  Proof.
    intros Hdesc HF. revert Hdesc. induction HF as [|c [v st] cs outs Hc HF IH]; intros Hdesc.
    - exists [], [], [], []. repeat split; constructor.
    - inversion Hdesc as [|? ? H1 H2]; subst.
      destruct (IH H2) as (own' & imps' & ch' & ess & Hd' & Hess & Hown & Himp & Hch).
      destruct (H1 v st Hc) as (own & imps & ch & Hd & He & Hi & Hr).
      exists (own ++ own')%list, (imps ++ imps')%list, (ch ++ ch')%list, (own :: ess).
      split; [constructor; assumption|]. split; [constructor; assumption|]. split; [cbn [List.concat]; congruence|].
      unfold collect. cbn [map fold_right snd st_app imports child_resources]. split; apply map_as_app; assumption.
  Qed.
  Lemma start_described D m cs : oks E sElem cs -> Forall (described D) cs ->
    match tf (TNode L_start m cs) with
    | Ok v => exists own imps ch, all_of D cs own imps ch /\
                v = document (default_scope ln :: own ++ imps ++ ch)%list
    | Err e => exists a c b, cs = (a ++ c :: b)%list /\ (forall x, In x a -> exists o, transform_tree E ln x tstate0 = Ok o) /\
                transform_tree E ln c tstate0 = Err e
    end.
  Proof.
    intros Hok Hdesc. unfold transform. rewrite transform_node.
    assert (Hn : forallb nostart cs = true) by (apply (proj1 (proj2 (ok_nostart E)) sElem cs Hok); reflexivity).
    pose proof (transform_list_reports E ln cs Hn) as H. destruct (transform_list E ln cs tstate0) as [[vs d]|e]; cbn [bind].
    - destruct H as (outs & HF & -> & ->). destruct (elements_described D cs outs Hdesc HF) as (own & imps & ch & ess & Hd & Hess & Hown & Himp & Hch).
      assert (Hall : Forall2 to_entries (map fst outs ++ imports (collect outs) ++ child_resources (collect outs))%list
                (ess ++ map (fun e => [e]) imps ++ map (fun e => [e]) ch)%list).
      { apply Forall2_app; [exact Hess|]. apply Forall2_app; apply to_entries_some; assumption. }
      apply (cb_start_document ln) in Hall. unfold call, pure. rewrite Hall. cbn [bind wrap]. unfold wrap.
      exists own, imps, ch. split; [exact Hd|]. rewrite !concat_app, !concat_single, Hown. reflexivity.
    - destruct H as (a & c & b & outs & -> & HF & Hc). exists a, c, b. split; [reflexivity|]. split; [|exact Hc].
      intros x Hx. clear -HF Hx. induction HF as [|y o a outs Hy HF IH]; [destruct Hx|]. destruct Hx as [->|Hx]; [exists o; exact Hy|auto].
  Qed.
  Lemma oks_Forall s cs : oks E s cs -> Forall (ok E s) cs.
  Proof. intros H. remember s as s' eqn:Hs. induction H; constructor; auto. Qed.
  Theorem start_declares m cs : oks E sElem cs -> forallb clean cs = true ->
    match tf (TNode L_start m cs) with
    | Ok v => exists own imps ch, declares_all E ln cs own imps ch /\
                v = document (default_scope ln :: own ++ imps ++ ch)%list
    | Err e => exists a c b, cs = (a ++ c :: b)%list /\ (forall x, In x a -> exists o, transform_tree E ln x tstate0 = Ok o) /\
                transform_tree E ln c tstate0 = Err e
    end.
  Proof.
    intros Hok Hcl. pose proof (start_described (declares E ln) m cs Hok) as H.
    assert (Hd : Forall (described (declares E ln)) cs).
    { apply oks_Forall in Hok. rewrite Forall_forall in *. rewrite forallb_forall in Hcl. intros c Hc v st. apply element_declares; auto. }
    specialize (H Hd). destruct (tf (TNode L_start m cs)) as [v|e]; [|exact H].
    destruct H as (own & imps & ch & Ha & ->). exists own, imps, ch. split; [|reflexivity].
    clear -Ha. induction Ha; constructor; assumption.
  Qed.
  (** A resource whose body writes the reserved key still reports itself and
      otherwise only resources. *)
  Inductive outline (c : ptree) (own imps ch : list entry) : Prop :=
  | outline_exact : declares E ln c own imps ch -> outline c own imps ch
  | outline_resource m d n rest attrs : c = TNode L_resource m (d :: TTok n :: rest) -> clean c = false ->
      own = [{| e_kind := u "resources"; e_name := tval n; e_attrs := attrs |}] -> imps = [] ->
      Forall (fun e => e_kind e = u "resources") ch -> outline c own imps ch.
  Theorem element_outline c : ok E sElem c -> described outline c.
  Proof.
    intros Hok v st Ht.
    assert (Hcase : (is_resource c = true -> clean c = true) \/ (is_resource c = true /\ clean c = false)).
    { destruct (is_resource c); [|left; discriminate]. destruct (clean c); auto. }
    destruct Hcase as [Hc|[Hr Hc]].
    - destruct (element_declares c v st Hok Hc Ht) as (own & imps & ch & Hd & H). exists own, imps, ch. split; [constructor; exact Hd|exact H].
    - pose proof (proj1 (typing E ln true) sElem c Hok ltac:(discriminate) tstate0 ltac:(split; constructor)) as Hty.
      rewrite Ht in Hty. cbn [outc] in Hty. destruct Hty as (_ & _ & Hch).
      inversion Hok; subst; try discriminate Hr. toks. apply over_inv in Ht as (vs & Hvs & Ht); [|quiets]. vals Hvs.
      unfold call, cb_resource in Ht. cbn [py_str] in Ht.
      destruct (py_getitem w0 (u "type")) as [ty|]; [|discriminate]. cbn [bind] in Ht.
      destruct (py_getitem w0 (u "api_version")) as [api|]; [|discriminate]. cbn [bind] in Ht.
      match type of Ht with context [process_child_resource ?a ?b ?c ?d ?e ?f] => destruct (process_child_resource a b c d e f) as [[cfgv chs]|] end; [|discriminate].
      cbn [bind] in Ht. match type of Ht with context [with_lines ?a ?b ?c] => destruct (with_lines a b c) as [at'|] end; [|discriminate].
      cbn [bind] in Ht. injection Ht as <- <-. cbn [imports child_resources] in *.
      assert (Hex : exists ch, map as_entry (child_resources tstate0 ++ chs)%list = map Some ch /\ Forall (fun e => e_kind e = u "resources") ch).
      { cbn [child_resources tstate0 app] in *. clear -Hch. induction Hch as [|v l (c & n & a & -> & Hn & Ha & _) Hl IH]; [exists []; auto|].
        destruct IH as (ch & H1 & H2). exists ({| e_kind := u "resources"; e_name := n; e_attrs := a |} :: ch).
        split; [|constructor; auto]. cbn [map as_entry]. rewrite Hn, Ha, H1. reflexivity. }
      destruct Hex as (ch & H1' & H2'). do 3 eexists. split.
      + eapply outline_resource; [reflexivity|exact Hc|reflexivity|reflexivity|exact H2'].
      + split; [right; eexists; split; reflexivity|]. split; [reflexivity|]. exact H1'.
  Qed.
  Theorem start_outline m cs : oks E sElem cs ->
    match tf (TNode L_start m cs) with
    | Ok v => exists own imps ch, all_of outline cs own imps ch /\
                v = document (default_scope ln :: own ++ imps ++ ch)%list
    | Err e => exists a c b, cs = (a ++ c :: b)%list /\ (forall x, In x a -> exists o, transform_tree E ln x tstate0 = Ok o) /\
                transform_tree E ln c tstate0 = Err e
    end.
  Proof.
    intros Hok. apply (start_described outline m cs Hok). apply oks_Forall in Hok. eapply Forall_impl; [|exact Hok]. apply element_outline.
  Qed.

  (** ** The names alone *)
  Lemma child_names_last n m es : child_names n (TNode L_object m es) =
    match last_child es with
    | Some (TNode L_child_resource _ [TTok c; _; _; body]) => (n ++ u "__" ++ tval c)%list :: child_names (n ++ u "__" ++ tval c)%list body
    | _ => []
    end.
  Proof.
    cbn [child_names]. unfold last_child. induction es as [|e es IH] using rev_ind; [reflexivity|].
    rewrite !fold_left_app. cbn [fold_left].
    destruct e as [l m' cs| |]; [|exact IH|exact IH]. destruct l; try exact IH.
    destruct cs as [|[] [|? [|? [|? [|]]]]]; reflexivity.
  Qed.
  Lemma lifts_names n ty api body cfg es : lifts E ln n ty api body cfg es ->
    map key_of es = map (fun x => (u "resources", x)) (child_names n body).
  Proof.
    induction 1 as [n ty api m es ps Hp Hl|n ty api m es ps mc cname ctype x body tyname cfg cfg' rest Hp Hl Ht Hlift IH Hd| | ]; try reflexivity.
    - rewrite child_names_last, Hl. reflexivity.
    - rewrite child_names_last, Hl. cbn [map]. rewrite IH. reflexivity.
  Qed.
  Lemma declares_names c own imps ch : ok E sElem c -> declares E ln c own imps ch ->
    map key_of own = own_decl c /\ map key_of imps = import_decl c /\ map key_of ch = child_decl c.
  Proof.
    intros Hok H. destruct H; try (repeat split; reflexivity).
    - (* namespace *) split; [reflexivity|]. split; [|reflexivity]. cbn [import_decl map key_of ent e_kind e_name]. rewrite H.
      fold (slice_1_m1 (quote s)). rewrite slice_quote. reflexivity.
    - (* imports *) split; [reflexivity|]. split; [|reflexivity].
      assert (He : import_decl (TNode L_custom_import m (c :: cs ++ [TTok t])) =
        flat_map (fun c => match c with TNode L_import_alias _ (TTok n :: _) => [(u "imports", tval n)] | _ => [] end) ((c :: cs) ++ [TTok t])%list).
      { cbn [import_decl app]. destruct c as [l mm ccs|tt|]; try reflexivity. destruct cs; reflexivity. }
      rewrite He, flat_map_app. cbn [flat_map]. rewrite app_nil_r.
      clear He Hok. change (map key_of es = flat_map (fun c => match c with TNode L_import_alias _ (TTok n :: _) => [(u "imports", tval n)] | _ => [] end) (c :: cs)).
      induction H0 as [|c' e' cs' es' Hi HF IH]; [reflexivity|]. cbn [map flat_map]. rewrite IH. destruct Hi. reflexivity.
    - (* resource *) split; [reflexivity|]. split; [reflexivity|]. cbn [child_decl]. exact (lifts_names _ _ _ _ _ _ H3).
  Qed.
  Lemma declares_all_names cs own imps ch : oks E sElem cs -> declares_all E ln cs own imps ch ->
    map key_of own = flat_map own_decl cs /\ map key_of imps = flat_map import_decl cs /\ map key_of ch = flat_map child_decl cs.
  Proof.
    intros Hok H. induction H as [|c cs own imps ch own' imps' ch' Hd Hds IH]; [repeat split; reflexivity|].
    inversion Hok; subst. destruct (IH ltac:(assumption)) as (H1' & H2' & H3').
    destruct (declares_names c own imps ch ltac:(assumption) Hd) as (H4 & H5 & H6).
    cbn [flat_map]. rewrite !map_app. split; [congruence|]. split; congruence.
  Qed.
End Elements.
