(** Places of syntax errors. *)
From Coq Require Import List Arith NArith PArith Bool String Lia.
From Verif Require Import Py.Str Py.Val Lark.Tree Lark.Regex Lark.Terminals Lark.Lexer Lark.Ebnf Lark.Lalr Lark.BicepGrammar Lark.BicepTables Lark.Driver Lark.Located
     Spec.Lexemes Spec.Sentences Spec.Layout Spec.Spelling Spec.Reading Spec.Errors Proofs.Base Proofs.Regex Proofs.Lexer Proofs.LR Proofs.Parse Proofs.Grammar Proofs.Follow Proofs.TokenForms Proofs.Layout Proofs.Lexable Proofs.Unparse Proofs.UnparseExprs Proofs.UnparseDecos Proofs.UnparseDecls Proofs.UnparseText Proofs.Viable.
Import ListNotations.

(** ** Terminals without line feeds *)
Definition dull (r : re) : bool :=
  (fix go r := match r with
   | REps | RLook _ _ => true
   | RSet c => negb (cs_mem env0 c 10%N)
   | RSeq a b | RAlt a b => go a && go b
   | RStar _ a | RAtomic a => go a
   | RRec => false
   end) r.
Lemma cs_mem_10 E c : cs_mem E c 10%N = cs_mem env0 c 10%N.
Proof. reflexivity. Qed.
Lemma count_nl_notin s : ~ In 10%N s -> count_nl s = 0%N.
Proof.
  induction s as [|x s IH]; intros H; [reflexivity|]. cbn [count_nl]. destruct (N.eqb_spec x 10) as [->|Hx]; [exfalso; apply H; left; reflexivity|].
  apply IH. intros Hs. apply H. right. exact Hs.
Qed.
Lemma dull_lang E top r v : lang E top r v -> dull r = true -> ~ In 10%N v.
Proof.
  induction 1; cbn [dull]; intros D Hin; try apply andb_true_iff in D as [D1 D2]; try (apply in_app_or in Hin as [Hin|Hin]); try contradiction; try (cbn in Hin; tauto); try (apply IHlang; assumption); try (apply IHlang1; assumption); try (apply IHlang2; assumption).
  - destruct Hin as [->|[]]. rewrite cs_mem_10 in H. rewrite H in D. discriminate.
  - discriminate D.
Qed.
Lemma dull_terminals : forallb (fun t => mem_str (t_name t) newline_types || dull (pat_re (t_pat t))) sorted_terminals = true.
Proof. vm_compute. reflexivity. Qed.
Lemma alts_dull E acc n r v : In (n, r) (lx_alts (make_lexer acc)) -> lang E (lx_top (make_lexer acc)) r v -> mem_str n newline_types = false -> count_nl v = 0%N.
Proof.
  intros Hin Hl Hn. apply make_lexer_alts in Hin as (t & Ht & <- & <- & _). pose proof dull_terminals as H. rewrite forallb_forall in H. specialize (H t Ht).
  cbv beta in H. rewrite Hn in H. cbn [orb] in H. apply count_nl_notin. exact (dull_lang _ _ _ _ Hl H).
Qed.

(** ** The line counter *)
Lemma rindex_last a b : ~ In 10%N b -> rindex_nl (a ++ 10%N :: b) = N.of_nat (List.length a).
Proof.
  intros Hb. induction a as [|x a IH]; cbn [app rindex_nl List.length].
  - rewrite (count_nl_notin b Hb). reflexivity.
  - rewrite IH. assert (Hc : count_nl (a ++ 10%N :: b) <> 0%N) by (rewrite count_nl_app; change (count_nl (10%N :: b)) with (1 + count_nl b)%N; lia). apply N.eqb_neq in Hc. rewrite Hc. symmetry. apply Nat2N.inj_succ.
Qed.
Lemma last_line v : (count_nl v = 0%N /\ ~ In 10%N v) \/ exists a b, v = (a ++ 10%N :: b)%list /\ ~ In 10%N b /\ count_nl v <> 0%N.
Proof.
  induction v as [|x v [[Hc Hn]|(a & b & -> & Hb & Hc)]]; [left; split; [reflexivity|intros []]| |].
  - destruct (N.eqb_spec x 10) as [->|Hx].
    + right. exists [], v. split; [reflexivity|]. split; [exact Hn|]. change (count_nl (10%N :: v)) with (1 + count_nl v)%N. lia.
    + left. cbn [count_nl]. apply N.eqb_neq in Hx as Hx'. rewrite Hx', Hc. split; [reflexivity|]. intros [H|H]; [congruence|contradiction].
  - right. exists (x :: a), b. split; [reflexivity|]. split; [exact Hb|]. cbn [count_nl]. destruct (x =? 10)%N; lia.
Qed.
(** The counter behind the text [a]. *)
Record counts (a : str) (c : counter) : Prop := {
  co_pos : char_pos c = N.of_nat (List.length a);
  co_line : c_line c = (1 + count_nl a)%N;
  co_column : c_column c = (char_pos c - line_start c + 1)%N;
  co_start : exists x y, a = (x ++ y)%list /\ ~ In 10%N y /\ (x = [] \/ exists x', x = (x' ++ [10%N])%list) /\ line_start c = N.of_nat (List.length x)
}.
Lemma counts_0 : counts [] counter0.
Proof. split; try reflexivity. exists [], []. repeat split; auto. Qed.
Lemma counts_feed a c v test : counts a c -> (test = false -> count_nl v = 0%N) -> counts (a ++ v) (feed_counter c v test).
Proof.
  intros [Hp Hl Hc (x & y & Ha & Hy & Hx & Hs)] Ht. unfold feed_counter.
  assert (Hn : (if test then count_nl v else 0%N) = count_nl v) by (destruct test; [reflexivity|symmetry; auto]). rewrite Hn. split; cbn [char_pos c_line c_column line_start].
  - rewrite app_length, Hp. lia.
  - rewrite count_nl_app, Hl. lia.
  - reflexivity.
  - destruct (last_line v) as [[H0 Hin]|(p & q & -> & Hq & H0)].
    + rewrite H0. exists x, (y ++ v)%list. rewrite Ha, <- app_assoc. repeat split; auto. intros H. apply in_app_or in H as [H|H]; contradiction.
    + apply N.eqb_neq in H0 as ->. rewrite (rindex_last _ _ Hq), Hp. exists (a ++ p ++ [10%N])%list, q. rewrite <- !app_assoc. repeat split; auto.
      * right. exists (a ++ p)%list. rewrite <- app_assoc. reflexivity.
      * rewrite !app_length. cbn [List.length]. lia.
Qed.
Lemma counts_place a c : counts a c -> place_behind a (char_pos c) (c_line c) (c_column c).
Proof.
  intros [Hp Hl Hc (x & y & Ha & Hy & Hx & Hs)]. split; [exact Hp|]. split; [exact Hl|]. exists y. split; [exists x; auto|].
  rewrite Hc, Hp, Hs, Ha, app_length. lia.
Qed.

(** ** The same tokens *)
Section Lexing.
  Variable E : pyenv.
  (** [next_placed] and [next_token] agree. *)
  Lemma next_agree acc : forall fuel s c a, List.length s < fuel -> counts a c ->
    match next_placed E fuel (make_lexer acc) s c with
    | ATok t rest c' => next_token E fuel (make_lexer acc) s (c_line c) = LTok (p_name t) (p_token t) rest (c_line c') /\
        exists b, blank b /\ s = (b ++ tval (p_token t) ++ rest)%list /\ counts (a ++ b ++ tval (p_token t)) c' /\
          place_behind (a ++ b) (p_pos t) (tline (p_token t)) (p_column t)
    | AEof => exists line, next_token E fuel (make_lexer acc) s (c_line c) = LEof line
    | ABad rest c' => next_token E fuel (make_lexer acc) s (c_line c) = LBad rest (c_line c') /\ scan E (make_lexer acc) rest = Some None /\
        exists b, blank b /\ s = (b ++ rest)%list /\ counts (a ++ b) c' /\ rest <> []
    | AFuel => False
    end.
  Proof.
    induction fuel as [|fuel IH]; intros s c a Hf Hc; [lia|]. cbn [next_placed next_token]. destruct s as [|x s]; [eauto|].
    pose proof (scan_spec E (make_lexer acc) (x :: s) (make_lexer_ok acc)) as Hscan. destruct (scan E (make_lexer acc) (x :: s)) as [[[[n k] rest]|]|] eqn:Hsc; [| |exact Hscan].
    - destruct Hscan as (r & v & Hin & Hs & -> & Hv & Hl). cbv zeta.
      assert (Hfst : firstn (List.length v) (x :: s) = v). { rewrite Hs, firstn_app, firstn_all, Nat.sub_diag. cbn [firstn]. apply app_nil_r. }
      rewrite Hfst. assert (Hc' : counts (a ++ v) (feed_counter c v (mem_str n newline_types))) by (apply counts_feed; [exact Hc|]; exact (alts_dull E acc n r v Hin Hl)).
      assert (Hline : (c_line c + count_nl v)%N = c_line (feed_counter c v (mem_str n newline_types))) by (rewrite (co_line _ _ Hc'), (co_line _ _ Hc), count_nl_app; lia).
      rewrite Hline. set (c' := feed_counter c v (mem_str n newline_types)) in *. destruct (mem_str n ignored) eqn:Hig.
      + assert (Hlen : List.length rest < fuel). { apply (f_equal (@List.length N)) in Hs. rewrite app_length in Hs. destruct v; [contradiction|]. cbn [List.length] in *. lia. }
        assert (Hb : blank v). { apply (ignored_text_blank E acc). rewrite <- (app_nil_r v). econstructor; eauto. constructor. }
        specialize (IH rest c' (a ++ v)%list Hlen Hc'). destruct (next_placed E fuel (make_lexer acc) rest c') as [t rest' c2| |rest' c2|].
        * destruct IH as (He & b & Hb' & Hr & H1 & H2). split; [exact He|]. exists (v ++ b)%list. split; [apply blank_app; assumption|]. split; [rewrite Hs, Hr, <- app_assoc; reflexivity|].
          rewrite <- !app_assoc in *. split; assumption.
        * exact IH.
        * destruct IH as (He & Hn & b & Hb' & Hr & H1 & H2). split; [exact He|]. split; [exact Hn|]. exists (v ++ b)%list. split; [apply blank_app; assumption|]. split; [rewrite Hs, Hr, <- app_assoc; reflexivity|].
          rewrite <- !app_assoc in *. split; assumption.
        * exact IH.
      + cbn [p_name p_token p_pos p_column tval tline]. split; [reflexivity|]. exists []. split; [constructor|]. split; [exact Hs|]. split; [exact Hc'|]. rewrite app_nil_r. apply counts_place. exact Hc.
    - split; [reflexivity|]. split; [exact Hsc|]. exists []. split; [constructor|]. split; [reflexivity|]. rewrite app_nil_r. split; [exact Hc|discriminate].
  Qed.

  (** ** The root lexer does not skip *)
  Fixpoint flat (r : re) : bool :=
    match r with REps | RSet _ => true | RSeq a b | RAlt a b => flat a && flat b | RStar _ a | RLook _ a | RAtomic a => flat a | RRec => false end.
  Lemma star_ext g m1 m2 : (forall n s k1 k2, (forall n s, k1 n s = k2 n s) -> m1 n s k1 = m2 n s k2) ->
    forall i n s k1 k2, (forall n s, k1 n s = k2 n s) -> star_loop g m1 k1 i n s = star_loop g m2 k2 i n s.
  Proof.
    intros Hm. induction i as [|i IH]; intros n s k1 k2 Hk; cbn [star_loop]; [reflexivity|].
    rewrite Hk, (Hm n s (star_loop g m1 k1 i) (star_loop g m2 k2 i)) by (intros; apply IH; exact Hk). reflexivity.
  Qed.
  Lemma mt_flat top1 top2 fuel d : forall r, flat r = true -> forall n s k1 k2, (forall n s, k1 n s = k2 n s) ->
    mt E top1 fuel d r n s k1 = mt E top2 fuel d r n s k2.
  Proof.
    assert (Hu : forall top r n s k, mt E top fuel d r n s k = match r with
      | REps => k n s
      | RSet c => match s with x :: s' => if cs_mem E c x then k (Datatypes.S n) s' else MFail | [] => MFail end
      | RSeq a b => mt E top fuel d a n s (fun n' s' => mt E top fuel d b n' s' k)
      | RAlt a b => match mt E top fuel d a n s k with MFail => mt E top fuel d b n s k | res => res end
      | RStar greedy a => star_loop greedy (mt E top fuel d a) k fuel n s
      | RLook neg a => match mt E top fuel d a n s MOk with MFuel => MFuel | MFail => if neg then k n s else MFail | MOk _ _ => if neg then MFail else k n s end
      | RAtomic a => match mt E top fuel d a n s MOk with MOk n' s' => k n' s' | res => res end
      | RRec => match d with O => MFuel | Datatypes.S d' => mt E top fuel d' top n s k end
      end) by (intros top r; destruct d, r; reflexivity).
    induction r as [|c|a IHa b IHb|a IHa b IHb|g a IHa|neg a IHa|a IHa|]; cbn [flat]; intros Hr n s k1 k2 Hk; rewrite (Hu top1 _ n s k1), (Hu top2 _ n s k2); try (apply andb_true_iff in Hr as [Hra Hrb]).
    - apply Hk.
    - destruct s as [|x s]; [reflexivity|]. destruct (cs_mem E c x); [apply Hk|reflexivity].
    - apply IHa; [exact Hra|]. intros n' s'. apply IHb; assumption.
    - rewrite (IHa Hra n s k1 k2 Hk), (IHb Hrb n s k1 k2 Hk). reflexivity.
    - apply star_ext; [|exact Hk]. intros. apply IHa; assumption.
    - rewrite (IHa Hr n s MOk MOk) by reflexivity. rewrite Hk. reflexivity.
    - rewrite (IHa Hr n s MOk MOk) by reflexivity. destruct (mt E top2 fuel d a n s MOk); auto.
    - discriminate.
  Qed.
  Lemma flat_ignored : forallb (fun t => negb (mem_str (t_name t) ignored) || flat (pat_re (t_pat t))) sorted_terminals = true.
  Proof. vm_compute. reflexivity. Qed.
  Lemma alt_of acc t : In t sorted_terminals -> (mem_str (t_name t) acc || mem_str (t_name t) ignored) = true -> mem_str (t_name t) (map snd embedded_pairs) = false ->
    In (t_name t, pat_re (t_pat t)) (lx_alts (make_lexer acc)).
  Proof.
    intros Ht Hin He. unfold make_lexer. cbn [lx_alts]. rewrite in_flat_map. exists t. split; [exact Ht|]. rewrite Hin. cbn [andb].
    match goal with |- In _ (if negb ?b then _ else _) => destruct b eqn:Hb end; cbn [negb]; [|left; reflexivity].
    exfalso. unfold mem_str in Hb at 1. rewrite existsb_exists in Hb. destruct Hb as (x & Hx & Heq). apply String.eqb_eq in Heq. subst x. apply in_map_iff in Hx as (p & Hs & Hf).
    apply filter_In in Hf as [Hf _]. assert (Hm : mem_str (t_name t) (map snd embedded_pairs) = true); [|congruence].
    unfold mem_str. apply existsb_exists. exists (t_name t). split; [|apply String.eqb_refl]. rewrite <- Hs. apply in_map. exact Hf.
  Qed.
  Lemma ignored_not_embedded n : mem_str n ignored = true -> mem_str n (map snd embedded_pairs) = false.
  Proof.
    intros Hn. destruct (mem_str n (map snd embedded_pairs)) eqn:Hb; [|reflexivity]. exfalso. unfold mem_str in Hb. rewrite existsb_exists in Hb. destruct Hb as (x & Hx & Heq).
    apply String.eqb_eq in Heq. subst x. apply in_map_iff in Hx as (p & Hs & Hf). pose proof emb_not_ignored as He. rewrite forallb_forall in He. specialize (He _ Hf). cbv beta in He. rewrite Hs, Hn in He. discriminate.
  Qed.
  Lemma scan_none top alts s : scan_alts E top alts s = Some None -> forall n r, In (n, r) alts -> re_run E top (Datatypes.S (List.length s)) r s = MFail.
  Proof.
    induction alts as [|[n0 r0] alts IH]; cbn [scan_alts]; intros H n r Hin; [contradiction|].
    destruct (re_run E top (Datatypes.S (List.length s)) r0 s) eqn:Hr; try discriminate. destruct Hin as [Hin|Hin]; [injection Hin as <- <-; exact Hr|eauto].
  Qed.
  Lemma scan_some top alts s n k rest : scan_alts E top alts s = Some (Some (n, k, rest)) -> exists r, In (n, r) alts /\ re_run E top (Datatypes.S (List.length s)) r s = MOk k rest.
  Proof.
    induction alts as [|[n0 r0] alts IH]; cbn [scan_alts]; intros H; [discriminate|].
    destruct (re_run E top (Datatypes.S (List.length s)) r0 s) eqn:Hr; try discriminate; [|injection H as <- <- <-; exists r0; split; [left; reflexivity|exact Hr]].
    destruct (IH H) as (r & Hin & Hr'). exists r. split; [right; exact Hin|exact Hr'].
  Qed.
  Lemma root_skips_nothing acc s n k rest : scan E (make_lexer acc) s = Some None -> scan E root_lexer s = Some (Some (n, k, rest)) -> mem_str n ignored = false.
  Proof.
    intros H1 H2. destruct (mem_str n ignored) eqn:Hn; [exfalso|reflexivity]. apply scan_some in H2 as (r & Hin & Hr).
    apply make_lexer_alts in Hin as (t & Ht & <- & <- & _).
    assert (Ha : In (t_name t, pat_re (t_pat t)) (lx_alts (make_lexer acc))) by (apply alt_of; [exact Ht|rewrite Hn; apply orb_true_r|apply ignored_not_embedded; exact Hn]).
    pose proof (scan_none _ _ _ H1 _ _ Ha) as Hf. pose proof flat_ignored as Hfl. rewrite forallb_forall in Hfl. specialize (Hfl t Ht). cbv beta in Hfl. rewrite Hn in Hfl. cbn [negb orb] in Hfl.
    unfold re_run in *. rewrite (mt_flat (lx_top (make_lexer acc)) (lx_top root_lexer) _ _ _ Hfl _ _ MOk MOk ltac:(reflexivity)) in Hf. congruence.
  Qed.

  (** ** No token starts there *)
  Fixpoint surely (r : re) : bool := match r with REps | RStar _ _ => true | RSeq a b => surely a && surely b | RAlt a b => surely a || surely b | _ => false end.
  Fixpoint rejects (r : re) (x : N) : bool :=
    match r with RSet c => negb (cs_mem env0 c x) | RSeq a _ => rejects a x | RAlt a b => rejects a x && rejects b x | _ => false end.
  Definition skippable (r : re) (x : N) : bool :=
    match r with REps | RStar _ _ | RAlt _ REps => true | RLook true a => rejects a x | _ => false end.
  Fixpoint hits (r : re) (x : N) : bool :=
    match r with
    | RSet c => cs_mem env0 c x
    | RSeq a b => hits a x && surely b || skippable a x && hits b x
    | RAlt a b => hits a x || hits b x
    | _ => false
    end.
  Lemma cs_mem_ascii c x : (x <? 128)%N = true -> cs_mem E c x = cs_mem env0 c x.
  Proof. intros H. unfold cs_mem, rx_word. rewrite H. reflexivity. Qed.
  Section Hits.
    Variables (top : re) (fuel d : nat).
    Let m := mt E top fuel d.
    Lemma mt_unfold r n s k : m r n s k = match r with
      | REps => k n s
      | RSet c => match s with x :: s' => if cs_mem E c x then k (Datatypes.S n) s' else MFail | [] => MFail end
      | RSeq a b => m a n s (fun n' s' => m b n' s' k)
      | RAlt a b => match m a n s k with MFail => m b n s k | res => res end
      | RStar greedy a => star_loop greedy (m a) k fuel n s
      | RLook neg a => match m a n s MOk with MFuel => MFuel | MFail => if neg then k n s else MFail | MOk _ _ => if neg then MFail else k n s end
      | RAtomic a => match m a n s MOk with MOk n' s' => k n' s' | res => res end
      | RRec => match d with O => MFuel | Datatypes.S d' => mt E top fuel d' top n s k end
      end.
    Proof. unfold m. destruct d, r; reflexivity. Qed.
    Lemma star_sure g body k i n s : k n s <> MFail -> star_loop g body k i n s <> MFail.
    Proof.
      intros Hk. destruct i as [|i]; cbn [star_loop]; [discriminate|]. destruct g.
      - destruct (body n s _); [exact Hk|discriminate|discriminate].
      - destruct (k n s); [contradiction|discriminate|discriminate].
    Qed.
    Lemma surely_spec : forall r, surely r = true -> forall n s k, (forall n s, k n s <> MFail) -> m r n s k <> MFail.
    Proof.
      induction r as [|c|a IHa b IHb|a IHa b IHb|g a IHa|neg a IHa|a IHa|]; cbn [surely]; intros Hr n s k Hk; try discriminate; rewrite mt_unfold.
      - apply Hk.
      - apply andb_true_iff in Hr as [Ha Hb]. apply IHa; [exact Ha|]. intros. apply IHb; assumption.
      - apply orb_true_iff in Hr as [Ha|Hb].
        + specialize (IHa Ha n s k Hk). destruct (m a n s k); [contradiction|discriminate|discriminate].
        + destruct (m a n s k); [apply IHb; assumption|discriminate|discriminate].
      - apply star_sure, Hk.
    Qed.
    Lemma rejects_spec x : (x <? 128)%N = true -> forall r, rejects r x = true -> forall n s k, m r n (x :: s) k = MFail.
    Proof.
      intros Hx. induction r as [|c|a IHa b IHb|a IHa b IHb|g a IHa|neg a IHa|a IHa|]; cbn [rejects]; intros Hr n s k; try discriminate; rewrite mt_unfold.
      - rewrite (cs_mem_ascii c x Hx). apply negb_true_iff in Hr as ->. reflexivity.
      - apply IHa. exact Hr.
      - apply andb_true_iff in Hr as [Ha Hb]. rewrite (IHa Ha), (IHb Hb). reflexivity.
    Qed.
    Lemma skippable_spec x : (x <? 128)%N = true -> forall r, skippable r x = true -> forall n s k, k n (x :: s) <> MFail -> m r n (x :: s) k <> MFail.
    Proof.
      intros Hx r Hr n s k Hk. destruct r as [| | |a b|g a|neg a| |]; try discriminate; rewrite mt_unfold.
      - exact Hk.
      - destruct b; try discriminate. destruct (m a n (x :: s) k); [rewrite mt_unfold; exact Hk|discriminate|discriminate].
      - apply star_sure, Hk.
      - destruct neg; [|discriminate]. cbn [skippable] in Hr. rewrite (rejects_spec x Hx a Hr). exact Hk.
    Qed.
    Lemma hits_spec x : (x <? 128)%N = true -> forall r, hits r x = true -> forall n s k, (forall n s, k n s <> MFail) -> m r n (x :: s) k <> MFail.
    Proof.
      intros Hx. induction r as [|c|a IHa b IHb|a IHa b IHb|g a IHa|neg a IHa|a IHa|]; cbn [hits]; intros Hr n s k Hk; try discriminate; rewrite mt_unfold.
      - rewrite (cs_mem_ascii c x Hx), Hr. apply Hk.
      - apply orb_true_iff in Hr as [Hr|Hr]; apply andb_true_iff in Hr as [Ha Hb].
        + apply IHa; [exact Ha|]. intros. apply surely_spec; assumption.
        + apply skippable_spec; [exact Hx|exact Ha|]. apply IHb; assumption.
      - apply orb_true_iff in Hr as [Ha|Hb].
        + specialize (IHa Ha n s k Hk). destruct (m a n (x :: s) k); [contradiction|discriminate|discriminate].
        + destruct (m a n (x :: s) k); [apply IHb; assumption|discriminate|discriminate].
    Qed.
  End Hits.
  Definition starts : str := Eval vm_compute in
    (u "abcdefghijklmnopqrstuvwxyzABCDEFGHIJKLMNOPQRSTUVWXYZ0123456789_#@()[]{}<>+-*/%.,:=?! |" ++ [9; 10])%N%list.
  Definition root_names : list string := map t_name all_terminals.
  Lemma starts_hit : forallb (fun x => (x <? 128)%N && existsb (fun t => hits (pat_re (t_pat t)) x && mem_str (t_name t) root_names && negb (mem_str (t_name t) (map snd embedded_pairs))) sorted_terminals) starts = true.
  Proof. vm_compute. reflexivity. Qed.
  Lemma root_no_start x s : scan E root_lexer (x :: s) = Some None -> no_start x.
  Proof.
    intros Hs Hin. change (In x starts) in Hin. pose proof starts_hit as H. rewrite forallb_forall in H. specialize (H x Hin). cbv beta in H. apply andb_true_iff in H as [Hx H].
    apply existsb_exists in H as (t & Ht & H). apply andb_true_iff in H as [H He]. apply andb_true_iff in H as [Hh Hn]. apply negb_true_iff in He.
    assert (Ha : In (t_name t, pat_re (t_pat t)) (lx_alts root_lexer)) by (apply alt_of; [exact Ht|fold root_names; rewrite Hn; reflexivity|exact He]).
    pose proof (scan_none _ _ _ Hs _ _ Ha) as Hf. exact (hits_spec _ _ _ x Hx _ Hh O s MOk ltac:(discriminate) Hf).
  Qed.
End Lexing.

(** ** Tokens in front of the error *)
Ltac kd := cbn; first [reflexivity|left; reflexivity|right; reflexivity].
Ltac eqs := first [assumption|symmetry; assumption|cbn [text]; congruence|idtac].

Section Words.
  Variable E : pyenv.
  Lemma known_word n k : known_tok E (n, k) -> exists t, text t = tval k /\ token_ok E t /\ of_kind n t.
  Proof.
    intros [Hty Hok]. cbn [fst snd] in *. pose proof (known_terminal E n _ Hok) as Hk. pose proof (tok_lexeme E n _ Hok) as Hl.
    unfold terminal_known in Hk. destruct (assoc n term_kinds) as [kd|] eqn:Ha.
    - apply existsb_In in Hk. unfold open_terminals in Hk. cbn [In] in Hk. clear Ha.
      repeat match type of Hk with _ \/ _ => destruct Hk as [Hk|Hk] end; [..|destruct Hk]; subst n.
      + inversion Hl as [? D| | | | | | | | | | | |]; subst; [discriminate D|]. exists (Name (tval k)). split; [reflexivity|]. split; [assumption|kd].
      + destruct (sealed_interpolation _ _ Hok) as (c & Hc & Hs). exists (Quoted c). split; [symmetry; exact Hc|]. split; [exact Hs|kd].
      + destruct (sealed_simple _ _ Hok) as (c & Hc & Hs). exists (Quoted c). split; [symmetry; exact Hc|]. split; [exact Hs|kd].
      + inversion Hl as [? D| | | |b En Hm| | | | | | | |]; subst; [discriminate D|]. exists (Multi b). split; [eqs|]. split; [exact I|kd].
      + inversion Hl as [? D| | | | | | | | | | | |]; subst; [discriminate D|]. exists (Num (tval k)). split; [reflexivity|]. split; [assumption|kd].
      + inversion Hl as [? D| | | | | |ns nm Hns Hnm En Hv| | | | | |]; subst; [discriminate D|]. exists (Fun (ns ++ nm)%list).
        split; [cbn [text]; rewrite <- app_assoc; auto|]. split; [|kd]. exists ns, nm. split; [reflexivity|]. split; [destruct Hns as [->|[->| ->]]; cbn; auto|assumption].
      + inversion Hl as [? D| | | | | | |ns nm Hns Hnm En Hv| | | | |]; subst; [discriminate D|]. exists (Deco (ns ++ nm)%list).
        split; [eqs|]. split; [|kd]. exists ns, nm. split; [reflexivity|]. split; [destruct Hns as [->| ->]; cbn; auto|assumption].
      + inversion Hl as [? D| | | | | | | | | | | |]; subst; [discriminate D|]. exists (ListFun (tval k)). split; [reflexivity|]. split; [split; assumption|kd].
      + inversion Hl as [? D| | | | | | | | |En Hv| | |]; subst; [discriminate D|]. exists Star. split; [eqs|]. split; [exact I|kd].
      + inversion Hl as [? D| | | | | | | | | |En Hv| |]; subst; [discriminate D|]. exists (Kw "existing"). split; [eqs|]. split; [cbn; tauto|kd].
      + inversion Hl as [? D| | | | | | | | | | | |]; subst; [discriminate D|]. exists (Nl (tval k)). split; [reflexivity|]. split; [assumption|kd].
      + inversion Hl as [? D| | | | | | | | | | | |]; subst; [discriminate D|]. exists (Break (tval k)). split; [reflexivity|]. split; [assumption|kd].
    - apply andb_true_iff in Hk as [Ho Hk]. apply negb_true_iff in Ho.
      assert (Hv : tval k = u n). { inversion Hl; subst; try discriminate Ho; [congruence]. }
      destruct (existsb (String.eqb n) symbols) eqn:Hs.
      + exists (Sym n). split; [symmetry; exact Hv|]. split; [apply existsb_In; exact Hs|reflexivity].
      + cbn [orb] in Hk. apply andb_true_iff in Hk as [Hk He]. apply existsb_In in Hk. apply negb_true_iff in He. exists (Kw n). split; [symmetry; exact Hv|]. split; [exact Hk|]. cbn [of_kind]. rewrite He. reflexivity.
  Qed.
  Lemma reads_as_snoc ts a b t : reads_as E ts a -> blank b -> token_ok E t -> reads_as E (ts ++ [t]) (a ++ b ++ text t).
  Proof.
    intros H Hb Ht. induction H as [b0 Hb0|b0 t0 ts rest Hb0 Ht0 H IH].
    - cbn [app]. rewrite app_assoc, <- (app_nil_r (text t)). apply reads_as_tok; [apply blank_app; assumption|exact Ht|]. constructor. constructor.
    - cbn [app]. rewrite <- !app_assoc. apply reads_as_tok; assumption.
  Qed.
  Lemma reads_as_blank ts a b : reads_as E ts a -> blank b -> reads_as E ts (a ++ b).
  Proof.
    intros H Hb. induction H as [b0 Hb0|b0 t0 ts rest Hb0 Ht0 H IH]; [constructor; apply blank_app; assumption|]. rewrite <- !app_assoc. apply reads_as_tok; assumption.
  Qed.
End Words.

(** ** The parser *)
Lemma feed_empty : match feed (feed_fuel []) [] (g_end bicep_gram) None with FDone _ => True | _ => False end.
Proof. vm_compute. exact I. Qed.
Section Run.
  Variable E : pyenv.
  Lemma lexed_known acc fuel s line n t rest line' : List.length s < fuel -> next_token E fuel (make_lexer acc) s line = LTok n t rest line' -> tval t <> [] /\ known_tok E (n, t) /\ exists ig, s = (ig ++ tval t ++ rest)%list.
  Proof.
    intros Hf H. pose proof (next_token_spec E _ (make_lexer_ok acc) fuel s line Hf) as Hlex. rewrite H in Hlex.
    destruct Hlex as (ig & n0 & r & Hig & Hs & Hl1 & Hl2 & Hl3 & Hne & Hty & Hin & Hni & Hn & Hla & _).
    split; [exact Hne|]. split; [split; [exact Hty|cbn [fst snd]; rewrite Hn; eapply lexed_tok_ok; eassumption]|eauto].
  Qed.
  Lemma root_form : exists acc, root_lexer = make_lexer acc.
  Proof. eexists. reflexivity. Qed.

  Lemma known_not_end n k : known_tok E (n, k) -> n <> "$END"%string.
  Proof.
    intros [_ (acc & tm & Hin & Hn & _)] ->. cbn [fst] in Hn. assert (H : forallb (fun t => negb (String.eqb (t_name t) "$END")) sorted_terminals = true) by (vm_compute; reflexivity).
    rewrite forallb_forall in H. specialize (H tm Hin). rewrite Hn in H. discriminate H.
  Qed.

  #[local] Opaque bicep_tables bicep_gram.
  Lemma beginning_blank ks a b : beginning E ks a -> blank b -> beginning E ks (a ++ b).
  Proof. intros (H1 & H2 & H3) Hb. split; [apply reads_as_blank; assumption|]. split; assumption. Qed.
  (** What has been shifted, and the text read. *)
  Definition shifted (st : stack) (ks : list (string * tokn)) (a : str) : Prop :=
    map fst (st_leaves st) = map fst ks /\ Forall (known_tok E) (st_leaves st) /\ reads_as E (map snd ks) a /\ Forall (fun k => of_kind (fst k) (snd k)) ks.
  Lemma shifted_beginning st xs ks a : stk st xs -> top_state st <> final -> shifted st ks a -> beginning E ks a.
  Proof.
    intros Hst Hfin (H1 & H2 & H3 & H4). split; [exact H3|]. split; [exact H4|]. rewrite <- H1. eapply viable_sentence; [eassumption|assumption|eassumption|].
    revert H2. apply Forall_impl. intros [n k]. apply known_not_end.
  Qed.
  Lemma run_agree fuel : forall st xs s c a ks last, stk st xs -> top_state st <> final -> List.length s < fuel -> counts a c -> shifted st ks a ->
    match last with
    | None => a = [] /\ st = []
    | Some t => exists a0 w us k, a = (a0 ++ text w)%list /\ ks = us ++ [(k, w)] /\ beginning E us a0 /\ token_ok E w /\ place_behind a0 (p_pos t) (tline (p_token t)) (p_column t)
    end ->
    match run_located E fuel st s c last with
    | Parsed v => run E fuel st s (c_line c) = Ok v
    | AtToken n v pos line column => run E fuel st s (c_line c) = Err EUnexpectedToken /\ bad_token E (a ++ s) n v pos line column
    | AtCharacters pos line column => run E fuel st s (c_line c) = Err EUnexpectedCharacters /\ bad_character E (a ++ s) pos line column
    | EscapedEof | Exhausted => False
    end.
  Proof.
    induction fuel as [|fuel IH]; intros st xs s c a ks last Hst Hfin Hlen Hc Hsh Hlast; [lia|]. pose proof (shifted_beginning _ _ _ _ Hst Hfin Hsh) as Hbeg.
    cbn [run run_located]. unfold lex_next. destruct (lexer_of_form (top_state st)) as [acc Hacc]. rewrite Hacc.
    pose proof (next_agree E acc (Datatypes.S (List.length s)) s c a (Nat.lt_succ_diag_r _) Hc) as Hag.
    destruct (next_placed E (Datatypes.S (List.length s)) (make_lexer acc) s c) as [t rest c'| |rest c'|].
    - destruct Hag as (Hn & b & Hb & Hs & Hc' & Hp). rewrite Hn. destruct (lexed_known _ _ _ _ _ _ _ _ (Nat.lt_succ_diag_r _) Hn) as (Hne & Hk & _).
      destruct (known_word E _ _ Hk) as (w & Hw & Hwok & Hkind). pose proof Hk as [_ Htok]. cbn [fst snd] in Htok.
      pose proof (feed_shift_sound (feed_fuel st) st xs _ _ (p_token t) Hst eq_refl (tok_ok_id _ _ _ Htok) Hfin (measure_feed_fuel _ _ Hst)) as [(st' & xs' & Hf & Hst' & Hfin')|Hf]; rewrite Hf.
      + assert (Hlen' : List.length rest < fuel).
        { rewrite Hs in Hlen. rewrite !app_length in Hlen. destruct (tval (p_token t)); [contradiction|]. cbn [List.length] in Hlen. lia. }
        pose proof (feed_leaves _ _ _ _ _ Hf) as Hfl. cbn [leaves] in Hfl. rewrite <- Hw in *.
        assert (Hsh' : shifted st' (ks ++ [(p_name t, w)]) (a ++ b ++ text w)).
        { destruct Hsh as (H1 & H2 & H3 & H4). split; [rewrite Hfl, !map_app, H1; reflexivity|]. split; [rewrite Hfl; apply Forall_app; auto|].
          split; [rewrite map_app; apply reads_as_snoc; assumption|]. apply Forall_app. split; [exact H4|]. constructor; [exact Hkind|constructor]. }
        specialize (IH st' xs' rest c' (a ++ b ++ text w)%list (ks ++ [(p_name t, w)]) (Some t) Hst' Hfin' Hlen' Hc' Hsh').
        assert (Hl : exists a0 w0 us k, (a ++ b ++ text w)%list = (a0 ++ text w0)%list /\ ks ++ [(p_name t, w)] = us ++ [(k, w0)] /\ beginning E us a0 /\ token_ok E w0 /\ place_behind a0 (p_pos t) (tline (p_token t)) (p_column t)).
        { exists (a ++ b)%list, w, ks, (p_name t). split; [rewrite <- app_assoc; reflexivity|]. split; [reflexivity|]. split; [apply beginning_blank; assumption|]. split; assumption. }
        specialize (IH Hl). rewrite Hs. rewrite <- !app_assoc in IH. exact IH.
      + unfold at_token. split; [reflexivity|]. exists (a ++ b)%list, w, rest, ks. rewrite Hs, Hw, <- !app_assoc. split; [reflexivity|].
        split; [apply beginning_blank; assumption|]. split; [exact Hwok|]. split; [exact Hp|]. left. split; [exact Hkind|reflexivity].
    - destruct Hag as (line & Hn). rewrite Hn.
      pose proof (next_token_spec E _ (make_lexer_ok acc) (Datatypes.S (List.length s)) s (c_line c) (Nat.lt_succ_diag_r _)) as Hlex. rewrite Hn in Hlex. destruct Hlex as [Hig _].
      apply ignored_text_blank in Hig. rewrite g_end_1.
      pose proof (feed_end_sound (feed_fuel st) st xs Hst Hfin (measure_feed_fuel _ _ Hst)) as [(v & Hf & Hwf)|Hf]; rewrite Hf; [reflexivity|].
      destruct last as [t|]; cbn [at_end].
      + split; [reflexivity|]. destruct Hlast as (a0 & w & us & k & -> & -> & Hu & Hw & Hp). exists a0, w, s, us. rewrite <- app_assoc. split; [reflexivity|]. split; [exact Hu|]. split; [exact Hw|]. split; [exact Hp|]. right. split; [reflexivity|]. split; [reflexivity|]. split; [exact Hig|]. exists k. exact Hbeg.
      + destruct Hlast as [_ ->]. pose proof feed_empty as He. rewrite g_end_1, Hf in He. contradiction He.
    - destruct Hag as (Hn & Hbad & b & Hb & Hs & Hc' & Hne). rewrite Hn. destruct root_form as [racc Hra].
      pose proof (next_agree E racc (Datatypes.S (List.length rest)) rest c' (a ++ b)%list (Nat.lt_succ_diag_r _) Hc') as Hag. rewrite <- Hra in Hag.
      assert (Hnp : next_placed E (Datatypes.S (List.length rest)) root_lexer rest c' = match scan E root_lexer rest with
        | None => AFuel | Some None => ABad rest c'
        | Some (Some (n, k, rest')) => let v := firstn k rest in let c2 := feed_counter c' v (mem_str n newline_types) in
            ATok {| p_name := retype (lx_unless root_lexer) n v; p_token := {| ttype := u (retype (lx_unless root_lexer) n v); tval := v; tline := c_line c'; tend := c_line c2 |}; p_pos := char_pos c'; p_column := c_column c' |} rest' c2 end).
      { cbn [next_placed]. destruct rest as [|x rest]; [contradiction|]. destruct (scan E root_lexer (x :: rest)) as [[[[n k] rest']|]|] eqn:Hsc; [|reflexivity|reflexivity].
        rewrite (root_skips_nothing E _ _ _ _ _ Hbad Hsc). reflexivity. }
      rewrite Hnp in *. clear Hnp. destruct (scan E root_lexer rest) as [[[[n k] rest']|]|] eqn:Hsc; [| |contradiction Hag].
      + cbv zeta in Hag. cbv zeta. unfold at_token. split; [reflexivity|]. rewrite Hra in Hag. cbn [p_name p_token p_pos p_column tval tline] in *.
        destruct Hag as (Hnt & b' & Hb' & Hs' & _ & Hp). destruct (lexed_known _ _ _ _ _ _ _ _ (Nat.lt_succ_diag_r _) Hnt) as (Hne' & Hk & _).
        destruct (known_word E _ _ Hk) as (w & Hw & Hwok & Hkind). rewrite <- Hra in Hkind. cbn [tval] in *. exists ((a ++ b) ++ b')%list, w, rest', ks. rewrite Hs, Hw.
        split; [rewrite Hs' at 1; rewrite <- !app_assoc; reflexivity|]. split; [apply beginning_blank; [apply beginning_blank|]; assumption|]. split; [exact Hwok|]. split; [exact Hp|]. left. split; [exact Hkind|reflexivity].
      + split; [reflexivity|]. destruct rest as [|x rest]; [contradiction|]. exists (a ++ b)%list, x, rest, ks. rewrite Hs, <- app_assoc. split; [reflexivity|].
        split; [apply beginning_blank; assumption|]. split; [exact (root_no_start E _ _ Hsc)|apply counts_place; exact Hc'].
    - contradiction.
  Qed.

  Theorem locate_agree t :
    match locate E t with
    | Parsed v => parse_cst E t = Ok v
    | AtToken n v pos line column => parse_cst E t = Err EUnexpectedToken /\ bad_token E t n v pos line column
    | AtCharacters pos line column => parse_cst E t = Err EUnexpectedCharacters /\ bad_character E t pos line column
    | EscapedEof | Exhausted => False
    end.
  Proof.
    unfold locate, parse_cst. assert (Hf : top_state [] <> final) by (apply Pos.eqb_neq; exact init_not_final).
    assert (Hsh : shifted [] [] []) by (split; [reflexivity|]; split; [constructor|]; split; [constructor; constructor|constructor]).
    exact (run_agree (Datatypes.S (List.length t)) [] [] t counter0 [] [] None stk_nil Hf (Nat.lt_succ_diag_r _) counts_0 Hsh (conj eq_refl eq_refl)).
  Qed.
End Run.
