(** Each terminal's pattern on the texts it is meant for. *)
From Coq Require Import List Arith NArith Bool String Lia.
From Verif Require Import Py.Str Py.Val Lark.Regex Lark.Terminals Lark.Lexer Spec.Lexemes Spec.Sentences Spec.Spelling
     Proofs.Base Proofs.Regex Proofs.Lexer Proofs.TokenForms Proofs.Match.
Import ListNotations.
Local Open Scope string_scope.

Lemma starts_app p a w : starts_with p w -> starts_with p (w ++ a)%list.
Proof. intros [x ->]. exists (x ++ a)%list. rewrite app_assoc. reflexivity. Qed.
Lemma starts_cons x p y w : starts_with (x :: p) (y :: w) -> x = y /\ starts_with p w.
Proof. intros [z H]. inversion H; subst. split; [reflexivity|exists z; reflexivity]. Qed.

Lemma is_char_in s x : is_char s x = true <-> In x (u s).
Proof.
  unfold is_char. rewrite existsb_exists. split.
  - intros (y & Hy & He). apply N.eqb_eq in He. subst y. exact Hy.
  - intros H. exists x. rewrite N.eqb_refl. auto.
Qed.
Lemma is_char_out s x : is_char s x = false <-> ~ In x (u s).
Proof. rewrite <- is_char_in. destruct (is_char s x); split; congruence || (intros H; exfalso; apply H; reflexivity). Qed.

Section Patterns.
  Variable E : pyenv.
  Variable top : re.
  Hypothesis top_good : good top = true.
  Hypothesis top_nn : nullable top = false.
  Hypothesis top_nl : leads top = false.

  (** A text [p], split between [v] and what follows: characters of [v] first. *)
  Lemma starts_split p : forall v rest, starts_with p (v ++ rest)%list ->
    starts_with p v \/ exists q, p = (v ++ q)%list /\ q <> [] /\ starts_with q rest.
  Proof.
    induction p as [|x p IH]; intros v rest H.
    - left. exists v. reflexivity.
    - destruct v as [|y v].
      + right. exists (x :: p). cbn [app] in *. repeat split; [discriminate|exact H].
      + cbn [app] in H. apply starts_cons in H as [-> H]. destruct (IH _ _ H) as [[z Hz]|(q & Hq & Hne & Hs)].
        * left. exists z. rewrite Hz. reflexivity.
        * right. exists q. rewrite Hq. auto.
  Qed.

  Lemma is_word_dot : word E 46%N = false. Proof. reflexivity. Qed.
  (** A namespace is not what an identifier starts with. *)
  Lemma no_ns_prefix v rest ns : ns = u "sys" \/ ns = u "az" -> Forall (fun x => word E x = true) v ->
    no_namespace v rest -> ahead (word E) rest = false -> ~ starts_with (ns ++ u ".")%list (v ++ rest)%list.
  Proof.
    intros Hns Hv Hno Hw H. destruct (starts_split _ _ _ H) as [[z Hz]|(q & Hq & Hne & Hs)].
    - rewrite Hz, !Forall_app in Hv. destruct Hv as [[_ Hdot] _]. inversion Hdot; subst.
      match goal with H : word E 46%N = true |- _ => rewrite is_word_dot in H; discriminate end.
    - destruct q as [|c q]; [contradiction|]. destruct rest as [|c' rest]; [destruct Hs; discriminate|].
      apply starts_cons in Hs as [<- Hs]. cbn [ahead] in Hw.
      assert (Hc : word E c = false -> c = 46%N /\ q = [] /\ v = ns).
      { intros Hc. clear - Hq Hc Hns.
        destruct Hns as [->| ->]; cbn [u app] in Hq.
        - destruct v as [|a v]; [inversion Hq; subst; vm_compute in Hc; discriminate|].
          cbn [app] in Hq. inversion Hq; subst. destruct v as [|a v]; [inversion H1; subst; vm_compute in Hc; discriminate|].
          cbn [app] in H1. inversion H1; subst. destruct v as [|a v]; [inversion H2; subst; vm_compute in Hc; discriminate|].
          cbn [app] in H2. inversion H2; subst. destruct v as [|a v]; [inversion H3; subst; auto|].
          cbn [app] in H3. inversion H3; subst. destruct v; discriminate.
        - destruct v as [|a v]; [inversion Hq; subst; vm_compute in Hc; discriminate|].
          cbn [app] in Hq. inversion Hq; subst. destruct v as [|a v]; [inversion H1; subst; vm_compute in Hc; discriminate|].
          cbn [app] in H1. inversion H1; subst. destruct v as [|a v]; [inversion H2; subst; auto|].
          cbn [app] in H2. inversion H2; subst. destruct v; discriminate. }
      destruct (Hc Hw) as (-> & -> & ->). specialize (Hno ltac:(destruct Hns; subst; cbn; auto)).
      cbn [ahead is_char] in Hno. vm_compute in Hno. discriminate.
  Qed.

  Lemma run_mt r s : re_run E top (S (List.length s)) r s = mt E top (S (List.length s)) (S (List.length s)) r 0 s MOk.
  Proof. reflexivity. Qed.

  Definition ns_re : re := RSeq (RAlt (rc "sys") (rc "az")) (rc ".").
  Lemma ns_pre : map fst (pre ns_re) = [u "sys."; u "az."]. Proof. reflexivity. Qed.
  Lemma ns_nomatch s : ~ starts_with (u "sys.") s -> ~ starts_with (u "az.") s -> nomatch E top ns_re s.
  Proof. intros H1 H2. apply nomatch_pre. rewrite ns_pre. intros p [<-|[<-|[]]]; assumption. Qed.
  Lemma ident_word v : ident E v -> Forall (fun x => word E x = true) v.
  Proof.
    intros (c & s & -> & Hc & Hs). constructor; [|exact Hs].
    unfold letter, is_alpha in Hc. unfold word.
    assert (Hlt : (c <? 128)%N = true).
    { apply N.ltb_lt. unfold is_lower, is_upper, in_range in Hc.
      repeat (apply orb_true_iff in Hc as [Hc|Hc]); rewrite ?andb_true_iff, ?N.leb_le in Hc;
        try (apply N.eqb_eq in Hc); lia. }
    rewrite Hlt. unfold is_word_ascii, is_alpha. destruct (is_lower c), (is_upper c), (c =? 95)%N; try discriminate; cbn;
      rewrite ?orb_true_r; reflexivity.
  Qed.

  Lemma string_ok v rest : word_ends E v rest ->
    re_run E top (S (List.length (v ++ rest)%list)) r_STRING (v ++ rest)%list = MOk (List.length v) rest.
  Proof.
    intros (Hid & Hw & Hns). pose proof (ident_word _ Hid) as Hall.
    rewrite run_mt. set (F := S (List.length (v ++ rest)%list)). unfold r_STRING. cbn [rseq]. fold ns_re.
    rewrite mt_seq, mt_look_ok.
    assert (Hno : mt E top F F ns_re 0 (v ++ rest)%list MOk = MFail).
    { apply mt_nomatch; [exact top_good|exact top_nn|exact top_nl|reflexivity|subst F; lia|unfold depth_ok; replace (leads ns_re) with false by reflexivity; subst F; lia|].
      apply ns_nomatch; [apply (no_ns_prefix v rest (u "sys"))|apply (no_ns_prefix v rest (u "az"))]; auto. }
    rewrite Hno.
    destruct Hid as (c & s & -> & Hc & Hs). cbn [app]. rewrite mt_seq. unfold rset. rewrite mt_set.
    change (cs_mem E _ c) with (cs_mem E {| cs_ranges := [(97, 122); (65, 90); (95, 95)]%N; cs_word := false; cs_neg := false |} c).
    rewrite mem_letter, Hc. unfold rset_w. rewrite mt_star.
    change (RSet {| cs_ranges := map (fun c => (c, c)) (u "_"); cs_word := true; cs_neg := false |}) with (RSet {| cs_ranges := [(95, 95)]%N; cs_word := true; cs_neg := false |}).
    apply star_set_ok.
    - rewrite Forall_forall in Hs |- *. intros x Hx. rewrite mem_word. auto.
    - destruct rest as [|y rest]; [reflexivity|]. cbn [ahead] in *. rewrite mem_word. exact Hw.
    - subst F. cbn [app List.length]. rewrite app_length. lia.
    - f_equal.
  Qed.

  Lemma lit_ok s rest : re_run E top (S (List.length (u s ++ rest)%list)) (rc s) (u s ++ rest)%list = MOk (List.length (u s)) rest.
  Proof. rewrite run_mt, mt_lit. reflexivity. Qed.

  Lemma int_ok v rest : digits v -> ahead is_digit rest = false ->
    re_run E top (S (List.length (v ++ rest)%list)) (rplus (rset [("0", "9")])) (v ++ rest)%list = MOk (List.length v) rest.
  Proof.
    intros [Hne Hv] Hr. rewrite run_mt. unfold rset.
    change (map (fun p => (hd 0%N (u (fst p)), hd 0%N (u (snd p)))) [("0", "9")]) with [(48, 57)%N].
    apply plus_set_ok; auto.
    - rewrite Forall_forall in Hv |- *. intros x Hx. rewrite mem_digit. auto.
    - destruct rest as [|y rest]; [reflexivity|]. cbn [ahead] in *. rewrite mem_digit. exact Hr.
    - rewrite app_length. lia.
  Qed.

  Definition alnum_re : re := rplus (rset [("a", "z"); ("A", "Z"); ("0", "9")]).
  Lemma alnum_ok F d n k v rest m r : plain_name v -> ahead alnum rest = false -> List.length v <= F ->
    k (n + List.length v) rest = MOk m r -> mt E top F d alnum_re n (v ++ rest)%list k = MOk m r.
  Proof.
    intros [Hne Hv] Hr Hf Hk. unfold alnum_re, rset.
    change (map (fun p => (hd 0%N (u (fst p)), hd 0%N (u (snd p)))) [("a", "z"); ("A", "Z"); ("0", "9")]) with [(97, 122); (65, 90); (48, 57)]%N.
    apply plus_set_ok; auto.
    - rewrite Forall_forall in Hv |- *. intros x Hx. rewrite mem_alnum. auto.
    - destruct rest as [|y rest]; [reflexivity|]. cbn [ahead] in *. rewrite mem_alnum. exact Hr.
  Qed.
  Lemma alnum_word x : alnum x = true -> word E x = true.
  Proof.
    intros H. unfold alnum, is_alpha in H. unfold word.
    assert (Hlt : (x <? 128)%N = true).
    { apply N.ltb_lt. unfold is_lower, is_upper, is_digit, in_range in H.
      repeat (apply orb_true_iff in H as [H|H]); rewrite ?andb_true_iff, ?N.leb_le in H; lia. }
    rewrite Hlt. unfold is_word_ascii, is_alpha. destruct (is_lower x), (is_upper x), (is_digit x); try discriminate; reflexivity.
  Qed.
  Lemma plain_word v : plain_name v -> Forall (fun x => word E x = true) v.
  Proof. intros [_ H]. rewrite Forall_forall in H |- *. intros x Hx. apply alnum_word. auto. Qed.

  Lemma function_ok ns v rest : In ns [[]; u "sys."; u "az."] -> plain_name v ->
    re_run E top (S (List.length ((ns ++ v ++ u "(") ++ rest)%list)) r_FUNCTION ((ns ++ v ++ u "(") ++ rest)%list
      = MOk (List.length (ns ++ v ++ u "(")%list) rest.
  Proof.
    intros Hns Hv. rewrite run_mt. set (F := S _). assert (HF : F = S (List.length ((ns ++ v ++ u "(") ++ rest)%list)) by reflexivity.
    clearbody F. unfold r_FUNCTION. cbn [rseq]. fold ns_re. fold alnum_re. unfold ropt. rewrite mt_seq, mt_alt.
    rewrite <- !app_assoc in *. rewrite !app_length in HF. rewrite !app_length.
    assert (Htail : forall n, mt E top F F (RSeq alnum_re (rc "(")) n (v ++ u "(" ++ rest)%list MOk = MOk (n + (List.length v + 1)) rest).
    { intros n. rewrite mt_seq. apply alnum_ok; auto; [lia|]. rewrite mt_lit. change (List.length (u "(")) with 1. f_equal. lia. }
    destruct Hns as [<-|[<-|[<-|[]]]].
    - cbn [app]. rewrite (mt_nomatch E top F F ns_re); auto; try lia.
      + rewrite mt_eps, Htail. reflexivity.
      + cbn [List.length] in HF. rewrite !app_length. lia.
      + unfold depth_ok. replace (leads ns_re) with false by reflexivity. rewrite !app_length. cbn [List.length] in HF. lia.
      + apply ns_nomatch; [apply (no_ns_prefix v _ (u "sys"))|apply (no_ns_prefix v _ (u "az"))]; auto using plain_word; try reflexivity; intros _; reflexivity.
    - unfold ns_re at 1. rewrite mt_seq, mt_alt.
      change (u "sys." ++ v ++ u "(" ++ rest)%list with (u "sys" ++ u "." ++ v ++ u "(" ++ rest)%list.
      rewrite mt_lit, mt_lit, Htail. reflexivity.
    - unfold ns_re at 1. rewrite mt_seq, mt_alt.
      change (u "az." ++ v ++ u "(" ++ rest)%list with (u "az" ++ u "." ++ v ++ u "(" ++ rest)%list.
      rewrite (mt_lit_fail E top F F "sys"), mt_lit, mt_lit, Htail; [reflexivity|].
      intros [w Hw]. discriminate.
  Qed.

  Lemma deco_ok ns v rest : In ns [[]; u "sys."] -> plain_name v -> ahead alnum rest = false -> ahead (is_char ".") rest = false ->
    re_run E top (S (List.length ((ns ++ v) ++ rest)%list)) (RSeq (ropt (rc "sys.")) alnum_re) ((ns ++ v) ++ rest)%list
      = MOk (List.length (ns ++ v)%list) rest.
  Proof.
    intros Hns Hv Hr Hd. rewrite run_mt. set (F := S _). assert (HF : F = S (List.length ((ns ++ v) ++ rest)%list)) by reflexivity.
    clearbody F. unfold ropt. rewrite mt_seq, mt_alt. rewrite <- !app_assoc in *. rewrite !app_length in HF. rewrite !app_length.
    assert (Htail : forall n, mt E top F F alnum_re n (v ++ rest)%list MOk = MOk (n + List.length v) rest).
    { intros n. apply alnum_ok; auto. lia. }
    destruct Hns as [<-|[<-|[]]].
    - cbn [app]. rewrite mt_lit_fail, mt_eps, Htail; [reflexivity|].
      intros H. change (u "sys.") with (u "sys" ++ u ".")%list in H. destruct (starts_split _ _ _ H) as [[z Hz]|(q & Hq & Hne & Hs)].
      + apply plain_word in Hv. rewrite Hz, !Forall_app in Hv. destruct Hv as [[_ Hv] _]. inversion Hv; subst.
        match goal with H : word E 46%N = true |- _ => rewrite is_word_dot in H; discriminate end.
      + destruct q as [|c q]; [contradiction|]. destruct rest as [|c' rest]; [destruct Hs; discriminate|].
        apply starts_cons in Hs as [<- Hs]. cbn [ahead] in Hr, Hd.
        assert (Hin : In c (u "sys" ++ u ".")%list) by (rewrite Hq; apply in_app_iff; right; left; reflexivity).
        cbn in Hin. decompose [or] Hin; subst; try (vm_compute in Hr; discriminate); try (vm_compute in Hd; discriminate); contradiction.
    - rewrite mt_lit, Htail. reflexivity.
  Qed.

  Lemma alpha_list x : is_alpha x = true -> cs_mem E {| cs_ranges := [(65, 122); (97, 122)]%N; cs_word := false; cs_neg := false |} x = true.
  Proof.
    unfold is_alpha, is_lower, is_upper, cs_mem, in_range. cbn [cs_ranges cs_word cs_neg existsb fst snd andb xorb].
    intros H. replace (65 <=? x)%N with true; [replace (x <=? 122)%N with true; [reflexivity|]|];
      symmetry; apply N.leb_le; apply orb_true_iff in H as [H|H]; apply andb_true_iff in H as [H1 H2]; apply N.leb_le in H1, H2; lia.
  Qed.
  Lemma alpha_set x : is_alpha x = cs_mem E {| cs_ranges := [(65, 90); (97, 122)]%N; cs_word := false; cs_neg := false |} x.
  Proof.
    unfold is_alpha, is_lower, is_upper, cs_mem. cbn [cs_ranges cs_word cs_neg existsb fst snd andb xorb].
    rewrite orb_false_r. destruct (in_range 97 122 x), (in_range 65 90 x); reflexivity.
  Qed.
  Lemma list_alpha v : list_name v -> v <> [] /\ Forall (fun c => is_alpha c = true) v.
  Proof.
    intros [w Hw|w Hw|]; (split; [discriminate|]); repeat (constructor; [reflexivity|]); auto.
  Qed.
  Definition list_look : re :=
    RSeq (RAlt (rseq [rset [("L", "L"); ("l", "l")]; rc "ist"; RStar true (rset [("A", "z"); ("a", "z")])]) (rc "getSecret")) (rc "(").
  Lemma list_look_ok F d v rest : list_name v -> ahead (is_char "(") rest = true -> List.length v < F ->
    exists n s, mt E top F d list_look 0 (v ++ rest)%list MOk = MOk n s.
  Proof.
    intros Hv Hr Hf. destruct rest as [|x rest]; [discriminate|]. cbn [ahead] in Hr.
    apply is_char_in in Hr. destruct Hr as [<-|[]]. match goal with |- context [?c :: rest] => change c with 40%N end.
    assert (H1 : forall c w, c = 76%N \/ c = 108%N -> Forall (fun x => is_alpha x = true) w -> S (S (S (S (List.length w)))) < F ->
      exists n s, mt E top F d list_look 0 (c :: u "ist" ++ w ++ 40%N :: rest)%list MOk = MOk n s).
    { intros c w Hc Hw Hlen. unfold list_look. cbn [rseq]. rewrite mt_seq, mt_alt, mt_seq. unfold rset at 1. rewrite mt_set.
      replace (cs_mem E _ c) with true by (destruct Hc; subst c; reflexivity).
      rewrite mt_seq, mt_lit, mt_star. unfold rset.
      change (map (fun p => (hd 0%N (u (fst p)), hd 0%N (u (snd p)))) [("A", "z"); ("a", "z")]) with [(65, 122); (97, 122)]%N.
      rewrite (star_set_ok E top F d _ _ w F (1 + List.length (u "ist")) (40%N :: rest) (1 + List.length (u "ist") + List.length w + 1) rest).
      - eauto.
      - rewrite Forall_forall in Hw |- *. intros y Hy. apply alpha_list. auto.
      - reflexivity.
      - lia.
      - change (40%N :: rest) with (u "(" ++ rest)%list. rewrite mt_lit. reflexivity. }
    destruct Hv as [w Hw|w Hw|].
    - apply (H1 76%N w); auto.
    - apply (H1 108%N w); auto.
    - change (u "getSecret" ++ 40%N :: rest)%list with (u "getSecret" ++ u "(" ++ rest)%list.
      unfold list_look. cbn [rseq]. rewrite mt_seq, mt_alt, mt_seq.
      match goal with |- context [mt E top F d (rset ?x) ?n ?s ?k] => replace (mt E top F d (rset x) n s k) with MFail by (unfold rset; rewrite mt_set; reflexivity) end.
      rewrite mt_lit, mt_lit. eauto.
  Qed.
  Lemma listfun_ok v rest : list_name v -> ahead (is_char "(") rest = true ->
    re_run E top (S (List.length (v ++ rest)%list)) r_LIST_FUNC_NAME (v ++ rest)%list = MOk (List.length v) rest.
  Proof.
    intros Hv Hr. rewrite run_mt. set (F := S _). unfold r_LIST_FUNC_NAME. fold list_look. rewrite mt_seq, mt_look.
    destruct (list_look_ok F F v rest Hv Hr) as (n & s & ->); [subst F; rewrite app_length; lia|].
    destruct (list_alpha v Hv) as [Hne Hall]. unfold rset.
    change (map (fun p => (hd 0%N (u (fst p)), hd 0%N (u (snd p)))) [("A", "Z"); ("a", "z")]) with [(65, 90); (97, 122)]%N.
    apply plus_set_ok; auto.
    - rewrite Forall_forall in Hall |- *. intros y Hy. rewrite <- alpha_set. auto.
    - destruct rest as [|x rest]; [discriminate|]. cbn [ahead] in Hr |- *.
      apply is_char_in in Hr. destruct Hr as [<-|[]]. reflexivity.
    - subst F. rewrite app_length. lia.
  Qed.

  (** Repetition of units the body consumes one at a time. *)
  Lemma star_units F d body k : forall us i n rest m r,
    (forall x n s K, In x us -> mt E top F d body n (x ++ s)%list K = K (n + List.length x) s) ->
    (forall n K, mt E top F d body n rest K = MFail) ->
    List.length us < i -> k (n + List.length (List.concat us)) rest = MOk m r ->
    star_loop true (mt E top F d body) k i n (List.concat us ++ rest)%list = MOk m r.
  Proof.
    induction us as [|x us IH]; intros i n rest m r Hb Hend Hi Hk; (destruct i as [|i]; [cbn [List.length] in Hi; lia|]); cbn [star_loop].
    - cbn [List.concat app]. rewrite Hend. cbn [List.concat List.length] in Hk. rewrite Nat.add_0_r in Hk. exact Hk.
    - cbn [List.concat]. rewrite <- app_assoc, Hb by (left; reflexivity).
      rewrite (IH i (n + List.length x) rest m r); auto.
      + intros y n' s K Hy. apply Hb. right. exact Hy.
      + cbn [List.length] in Hi. lia.
      + rewrite <- Hk. cbn [List.concat]. rewrite app_length, Nat.add_assoc. reflexivity.
  Qed.

  Definition unit_re : re := RSeq (ropt (rchar 13)) (rchar 10).
  Definition units (us : list str) : Prop := Forall (fun x => x = [10%N] \/ x = [13; 10]%N) us.
  Lemma feeds_units v : feeds v -> exists us, v = List.concat us /\ us <> [] /\ units us.
  Proof.
    intros H. induction H as [| |a b Ha (ua & -> & Hna & Hua) Hb (ub & -> & Hnb & Hub)].
    - exists [[10%N]]. repeat split; [discriminate|]. repeat constructor.
    - exists [[13; 10]%N]. repeat split; [discriminate|]. constructor; [right; reflexivity|constructor].
    - exists (ua ++ ub)%list. rewrite concat_app. repeat split.
      + destruct ua; [contradiction|discriminate].
      + apply Forall_app. split; assumption.
  Qed.
  Lemma unit_step F d x n s K : x = [10%N] \/ x = [13; 10]%N -> mt E top F d unit_re n (x ++ s)%list K = K (n + List.length x) s.
  Proof.
    intros [->| ->]; unfold unit_re, ropt, rchar; rewrite mt_seq, mt_alt, !mt_set; cbn [app].
    - replace (cs_mem E _ 10%N) with false by reflexivity. rewrite mt_eps, mt_set. replace (cs_mem E _ 10%N) with true by reflexivity.
      cbn [List.length]. f_equal. lia.
    - replace (cs_mem E _ 13%N) with true by reflexivity. rewrite mt_set. replace (cs_mem E _ 10%N) with true by reflexivity.
      cbn [List.length]. rewrite mt_eps, mt_set. replace (cs_mem E _ 13%N) with false by reflexivity.
      replace (n + 2) with (S (S n)) by lia. destruct (K (S (S n)) s); reflexivity.
  Qed.
  Lemma unit_end F d n K rest : ends_line rest -> mt E top F d unit_re n rest K = MFail.
  Proof.
    intros [H1 H2]. unfold unit_re, ropt, rchar. rewrite mt_seq, mt_alt, mt_set, mt_eps, mt_set.
    destruct rest as [|x rest]; [reflexivity|]. cbn [ahead] in H1. apply is_char_out in H1.
    assert (Hx : cs_mem E {| cs_ranges := [(10, 10)%N]; cs_word := false; cs_neg := false |} x = false).
    { destruct (cs_mem E _ x) eqn:Hm; [|reflexivity]. apply single_set in Hm. exfalso. apply H1. left. symmetry. exact Hm. }
    rewrite Hx. destruct (cs_mem E {| cs_ranges := [(13, 13)%N]; cs_word := false; cs_neg := false |} x) eqn:Hm; [|reflexivity].
    apply single_set in Hm. subst x. rewrite mt_set. destruct rest as [|y rest]; [reflexivity|].
    destruct (cs_mem E {| cs_ranges := [(10, 10)%N]; cs_word := false; cs_neg := false |} y) eqn:Hm; [|reflexivity].
    apply single_set in Hm. subst y. exfalso. exact (H2 rest eq_refl).
  Qed.
  Lemma units_len us : units us -> List.length us <= List.length (List.concat us).
  Proof.
    induction 1 as [|x us Hx Hu IH]; [cbn; lia|]. cbn [List.concat List.length]. rewrite app_length.
    destruct Hx; subst; cbn [List.length]; lia.
  Qed.
  Lemma newline_mt F d us n rest k m r : units us -> us <> [] -> ends_line rest -> List.length (List.concat us) <= F ->
    k (n + List.length (List.concat us)) rest = MOk m r -> mt E top F d r_newline n (List.concat us ++ rest)%list k = MOk m r.
  Proof.
    intros Hu Hne Hr Hf Hk. destruct us as [|x us]; [contradiction|]. inversion Hu; subst.
    unfold r_newline, rplus. fold unit_re. rewrite mt_seq. cbn [List.concat]. rewrite <- app_assoc.
    rewrite unit_step by assumption. rewrite mt_star. apply star_units.
    - intros y n' s K Hy. apply unit_step. match goal with H : Forall _ us |- _ => rewrite Forall_forall in H; apply H; exact Hy end.
    - intros n' K. apply unit_end. exact Hr.
    - assert (Hul : List.length us <= List.length (List.concat us)) by (apply units_len; assumption).
      cbn [List.concat] in Hf. rewrite app_length in Hf.
      assert (0 < List.length x) by (destruct H1; subst x; cbn [List.length]; lia). unfold str in *. lia.
    - rewrite <- Hk. cbn [List.concat]. rewrite app_length, Nat.add_assoc. reflexivity.
  Qed.
  Lemma newline_ok v rest : feeds v -> ends_line rest ->
    re_run E top (S (List.length (v ++ rest)%list)) r_newline (v ++ rest)%list = MOk (List.length v) rest.
  Proof.
    intros Hv Hr. destruct (feeds_units v Hv) as (us & -> & Hne & Hu). rewrite run_mt. apply newline_mt; auto.
    rewrite app_length. lia.
  Qed.
  Lemma not_lf_set v : ~ In 10%N v -> Forall (fun x => cs_mem E {| cs_ranges := [(10, 10)]%N; cs_word := false; cs_neg := true |} x = true) v.
  Proof.
    intros H. apply Forall_forall. intros x Hx. unfold cs_mem. cbn [cs_ranges cs_word cs_neg existsb fst snd andb].
    unfold in_range. destruct (N.leb_spec 10 x), (N.leb_spec x 10); try reflexivity.
    exfalso. apply H. replace 10%N with x by lia. exact Hx.
  Qed.
  Lemma break_ok v rest : line_break v -> ends_line rest ->
    re_run E top (S (List.length (v ++ rest)%list)) (RSeq (ropt r_cpp_comment) r_newline) (v ++ rest)%list = MOk (List.length v) rest.
  Proof.
    intros Hv Hr. rewrite run_mt. set (F := S _). unfold ropt. rewrite mt_seq, mt_alt. destruct Hv as [f Hf|body f Hb Hf].
    - unfold r_cpp_comment. rewrite mt_seq, mt_lit_fail.
      + rewrite mt_eps. destruct (feeds_units f Hf) as (us & -> & Hne & Hu). apply newline_mt; auto.
        subst F. rewrite app_length. lia.
      + destruct (feeds_units f Hf) as (us & -> & Hne & Hu). destruct us as [|x us]; [contradiction|]. inversion Hu; subst.
        intros [w Hw]. cbn [List.concat] in Hw. destruct H1; subst x; discriminate.
    - assert (HF : S (List.length ((u "//" ++ body ++ f) ++ rest)%list) <= F) by (subst F; lia). clearbody F.
      unfold r_cpp_comment. rewrite mt_seq, <- !app_assoc, mt_lit. destruct (feeds_units f Hf) as (us & -> & Hne & Hu).
      destruct us as [|x us]; [contradiction|]. inversion Hu; subst. unfold rnot. rewrite mt_star. cbn [map].
      assert (Hgo : forall b' us', ~ In 10%N b' -> units us' -> us' <> [] -> List.length b' + List.length (List.concat us') <= F - 2 -> hd [10%N] us' = [10%N] ->
        star_loop true (mt E top F F (RSet {| cs_ranges := [(10, 10)]%N; cs_word := false; cs_neg := true |}))
          (fun n' s' => mt E top F F r_newline n' s' MOk) F (0 + List.length (u "//")) (b' ++ List.concat us' ++ rest)%list
          = MOk (2 + List.length b' + List.length (List.concat us')) rest).
      { intros b' us' Hb' Hu' Hne' Hl Hhd. apply star_set_ok.
        - apply not_lf_set. exact Hb'.
        - destruct us' as [|y us']; [contradiction|]. cbn [hd] in Hhd. subst y. reflexivity.
        - destruct us' as [|y us']; [contradiction|]. cbn [hd] in Hhd. subst y. cbn [List.concat app List.length] in Hl. lia.
        - apply newline_mt; [exact Hu'|exact Hne'|exact Hr|unfold str in *; lia|reflexivity]. }
      destruct H1 as [->| ->].
      + rewrite (Hgo body ([10%N] :: us)); [|exact Hb|exact Hu|discriminate| |reflexivity].
        * cbn [u List.length]. rewrite !app_length. reflexivity.
        * rewrite !app_length in HF. change (List.length (u "//")) with 2 in HF. cbn [List.length List.concat app] in *. rewrite ?app_length in *. cbn [List.length] in *. unfold str in *. lia.
      + change (List.concat ([13%N; 10%N] :: us)) with ([13%N] ++ List.concat ([10%N] :: us))%list.
        replace (body ++ ([13%N] ++ List.concat ([10%N] :: us)) ++ rest)%list with ((body ++ [13%N]) ++ List.concat ([10%N] :: us) ++ rest)%list
          by (rewrite <- !app_assoc; reflexivity).
        rewrite Hgo.
        * rewrite !app_length. change (List.length (u "//")) with 2. cbn [List.length List.concat app]. f_equal. lia.
        * intros Hin. apply in_app_iff in Hin as [Hin|[Hin|[]]]; [contradiction|discriminate].
        * constructor; [left; reflexivity|assumption].
        * discriminate.
        * rewrite !app_length in HF. change (List.length (u "//")) with 2 in HF. cbn [List.length List.concat app] in *. rewrite ?app_length in *. cbn [List.length] in *. unfold str in *. lia.
        * reflexivity.
  Qed.

  Lemma multi_ok c rest : (forall a b, (c ++ u "''")%list <> (a ++ u "'''" ++ b)%list) ->
    re_run E top (S (List.length (triple_quote c ++ rest)%list)) r_MULTI_LINE_STRING (triple_quote c ++ rest)%list
      = MOk (List.length (triple_quote c)) rest.
  Proof.
    intros Hc. rewrite run_mt. set (F := S _). assert (HF : F = S (List.length (triple_quote c ++ rest)%list)) by reflexivity. clearbody F.
    unfold r_MULTI_LINE_STRING. cbn [rseq]. unfold triple_quote in *.
    change [39; 39; 39]%N with (u "'''") in *. rewrite <- !app_assoc. rewrite mt_seq, mt_lit, mt_seq, mt_star.
    apply lazy_any_ok.
    - intros a b Hab Hne. apply mt_lit_fail. intros Hs. cbn [u] in Hs.
      destruct b as [|x b]; [contradiction|]. cbn [app] in Hs. apply starts_cons in Hs as [<- Hs].
      destruct b as [|x b]; [|cbn [app] in Hs; apply starts_cons in Hs as [<- Hs]; destruct b as [|x b]].
      + apply (Hc a []). rewrite Hab, <- !app_assoc. reflexivity.
      + apply (Hc a [39%N]). rewrite Hab, <- !app_assoc. reflexivity.
      + cbn [app] in Hs. apply starts_cons in Hs as [<- Hs]. apply (Hc a (b ++ u "''")%list). rewrite Hab, <- !app_assoc. reflexivity.
    - rewrite HF, !app_length. simpl (List.length (u _)). lia.
    - rewrite mt_lit. f_equal. rewrite !app_length. simpl (List.length (u _)). lia.
  Qed.
  Lemma c_comment_ok c rest : (forall p q, (c ++ u "*")%list <> (p ++ u "*/" ++ q)%list) ->
    re_run E top (S (List.length ((u "/*" ++ c ++ u "*/") ++ rest)%list)) (RSeq (rc "/*") (RSeq (RStar false r_any) (rc "*/"))) ((u "/*" ++ c ++ u "*/") ++ rest)%list
      = MOk (List.length (u "/*" ++ c ++ u "*/")%list) rest.
  Proof.
    intros Hc. rewrite run_mt. set (F := S _). assert (HF : F = S (List.length ((u "/*" ++ c ++ u "*/") ++ rest)%list)) by reflexivity. clearbody F.
    rewrite <- !app_assoc. rewrite mt_seq, mt_lit, mt_seq, mt_star.
    apply lazy_any_ok.
    - intros a b Hab Hne. apply mt_lit_fail. intros Hs. cbn [u] in Hs.
      destruct b as [|x b]; [contradiction|]. cbn [app] in Hs. apply starts_cons in Hs as [<- Hs].
      destruct b as [|x b].
      + cbn [app] in Hs. apply starts_cons in Hs as [Hs _]. discriminate.
      + cbn [app] in Hs. apply starts_cons in Hs as [<- Hs].
        apply (Hc a (b ++ u "*")%list). rewrite Hab, <- !app_assoc. reflexivity.
    - rewrite HF, !app_length. simpl (List.length (u _)). lia.
    - rewrite mt_lit. f_equal. rewrite !app_length. simpl (List.length (u _)). lia.
  Qed.
  Lemma sh_ok c rest : ~ In 10%N c -> (rest = [] \/ exists r, rest = 10%N :: r) ->
    re_run E top (S (List.length ((u "#" ++ c) ++ rest)%list)) (RSeq (rc "#") (RStar true (rnot [10%N]))) ((u "#" ++ c) ++ rest)%list
      = MOk (List.length (u "#" ++ c)%list) rest.
  Proof.
    intros Hc Hr. rewrite run_mt. set (F := S _). assert (HF : F = S (List.length ((u "#" ++ c) ++ rest)%list)) by reflexivity. clearbody F.
    rewrite <- !app_assoc, mt_seq, mt_lit, mt_star. unfold rnot. cbn [map]. apply star_set_ok.
    - apply not_lf_set. exact Hc.
    - destruct Hr as [->|[r ->]]; reflexivity.
    - rewrite HF, !app_length. simpl (List.length (u _)). lia.
    - f_equal. 
  Qed.
  Definition ws_unit : re := RAlt (rchar 32) (rchar 9).
  Lemma ws_step F d x n s K : In x [32; 9]%N -> mt E top F d ws_unit n (x :: s) K = K (S n) s.
  Proof.
    intros [<-|[<-|[]]]; unfold ws_unit, rchar; rewrite mt_alt, !mt_set.
    - replace (cs_mem E _ 32%N) with true by reflexivity. replace (cs_mem E _ 32%N) with false by reflexivity.
      destruct (K (S n) s); reflexivity.
    - replace (cs_mem E _ 9%N) with false by reflexivity. replace (cs_mem E _ 9%N) with true by reflexivity. reflexivity.
  Qed.
  Lemma ws_end F d n s K : ahead (fun x => existsb (N.eqb x) [32; 9]%N) s = false -> mt E top F d ws_unit n s K = MFail.
  Proof.
    intros H. unfold ws_unit, rchar. rewrite mt_alt, !mt_set. destruct s as [|x s]; [reflexivity|]. cbn [ahead existsb] in H.
    rewrite orb_false_r in H. apply orb_false_iff in H as [H1 H2]. apply N.eqb_neq in H1, H2.
    destruct (cs_mem E {| cs_ranges := [(32, 32)%N]; cs_word := false; cs_neg := false |} x) eqn:Hm; [apply single_set in Hm; contradiction|].
    destruct (cs_mem E {| cs_ranges := [(9, 9)%N]; cs_word := false; cs_neg := false |} x) eqn:Hm2; [apply single_set in Hm2; contradiction|].
    reflexivity.
  Qed.
  Lemma ws_ok x b rest : In x [32; 9]%N -> Forall (fun y => In y [32; 9]%N) b -> ahead (fun x => existsb (N.eqb x) [32; 9]%N) rest = false ->
    re_run E top (S (List.length ((x :: b) ++ rest)%list)) (rplus ws_unit) ((x :: b) ++ rest)%list = MOk (List.length (x :: b)) rest.
  Proof.
    intros Hx Hb Hr. rewrite run_mt. set (F := S _). assert (HF : F = S (List.length ((x :: b) ++ rest)%list)) by reflexivity. clearbody F.
    unfold rplus. rewrite mt_seq. cbn [app]. rewrite ws_step by exact Hx. rewrite mt_star.
    replace b with (List.concat (map (fun y => [y]) b)) at 1.
    - apply star_units.
      + intros y n s K Hy. apply in_map_iff in Hy as (z & <- & Hz). cbn [app List.length]. rewrite Nat.add_1_r. apply ws_step.
        rewrite Forall_forall in Hb. auto.
      + intros n K. apply ws_end. exact Hr.
      + rewrite map_length, HF. cbn [app List.length]. rewrite app_length. lia.
      + cbn [List.length]. f_equal. clear. induction b as [|y b IH]; [reflexivity|]. cbn [map List.concat app List.length] in *. lia.
    - clear. induction b as [|y b IH]; [reflexivity|]. cbn [map List.concat app]. rewrite IH. reflexivity.
  Qed.
End Patterns.
