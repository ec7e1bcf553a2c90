(** The texts of the tokens, terminal by terminal. *)
From Coq Require Import List Arith NArith ZArith Bool String Lia.
From Verif Require Import Py.Str Py.Val Lark.Regex Lark.Terminals Lark.Lexer Spec.Lexemes Proofs.Base Proofs.Regex Proofs.Lexer.
Import ListNotations.
Local Open Scope string_scope.

Lemma re_named_qi : re_named "QUOTED_INTERPOLATION" = r_QUOTED_INTERPOLATION. Proof. vm_compute. reflexivity. Qed.
Lemma re_named_qs : re_named "QUOTED_STRING" = r_QUOTED_STRING. Proof. vm_compute. reflexivity. Qed.
Lemma re_named_mls : re_named "MULTI_LINE_STRING" = r_MULTI_LINE_STRING. Proof. vm_compute. reflexivity. Qed.
Lemma re_named_int : re_named "INT" = rplus (rset [("0", "9")]). Proof. vm_compute. reflexivity. Qed.
Lemma re_named_string : re_named "STRING" = r_STRING. Proof. vm_compute. reflexivity. Qed.
Lemma re_named_function : re_named "FUNCTION" = r_FUNCTION. Proof. vm_compute. reflexivity. Qed.
Lemma re_named_deco : re_named "DECO_NAME" =
  RSeq (ropt (rc "sys.")) (rplus (rset [("a", "z"); ("A", "Z"); ("0", "9")])). Proof. vm_compute. reflexivity. Qed.
Lemma re_named_list : re_named "LIST_FUNC_NAME" = r_LIST_FUNC_NAME. Proof. vm_compute. reflexivity. Qed.
Lemma re_named_star : re_named "STAR_RE" = rc "*". Proof. vm_compute. reflexivity. Qed.
Lemma re_named_existing : re_named "EXISTING" = rc "existing". Proof. vm_compute. reflexivity. Qed.
Lemma re_named_resource : re_named "resource" = rc "resource". Proof. vm_compute. reflexivity. Qed.

Section Forms.
  Variable E : pyenv.
  Lemma seq_inv top a b v : lang E top (RSeq a b) v -> exists x y, v = (x ++ y)%list /\ lang E top a x /\ lang E top b y.
  Proof. intros H. inversion H; subst; eauto. Qed.
  Lemma look_inv top n a v : lang E top (RLook n a) v -> v = [].
  Proof. intros H. inversion H; subst; reflexivity. Qed.
  Lemma set_inv top c v : lang E top (RSet c) v -> exists x, v = [x] /\ cs_mem E c x = true.
  Proof. intros H. inversion H; subst; eauto. Qed.
  Lemma alt_inv top a b v : lang E top (RAlt a b) v -> lang E top a v \/ lang E top b v.
  Proof. intros H. inversion H; subst; auto. Qed.
  Lemma eps_inv top v : lang E top REps v -> v = [].
  Proof. intros H. inversion H; subst; auto. Qed.
  Lemma plus_set_inv top c v : lang E top (rplus (RSet c)) v -> v <> [] /\ Forall (fun x => cs_mem E c x = true) v.
  Proof.
    intros H. apply seq_inv in H as (x & y & -> & Hx & Hy). apply set_inv in Hx as (x' & -> & Hx).
    apply lang_star_set in Hy. split; [discriminate|]. constructor; assumption.
  Qed.

  Lemma mem_letter x : cs_mem E {| cs_ranges := [(97, 122); (65, 90); (95, 95)]%N; cs_word := false; cs_neg := false |} x = letter x.
  Proof.
    unfold cs_mem, letter, is_alpha, is_lower, is_upper. cbn [cs_ranges cs_word cs_neg existsb fst snd andb].
    rewrite !orb_false_r. cbn [xorb]. unfold in_range at 3.
    replace ((95 <=? x)%N && (x <=? 95)%N)%bool with (x =? 95)%N.
    - destruct (in_range 97 122 x), (in_range 65 90 x), (x =? 95)%N; reflexivity.
    - destruct (N.eqb_spec x 95) as [->|H]; [reflexivity|].
      destruct (N.leb_spec 95 x), (N.leb_spec x 95); try reflexivity. lia.
  Qed.
  Lemma mem_alnum x : cs_mem E {| cs_ranges := [(97, 122); (65, 90); (48, 57)]%N; cs_word := false; cs_neg := false |} x = alnum x.
  Proof.
    unfold cs_mem, alnum, is_alpha, is_lower, is_upper, is_digit. cbn [cs_ranges cs_word cs_neg existsb fst snd andb].
    destruct (in_range 97 122 x), (in_range 65 90 x), (in_range 48 57 x); reflexivity.
  Qed.
  Lemma mem_digit x : cs_mem E {| cs_ranges := [(48, 57)]%N; cs_word := false; cs_neg := false |} x = is_digit x.
  Proof. unfold cs_mem, is_digit. cbn [cs_ranges cs_word cs_neg existsb fst snd andb]. destruct (in_range 48 57 x); reflexivity. Qed.
  Lemma mem_word x : cs_mem E {| cs_ranges := [(95, 95)]%N; cs_word := true; cs_neg := false |} x = word E x.
  Proof.
    unfold cs_mem. cbn [cs_ranges cs_word cs_neg existsb fst snd andb]. fold (rx_word E x). change (rx_word E x) with (word E x).
    replace (in_range 95 95 x) with (x =? 95)%N.
    - destruct (N.eqb_spec x 95) as [->|H]; [reflexivity|]. destruct (word E x); reflexivity.
    - unfold in_range. destruct (N.eqb_spec x 95) as [->|H]; [reflexivity|].
      destruct (N.leb_spec 95 x), (N.leb_spec x 95); try reflexivity. lia.
  Qed.
  Lemma Forall_ext {A} (P Q : A -> Prop) l : (forall x, P x -> Q x) -> Forall P l -> Forall Q l.
  Proof. intros H. apply Forall_impl. exact H. Qed.

  Lemma tok_quoted v : tok_ok E "QUOTED_INTERPOLATION" v -> exists b, v = quote b.
  Proof.
    intros H. apply tok_ok_lang in H as (top & H). rewrite re_named_qi in H. unfold r_QUOTED_INTERPOLATION in H. cbn [rseq] in H.
    apply seq_inv in H as (x & y & -> & Hx & H). apply look_inv in Hx as ->.
    apply seq_inv in H as (x & z & -> & Hx & H). apply lang_rc_inv in Hx as ->.
    apply seq_inv in H as (b & w & -> & _ & H). apply lang_rc_inv in H as ->. exists b. reflexivity.
  Qed.
  Lemma tok_quoted_string v : tok_ok E "QUOTED_STRING" v -> exists b, v = quote b.
  Proof.
    intros H. apply tok_ok_lang in H as (top & H). rewrite re_named_qs in H. unfold r_QUOTED_STRING in H. cbn [rseq] in H.
    apply seq_inv in H as (x & y & -> & Hx & H). apply lang_rc_inv in Hx as ->.
    apply seq_inv in H as (x & z & -> & Hx & H). apply seq_inv in H as (b & w & -> & _ & H).
    apply lang_rc_inv in H as ->. exists (x ++ b)%list. unfold quote. rewrite <- app_assoc. reflexivity.
  Qed.
  Lemma tok_multi v : tok_ok E "MULTI_LINE_STRING" v -> exists b, v = triple_quote b.
  Proof.
    intros H. apply tok_ok_lang in H as (top & H). rewrite re_named_mls in H. unfold r_MULTI_LINE_STRING in H. cbn [rseq] in H.
    apply seq_inv in H as (x & y & -> & Hx & H). apply lang_rc_inv in Hx as ->.
    apply seq_inv in H as (b & w & -> & _ & H). apply lang_rc_inv in H as ->. exists b. reflexivity.
  Qed.
  Lemma tok_int v : tok_ok E "INT" v -> digits v.
  Proof.
    intros H. apply tok_ok_lang in H as (top & H). rewrite re_named_int in H. apply plus_set_inv in H as [H1 H2].
    split; [exact H1|]. revert H2. apply Forall_impl. intros x Hx. rewrite <- mem_digit. exact Hx.
  Qed.
  Lemma tok_string v : tok_ok E "STRING" v -> ident E v.
  Proof.
    intros H. apply tok_ok_lang in H as (top & H). rewrite re_named_string in H. unfold r_STRING in H. cbn [rseq] in H.
    apply seq_inv in H as (x & y & -> & Hx & H). apply look_inv in Hx as ->.
    apply seq_inv in H as (x & z & -> & Hx & H). apply set_inv in Hx as (c & -> & Hc). apply lang_star_set in H.
    exists c, z. split; [reflexivity|]. split; [rewrite <- mem_letter; exact Hc|].
    revert H. apply Forall_impl. intros d Hd. rewrite <- mem_word. exact Hd.
  Qed.
  (** [name], [sys.name] or [az.name], then the parenthesis. *)
  Lemma tok_function v : tok_ok E "FUNCTION" v ->
    exists ns n, v = (ns ++ n ++ u "(")%list /\ plain_name n /\ (ns = [] \/ ns = u "sys." \/ ns = u "az.").
  Proof.
    intros H. apply tok_ok_lang in H as (top & H). rewrite re_named_function in H. unfold r_FUNCTION in H. cbn [rseq] in H.
    apply seq_inv in H as (ns & y & -> & Hns & H). apply seq_inv in H as (n & w & -> & Hn & H). apply lang_rc_inv in H as ->.
    exists ns, n. split; [reflexivity|]. split.
    - apply plus_set_inv in Hn as [H1 H2]. split; [exact H1|]. revert H2. apply Forall_impl. intros x Hx. rewrite <- mem_alnum. exact Hx.
    - apply alt_inv in Hns as [Hns|Hns]; [|left; apply eps_inv in Hns; exact Hns].
      apply seq_inv in Hns as (a & b & -> & Ha & Hb). apply lang_rc_inv in Hb as ->.
      apply alt_inv in Ha as [Ha|Ha]; apply lang_rc_inv in Ha as ->; auto.
  Qed.
  Lemma tok_deco v : tok_ok E "DECO_NAME" v ->
    exists ns n, v = (ns ++ n)%list /\ plain_name n /\ (ns = [] \/ ns = u "sys.").
  Proof.
    intros H. apply tok_ok_lang in H as (top & H). rewrite re_named_deco in H.
    apply seq_inv in H as (ns & n & -> & Hns & Hn). exists ns, n. split; [reflexivity|]. split.
    - apply plus_set_inv in Hn as [H1 H2]. split; [exact H1|]. revert H2. apply Forall_impl. intros x Hx. rewrite <- mem_alnum. exact Hx.
    - apply alt_inv in Hns as [Hns|Hns]; [right; apply lang_rc_inv in Hns; exact Hns|left; apply eps_inv in Hns; exact Hns].
  Qed.
  Lemma tok_star v : tok_ok E "STAR_RE" v -> v = u "*".
  Proof. intros H. apply tok_ok_lang in H as (top & H). rewrite re_named_star in H. apply lang_rc_inv in H. exact H. Qed.
  Lemma tok_existing v : tok_ok E "EXISTING" v -> v = u "existing".
  Proof. intros H. apply tok_ok_lang in H as (top & H). rewrite re_named_existing in H. apply lang_rc_inv in H. exact H. Qed.
  Lemma tok_resource v : tok_ok E "resource" v -> v = u "resource".
  Proof. intros H. apply tok_ok_lang in H as (top & H). rewrite re_named_resource in H. apply lang_rc_inv in H. exact H. Qed.
End Forms.

Lemma slice_quote b : slice_1_m1 (quote b) = b.
Proof. unfold slice_1_m1, quote. cbn [app tl]. apply removelast_last. Qed.
Lemma slice_triple b : slice_n_mn 3 (triple_quote b) = b.
Proof.
  unfold slice_n_mn, triple_quote. rewrite app_assoc, app_length. cbn [app skipn List.length Nat.mul Nat.add].
  replace (Datatypes.S (Datatypes.S (Datatypes.S (List.length b + 3))) - 6) with (List.length b) by lia.
  rewrite firstn_app, firstn_all, Nat.sub_diag. cbn [firstn]. apply app_nil_r.
Qed.
Lemma quote_inj a b : quote a = quote b -> a = b.
Proof. intros H. apply (f_equal slice_1_m1) in H. rewrite !slice_quote in H. exact H. Qed.
