(** Facts about numerals, positional keys and dicts. *)
From Coq Require Import List Arith NArith ZArith Bool String Lia DecimalN.
From Verif Require Import Py.Str Py.Val Lark.Tree Pycep.Utils Pycep.Transformer Spec.Lexemes Spec.Program Spec.Values
  Proofs.Base Proofs.JsonLemmas Proofs.Children Proofs.Program.
Import ListNotations.
Local Open Scope string_scope.

(** ** Numerals *)
Lemma str_of_uint_inj a : forall b, str_of_uint a = str_of_uint b -> a = b.
Proof. induction a; intros []; cbn; intros H; try discriminate; try reflexivity; injection H as H; f_equal; auto. Qed.
Lemma dec_inj a b : dec a = dec b -> a = b.
Proof. intros H. apply str_of_uint_inj in H. exact (Unsigned.to_uint_inj a b H). Qed.
Lemma nth_key_inj p n m : nth_key p n = nth_key p m -> n = m.
Proof. unfold nth_key. intros H. apply app_inv_head, dec_inj in H. lia. Qed.

Lemma numbered_listed p l : forall n, numbered (u p) (N.of_nat n) l = listed p n l.
Proof.
  induction l as [|v l IH]; intros n; [reflexivity|]. cbn [numbered]. rewrite <- Nnat.Nat2N.inj_succ, IH. reflexivity.
Qed.
Lemma listed_keys p n l : map fst (listed p n l) = map (nth_key p) (seq n (List.length l)).
Proof.
  unfold listed. revert n. induction l as [|v l IH]; intros n; [reflexivity|]. cbn [List.length seq map combine fst]. f_equal. apply IH.
Qed.
Lemma listed_vals p n l : map snd (listed p n l) = l.
Proof.
  unfold listed. revert n. induction l as [|v l IH]; intros n; [reflexivity|]. cbn [List.length seq map combine snd]. f_equal. apply IH.
Qed.
Lemma listed_NoDup p n l : NoDup (map fst (listed p n l)).
Proof.
  rewrite listed_keys. generalize (List.length l). intros k. apply FinFun.Injective_map_NoDup; [|apply seq_NoDup].
  intros a b H. exact (nth_key_inj p a b H).
Qed.
Lemma listed_in p n l k : In k (map fst (listed p n l)) <-> exists i, n <= i < n + List.length l /\ k = nth_key p i.
Proof.
  rewrite listed_keys, in_map_iff. split.
  - intros (i & <- & Hi). apply in_seq in Hi. eauto.
  - intros (i & Hi & ->). exists i. split; [reflexivity|]. apply in_seq. exact Hi.
Qed.
Lemma listed_inj p n l l' : listed p n l = listed p n l' -> l = l'.
Proof. intros H. rewrite <- (listed_vals p n l), <- (listed_vals p n l'), H. reflexivity. Qed.
Lemma listed_app p n a b : listed p n (a ++ b)%list = (listed p n a ++ listed p (n + List.length a) b)%list.
Proof.
  unfold listed. revert n. induction a as [|v a IH]; intros n; cbn [app List.length].
  - rewrite Nat.add_0_r. reflexivity.
  - cbn [seq map combine app]. rewrite IH, Nat.add_succ_comm. reflexivity.
Qed.

(** ** Dicts *)
Lemma dict_of_id {A} (l : list (str * A)) : NoDup (map fst l) -> dict_of l = l.
Proof.
  induction l as [|[k v] l IH] using rev_ind; intros H; [reflexivity|]. rewrite dict_of_snoc.
  rewrite map_app in H. cbn [map fst] in H. apply NoDup_remove in H as [H Hn]. rewrite app_nil_r in *.
  rewrite (IH H). apply aset_absent. exact Hn.
Qed.
Lemma dict_of_firsts {A} (l : list (str * A)) : map fst (dict_of l) = firsts (map fst l).
Proof.
  induction l as [|[k v] l IH] using rev_ind; [reflexivity|]. rewrite dict_of_snoc, map_app. cbn [map fst]. rewrite firsts_snoc, <- IH.
  generalize (dict_of l). clear. intros d. induction d as [|[k' v'] d IH]; [reflexivity|]. cbn [aset map fst existsb].
  destruct (str_eqb_spec k k') as [->|Hk]; cbn [orb map fst app]; [reflexivity|]. rewrite IH. destruct (existsb _ _); reflexivity.
Qed.
Lemma last_value_spec {A} k (l : list (str * A)) v : last_value k l = Some v <-> last_of k l v.
Proof.
  unfold last_of. induction l as [|[k' v'] l IH] using rev_ind.
  - cbn. split; [discriminate|]. intros (a & b & H & _). destruct a; discriminate.
  - unfold last_value in *. rewrite fold_left_app. cbn [fold_left fst snd]. destruct (str_eqb_spec k k') as [->|Hk].
    + split.
      * intros [= ->]. exists l, []. auto.
      * intros (a & b & H & Hn). destruct b as [|x b] using rev_ind.
        -- apply app_inj_tail in H as [_ H]. congruence.
        -- exfalso. rewrite app_comm_cons, app_assoc in H. apply app_inj_tail in H as [_ H]. subst x. apply Hn. rewrite map_app, in_app_iff. right. left. reflexivity.
    + rewrite IH. split.
      * intros (a & b & -> & Hn). exists a, (b ++ [(k', v')])%list. rewrite <- app_assoc. split; [reflexivity|].
        rewrite map_app, in_app_iff. cbn. intros [H|[H|[]]]; congruence.
      * intros (a & b & H & Hn). destruct b as [|x b _] using rev_ind.
        -- apply app_inj_tail in H as [_ H]. congruence.
        -- rewrite app_comm_cons, app_assoc in H. apply app_inj_tail in H as [H _]. exists a, b. split; [exact H|].
           intros H'. apply Hn. rewrite map_app, in_app_iff. left. exact H'.
Qed.
Lemma aget_dict_last {A} k (l : list (str * A)) v : aget k (dict_of l) = Some v <-> last_of k l v.
Proof. rewrite aget_dict_of. apply last_value_spec. Qed.
Lemma in_dict_last {A} k (l : list (str * A)) v : In (k, v) (dict_of l) <-> last_of k l v.
Proof.
  rewrite <- aget_dict_last. pose proof (dict_of_NoDup l) as Hn. revert Hn. generalize (dict_of l). clear.
  intros d. induction d as [|[k' v'] d IH]; intros Hn; cbn [aget In]; [split; [contradiction|discriminate]|].
  cbn [map fst] in Hn. inversion Hn as [|? ? Hk Hd]; subst. specialize (IH Hd). destruct (str_eqb_spec k k') as [->|Hne].
  - split.
    + intros [[= ->]|H]; [reflexivity|]. exfalso. apply Hk. apply in_map_iff. exists (k', v). auto.
    + intros [= ->]. left. reflexivity.
  - rewrite <- IH. split; [intros [[= -> ->]|H]; [congruence|exact H]|auto].
Qed.

(** ** Integers *)
Section Ints.
  Variable E : pyenv.
  Open Scope N_scope.
  Lemma digit_facts c : is_digit c = true -> is_space E c = false /\ (c =? 95) = false /\ (c =? 45) = false /\ (c =? 43) = false /\
    digit_value E c = Some (c - 48) /\ c - 48 < 10 /\ c = 48 + (c - 48).
  Proof.
    intros H. pose proof H as H'. unfold is_digit, in_range in H. apply andb_true_iff in H as [H1 H2]. apply N.leb_le in H1, H2.
    unfold is_space, digit_value, in_range. assert (Hc : (c <? 128) = true) by (apply N.ltb_lt; lia). rewrite Hc, H'.
    assert (Hb : forall n, n <> c -> (c =? n) = false) by (intros n Hn; apply N.eqb_neq; congruence).
    rewrite !Hb by lia. assert (Hs : (9 <=? c) && (c <=? 13) = false) by (apply andb_false_iff; right; apply N.leb_gt; lia).
    rewrite Hs. repeat split; try reflexivity; lia.
  Qed.
  Lemma lstrip_digits s : Forall (fun c => is_digit c = true) s -> lstrip E s = s.
  Proof. destruct 1 as [|c s Hc Hs]; [reflexivity|]. cbn [lstrip]. rewrite (proj1 (digit_facts c Hc)). reflexivity. Qed.
  Lemma strip_digits s : Forall (fun c => is_digit c = true) s -> strip E s = s.
  Proof.
    intros H. unfold strip. rewrite (lstrip_digits s H), (lstrip_digits (rev s)), rev_involutive; [reflexivity|].
    apply Forall_forall. intros x Hx. apply in_rev in Hx. rewrite Forall_forall in H. auto.
  Qed.
  Lemma int_digits_app s c : Forall (fun c => is_digit c = true) s -> is_digit c = true -> forall ad acc cnt v k, s <> [] ->
    int_digits E ad acc cnt s = Some (v, k) -> int_digits E ad acc cnt (s ++ [c])%list = Some (v * 10 + (c - 48), k + 1).
  Proof.
    intros H Hc. induction H as [|x s Hx Hs IH]; intros ad acc cnt v k Hne; [congruence|]. cbn [app int_digits].
    destruct (digit_facts x Hx) as (_ & Hx1 & _ & _ & Hx2 & _). rewrite Hx1, Hx2. intros Hi.
    destruct s as [|y s].
    - cbn [int_digits app] in *. injection Hi as <- <-. destruct (digit_facts c Hc) as (_ & -> & _ & _ & -> & _). reflexivity.
    - apply IH; [discriminate|exact Hi].
  Qed.
  Lemma int_digits_spec s : digits s -> exists n, denotes s n /\ int_digits E false 0 0 s = Some (n, N.of_nat (List.length s)).
  Proof.
    intros [Hne H]. revert Hne H. induction s as [|c s IH] using rev_ind; intros Hne H; [congruence|].
    apply Forall_app in H as [Hs Hc]. inversion Hc as [|? ? Hd _]; subst. destruct (digit_facts c Hd) as (_ & Hc1 & _ & _ & Hc2 & Hc3 & Hc4).
    destruct s as [|x s].
    - exists (10 * 0 + (c - 48)). split.
      + rewrite Hc4 at 1. apply (denotes_snoc [] 0 (c - 48)); [constructor|exact Hc3].
      + cbn [app int_digits]. rewrite Hc1, Hc2. reflexivity.
    - destruct (IH ltac:(discriminate) Hs) as (n & Hn & Hi). exists (10 * n + (c - 48)). split.
      + rewrite Hc4 at 1. apply denotes_snoc; assumption.
      + rewrite (int_digits_app _ c Hs Hd _ _ _ n _ ltac:(discriminate) Hi). do 2 f_equal; [lia|]. rewrite app_length. cbn [List.length]. lia.
  Qed.
  Lemma denotes_unique s n : denotes s n -> forall m, denotes s m -> n = m.
  Proof.
    induction 1 as [|s n d Hs IH Hd]; intros m Hm.
    - inversion Hm; [reflexivity|]. exfalso. eapply app_cons_not_nil. symmetry. eassumption.
    - inversion Hm as [Hx|s' n' d' Hs' Hd' Hx]; [exfalso; eapply app_cons_not_nil; eassumption|]. apply app_inj_tail in Hx as [-> Hx].
      assert (Hx' : (48 + d' = 48 + d)%N) by exact Hx. clear Hx. rewrite (IH _ Hs'). lia.
  Qed.
  (** [int] on a numeral. *)
  Lemma int_of_digits s n : digits s -> denotes s n ->
    int_of_str E s = if Nat.leb (List.length s) digit_limit then Ok (Z.of_N n) else Err ve.
  Proof.
    intros Hd Hn. destruct (int_digits_spec s Hd) as (n' & Hn' & Hi). rewrite (denotes_unique s n' Hn' n Hn) in Hi. destruct Hd as [Hne Hd].
    unfold int_of_str. rewrite (strip_digits s Hd).
    destruct s as [|c s]; [congruence|]. inversion Hd as [|? ? Hc _]; subst. destruct (digit_facts c Hc) as (_ & _ & -> & -> & _).
    rewrite Hi. unfold max_str_digits. destruct (Nat.leb_spec (List.length (c :: s)) digit_limit) as [Hl|Hl]; unfold digit_limit in Hl.
    - destruct (N.ltb_spec 4300 (N.of_nat (List.length (c :: s)))); [lia|reflexivity].
    - destruct (N.ltb_spec 4300 (N.of_nat (List.length (c :: s)))); [reflexivity|lia].
  Qed.
End Ints.

Lemma sanitize_spec b : exists r, trimmed b r /\ sanitize_multi_line_string_token (triple_quote b) = r.
Proof.
  unfold sanitize_multi_line_string_token. rewrite TokenForms.slice_triple. unfold remove_prefix. cbn [List.length].
  destruct b as [|c b]; [exists []; split; [constructor; discriminate|reflexivity]|]. cbn [starts_with].
  destruct (N.eqb_spec 10 c) as [<-|Hc]; cbn [andb].
  - exists b. split; [constructor|reflexivity].
  - exists (c :: b). split; [constructor; intros s' [= H]; congruence|reflexivity].
Qed.
