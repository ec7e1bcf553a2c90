(** A check that a text spells tokens; used for the concrete cases beside the
    theorems.  It knows the simple spellings only. *)
From Coq Require Import List Arith NArith PArith Bool String Lia.
From Verif Require Import Py.Str Py.Val Spec.Lexemes Spec.Sentences Spec.Spelling Proofs.Base.
Import ListNotations.
Local Open Scope string_scope.

Fixpoint content_ok (inside : bool) (s : str) : bool :=
  match s with
  | [] => negb inside
  | x :: s' =>
      if inside then if is_char "}" x then content_ok false s' else negb (is_char "'{" x) && content_ok true s'
      else if (x =? 36)%N then match s' with 123%N :: s'' => content_ok true s'' | _ => false end
      else negb (is_char "'\$" x) && content_ok false s'
  end.
Fixpoint line_ok (s : str) : bool :=
  negb (starts_with (u "'''") s) && match s with [] => true | x :: s' => (x =? 10)%N || line_ok s' end.
Fixpoint feeds_ok (s : str) : bool :=
  match s with
  | [10%N] => true
  | 10%N :: s' => feeds_ok s'
  | [13%N; 10%N] => true
  | 13%N :: 10%N :: s' => feeds_ok s'
  | _ => false
  end.
Fixpoint comment_ok (s : str) : bool :=
  match s with 10%N :: _ => feeds_ok s | _ :: s' => comment_ok s' | [] => false end.
Definition break_ok (s : str) : bool := feeds_ok s || match s with 47%N :: 47%N :: s' => comment_ok s' | _ => false end.
Definition ident_ok (E : pyenv) (s : str) : bool := match s with c :: s' => letter c && forallb (word E) s' | [] => false end.
Definition name_ok (s : str) : bool := negb (str_eqb s []) && forallb alnum s.
Definition mem (v : str) (l : list string) : bool := existsb (fun s => str_eqb v (u s)) l.
Definition ends_ok (rest : str) : bool := match rest with 10%N :: _ => false | 13%N :: 10%N :: _ => false | _ => true end.
Definition word_ok (E : pyenv) (v rest : str) : bool :=
  ident_ok E v && negb (ahead (word E) rest) && (negb (mem v ["sys"; "az"]) || negb (ahead (is_char ".") rest)).
Definition list_ok (v : str) : bool :=
  str_eqb v (u "getSecret") || starts_with (u "list") v && forallb is_alpha (skipn 4 v).

Definition fit (E : pyenv) (prev : option tokn) (t : tokn) (rest : str) : bool :=
  match t with
  | Sym s => existsb (String.eqb s) symbols && negb (ahead (is_char (longer s)) rest)
  | Kw s => existsb (String.eqb s) keywords && negb (ahead (word E) rest) && (String.eqb s "if" || negb (ahead (is_char "(") rest))
  | Star => true
  | Name v => word_ok E v rest
  | Ref v => word_ok E v rest && negb (ahead (is_char "(") rest) && negb (mem v (reserved_ref prev)) &&
             (negb (list_position prev) || negb (ahead (in_range 91 96) rest))
  | Key v => word_ok E v rest && negb (ahead (is_char "(") rest) && negb (mem v (reserved_key prev))
  | Num v => negb (str_eqb v []) && forallb is_digit v && negb (ahead alnum rest) && negb (ahead (is_char "(") rest)
  | Quoted c => content_ok false c && forallb (fun x => negb (x =? 10)%N) c && line_ok (quote c ++ rest)%list
  | Multi c => forallb (fun x => negb (x =? 39)%N) c
  | Fun v => name_ok v && negb (list_position prev)
  | ListFun v => list_ok v && ahead (is_char "(") rest
  | Deco v => name_ok v && negb (ahead alnum rest) && negb (ahead (is_char ".") rest)
  | Break v => break_ok v && ends_ok rest
  | Nl v => feeds_ok v && ends_ok rest
  end.

Lemma content_ok_sound n : forall inside s, content_ok inside s = true ->
  if inside then exists b s', s = (b ++ u "}" ++ s')%list /\ code n b /\ content n s' else content n s.
Proof.
  enough (H : forall k s, List.length s <= k -> forall inside, content_ok inside s = true ->
    if inside then exists b s', s = (b ++ u "}" ++ s')%list /\ code n b /\ content n s' else content n s).
  { intros inside s. exact (H (List.length s) s (Nat.le_refl _) inside). }
  induction k as [|k IH]; intros s Hk inside H.
  - destruct s; [|cbn in Hk; lia]. destruct inside; [discriminate|constructor].
  - destruct s as [|x s]; [destruct inside; [discriminate|constructor]|]. cbn [List.length] in Hk. destruct inside; cbn [content_ok] in H.
    + destruct (is_char "}" x) eqn:Hx.
      * exists [], s. split; [|split; [constructor|exact (IH s ltac:(lia) false H)]].
        unfold is_char in Hx. cbn in Hx. rewrite orb_false_r in Hx. apply N.eqb_eq in Hx. rewrite Hx. reflexivity.
      * apply andb_true_iff in H as [H1 H2]. destruct (IH s ltac:(lia) true H2) as (b & s' & -> & Hb & Hs). exists (x :: b), s'. split; [reflexivity|]. split; [|exact Hs].
        constructor; [|exact Hb]. unfold is_char in *. cbn in *. apply negb_true_iff in H1.
        destruct (x =? 39)%N, (x =? 123)%N, (x =? 125)%N; try discriminate; reflexivity.
    + destruct (x =? 36)%N eqn:Hx.
      * destruct s as [|y s]; [discriminate|]. apply N.eqb_eq in Hx. subst x.
        destruct (N.eq_dec y 123) as [->|Hy].
        -- destruct (IH s ltac:(cbn in Hk; lia) true H) as (b & s' & -> & Hb & Hs). exact (con_code n b s' Hb Hs).
        -- exfalso. clear - H Hy. destruct y as [|p]; [discriminate|]. do 7 (try (destruct p as [p|p|]; try discriminate; try congruence)).
      * apply andb_true_iff in H as [H1 H2]. constructor; [apply negb_true_iff; exact H1|exact (IH s ltac:(lia) false H2)].
Qed.
Lemma line_ok_sound s : line_ok s = true -> no_triple_on_line s.
Proof.
  induction s as [|x s IH]; intros H a b Heq; cbn [line_ok] in H; apply andb_true_iff in H as [H1 H2].
  - destruct a; discriminate.
  - destruct a as [|y a].
    + cbn [app] in Heq. rewrite Heq in H1. cbn in H1. discriminate.
    + cbn [app] in Heq. injection Heq as <- Heq. apply orb_true_iff in H2 as [H2|H2]; [apply N.eqb_eq in H2; subst; left; reflexivity|]. right. exact (IH H2 a b Heq).
Qed.
Lemma feeds_ok_sound s : feeds_ok s = true -> feeds s.
Proof.
  enough (H : forall k s, List.length s <= k -> feeds_ok s = true -> feeds s) by exact (H _ s (Nat.le_refl _)).
  assert (Hcase : forall x s, feeds_ok (x :: s) = true -> (x = 10%N /\ (s = [] \/ feeds_ok s = true)) \/ (x = 13%N /\ exists s', s = 10%N :: s' /\ (s' = [] \/ feeds_ok s' = true))).
  { clear. intros x s H. cbn [feeds_ok] in H. destruct x as [|p]; [discriminate|]. do 4 (try (destruct p as [p|p|]; try discriminate)).
    - right. split; [reflexivity|]. destruct s as [|y s]; [discriminate|]. destruct y as [|p]; [discriminate|]. do 4 (try (destruct p as [p|p|]; try discriminate)).
      exists s. split; [reflexivity|]. destruct s; [left; reflexivity|right; exact H].
    - left. split; [reflexivity|]. destruct s; [left; reflexivity|right; exact H]. }
  induction k as [|k IH]; intros [|x s'] Hk H; try discriminate; cbn [List.length] in Hk; [lia|]. destruct (Hcase _ _ H) as [[-> [->|Hs]]|(-> & s2 & -> & [->|Hs])].
  - constructor.
  - exact (feeds_more [10%N] s' feeds_lf (IH s' ltac:(lia) Hs)).
  - constructor.
  - exact (feeds_more [13; 10]%N s2 feeds_crlf (IH s2 ltac:(cbn in Hk; lia) Hs)).
Qed.
Lemma comment_ok_sound s : comment_ok s = true -> exists b f, s = (b ++ f)%list /\ ~ In 10%N b /\ feeds f.
Proof.
  induction s as [|x s IH]; intros H; [discriminate|]. destruct (N.eq_dec x 10) as [->|Hx].
  - exists [], (10%N :: s). split; [reflexivity|]. split; [intros []|]. exact (feeds_ok_sound _ H).
  - assert (H' : comment_ok s = true) by (cbn [comment_ok] in H; destruct x as [|p]; [exact H|]; do 4 (try (destruct p as [p|p|]; try exact H)); congruence).
    destruct (IH H') as (b & f & -> & Hb & Hf). exists (x :: b), f. split; [reflexivity|]. split; [|exact Hf]. intros [?|?]; [congruence|auto].
Qed.
Lemma break_ok_sound s : break_ok s = true -> line_break s.
Proof.
  unfold break_ok. intros H. apply orb_true_iff in H as [H|H]; [constructor; exact (feeds_ok_sound _ H)|].
  destruct s as [|x [|y s]]; [discriminate|destruct x as [|p]; [discriminate|do 6 (try (destruct p as [p|p|]; try discriminate))]|].
  assert (x = 47%N /\ y = 47%N /\ comment_ok s = true) as (-> & -> & Hc).
  { destruct x as [|p]; [discriminate|]. do 6 (try (destruct p as [p|p|]; try discriminate)).
    destruct y as [|p]; [discriminate|]. do 6 (try (destruct p as [p|p|]; try discriminate)). auto. }
  destruct (comment_ok_sound _ Hc) as (b & f & -> & Hb & Hf). exact (break_comment b f Hb Hf).
Qed.
Lemma mem_sound v l : mem v l = false -> ~ In v (map u l).
Proof.
  unfold mem. intros H Hin. apply in_map_iff in Hin as (s & <- & Hs).
  assert (existsb (fun s0 => str_eqb (u s) (u s0)) l = true) by (apply existsb_exists; exists s; split; [exact Hs|apply str_eqb_refl]). congruence.
Qed.
Lemma ident_ok_sound E s : ident_ok E s = true -> ident E s.
Proof. destruct s as [|c s]; [discriminate|]. cbn [ident_ok]. intros H. apply andb_true_iff in H as [H1 H2]. exists c, s. rewrite forallb_forall in H2. rewrite Forall_forall. auto. Qed.
Lemma name_ok_sound s : name_ok s = true -> plain_name s.
Proof.
  unfold name_ok. intros H. apply andb_true_iff in H as [H1 H2]. apply negb_true_iff, str_eqb_neq in H1. split; [exact H1|]. rewrite forallb_forall in H2. rewrite Forall_forall. exact H2.
Qed.
Lemma ends_ok_sound rest : ends_ok rest = true -> ends_line rest.
Proof.
  intros H. split.
  - destruct rest as [|x rest]; [reflexivity|]. cbn [ahead]. unfold is_char. cbn. destruct (N.eqb_spec x 10); [subst; discriminate|reflexivity].
  - intros r ->. discriminate.
Qed.
Lemma word_ok_sound E v rest : word_ok E v rest = true -> word_ends E v rest.
Proof.
  unfold word_ok. intros H. apply andb_true_iff in H as [H H3]. apply andb_true_iff in H as [H1 H2]. split; [exact (ident_ok_sound _ _ H1)|]. split; [apply negb_true_iff; exact H2|].
  intros Hin. apply orb_true_iff in H3 as [H3|H3]; [|apply negb_true_iff; exact H3]. apply negb_true_iff in H3. destruct (mem_sound _ _ H3). destruct Hin as [<-|[<-|[]]]; [left|right; left]; reflexivity.
Qed.
Lemma starts_split p : forall s, starts_with p s = true <-> exists s', s = (p ++ s')%list.
Proof.
  induction p as [|c p IH]; intros s; cbn.
  - split; eauto.
  - destruct s as [|d s]; [split; [discriminate|intros (s' & H); discriminate]|].
    rewrite andb_true_iff, N.eqb_eq, IH. split.
    + intros [-> (s' & ->)]. eauto.
    + intros (s' & H). injection H as -> ->. eauto.
Qed.
Lemma list_ok_sound v : list_ok v = true -> list_name v.
Proof.
  unfold list_ok. intros H. apply orb_true_iff in H as [H|H]; [apply str_eqb_eq in H; subst; constructor|].
  apply andb_true_iff in H as [H1 H2]. apply starts_split in H1 as [w ->]. constructor 2. rewrite forallb_forall in H2. rewrite Forall_forall. exact H2.
Qed.
Lemma existsb_in (s : string) l : existsb (String.eqb s) l = true -> In s l.
Proof. intros H. apply existsb_exists in H as (x & Hx & He). apply String.eqb_eq in He. subst. exact Hx. Qed.
Lemma forallb_not x (l : str) : forallb (fun y => negb (y =? x)%N) l = true -> ~ In x l.
Proof. intros H Hin. rewrite forallb_forall in H. specialize (H x Hin). rewrite N.eqb_refl in H. discriminate. Qed.
Lemma no_quote_triple c : ~ In 39%N c -> forall a b, (c ++ u "''")%list <> (a ++ u "'''" ++ b)%list.
Proof.
  induction c as [|x c IH]; intros Hno a b H.
  - apply (f_equal (@List.length N)) in H. unfold str in *. rewrite !app_length in H. cbn [List.length u String.list_ascii_of_string map] in H. cbn in H. lia.
  - destruct a as [|y a]; cbn [app] in H; injection H as H1 H2.
    + apply Hno. left. exact H1.
    + apply (IH ltac:(intros ?; apply Hno; right; assumption) a b). exact H2.
Qed.
Ltac splits := repeat match goal with
  | H : _ && _ = true |- _ => apply andb_true_iff in H as [? ?]
  | H : negb _ = true |- _ => apply negb_true_iff in H end.
Lemma fit_sound E prev t rest : fit E prev t rest = true -> fits E prev t rest.
Proof.
  destruct t; cbn [fit fits]; intros H; splits.
  - split; [apply existsb_in; assumption|assumption].
  - split; [apply existsb_in; assumption|]. split; [assumption|]. intros Hne. match goal with H : String.eqb _ _ || _ = true |- _ => apply orb_true_iff in H as [H|H] end.
    + match goal with H : String.eqb _ _ = true |- _ => apply String.eqb_eq in H; contradiction end.
    + match goal with H : negb _ = true |- _ => apply negb_true_iff in H; exact H end.
  - exact I.
  - apply word_ok_sound. assumption.
  - split; [apply word_ok_sound; assumption|]. split; [assumption|]. split; [apply mem_sound; assumption|]. intros Hl _.
    match goal with H : _ || _ = true |- _ => apply orb_true_iff in H as [H|H]; apply negb_true_iff in H; [congruence|exact H] end.
  - split; [apply word_ok_sound; assumption|]. split; [assumption|apply mem_sound; assumption].
  - split; [|split; assumption]. split; [apply str_eqb_neq; assumption|]. rewrite Forall_forall. apply forallb_forall. assumption.
  - split; [exact (content_ok_sound _ false c ltac:(assumption))|]. split; [apply forallb_not; assumption|apply line_ok_sound; assumption].
  - apply no_quote_triple, forallb_not. assumption.
  - split; [|congruence]. exists [], v. split; [reflexivity|]. split; [left; reflexivity|apply name_ok_sound; assumption].
  - split; [apply list_ok_sound; assumption|assumption].
  - split; [|split; assumption]. exists [], v. split; [reflexivity|]. split; [left; reflexivity|apply name_ok_sound; assumption].
  - split; [apply break_ok_sound; assumption|apply ends_ok_sound; assumption].
  - split; [apply feeds_ok_sound; assumption|apply ends_ok_sound; assumption].
Qed.

(** Texts, as tokens with what stands in front of them. *)
Inductive filler := Blanks (n : nat) | Tab | Remark (c : string) | Hash (c : string).
Definition filler_text (f : filler) : str :=
  match f with Blanks n => repeat 32%N n | Tab => [9%N] | Remark c => (u "/*" ++ u c ++ u "*/")%list | Hash c => (u "#" ++ u c)%list end.
Definition fillers (l : list filler) : str := flat_map filler_text l.
Definition filled (l : list filler) (rest : str) : bool :=
  forallb (fun f => match f with Remark c => forallb (fun x => negb (x =? 42)%N) (u c) | Hash _ => false | _ => true end) l ||
  match l with [Hash c] => forallb (fun x => negb (x =? 10)%N) (u c) && match rest with [] => true | x :: _ => (x =? 10)%N end | _ => false end.
Lemma no_star c : ~ In 42%N c -> forall p q, (c ++ u "*")%list <> (p ++ u "*/" ++ q)%list.
Proof.
  induction c as [|x c IH]; intros Hno p q H.
  - apply (f_equal (@List.length N)) in H. unfold str in *. rewrite !app_length in H. cbn in H. lia.
  - destruct p as [|y p]; cbn [app] in H; injection H as H1 H2; [apply Hno; left; exact H1|].
    apply (IH ltac:(intros ?; apply Hno; right; assumption) p q). exact H2.
Qed.
Lemma filled_sound l rest : filled l rest = true -> skipped (fillers l) rest.
Proof.
  unfold filled. intros H. apply orb_true_iff in H as [H|H].
  - induction l as [|f l IH]; [constructor|]. cbn [forallb] in H. apply andb_true_iff in H as [H1 H2]. specialize (IH H2). unfold fillers. cbn [flat_map]. fold (fillers l).
    destruct f as [n| |c|c]; cbn [filler_text]; try discriminate.
    + clear -IH. induction n as [|n IHn]; [exact IH|]. cbn [repeat app]. constructor; [left; reflexivity|exact IHn].
    + cbn [app]. constructor; [right; left; reflexivity|exact IH].
    + rewrite <- !app_assoc. constructor; [|exact IH]. apply no_star, forallb_not. exact H1.
  - destruct l as [|[n| |c|c] [|f l]]; try discriminate. apply andb_true_iff in H as [H1 H2]. unfold fillers. cbn [flat_map filler_text]. rewrite app_nil_r.
    constructor; [apply forallb_not; exact H1|]. destruct rest as [|x rest]; [left; reflexivity|]. apply N.eqb_eq in H2. subst. right. eauto.
Qed.
Fixpoint spaced (ws : list (list filler * tokn)) (e : list filler) : str :=
  match ws with [] => fillers e | (l, t) :: ws' => (fillers l ++ text t ++ spaced ws' e)%list end.
Fixpoint spaced_ok (E : pyenv) (prev : option tokn) (ws : list (list filler * tokn)) (e : list filler) : bool :=
  match ws with
  | [] => filled e []
  | (l, t) :: ws' => filled l (text t ++ spaced ws' e)%list && fit E prev t (spaced ws' e) && spaced_ok E (Some t) ws' e
  end.
Lemma spaced_spells E ws e : forall prev, spaced_ok E prev ws e = true -> spells E prev (map snd ws) (spaced ws e).
Proof.
  induction ws as [|[l t] ws IH]; intros prev H; cbn [spaced_ok spaced map snd] in *.
  - constructor. apply filled_sound. exact H.
  - apply andb_true_iff in H as [H H3]. apply andb_true_iff in H as [H1 H2]. constructor; [apply filled_sound; exact H1|apply fit_sound; exact H2|apply IH; exact H3].
Qed.
(** Reading a text: the fillers are found by taking blanks off. *)
Fixpoint blanks (s : str) : nat := match s with 32%N :: s' => Datatypes.S (blanks s') | _ => O end.
Fixpoint spell_check (E : pyenv) (prev : option tokn) (ts : list tokn) (s : str) : bool :=
  match ts with
  | [] => str_eqb s (repeat 32%N (blanks s))
  | t :: ts' =>
      let s1 := skipn (blanks s) s in let rest := skipn (List.length (text t)) s1 in
      starts_with (text t) s1 && fit E prev t rest && spell_check E (Some t) ts' rest
  end.
Lemma blanks_split s : s = (repeat 32%N (blanks s) ++ skipn (blanks s) s)%list.
Proof.
  induction s as [|x s IH]; [reflexivity|]. cbn [blanks]. destruct x as [|p]; [reflexivity|]. do 6 (try (destruct p as [p|p|]; try reflexivity)). cbn [repeat skipn app]. congruence.
Qed.
Lemma blanks_skipped n rest : skipped (repeat 32%N n) rest.
Proof. induction n as [|n IH]; [constructor|]. cbn [repeat]. constructor; [left; reflexivity|exact IH]. Qed.
Lemma spell_check_sound E ts : forall prev s, spell_check E prev ts s = true -> spells E prev ts s.
Proof.
  induction ts as [|t ts IH]; intros prev s H; cbn [spell_check] in H.
  - apply str_eqb_eq in H. rewrite H. constructor. apply blanks_skipped.
  - cbv zeta in H. apply andb_true_iff in H as [H H3]. apply andb_true_iff in H as [H1 H2].
    rewrite (blanks_split s). set (s1 := skipn (blanks s) s) in *. apply starts_split in H1 as [rest Hr]. rewrite Hr in *.
    rewrite skipn_app, skipn_all, Nat.sub_diag in *. cbn [skipn app] in *. constructor; [apply blanks_skipped|apply fit_sound; exact H2|apply IH; exact H3].
Qed.
