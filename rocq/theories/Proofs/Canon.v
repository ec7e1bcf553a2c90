(** Plain values, written canonically, are read back. *)
From Coq Require Import List Arith NArith ZArith Bool String Lia DecimalN DecimalPos.
From Verif Require Import Py.Str Py.Val Spec.Lexemes Spec.Values Spec.Text Spec.Spelling Spec.Syntax Spec.Meaning Spec.Canon Proofs.Base.
Import ListNotations.
Local Open Scope string_scope.

(** ** Numbers *)
Lemma fold_uint d : forall p, fold_left (fun n c => 10 * n + (c - 48))%N (str_of_uint d) (Npos p) = Npos (Pos.of_uint_acc d p).
Proof.
  induction d as [|d IH|d IH|d IH|d IH|d IH|d IH|d IH|d IH|d IH|d IH]; intros p; [reflexivity|..]; cbn [str_of_uint fold_left Pos.of_uint_acc]; rewrite <- IH; f_equal; lia.
Qed.
Lemma number_uint d : number (str_of_uint d) = N.of_uint d.
Proof.
  unfold number, N.of_uint.
  induction d as [|d IH|d IH|d IH|d IH|d IH|d IH|d IH|d IH|d IH|d IH]; [reflexivity|exact IH|..]; cbn [str_of_uint fold_left Pos.of_uint]; rewrite <- fold_uint; reflexivity.
Qed.
Lemma number_dec n : number (dec n) = n.
Proof. unfold dec. rewrite number_uint. apply DecimalN.Unsigned.of_to. Qed.
Lemma uint_digits d : Forall (fun c => is_digit c = true) (str_of_uint d).
Proof. induction d; constructor; auto; reflexivity. Qed.
Lemma dec_digits n : digits (dec n).
Proof.
  split; [|apply uint_digits]. unfold dec. destruct n as [|p]; [discriminate|]. cbn [N.to_uint].
  destruct (Pos.to_uint p) eqn:He; try discriminate. exfalso. exact (DecimalPos.Unsigned.to_uint_nonnil p He).
Qed.

(** ** Texts in which no three quotes follow each other *)
Inductive calm : str -> Prop :=
| calm_end : calm []
| calm_char x s : x <> 39%N -> calm s -> calm (x :: s)
| calm_quote c s : ~ In 39%N c -> ahead (N.eqb 39) s = false -> calm s -> calm (quote c ++ s)%list.
Lemma calm_inside c s : ~ In 39%N c -> ahead (N.eqb 39) s = false -> calm s -> (forall a b, s <> (a ++ u "'''" ++ b)%list) ->
  forall a b, (c ++ [39%N] ++ s)%list <> (a ++ u "'''" ++ b)%list.
Proof.
  intros Hc Hs _ Hn. induction c as [|x c IH]; intros a b He.
  - cbn [app] in He. destruct a as [|y a].
    + cbn in He. injection He as He. subst s. discriminate Hs.
    + injection He as _ He. exact (Hn a b He).
  - cbn [app] in He. destruct a as [|y a].
    + cbn in He. injection He as -> _. apply Hc. left. reflexivity.
    + injection He as _ He. apply (IH (fun H => Hc (or_intror H)) a b He).
Qed.
Lemma calm_triple s : calm s -> forall a b, s <> (a ++ u "'''" ++ b)%list.
Proof.
  induction 1 as [|x s Hx Hs IH|c s Hc Ha Hs IH]; intros a b He.
  - destruct a; discriminate.
  - destruct a as [|y a]; injection He as Hx' He; [congruence|exact (IH a b He)].
  - unfold quote in He. rewrite <- app_assoc in He. cbn [app] in He. destruct a as [|y a].
    + cbn in He. injection He as He. destruct c as [|z c].
      * cbn in He. injection He as He. subst s. discriminate Ha.
      * cbn in He. injection He as -> _. apply Hc. left. reflexivity.
    + injection He as _ He. rewrite <- app_assoc in He. exact (calm_inside c s Hc Ha Hs IH a b He).
Qed.

(** ** The abstract syntax of a plain value *)
Definition key_of (k : name) : key :=
  match k with Bare v => if str_eqb v (u "resource") then KResource else KName v | InQuotes c => KQuoted c end.
Fixpoint expr_of (v : value) : expr :=
  match v with
  | VNull => ENull
  | VBool b => EBool b
  | VNum n => EInt (dec n)
  | VText c => EStr c
  | VName n => ERef n
  | VList l => EArray [] (match map expr_of l with [] => [] | x :: xs => [(x, xs, [])] end)
  | VMap l => EObject [] (match map (fun kv => (key_of (fst kv), expr_of (snd kv))) l with [] => [] | (k, x) :: more => [(Pairs k x false (map (fun p => (fst p, snd p, false)) more), [])] end)
  end.
Lemma key_of_text k : key_text (key_of k) = name_text k.
Proof. destruct k as [v|c]; [|reflexivity]. cbn [key_of name_text]. destruct (str_eqb_spec v (u "resource")) as [->|]; reflexivity. Qed.
Lemma expr_simple v : ordinary (expr_of v) = true /\ same_line (expr_of v) = true.
Proof. destruct v; split; reflexivity. Qed.
Lemma expr_wf : forall v, wf (expr_of v) = true.
Proof.
  apply value_induction; try reflexivity.
  - intros l H. cbn [expr_of wf]. destruct l as [|x l]; [reflexivity|]. cbn [map rows_ok forallb some]. inversion H as [|? ? Hx Hl]; subst.
    destruct (expr_simple x) as [-> ->]. rewrite Hx. cbn [andb]. rewrite !andb_true_r. apply forallb_forall. intros y Hy. apply in_map_iff in Hy as (z & <- & Hz).
    rewrite (proj1 (expr_simple z)). rewrite Forall_forall in Hl. exact (Hl z Hz).
  - intros l H. cbn [expr_of wf]. destruct l as [|[k x] l]; [reflexivity|]. cbn [map fst snd items_ok forallb some item_wf]. inversion H as [|? ? Hx Hl]; subst. cbn [snd] in Hx.
    unfold pair_ok. rewrite (proj1 (expr_simple x)), Hx. cbn [andb orb negb]. rewrite !andb_true_r. apply forallb_forall. intros [[k' y] q] Hy.
    rewrite map_map in Hy. apply in_map_iff in Hy as ([k2 z] & He & Hz). cbn [fst snd] in He. injection He as <- <- <-. rewrite (proj1 (expr_simple z)). cbn [orb andb negb].
    rewrite Forall_forall in Hl. exact (Hl _ Hz).
Qed.
Lemma aset_fresh {A} k (x : A) l : ~ In k (map fst l) -> aset k x l = (l ++ [(k, x)])%list.
Proof.
  induction l as [|[k' y] l IH]; intros H; [reflexivity|]. cbn [aset app]. cbn [map fst In] in H.
  destruct (str_eqb_spec k k') as [->|Hk]; [exfalso; auto|]. rewrite IH; auto.
Qed.
Lemma dict_of_distinct {A} (l : list (str * A)) : NoDup (map fst l) -> dict_of l = l.
Proof.
  unfold dict_of. intros H. enough (G : forall acc, NoDup (map fst (acc ++ l)) -> fold_left (fun d kv => aset (fst kv) (snd kv) d) l acc = (acc ++ l)%list) by exact (G [] H).
  clear H. induction l as [|[k x] l IH]; intros acc H; [rewrite app_nil_r; reflexivity|]. cbn [fold_left fst snd].
  rewrite aset_fresh. { rewrite IH; rewrite <- app_assoc; [reflexivity|exact H]. }
  rewrite map_app in H. cbn [map fst] in H. apply NoDup_remove_2 in H. intros Hi. apply H. apply in_or_app. left. exact Hi.
Qed.
Lemma collect_ok {A} {B} (f : A -> result (list B)) g l : Forall (fun x => f x = Ok [g x]) l -> collect f l = Ok (map g l).
Proof. induction 1 as [|x l Hx Hl IH]; [reflexivity|]. cbn [collect map]. rewrite Hx. cbn [bind]. rewrite IH. reflexivity. Qed.
Lemma report_pairs E k v q more : item_report E (Pairs k v q more) =
  let* x := report E v in
  let* ps := collect (fun p : key * expr * bool => let '(k', v', _) := p in let* x' := report E v' in Ok [(key_text k', x')]) more in
  Ok ((key_text k, x) :: ps).
Proof. reflexivity. Qed.
Lemma report_object E lead rows : report E (EObject lead rows) = let* ps := collect (fun r => item_report E (fst r)) rows in Ok (PDict (dict_of ps)).
Proof. reflexivity. Qed.
Lemma expr_report E : forall v, plain E v -> report E (expr_of v) = Ok (denote v).
Proof.
  apply (value_induction (fun v => plain E v -> report E (expr_of v) = Ok (denote v))); try reflexivity.
  - intros n H. inversion H as [| |? Hn| | | |]; subst. cbn [expr_of report denote]. apply Nat.leb_le in Hn. rewrite Hn, number_dec. reflexivity.
  - intros l IH H. inversion H as [| | | | |? Hp|]; subst. cbn [expr_of report denote]. destruct l as [|x l]; [reflexivity|]. cbn [map].
    inversion IH as [|? ? IHx IHl]; subst. inversion Hp as [|? ? Hx Hl]; subst. cbn [collect]. rewrite (IHx Hx). cbn [bind].
    assert (Hc : collect (fun y => single (report E y)) (map expr_of l) = Ok (map denote l)).
    { clear -IHl Hl. induction l as [|y l IH]; [reflexivity|]. inversion IHl as [|? ? IHy IHl']; subst. inversion Hl as [|? ? Hy Hl']; subst. cbn [map collect].
      rewrite (IHy Hy), (IH IHl' Hl'). reflexivity. }
    rewrite Hc. cbn [bind]. rewrite app_nil_r. reflexivity.
  - intros l IH H. inversion H as [| | | | | |? Hp Hd]; subst. cbn [expr_of denote]. rewrite report_object. destruct l as [|[k x] l]; [reflexivity|]. cbn [map fst snd].
    inversion IH as [|? ? IHx IHl]; subst. inversion Hp as [|? ? Hx Hl]; subst. cbn [fst snd] in *. destruct Hx as [_ Hx]. cbn [collect fst]. rewrite report_pairs, (IHx Hx). cbn [bind].
    rewrite map_map. cbn [fst snd].
    assert (Hc : collect (fun p => let '(k', v', _) := p in let* x' := report E v' in Ok [(key_text k', x')]) (map (fun kv => (key_of (fst kv), expr_of (snd kv), false)) l)
      = Ok (map (fun kv => (name_text (fst kv), denote (snd kv))) l)).
    { clear -IHl Hl. induction l as [|[k y] l IH]; [reflexivity|]. inversion IHl as [|? ? IHy IHl']; subst. inversion Hl as [|? ? [Hk Hy] Hl']; subst. cbn [map collect fst snd] in *.
      rewrite (IHy Hy), (IH IHl' Hl'), key_of_text. reflexivity. }
    rewrite Hc. cbn [bind]. rewrite app_nil_r, key_of_text. rewrite dict_of_distinct; [reflexivity|]. cbn [map fst]. rewrite map_map. cbn [fst]. exact Hd.
Qed.

(** ** Its spelling *)
Section Spelling.
  Variable E : pyenv.
  (** What may come behind a value. *)
  Definition stop (s : str) : Prop := match s with [] => True | c :: _ => In c [44; 93; 125]%N end.
  Lemma stop_ahead p s : stop s -> p 44%N = false -> p 93%N = false -> p 125%N = false -> ahead p s = false.
  Proof. destruct s as [|c s]; [reflexivity|]. intros [<-|[<-|[<-|[]]]] H1 H2 H3; assumption. Qed.
  Lemma word_calm v s : Forall (fun x => word E x = true) v -> calm s -> calm (v ++ s)%list.
  Proof. induction 1 as [|x v Hx Hv IH]; intros Hs; [exact Hs|]. cbn [app]. constructor; [|auto]. intros ->. discriminate Hx. Qed.
  Lemma letter_word x : letter x = true -> word E x = true.
  Proof.
    intros H. unfold word. unfold letter, is_alpha, is_upper, is_lower, in_range in H. unfold is_word_ascii, is_alpha, is_upper, is_lower, in_range.
    destruct (x <? 128)%N eqn:Hx.
    - apply orb_true_iff in H as [H|H]; rewrite H; rewrite ?orb_true_r; reflexivity.
    - exfalso. apply N.ltb_ge in Hx. repeat (apply orb_true_iff in H as [H|H]); try (apply andb_true_iff in H as [H1 H2]; apply N.leb_le in H1, H2; lia). apply N.eqb_eq in H. lia.
  Qed.
  Lemma ident_calm v s : ident E v -> calm s -> calm (v ++ s)%list.
  Proof. intros (c & v' & -> & Hc & Hv) Hs. apply word_calm; [|exact Hs]. constructor; [exact (letter_word c Hc)|exact Hv]. Qed.
  Lemma char_calm v s : ~ In 39%N v -> calm s -> calm (v ++ s)%list.
  Proof. induction v as [|x v IH]; intros Hv Hs; [exact Hs|]. cbn [app]. constructor; [intros ->; apply Hv; left; reflexivity|apply IH; [intros H; apply Hv; right; exact H|exact Hs]]. Qed.
  Lemma plain_no_quote c : plain_text c -> ~ In 39%N c.
  Proof. intros H Hi. unfold plain_text in H. rewrite Forall_forall in H. destruct (H _ Hi) as [H1 _]. discriminate H1. Qed.
  Lemma quote_calm c s : plain_text c -> ahead (N.eqb 39) s = false -> calm s -> calm (quote c ++ s)%list.
  Proof. intros H. apply calm_quote. exact (plain_no_quote c H). Qed.
  Lemma name_calm k s : plain_key E k -> ahead (N.eqb 39) s = false -> calm s -> calm (name_text k ++ s)%list.
  Proof. destruct k; intros H Ha Hs; [apply ident_calm; assumption|apply quote_calm; assumption]. Qed.
  Lemma join_cons (x : str) l : sep (x :: l) = (x ++ flat_map (fun y => u ", " ++ y) l)%list.
  Proof.
    unfold sep. revert x. induction l as [|y l IH]; intros x; [cbn; rewrite app_nil_r; reflexivity|].
    change (join (u ", ") (x :: y :: l)) with (x ++ u ", " ++ join (u ", ") (y :: l))%list. rewrite IH. cbn [flat_map]. rewrite <- app_assoc. reflexivity.
  Qed.
  Lemma flat_stop {A} (f : A -> str) l rest : stop rest -> stop (flat_map (fun y => u ", " ++ f y)%list l ++ rest)%list.
  Proof. intros H. destruct l; [exact H|]. left. reflexivity. Qed.

  Lemma content_plain b c : plain_text c -> content b c.
  Proof. induction 1 as [|x c [Hx _] Hc IH]; constructor; assumption. Qed.
  Lemma no_lf c : plain_text c -> ~ In 10%N c.
  Proof. intros H Hi. unfold plain_text in H. rewrite Forall_forall in H. destruct (H _ Hi) as [_ H1]. congruence. Qed.
  Lemma fits_quoted prev c rest : plain_text c -> ahead (N.eqb 39) rest = false -> calm rest -> fits E prev (Quoted c) rest.
  Proof.
    intros Hc Ha Hr. split; [exact (content_plain _ c Hc)|]. split; [exact (no_lf c Hc)|]. intros a b He. exfalso. exact (calm_triple _ (quote_calm c rest Hc Ha Hr) a b He).
  Qed.

  Lemma tok prev t ts rest : fits E prev t rest -> spells E (Some t) ts rest -> spells E prev (t :: ts) (text t ++ rest)%list.
  Proof. intros. apply (spells_tok E prev [] t ts rest); [constructor|assumption|assumption]. Qed.
  Lemma blank prev ts s : spells E prev ts s -> spells E prev ts (32%N :: s).
  Proof.
    intros H. inversion H as [? b Hb|? b t ts' rest Hb Hf Hs]; subst.
    - apply spells_end. apply skip_blank; [left; reflexivity|exact Hb].
    - apply (spells_tok E prev (32%N :: b) t ts' rest); [apply skip_blank; [left; reflexivity|exact Hb]|exact Hf|exact Hs].
  Qed.
  Lemma sym prev s ts rest : In s symbols -> ahead (is_char (longer s)) rest = false -> spells E (Some (Sym s)) ts rest -> spells E prev (Sym s :: ts) (u s ++ rest)%list.
  Proof. intros H1 H2 H3. apply (tok prev (Sym s) ts rest); [split; assumption|exact H3]. Qed.

  Definition before (prev : tokn) : Prop := In prev (map Sym ["="; "["; ","; ":"]).
  Lemma list_calm l rest : Forall (fun v => forall r, stop r -> calm r -> calm (print v ++ r)%list) l -> stop rest -> calm rest ->
    calm (flat_map (fun y => u ", " ++ y) (map print l) ++ rest)%list.
  Proof.
    intros H Hr Hc. induction H as [|x l Hx Hl IH]; [exact Hc|]. cbn [map flat_map]. rewrite <- !app_assoc.
    apply char_calm; [intros [H|[H|[]]]; discriminate|]. apply Hx; [exact (flat_stop (fun y => y) _ _ Hr)|exact IH].
  Qed.
  Definition entry_text (kv : name * value) : str := (name_text (fst kv) ++ u ": " ++ print (snd kv))%list.
  Lemma map_calm l rest : Forall (fun kv => plain_key E (fst kv) /\ forall r, stop r -> calm r -> calm (print (snd kv) ++ r)%list) l -> stop rest -> calm rest ->
    calm (flat_map (fun y => u ", " ++ y) (map entry_text l) ++ rest)%list.
  Proof.
    intros H Hr Hc. induction H as [|[k x] l [Hk Hx] Hl IH]; [exact Hc|]. cbn [map flat_map fst snd] in *. unfold entry_text at 1. cbn [fst snd]. rewrite <- !app_assoc.
    apply char_calm; [intros [H|[H|[]]]; discriminate|]. apply name_calm; [exact Hk|reflexivity|]. apply char_calm; [intros [H|[H|[]]]; discriminate|].
    apply Hx; [exact (flat_stop (fun y => y) _ _ Hr)|exact IH].
  Qed.
  Lemma value_calm : forall v, plain E v -> forall rest, stop rest -> calm rest -> calm (print v ++ rest)%list.
  Proof.
    apply (value_induction (fun v => plain E v -> forall rest, stop rest -> calm rest -> calm (print v ++ rest)%list)).
    - intros _ rest Hs Hc. apply char_calm; [|exact Hc]. intros H. vm_compute in H. repeat destruct H as [H|H]; try discriminate; exact H.
    - intros b _ rest Hs Hc. apply char_calm; [|exact Hc]. intros H. destruct b; vm_compute in H; repeat destruct H as [H|H]; try discriminate; exact H.
    - intros n _ rest Hs Hc. apply char_calm; [|exact Hc]. intros H. destruct (dec_digits n) as [_ Hd]. rewrite Forall_forall in Hd. discriminate (Hd _ H).
    - intros c H rest Hs Hc. inversion H; subst. apply quote_calm; [assumption|apply stop_ahead; auto|exact Hc].
    - intros v H rest Hs Hc. inversion H; subst. apply ident_calm; assumption.
    - intros l IH H rest Hs Hc. inversion H as [| | | | |? Hp|]; subst. cbn [print]. rewrite <- !app_assoc. apply char_calm; [intros [Hi|[]]; discriminate|].
      assert (Hb : calm (u "]" ++ rest)%list) by (apply char_calm; [intros [Hi|[]]; discriminate|exact Hc]).
      assert (Hst : stop (u "]" ++ rest)%list) by (right; left; reflexivity).
      assert (Ha : Forall (fun v => forall r, stop r -> calm r -> calm (print v ++ r)%list) l) by (clear -IH Hp; induction IH; inversion Hp; constructor; auto).
      destruct l as [|x l]; [exact Hb|]. cbn [map]. rewrite join_cons, <- app_assoc. inversion Ha as [|? ? Hx Hl]; subst. apply Hx; [exact (flat_stop (fun y => y) _ _ Hst)|].
      apply list_calm; assumption.
    - intros l IH H rest Hs Hc. inversion H as [| | | | | |? Hp Hd]; subst. cbn [print]. fold entry_text. rewrite <- !app_assoc. apply char_calm; [intros [Hi|[]]; discriminate|].
      assert (Hb : calm (u "}" ++ rest)%list) by (apply char_calm; [intros [Hi|[]]; discriminate|exact Hc]).
      assert (Hst : stop (u "}" ++ rest)%list) by (right; right; left; reflexivity).
      assert (Ha : Forall (fun kv => plain_key E (fst kv) /\ forall r, stop r -> calm r -> calm (print (snd kv) ++ r)%list) l).
      { clear -IH Hp. induction IH as [|x l Hx Hl IH]; [constructor|]. inversion Hp as [|? ? [Hk Hv] Hp']; subst. constructor; [|apply IH; exact Hp']. split; [exact Hk|exact (Hx Hv)]. }
      change (map (fun kv => (name_text (fst kv) ++ u ": " ++ print (snd kv))%list) l) with (map entry_text l).
      destruct l as [|[k x] l]; [exact Hb|]. cbn [map]. rewrite join_cons, <- app_assoc. inversion Ha as [|? ? [Hk Hx] Hl]; subst. unfold entry_text at 1. cbn [fst snd] in *. rewrite <- !app_assoc.
      apply name_calm; [exact Hk|reflexivity|]. apply char_calm; [intros [Hi|[Hi|[]]]; discriminate|]. apply Hx; [exact (flat_stop (fun y => y) _ _ Hst)|].
      apply map_calm; assumption.
  Qed.

  Definition reads (v : value) : Prop := forall p ts rest, before p -> stop rest -> calm rest -> (forall q, spells E (Some q) ts rest) ->
    spells E (Some p) (tokens (expr_of v) ++ ts) (print v ++ rest)%list.
  Lemma keyword p s ts rest : In s ["null"; "true"; "false"] -> stop rest -> (forall q, spells E (Some q) ts rest) -> spells E (Some p) ([Kw s] ++ ts) (u s ++ rest)%list.
  Proof.
    intros Hs Hr Hq. apply (tok (Some p) (Kw s) ts rest); [|apply Hq]. split; [|split; [|intros _]; apply stop_ahead; auto].
    destruct Hs as [<-|[<-|[<-|[]]]]; cbn; tauto.
  Qed.
  Lemma list_spells l ts rest : Forall (fun v => plain E v /\ reads v) l -> stop rest -> calm rest -> (forall q, spells E (Some q) ts rest) ->
    forall q, spells E (Some q) (flat_map (fun y => Sym "," :: tokens y) (map expr_of l) ++ ts) (flat_map (fun y => u ", " ++ y) (map print l) ++ rest)%list.
  Proof.
    intros H Hr Hc Hq. induction H as [|x l [Hp Hx] Hl IH]; [exact Hq|]. intros q. cbn [map flat_map app]. rewrite <- !app_assoc.
    change (u ", ") with (u "," ++ [32%N])%list. rewrite <- !app_assoc. apply sym; [cbn; tauto|reflexivity|]. cbn [app]. apply blank.
    apply Hx; [right; right; left; reflexivity|exact (flat_stop (fun y => y) _ _ Hr)| |exact IH].
    apply list_calm; [|exact Hr|exact Hc]. eapply Forall_impl; [|exact Hl]. intros v [Hv _]. exact (value_calm v Hv).
  Qed.
  Lemma key_spells k q ts rest : plain_key E k -> In q [Sym "{"; Sym ","] -> calm (u ": " ++ rest)%list -> spells E (Some (Sym ":")) ts (32%N :: rest) ->
    spells E (Some q) (key_token (key_of k) :: Sym ":" :: ts) (name_text k ++ u ": " ++ rest)%list.
  Proof.
    intros Hk Hq Hc Hs.
    assert (Hs' : forall q, spells E (Some q) (Sym ":" :: ts) (u ": " ++ rest)%list).
    { intros q'. change (u ": ") with (u ":" ++ [32%N])%list. rewrite <- !app_assoc. apply sym; [cbn; tauto|reflexivity|exact Hs]. }
    destruct k as [v|c]; cbn [key_of name_text plain_key] in *.
    - destruct (str_eqb_spec v (u "resource")) as [->|Hv].
      + apply (tok (Some q) (Kw "resource")); [|apply Hs']. split; [cbn; tauto|]. split; [reflexivity|reflexivity].
      + apply (tok (Some q) (Key v)); [|apply Hs']. split; [split; [exact Hk|split; [reflexivity|intros _; reflexivity]]|]. split; [reflexivity|].
        destruct Hq as [<-|[<-|[]]]; intros [H|[]]; congruence.
    - apply (tok (Some q) (Quoted c)); [|apply Hs']. apply fits_quoted; [exact Hk|reflexivity|exact Hc].
  Qed.
  Lemma map_spells l ts rest : Forall (fun kv => plain_key E (fst kv) /\ plain E (snd kv) /\ reads (snd kv)) l -> stop rest -> calm rest -> (forall q, spells E (Some q) ts rest) ->
    forall q, spells E (Some q) (flat_map (fun p => let '(k, v, q) := p in [Sym ","; key_token k; Sym ":"] ++ tokens v ++ mark q "?")
      (map (fun kv => (key_of (fst kv), expr_of (snd kv), false)) l) ++ ts)%list (flat_map (fun y => u ", " ++ y) (map entry_text l) ++ rest)%list.
  Proof.
    intros H Hr Hc Hq. induction H as [|[k x] l (Hk & Hp & Hx) Hl IH]; [exact Hq|]. intros q. cbn [map flat_map app fst snd mark] in *. unfold entry_text at 1. cbn [fst snd].
    assert (Hm : calm (flat_map (fun y => u ", " ++ y) (map entry_text l) ++ rest)%list).
    { apply map_calm; [|exact Hr|exact Hc]. eapply Forall_impl; [|exact Hl]. intros kv (H1 & H2 & _). split; [exact H1|exact (value_calm _ H2)]. }
    assert (Hst : stop (flat_map (fun y => u ", " ++ y) (map entry_text l) ++ rest)%list) by exact (flat_stop (fun y => y) _ _ Hr).
    rewrite app_nil_r, <- !app_assoc.
    change (u ", ") with (u "," ++ [32%N])%list at 1. rewrite <- !app_assoc. apply sym; [cbn; tauto|reflexivity|]. cbn [app]. apply blank.
    apply key_spells; [exact Hk|right; left; reflexivity| |].
    - apply char_calm; [intros [Hi|[Hi|[]]]; discriminate|]. apply value_calm; assumption.
    - apply blank. apply Hx; [right; right; right; left; reflexivity|exact Hst|exact Hm|exact IH].
  Qed.
  Lemma pairs_tokens k v q more : item_tokens (Pairs k v q more) =
    ([key_token k; Sym ":"] ++ tokens v ++ mark q "?" ++ flat_map (fun p => let '(k, v, q) := p in [Sym ","; key_token k; Sym ":"] ++ tokens v ++ mark q "?") more)%list.
  Proof. reflexivity. Qed.
  Lemma object_tokens lead rows : tokens (EObject lead rows) = ([Sym "{"] ++ breaks lead ++ flat_map (fun r => item_tokens (fst r) ++ breaks (snd r)) rows ++ [Sym "}"])%list.
  Proof. reflexivity. Qed.
  Lemma value_spells : forall v, plain E v -> reads v.
  Proof.
    apply (value_induction (fun v => plain E v -> reads v)).
    - intros _ p ts rest _ Hr _ Hq. apply keyword; [left; reflexivity|exact Hr|exact Hq].
    - intros b _ p ts rest _ Hr _ Hq. apply keyword; [destruct b; cbn; tauto|exact Hr|exact Hq].
    - intros n _ p ts rest _ Hr _ Hq. apply (tok (Some p) (Num (dec n))); [|apply Hq]. split; [apply dec_digits|]. split; apply stop_ahead; auto.
    - intros c H p ts rest _ Hr Hc Hq. inversion H; subst. apply (tok (Some p) (Quoted c)); [|apply Hq]. apply fits_quoted; [assumption|apply stop_ahead; auto|exact Hc].
    - intros v H p ts rest Hb Hr _ Hq. inversion H as [| | | |? Hi Hn| |]; subst. apply (tok (Some p) (Ref v)); [|apply Hq].
      split; [split; [exact Hi|split; [apply stop_ahead; auto|intros _; apply stop_ahead; auto]]|]. split; [apply stop_ahead; auto|]. split.
      + intros Hin. apply Hn. destruct Hb as [<-|[<-|[<-|[<-|[]]]]]; cbn in Hin |- *; tauto.
      + intros Hl. destruct Hb as [<-|[<-|[<-|[<-|[]]]]]; discriminate Hl.
    - intros l IH H p ts rest _ Hr Hc Hq. inversion H as [| | | | |? Hp|]; subst. cbn [print].
      assert (Hb : calm (u "]" ++ rest)%list) by (apply char_calm; [intros [Hi|[]]; discriminate|exact Hc]).
      assert (Hst : stop (u "]" ++ rest)%list) by (right; left; reflexivity).
      assert (Hcl : forall q, spells E (Some q) ([Sym "]"] ++ ts) (u "]" ++ rest)%list).
      { intros q. apply sym; [cbn; tauto| |apply Hq]. destruct rest; reflexivity. }
      assert (Ha : Forall (fun v => plain E v /\ reads v) l) by (clear -IH Hp; induction IH; inversion Hp; constructor; auto).
      rewrite <- !app_assoc. cbn [expr_of]. destruct l as [|x l].
      + apply (sym (Some p) "[" ([Sym "]"] ++ ts)); [cbn; tauto|reflexivity|apply Hcl].
      + cbn [map]. rewrite join_cons. cbn [tokens breaks flat_map map app]. rewrite ?app_nil_r, <- !app_assoc. inversion Ha as [|? ? [Hx1 Hx] Hl]; subst.
        apply sym; [cbn; tauto|match goal with |- ahead _ ?s = false => destruct s; reflexivity end|].
        apply Hx; [right; left; reflexivity|exact (flat_stop (fun y => y) _ _ Hst)| |].
        * apply list_calm; [|exact Hst|exact Hb]. eapply Forall_impl; [|exact Hl]. intros v [Hv _]. exact (value_calm v Hv).
        * apply list_spells; assumption.
    - intros l IH H p ts rest _ Hr Hc Hq. inversion H as [| | | | | |? Hp Hd]; subst. cbn [print].
      change (map (fun kv => (name_text (fst kv) ++ u ": " ++ print (snd kv))%list) l) with (map entry_text l).
      assert (Hb : calm (u "}" ++ rest)%list) by (apply char_calm; [intros [Hi|[]]; discriminate|exact Hc]).
      assert (Hst : stop (u "}" ++ rest)%list) by (right; right; left; reflexivity).
      assert (Hcl : forall q, spells E (Some q) ([Sym "}"] ++ ts) (u "}" ++ rest)%list).
      { intros q. apply sym; [cbn; tauto| |apply Hq]. destruct rest; reflexivity. }
      assert (Ha : Forall (fun kv => plain_key E (fst kv) /\ plain E (snd kv) /\ reads (snd kv)) l).
      { clear -IH Hp. induction IH as [|x l Hx Hl IH]; [constructor|]. inversion Hp as [|? ? [Hk Hv] Hp']; subst. constructor; [|apply IH; exact Hp']. auto. }
      rewrite <- !app_assoc. cbn [expr_of]. destruct l as [|[k x] l].
      + apply (sym (Some p) "{" ([Sym "}"] ++ ts)); [cbn; tauto|reflexivity|apply Hcl].
      + cbn [map fst snd]. rewrite join_cons, map_map. cbn [fst snd]. rewrite object_tokens. cbn [breaks flat_map map app fst snd]. unfold entry_text at 1. cbn [fst snd]. inversion Ha as [|? ? (Hk & Hx1 & Hx) Hl]; subst. cbn [fst snd] in *.
        apply (sym (Some p) "{"); [cbn; tauto|match goal with |- ahead _ ?s = false => destruct s; reflexivity end|].
        assert (Hm : calm (flat_map (fun y => u ", " ++ y) (map entry_text l) ++ u "}" ++ rest)%list).
        { apply map_calm; [|exact Hst|exact Hb]. eapply Forall_impl; [|exact Hl]. intros kv (H1 & H2 & _). split; [exact H1|exact (value_calm _ H2)]. }
        assert (Hst' : stop (flat_map (fun y => u ", " ++ y) (map entry_text l) ++ u "}" ++ rest)%list) by exact (flat_stop (fun y => y) _ _ Hst).
        rewrite pairs_tokens. cbn [mark app]. rewrite ?app_nil_r, <- !app_assoc. cbn [app].
        apply key_spells; [exact Hk|left; reflexivity| |].
        * apply char_calm; [intros [Hi|[Hi|[]]]; discriminate|]. apply value_calm; assumption.
        * apply blank. apply Hx; [right; right; right; left; reflexivity|exact Hst'|exact Hm|]. apply map_spells; assumption.
  Qed.
End Spelling.
