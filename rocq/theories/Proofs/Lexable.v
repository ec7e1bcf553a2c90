(** Which terminals may match where a token is expected: a check, made for every
    state of the parser and every token that may come next in it, that the
    terminal the parser expects is the first one that can match. *)
From Coq Require Import List Arith NArith PArith Bool String Lia.
From Verif Require Import Py.Str Py.Val Lark.Regex Lark.Terminals Lark.Lexer Lark.Ebnf
     Lark.Lalr Lark.BicepGrammar Lark.BicepTables Lark.Driver Spec.Lexemes Spec.Sentences Spec.Spelling
     Proofs.LR Proofs.Refine Proofs.Complete Proofs.Regex Proofs.Lexer Proofs.TokenForms Proofs.Match.
Import ListNotations.
Local Open Scope string_scope.

(** ** Names and classes of tokens *)
Definition tname (t : tokn) : string :=
  match t with
  | Sym s => s
  | Kw s => if String.eqb s "existing" then "EXISTING" else s
  | Star => "STAR_RE"
  | Name _ | Ref _ | Key _ => "STRING"
  | Num _ => "INT"
  | Quoted _ => "QUOTED_INTERPOLATION"
  | Multi _ => "MULTI_LINE_STRING"
  | Fun _ => "FUNCTION"
  | ListFun _ => "LIST_FUNC_NAME"
  | Deco _ => "DECO_NAME"
  | Break _ => "_CPP_COMMENT_NL"
  | Nl _ => "_NEWLINE"
  end.
Definition class_of (t : tokn) : positive :=
  match t with Ref _ => c_value | Key _ => c_key | _ => term_id (tname t) end.
Definition erase (t : tokn) : tokn :=
  match t with
  | Sym s => Sym s | Kw s => Kw s | Star => Star
  | Name _ => Name [] | Ref _ => Ref [] | Key _ => Key [] | Num _ => Num [] | Quoted _ => Quoted [] | Multi _ => Multi []
  | Fun _ => Fun [] | ListFun _ => ListFun [] | Deco _ => Deco [] | Break _ => Break [] | Nl _ => Nl []
  end.
Definition kinds : list tokn :=
  (map Sym symbols ++ map Kw keywords ++ [Star; Name []; Ref []; Key []; Num []; Quoted []; Multi []; Fun []; ListFun []; Deco []; Break []; Nl []])%list.
Definition kind_ids : list (positive * tokn) := Eval vm_compute in map (fun k => (class_of k, k)) kinds.
Definition rep (c : positive) : option tokn :=
  match List.find (fun e => Pos.eqb (fst e) c) kind_ids with Some (_, k) => Some k | None => None end.
Definition legal (t : tokn) : Prop := match t with Sym s => In s symbols | Kw s => In s keywords | _ => True end.
Lemma class_erase t : class_of (erase t) = class_of t.
Proof. destruct t; reflexivity. Qed.
Definition same_kind (k k' : tokn) : bool :=
  match k, k' with
  | Sym a, Sym b | Kw a, Kw b => String.eqb a b
  | Star, Star | Name _, Name _ | Ref _, Ref _ | Key _, Key _ | Num _, Num _ | Quoted _, Quoted _ | Multi _, Multi _
  | Fun _, Fun _ | ListFun _, ListFun _ | Deco _, Deco _ | Break _, Break _ | Nl _, Nl _ => true
  | _, _ => false
  end.
Lemma same_kind_erase k k' : same_kind k k' = true -> erase k = erase k'.
Proof. destruct k, k'; cbn [same_kind erase]; intros H; try discriminate; try reflexivity; apply String.eqb_eq in H; subst; reflexivity. Qed.
Lemma kinds_erased : Forall (fun k => erase k = k) kinds.
Proof. repeat constructor. Qed.
Lemma kinds_check : forallb (fun k => match rep (class_of k) with
    | Some k' => same_kind k k' && existsb (Pos.eqb (class_of k)) classes && existsb (same_kind k') kinds
    | None => false end) kinds = true.
Proof. vm_compute. reflexivity. Qed.
Lemma rep_in c k : rep c = Some k -> In k kinds.
Proof.
  intros Hr. unfold rep in Hr. destruct (List.find _ kind_ids) as [[c' k2]|] eqn:Hf; [|discriminate]. inversion Hr; subst k2.
  apply find_some in Hf as [Hf _]. change kind_ids with (map (fun k => (class_of k, k)) kinds) in Hf.
  apply in_map_iff in Hf as (k2 & Heq & Hin). inversion Heq; subst. exact Hin.
Qed.
Lemma rep_class t : legal t -> rep (class_of t) = Some (erase t) /\ In (class_of t) classes.
Proof.
  intros H. assert (Hk : In (erase t) kinds).
  { unfold kinds. rewrite !in_app_iff. destruct t; cbn [legal] in H; try (right; right; cbn; tauto).
    - left. exact (in_map Sym _ _ H).
    - right; left. exact (in_map Kw _ _ H). }
  rewrite <- class_erase. pose proof kinds_check as Hc. rewrite forallb_forall in Hc. specialize (Hc _ Hk).
  destruct (rep (class_of (erase t))) as [k'|] eqn:Hr; [|discriminate].
  apply andb_true_iff in Hc as [Hc _]. apply andb_true_iff in Hc as [Hc Hex].
  apply same_kind_erase in Hc. pose proof kinds_erased as Hke. rewrite Forall_forall in Hke.
  rewrite (Hke _ Hk), (Hke _ (rep_in _ _ Hr)) in Hc. subst k'. split; [reflexivity|].
  apply existsb_exists in Hex as (x & Hx & Hq). apply Pos.eqb_eq in Hq. subst x. exact Hx.
Qed.

(** ** Terminals that might match *)
(** [clash next p s]: no text starting with [s], followed by a character outside
    [next], starts with [p]. *)
Fixpoint clash (next : N -> bool) (p s : str) : bool :=
  match p, s with
  | [], _ => false
  | x :: _, [] => next x
  | x :: p', y :: s' => if N.eqb x y then clash next p' s' else true
  end.
Definition heads (t : tokn) : list N :=
  match t with
  | Name _ | Ref _ | Key _ => u "abcdefghijklmnopqrstuvwxyzABCDEFGHIJKLMNOPQRSTUVWXYZ_"
  | Num _ => u "0123456789"
  | Quoted _ | Multi _ => u "'"
  | Fun _ | Deco _ | ListFun _ => u "abcdefghijklmnopqrstuvwxyzABCDEFGHIJKLMNOPQRSTUVWXYZ0123456789"
  | Break _ | Nl _ => [10; 13]%N
  | _ => []
  end.
Definition head_may (t : tokn) (r : re) : bool := existsb (first_may r) (heads t).
Definition lit_may (next : N -> bool) (s : str) (r : re) : bool :=
  first_may r (hd 0%N s) && negb (forallb (fun p => clash next (fst p) s) (pre r)).
Definition is (n m : string) : bool := String.eqb n m.
Definition rival (prev : option tokn) (t : tokn) (n : string) (r : re) : bool :=
  match t with
  | Sym s => lit_may (is_char (longer s)) (u s) r
  | Star => lit_may (fun _ => false) (u "*") r
  | Kw s => if is n "STRING" || is n "DECO_NAME" then true
            else if is n "LIST_FUNC_NAME" then existsb (N.eqb (hd 0%N (u s))) (u "Llg")
            else if is n "FUNCTION" then is s "if"
            else lit_may is_word_ascii (u s) r
  | Name _ | ListFun _ | Deco _ => head_may t r
  | Ref _ => head_may t r && negb (is n "FUNCTION") && negb (is n "LIST_FUNC_NAME" && list_position prev)
  | Key _ | Num _ => head_may t r && negb (is n "FUNCTION")
  | Quoted _ => head_may t r && negb (is n "MULTI_LINE_STRING")
  | Multi _ => head_may t r && negb (is n "QUOTED_INTERPOLATION" || is n "QUOTED_STRING")
  | Fun _ => head_may t r && negb (is n "LIST_FUNC_NAME" && list_position prev)
  | Break _ => head_may t r || lit_may (fun _ => false) (u "//") r
  | Nl _ => head_may t r
  end.
(** The first alternative that might match. *)
Fixpoint pick (M : string -> re -> bool) (alts : list (string * re)) : option string :=
  match alts with
  | [] => None
  | (n, r) :: alts' => if M n r then Some n else pick M alts'
  end.
Definition changes (lx : lexer) (n : string) : list str :=
  flat_map (fun e => if String.eqb (fst e) n then [fst (snd e)] else []) (lx_unless lx).
Definition lexable (prev : option tokn) (lx : lexer) (t : tokn) : bool :=
  match pick (rival prev t) (lx_alts lx) with
  | None => false
  | Some n =>
      match t with
      | Sym s => is n (tname t) && is (retype (lx_unless lx) n (u s)) (tname t)
      | Star => is n (tname t) && is (retype (lx_unless lx) n (u "*")) (tname t)
      | Kw s => (is n "STRING" || is n (tname t)) && is (retype (lx_unless lx) n (u s)) (tname t)
      | Ref _ => is n (tname t) && forallb (fun v => existsb (fun w => str_eqb v (u w)) (reserved_ref prev)) (changes lx n)
      | Key _ => is n (tname t) && forallb (fun v => existsb (fun w => str_eqb v (u w)) (reserved_key prev)) (changes lx n)
      | Quoted _ => is n (tname t) && match changes lx n with [] => true | _ => false end &&
                    match pick (fun n r => head_may t r) (lx_alts lx) with Some m => is m n | None => false end &&
                    (forallb (fun a => negb (first_may (snd a) 125)) (lx_alts lx) ||
                     (existsb (fun a => is (fst a) "}") (lx_alts lx) && negb (opens_value prev)))
      | _ => is n (tname t) && match changes lx n with [] => true | _ => false end
      end
  end.

(** ** The check *)
Definition pair_ok (s c a : positive) : bool :=
  match rep c, rep a with Some p, Some t => lexable (Some p) (lexer_of s) t | _, _ => true end.
Definition item_lex (s i : positive) (d : N) (la : N) : bool :=
  match rget i, N.to_nat d with
  | Some r, Datatypes.S d' =>
      match skipn d' (rp_rhs r) with
      | RT c :: rest => let m := firsts rest la in
          forallb (fun x => negb (N.testbit m (Npos x)) || pair_ok s c x) classes
      | _ => true
      end
  | _, _ => true
  end.
Definition items_lex : bool :=
  forallb (fun a => forallb (fun b => forallb (fun c =>
    item_lex (fst a) (fst b) (N.pred (Npos (fst c))) (snd c)) (PM.elements (snd b))) (PM.elements (snd a))) (PM.elements ritems).
Definition init_lex : bool :=
  forallb (fun b => match rget (fst b) with
    | None => true
    | Some r => forallb (fun c =>
        let m := firsts (skipn (N.to_nat (N.pred (Npos (fst c)))) (rp_rhs r)) (snd c) in
        forallb (fun x => negb (N.testbit m (Npos x)) || match rep x with Some t => lexable None (lexer_of (tb_init bicep_tables)) t | None => true end) classes)
        (PM.elements (snd b))
    end) (PM.elements (sub2 (tb_init bicep_tables) ritems)).
Lemma items_lex_true : items_lex = true.
Proof. vm_compute. reflexivity. Qed.
Lemma init_lex_true : init_lex = true.
Proof. vm_compute. reflexivity. Qed.
#[global] Opaque lexer_of.

Lemma after_lexable c s a p t : after c s a -> In a classes -> rep c = Some p -> rep a = Some t ->
  lexable (Some p) (lexer_of s) t = true.
Proof.
  intros (i & r & d & b & rest & Hr & Hi & Hs & Ha) Hin Hc Ht.
  unfold item, iget in Hi. unfold iget in Ha.
  destruct (ifind ritems s i (N.succ d)) as [la|] eqn:Hf; [|discriminate].
  unfold ifind, sub, sub2 in Hf.
  destruct (PM.find s ritems) as [m1|] eqn:H1; [|rewrite !PM.gempty in Hf; cbv iota in Hf; rewrite ?PM.gempty in Hf; discriminate].
  destruct (PM.find i m1) as [m2|] eqn:H2; [|rewrite PM.gempty in Hf; discriminate].
  pose proof items_lex_true as Hck. unfold items_lex in Hck.
  rewrite forallb_forall in Hck. specialize (Hck _ (In_elements_find _ _ _ H1)). cbn [fst snd] in Hck.
  rewrite forallb_forall in Hck. specialize (Hck _ (In_elements_find _ _ _ H2)). cbn [fst snd] in Hck.
  rewrite forallb_forall in Hck. specialize (Hck _ (In_elements_find _ _ _ Hf)). cbn [fst snd] in Hck.
  replace (N.pred (Npos (N.succ_pos (N.succ d)))) with (N.succ d) in Hck by (rewrite N.succ_pos_spec, N.pred_succ; reflexivity).
  unfold item_lex in Hck. rewrite Hr, Nnat.N2Nat.inj_succ, Hs in Hck. cbv zeta in Hck.
  rewrite forallb_forall in Hck. specialize (Hck _ Hin). rewrite Ha in Hck. cbn [negb orb] in Hck.
  unfold pair_ok in Hck. rewrite Hc, Ht in Hck. exact Hck.
Qed.
Lemma init_lexable a t : may (tb_init bicep_tables) a -> In a classes -> rep a = Some t ->
  lexable None (lexer_of (tb_init bicep_tables)) t = true.
Proof.
  intros (i & r & d & b & Hr & Hi & Ha) Hin Ht.
  unfold item, iget in Hi. unfold iget in Ha.
  destruct (ifind ritems _ i d) as [la|] eqn:Hf; [|discriminate].
  unfold ifind, sub in Hf.
  destruct (PM.find i (sub2 (tb_init bicep_tables) ritems)) as [m2|] eqn:H2; [|rewrite PM.gempty in Hf; discriminate].
  pose proof init_lex_true as Hck. unfold init_lex in Hck.
  rewrite forallb_forall in Hck. specialize (Hck _ (In_elements_find _ _ _ H2)). cbn [fst snd] in Hck. rewrite Hr in Hck.
  rewrite forallb_forall in Hck. specialize (Hck _ (In_elements_find _ _ _ Hf)). cbn [fst snd] in Hck.
  replace (N.pred (Npos (N.succ_pos d))) with d in Hck by (rewrite N.succ_pos_spec, N.pred_succ; reflexivity).
  rewrite forallb_forall in Hck. specialize (Hck _ Hin). rewrite Ha, Ht in Hck. exact Hck.
Qed.
