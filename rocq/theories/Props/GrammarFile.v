(** C48: the grammar in force is the text of bicep.lark. *)
From Coq Require Import List Arith NArith Bool String Ascii Sorted Lia.
From Verif Require Import Py.Str Py.Val Lark.Regex Lark.Ebnf Lark.RegexText Lark.Loader Lark.BicepText
  Lark.BicepGrammar Lark.Tree Lark.Shape Lark.Terminals Lark.Lexer
  Pycep.Utils Pycep.Transformer Pycep.Main Pycep.Bicep
  Spec.Calls Spec.Text Spec.Lexemes Spec.Program Spec.Declarations Spec.Sentences Spec.Layout
  Proofs.Base Proofs.Regex Proofs.Match Proofs.RegexText Proofs.EndToEnd Proofs.Documents Proofs.Layout Props.Layout.
Import ListNotations.
Local Open Scope string_scope.

(** Names for the two regexps in rules (bicep.lark:63, 95; Lark numbers them). *)
Definition anon (s : string) : string := if String.eqb s "\*" then "STAR_RE" else "DECO_NAME".
Definition loads (g : loaded) : Prop := load anon bicep_lark common_lark = Some g.
(** The text Lark compiles for a terminal; strings in rules are named by themselves. *)
Definition text_of (g : loaded) (n : string) : string :=
  match List.find (fun t => String.eqb (fst t) n) (l_terms g) with
  | Some (_, (_, q)) => to_regexp q
  | None => re_escape n
  end.

(** ** C48 *)
(** The rules and the ignored terminals the model computes its tables from. *)
Theorem C48_rules : exists g, loads g /\ l_rules g = bicep_rules /\ l_ignore g = ignored.
Proof. eexists. split; [vm_compute; reflexivity|]. split; vm_compute; reflexivity. Qed.
Lemma loads_one g g' : loads g -> loads g' -> g = g'.
Proof. unfold loads. intros H H'. rewrite H in H'. injection H' as <-. reflexivity. Qed.
(** The terminals: priority, text (by its length Lark orders them) and width. *)
Definition term_agrees (t : string * (N * pat)) : Prop :=
  let '(n, (p, q)) := t in
  t_name (terminal_named n) = n /\ t_prio (terminal_named n) = p /\
  match t_pat (terminal_named n), q with
  | PatStr s, PStr s' => s = s'
  | PatRe src _ w, PRe src' => src = src' /\ w = snd (Loader.pat_width q)
  | _, _ => False
  end.
Theorem C48_terminals : forall g, loads g -> Forall term_agrees (l_terms g).
Proof.
  intros g H. assert (H' : exists g, loads g /\ Forall term_agrees (l_terms g)).
  { eexists. split; [vm_compute; reflexivity|]. cbn [l_terms]. repeat (apply Forall_cons; [vm_compute; repeat split|]). apply Forall_nil. }
  destruct H' as (g' & Hg & Hf). rewrite (loads_one _ _ H Hg). exact Hf.
Qed.
(** The terminals of the scanner are those of the file, in the order Lark sorts them:
    by priority, width and length of the text. *)
Fixpoint literals (e : ebnf) : list string :=
  match e with
  | EStr s => [s]
  | ETerm _ | ERe _ | ENT _ => []
  | ESeq l | EAlt l => flat_map literals l
  | EOpt e | EMaybe e | EStar e | EPlus e | ERep e _ _ => literals e
  end.
Definition all_literals (g : loaded) : list string := flat_map (fun r => flat_map (fun a => literals (fst a)) (r_alts r)) (l_rules g).
Definition sort_key (g : loaded) (n : string) : N * option N * N :=
  match List.find (fun t => String.eqb (fst t) n) (l_terms g) with
  | Some (_, (p, q)) => (p, snd (Loader.pat_width q), N.of_nat (String.length match q with PStr s | PRe s => s end))
  | None => (0%N, Some (N.of_nat (String.length n)), N.of_nat (String.length n))
  end.
Definition at_least (a b : N * option N * N) : Prop :=
  let '(p, w, l) := a in
  let '(p', w', l') := b in
  (p' < p)%N \/ p = p' /\
  ((match w, w' with None, Some _ => True | Some x, Some y => (y < x)%N | _, None => False end) \/ w = w' /\ (l' <= l)%N).
Definition scanner_order (g : loaded) : Prop :=
  let names := map t_name sorted_terminals in
  Sorted (fun a b => at_least (sort_key g a) (sort_key g b)) names /\
  (forall n, In n names <-> In n (map fst (l_terms g)) \/ In n (all_literals g)).
Definition at_leastb (a b : N * option N * N) : bool :=
  let '(p, w, l) := a in
  let '(p', w', l') := b in
  (p' <? p)%N || (p =? p')%N &&
  match w, w' with
  | None, Some _ => true
  | Some x, Some y => (y <? x)%N || (x =? y)%N && (l' <=? l)%N
  | None, None => (l' <=? l)%N
  | Some _, None => false
  end.
Lemma at_leastb_ok a b : at_leastb a b = true -> at_least a b.
Proof.
  destruct a as [[p w] l], b as [[p' w'] l']. unfold at_leastb, at_least. rewrite orb_true_iff, andb_true_iff, N.ltb_lt, N.eqb_eq.
  intros [H|[-> H]]; [left; exact H|right; split; [reflexivity|]]. destruct w as [x|], w' as [y|]; try discriminate H; [|left; exact I|right; split; [reflexivity|apply N.leb_le, H]].
  rewrite orb_true_iff, andb_true_iff, N.ltb_lt, N.eqb_eq, N.leb_le in H. destruct H as [H|[-> H]]; auto.
Qed.
Fixpoint sortedb (g : loaded) (l : list string) : bool :=
  match l with
  | a :: (b :: _) as l' => at_leastb (sort_key g a) (sort_key g b) && sortedb g l'
  | _ => true
  end.
Lemma sortedb_ok g l : sortedb g l = true -> Sorted (fun a b => at_least (sort_key g a) (sort_key g b)) l.
Proof.
  induction l as [|a [|b l] IH]; intros H; [constructor|constructor; constructor|]. change (at_leastb (sort_key g a) (sort_key g b) && sortedb g (b :: l) = true) in H.
  apply andb_true_iff in H as [H1 H2]. constructor; [exact (IH H2)|constructor; exact (at_leastb_ok _ _ H1)].
Qed.
Definition subset (a b : list string) : bool := forallb (fun n => existsb (String.eqb n) b) a.
Lemma subset_ok a b : subset a b = true -> forall n, In n a -> In n b.
Proof.
  unfold subset. rewrite forallb_forall. intros H n Hn. specialize (H n Hn). apply existsb_exists in H as (m & Hm & He). apply String.eqb_eq in He as ->. exact Hm.
Qed.
Theorem C48_order : forall g, loads g -> scanner_order g.
Proof.
  intros g H. assert (H' : exists g, loads g /\ (let names := map t_name sorted_terminals in let all := (map fst (l_terms g) ++ all_literals g)%list in
    sortedb g names && subset names all && subset all names = true)).
  { eexists. split; [vm_compute; reflexivity|]. vm_compute. reflexivity. }
  destruct H' as (g' & Hg & Hf). rewrite (loads_one _ _ H Hg). cbv zeta in Hf. apply andb_true_iff in Hf as [Hf H3]. apply andb_true_iff in Hf as [H1 H2].
  split; [exact (sortedb_ok _ _ H1)|]. intros n. rewrite <- in_app_iff. split; apply subset_ok; assumption.
Qed.
(** Scanning with the patterns of the model is scanning with the pattern texts. *)
Definition term_matches (g : loaded) (t : terminal) : bool :=
  match parse_re (text_of g (t_name t)) with
  | Some p => good (elim p) && negb (nullable (elim p)) && re_eqb (norm (elim p)) (norm (pat_re (t_pat t)))
  | None => false
  end.
Lemma all_match g : loads g -> forallb (term_matches g) sorted_terminals = true.
Proof.
  intros H. assert (H' : exists g, loads g /\ forallb (term_matches g) sorted_terminals = true).
  { eexists. split; [vm_compute; reflexivity|]. vm_compute. reflexivity. }
  destruct H' as (g' & Hg & Hf). rewrite (loads_one _ _ H Hg). exact Hf.
Qed.
Definition parsed (g : loaded) (n : string) : option (string * re) := match parse_re (text_of g n) with Some r => Some (n, r) | None => None end.
(** Pattern [p] as parsed, [r] as written down. *)
Definition agrees (p r : string * re) : Prop :=
  fst p = fst r /\ good (elim (snd p)) = true /\ nullable (elim (snd p)) = false /\ norm (elim (snd p)) = norm (snd r).
Lemma alts_agree g acc : loads g -> exists ps, all_some (parsed g) (map fst (lx_alts (make_lexer acc))) = Some ps /\ Forall2 agrees ps (lx_alts (make_lexer acc)).
Proof.
  intros H. pose proof (all_match g H) as Hm. unfold make_lexer. cbn [lx_alts]. 
  generalize (filter (fun p : string * string => (mem_str (fst p) acc || mem_str (fst p) ignored) && (mem_str (snd p) acc || mem_str (snd p) ignored)) embedded_pairs) as emb. intros emb.
  induction sorted_terminals as [|t l IH]; [exists []; split; [reflexivity|constructor]|]. cbn [forallb] in Hm. apply andb_true_iff in Hm as [Ht Hl]. specialize (IH Hl). cbn [flat_map].
  destruct ((mem_str (t_name t) acc || mem_str (t_name t) ignored) && negb (mem_str (t_name t) (map snd emb))); cbn [app]; [|exact IH].
  destruct IH as (ps & Hps & Hf). cbn [map fst all_some]. unfold parsed at 1. unfold term_matches in Ht. destruct (parse_re (text_of g (t_name t))) as [p|] eqn:Hp; [|discriminate Ht].
  rewrite !andb_true_iff, negb_true_iff in Ht. destruct Ht as [[H1 H2] H3]. rewrite Hps. exists ((t_name t, p) :: ps). split; [reflexivity|].
  constructor; [|exact Hf]. unfold agrees. cbn [fst snd]. auto using re_eqb_eq.
Qed.
Lemma top_agree ps rs : Forall2 agrees ps rs -> ps <> [] ->
  norm (elim (ralt (map snd ps))) = norm (ralt (map snd rs)) /\ good (elim (ralt (map snd ps))) = true /\ nullable (elim (ralt (map snd ps))) = false.
Proof.
  induction 1 as [|p r ps rs (Hn & Hg & Hu & He) Hf IH]; [contradiction|]. intros _. cbn [map]. destruct Hf as [|p' r' ps rs Hp Hf]; [cbn [map ralt]; auto|].
  destruct IH as (H1 & H2 & H3); [discriminate|]. cbn [map] in H1, H2, H3 |- *.
  change (ralt (snd p :: snd p' :: map snd ps)) with (RAlt (snd p) (ralt (snd p' :: map snd ps))). change (ralt (snd r :: snd r' :: map snd rs)) with (RAlt (snd r) (ralt (snd r' :: map snd rs))).
  cbn [elim norm good nullable]. rewrite He, H1, Hg, H2, Hu, H3. auto.
Qed.
Theorem C48_patterns : forall g, loads g -> forall E acc s,
  exists ps, all_some (parsed g) (map fst (lx_alts (make_lexer acc))) = Some ps /\ match_joined E ps s = scan E (make_lexer acc) s.
Proof.
  intros g H E acc s. destruct (alts_agree g acc H) as (ps & Hps & Hf). exists ps. split; [exact Hps|]. unfold match_joined, scan, lx_top.
  clear Hps. revert Hf. generalize (lx_alts (make_lexer acc)) as rs. intros rs Hf.
  assert (Hne : ps <> [] \/ ps = []) by (destruct ps; [right; reflexivity|left; discriminate]). destruct Hne as [Hne| ->]; [|inversion Hf; reflexivity].
  destruct (top_agree ps _ Hf Hne) as (Ht & Hg & Hu). clear Hne. revert Ht Hg Hu.
  generalize (ralt (map snd ps)) as tp. generalize (ralt (map snd rs)) as tr. intros tr tp Ht Hg Hu.
  induction Hf as [|[n p] [n' r] ps rs (Hn & Hgp & Hup & Hep) Hf IH]; [reflexivity|]. cbn [fst snd] in *. subst n'. cbn [match_first scan_alts]. unfold re_run.
  rewrite (mtg_elim E tp (Datatypes.S (List.length s)) Hg Hu) by (assumption || lia). rewrite <- (mt_norm E _ (elim tp)), Ht, Hep, mt_norm.
  destruct (mt E tr (Datatypes.S (List.length s)) (Datatypes.S (List.length s)) r 0 s MOk); [exact IH|reflexivity|reflexivity].
Qed.
(** The tokens of an accepted text are a sentence of the grammar file. *)
Theorem C48_sentence : forall g, loads g -> forall E fs text fp t o, source fs text fp t -> bicep_create_tree E fs text fp = Ok o ->
  exists b x e ts, t = (b ++ x ++ e)%list /\ blank b /\ blank e /\ derives (l_rules g) (ENT "start") (map fst ts) /\
    Forall (fun k => lexeme E (fst k) (tval (snd k))) ts /\ ((ts = [] /\ x = []) \/ spelled (1 + count_nl b) ts x).
Proof.
  intros g H E fs text fp t o S Ho. destruct C48_rules as (g' & Hg & Hr & _). rewrite (loads_one _ _ H Hg), Hr.
  rewrite (tree_source E fs _ _ _ S) in Ho. destruct (is_valid t); [|discriminate Ho]. destruct (lark_parse E t) as [tree|e] eqn:Hp; [|discriminate Ho].
  destruct (lark_start E t tree Hp) as (m & cs & ->). assert (Hcs : program E t cs) by (exists m; exact Hp). destruct (C35_sentence E t cs Hcs) as (b & x & e & ts & H1 & H2 & H3 & H4 & H5 & _ & H7). exists b, x, e, ts. auto 10.
Qed.

(** The file with its blanks, comments and order: a grammar of its own, read the same way. *)
Example C48_small :
  load anon ("start: ""a"" (NAME | x)* // first" ++ String "010" ("x.2: [NAME] ~ 2 -> twice" ++ String "010" ("NAME: /[a-z]+/" ++ String "010" ""))) "" =
  Some {| l_rules := [{| r_name := "start"; r_expand1 := false; r_keep_all := false; r_prio := 0; r_alts := [(ESeq [EStr "a"; EStar (EAlt [ETerm "NAME"; ENT "x"])], None)] |};
                      {| r_name := "x"; r_expand1 := false; r_keep_all := false; r_prio := 2; r_alts := [(ERep (EMaybe (ETerm "NAME")) 2 2, Some "twice")] |}];
          l_terms := [("NAME", (0%N, PRe "[a-z]+"))]; l_ignore := [] |}.
Proof. vm_compute. reflexivity. Qed.

Definition grammar_file_theorems := (
  @C48_rules,
  @C48_terminals,
  @C48_order,
  @C48_patterns,
  @C48_sentence).
Print Assumptions grammar_file_theorems.
