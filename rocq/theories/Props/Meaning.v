(** C39: what a program is reported as, by recursion over its abstract syntax;
    C26: chains of operators of any length. *)
From Coq Require Import List Arith NArith ZArith Bool String Lia.
From Verif Require Import Py.Str Py.Val Lark.Tree Lark.Shape Lark.Terminals
  Pycep.Utils Pycep.Transformer Pycep.Main Pycep.Bicep
  Spec.Json Spec.Schema Spec.Outcomes Spec.Calls Spec.Text Spec.Trees Spec.Lexemes Spec.Program Spec.Reports Spec.Parts Spec.Numbering Spec.Declarations Spec.Types Spec.Sentences Spec.Spelling Spec.Syntax Spec.Reading Spec.Plain Spec.Meaning
  Proofs.Base Proofs.TokenForms Proofs.TreeGrammar Proofs.Transform Proofs.State Proofs.EndToEnd Proofs.Documents Proofs.Parts
  Proofs.EraseDocuments Proofs.Generate Proofs.SyntaxInd Proofs.Derive Proofs.DerivePrograms Proofs.Write Proofs.Plain Proofs.SpellCheck Proofs.Like Proofs.Shaped Proofs.Meaning Proofs.MeaningPrograms
  Props.Calls Props.Documents Props.Numbering Props.Syntax.
Import ListNotations.
Local Open Scope string_scope.

(** The key pycep reserves for child resources is not used as a key. *)
Definition unclaimed (ts : list tokn) : Prop := ~ In (Key Schema.reserved_key) ts.

Lemma unclaimed_app a b : unclaimed (a ++ b) <-> unclaimed a /\ unclaimed b.
Proof. unfold unclaimed. rewrite in_app_iff. tauto. Qed.
Lemma unclaimed_cons a b : unclaimed (a :: b) <-> a <> Key Schema.reserved_key /\ unclaimed b.
Proof. unfold unclaimed. cbn [In]. tauto. Qed.
Lemma unclaimed_flat {A} (f : A -> list tokn) l : unclaimed (flat_map f l) <-> Forall (fun x => unclaimed (f x)) l.
Proof.
  induction l as [|a l IH]; cbn [flat_map]; [split; [constructor|intros _ []]|]. rewrite unclaimed_app, IH. split; [intros [? ?]; constructor; assumption|intros H; inversion H; auto].
Qed.
Lemma forall_mp {A} (P Q R : A -> Prop) l : Forall P l -> Forall Q l -> (forall x, P x -> Q x -> R x) -> Forall R l.
Proof. intros HP HQ H. induction HP; inversion HQ; constructor; auto. Qed.
Lemma forallb_Forall {A} (f : A -> bool) l : Forall (fun x => f x = true) l -> forallb f l = true.
Proof. induction 1; cbn [forallb]; [reflexivity|]. apply andb_true_iff; auto. Qed.
Lemma forallb_flat {A B} (f : B -> bool) (g : A -> list B) l : Forall (fun x => forallb f (g x) = true) l -> forallb f (flat_map g l) = true.
Proof. induction 1; cbn [flat_map]; [reflexivity|]. rewrite forallb_app. apply andb_true_iff; auto. Qed.
Lemma forallb_map {A B} (f : B -> bool) (g : A -> B) l : forallb f (map g l) = forallb (fun x => f (g x)) l.
Proof. induction l; cbn [map forallb]; congruence. Qed.
Lemma key_clean k : key_token k <> Key Schema.reserved_key -> clean (key_tree k) = true.
Proof.
  intros H. unfold key_tree. cbn [clean forallb leaf tval]. rewrite !andb_true_r. apply negb_true_iff, str_eqb_neq. intros He.
  destruct k; cbn [key_token text] in *; [congruence|discriminate|discriminate].
Qed.
Ltac split_unclaimed := repeat match goal with
  | H : unclaimed (_ ++ _)%list |- _ => apply unclaimed_app in H as [? ?]
  | H : unclaimed (_ :: _) |- _ => apply unclaimed_cons in H as [? ?]
  | H : unclaimed (flat_map _ _) |- _ => apply unclaimed_flat in H
  end.
Lemma tree_clean : forall e, unclaimed (tokens e) -> clean (tree e) = true.
Proof.
  apply (expr_induction (fun e => unclaimed (tokens e) -> clean (tree e) = true) (fun i => unclaimed (item_tokens i) -> forallb clean (item_trees i) = true)).
  all: intros; cbn [tokens item_tokens] in *; split_unclaimed; cbn [tree item_trees]; unfold operator; cbn [clean forallb leaf andb];
    rewrite ?andb_true_r; repeat (apply andb_true_iff; split); auto.
  - destruct b; reflexivity.
  - apply forallb_flat. match goal with H1 : Forall _ rows, H2 : Forall _ rows |- _ => apply (forall_mp _ _ _ _ H1 H2) end.
    intros [[x xs] brs] [Hx Hxs] Hu. cbn [fst snd] in *. split_unclaimed. cbn [forallb]. rewrite (Hx ltac:(assumption)). cbn [andb]. rewrite forallb_map. apply forallb_Forall.
    match goal with H : Forall _ xs |- _ => apply (forall_mp _ _ _ _ Hxs H) end. intros y Hy Hu. split_unclaimed. auto.
  - apply forallb_flat. match goal with H1 : Forall _ rows, H2 : Forall _ rows |- _ => apply (forall_mp _ _ _ _ H1 H2) end.
    intros [i brs] Hi Hu. cbn [fst snd] in *. split_unclaimed. auto.
  - rewrite forallb_app, forallb_map. apply andb_true_iff. split; [destruct first; cbn [maybe forallb] in *; rewrite ?andb_true_r; auto|]. apply forallb_Forall.
    match goal with H1 : Forall _ more, H2 : Forall _ more |- _ => apply (forall_mp _ _ _ _ H1 H2) end. intros y Hy Hu. split_unclaimed. auto.
  - destruct o; reflexivity.
  - rewrite forallb_app. apply andb_true_iff. split; [destruct first; cbn [maybe forallb] in *; rewrite ?andb_true_r; auto|].
    replace (forallb clean _) with (forallb clean (map tree more)) by (destruct more; reflexivity). rewrite forallb_map. apply forallb_Forall.
    match goal with H1 : Forall _ more, H2 : Forall _ more |- _ => apply (forall_mp _ _ _ _ H1 H2) end. intros y Hy Hu. split_unclaimed. auto.
  - rewrite forallb_app, forallb_map. cbn [forallb]. rewrite andb_true_r. apply andb_true_iff. split; [|auto]. apply forallb_Forall.
    match goal with H1 : Forall _ more, H2 : Forall _ more |- _ => apply (forall_mp _ _ _ _ H1 H2) end. intros z Hz Hu. split_unclaimed. auto.
  - destruct r; cbn [range_tokens] in *; split_unclaimed; cbn [range_tree clean forallb leaf]; rewrite ?andb_true_r; auto.
  - destruct cond; cbn [maybe] in *; auto.
  - pose proof (key_clean k) as Hk. cbn [key_tree clean forallb] in Hk. rewrite !andb_true_r in Hk. auto.
  - rewrite forallb_map. apply forallb_Forall. match goal with H1 : Forall _ more, H2 : Forall _ more |- _ => apply (forall_mp _ _ _ _ H1 H2) end.
    intros [[k' v'] q'] Hv Hu. cbn [fst snd] in *. split_unclaimed. cbn [clean forallb]. rewrite key_clean by assumption. cbn [andb]. rewrite andb_true_r. auto.
  - destruct ex; reflexivity.
Qed.

(** ** C39 *)
Lemma lines_declarations p : flat_map line_trees p = map decl_tree (declarations p).
Proof. induction p as [|[d br|br] p IH]; cbn [flat_map declarations map line_trees app]; [reflexivity| |exact IH]. unfold declarations in IH. rewrite IH. reflexivity. Qed.
Lemma lines_wf p : forall b, program_wf b p = true -> Forall (fun d => decl_wf d = true) (declarations p).
Proof.
  induction p as [|[d br|br] p IH]; intros b H; cbn [program_wf] in H; [constructor| |]; apply andb_true_iff in H as [H1 H2].
  - constructor; [exact H1|exact (IH _ H2)].
  - exact (IH _ H2).
Qed.
(** No resource uses the reserved key. *)
Definition unclaimed_decl (d : decl) : Prop := match d with DResource _ _ _ _ e => unclaimed (tokens e) | _ => True end.
Lemma decl_unclaimed d : unclaimed_decl d -> clean_body d.
Proof. destruct d; cbn [clean_body unclaimed_decl]; auto. apply tree_clean. Qed.

(** However a program is written, it is reported as its abstract syntax says. *)
Theorem C39_meaning : forall E fs p text fp t, program_wf false p = true -> Forall unclaimed_decl (declarations p) ->
  source fs text fp t -> writes E p t -> balanced t ->
  bicep_parse E fs false text fp = meaning E p.
Proof.
  intros E fs p text fp t W U S Wr (n & B & B'). destruct (written E p t W Wr) as (x & P & T & _). destruct (lark_start E t x P) as (m & cs & ->).
  assert (Q : program E t cs) by (exists m; exact P). pose proof (program_ok E t cs Q) as Hok.
  destruct (parse_program E fs false text fp t cs n S B B' Q) as (m' & ->). unfold meaning. apply (start_meaning E t m'); [exact Hok|].
  unfold program_tree in T. rewrite lines_declarations in T. inversion T as [| |? ? ? ? ? HF]; subst.
  pose proof (lines_wf p _ W) as Hw. pose proof (Forall_impl _ decl_unclaimed U) as Hc. apply oks_Forall in Hok.
  assert (Hp : Forall (fun c => part_of E t c) cs). { apply Forall_forall. intros c Hc'. apply (part_child E t L_start m cs); [|exact Hc']. exists (TNode L_start m cs). split; [exact P|]. constructor. }
  remember (declarations p) as ds. clear -HF Hw Hc Hok Hp. remember (map decl_tree ds) as ts. revert ds Heqts Hw Hc. induction HF as [|c y cs ts Hy HF IH]; intros [|d ds] He Hw Hc; try discriminate; [constructor|].
  injection He as -> ->. inversion Hw; subst. inversion Hc; subst. inversion Hok; subst. inversion Hp; subst. constructor; [|apply IH; auto].
  split; [split; [assumption|discriminate]|]. auto using same_like, decl_wf_shaped.
Qed.

(** ** C26 *)
(** A chain of operators: the first operand, then operators with the next operand. *)
Definition chain := (expr * list (binop * expr))%type.
Definition chain_tokens (c : chain) : list tokn := (tokens (fst c) ++ flat_map (fun p => Sym (op_sign (fst p)) :: tokens (snd p)) (snd c))%list.
(** Operands are values; all but the last do not end with an operand of their own,
    since that would take what follows. *)
Fixpoint operands (v : expr) (rest : list (binop * expr)) : bool :=
  value_ok v && match rest with [] => true | (_, w) :: rest' => negb (open v) && operands w rest' end.
(** The report of the chain, from the reports of its operands. *)
Fixpoint right_nested (r : pyval) (rest : list (binop * pyval)) : pyval :=
  match rest with [] => r | (o, r') :: rest' => binary (op_name o) r (right_nested r' rest') end.

Fixpoint chained (v : expr) (rest : list (binop * expr)) : expr :=
  match rest with [] => v | (o, w) :: rest' => EBin o v (chained w rest') end.
Lemma chained_tokens rest : forall v, tokens (chained v rest) = chain_tokens (v, rest).
Proof.
  induction rest as [|[o w] rest IH]; intros v; unfold chain_tokens; cbn [chained fst snd flat_map tokens]; [rewrite app_nil_r; reflexivity|].
  rewrite IH. reflexivity.
Qed.
Lemma chained_wf rest : forall v, operands v rest = true -> value_ok (chained v rest) = true.
Proof.
  induction rest as [|[o w] rest IH]; intros v H; cbn [operands chained] in *; apply andb_true_iff in H as [H1 H2]; [exact H1|].
  apply andb_true_iff in H2 as [H2 H3]. specialize (IH w H3). unfold value_ok in *. apply andb_true_iff in H1 as [H1 H1'], IH as [IH IH'].
  cbn [ordinary wf]. rewrite H2, H1, H1', IH, IH'. reflexivity.
Qed.
Lemma chained_report E rest : forall v r rs, report E v = Ok r -> Forall2 (fun p s => report E (snd p) = Ok s) rest rs ->
  report E (chained v rest) = Ok (right_nested r (combine (map fst rest) rs)).
Proof.
  induction rest as [|[o w] rest IH]; intros v r rs Hv HF; inversion HF as [|? s ? rs' Hw HF']; subst; [exact Hv|].
  cbn [chained report map fst combine right_nested]. rewrite Hv. cbn [bind]. rewrite (IH w s rs' Hw HF'). reflexivity.
Qed.

(** A variable with any value is reported with the report of the value. *)
Lemma variable_report E fs n e r text fp t : value_ok e = true -> report E e = Ok r -> source fs text fp t ->
  spells E None ([Kw "var"; Name n; Sym "="] ++ tokens e) t -> balanced t ->
  bicep_parse E fs false text fp = Ok (document [default_scope false; entry_of "variables" n [(u "decorators", PList []); (u "value", r)]]).
Proof.
  intros W R S Wr B. pose (p := [Declared (DVar [] n None e) None]).
  assert (Hp : program_tokens p = ([Kw "var"; Name n; Sym "="] ++ tokens e)%list) by (cbn; rewrite !app_nil_r; reflexivity).
  rewrite (C39_meaning E fs p text fp t); [|..].
  - unfold meaning, p. cbn [declarations flat_map app decls_report decl_report decos_report collect bind]. rewrite R. reflexivity.
  - unfold value_ok in W. apply andb_true_iff in W as [W1 W2]. cbn [p program_wf decl_wf forallb andb]. rewrite W1, W2. reflexivity.
  - repeat constructor.
  - exact S.
  - unfold writes. rewrite Hp. exact Wr.
  - exact B.
Qed.
(** However long a chain is and whatever its operators are, it is reported as
    nested to the right. *)
Theorem C26_chain : forall E fs n v rest r rs text fp t, operands v rest = true ->
  report E v = Ok r -> Forall2 (fun p s => report E (snd p) = Ok s) rest rs ->
  source fs text fp t -> spells E None ([Kw "var"; Name n; Sym "="] ++ chain_tokens (v, rest)) t -> balanced t ->
  bicep_parse E fs false text fp = Ok (document [default_scope false;
    entry_of "variables" n [(u "decorators", PList []); (u "value", right_nested r (combine (map fst rest) rs))]]).
Proof.
  intros E fs n v rest r rs text fp t W R HF S Wr B. rewrite <- chained_tokens in Wr. apply (variable_report E fs n (chained v rest) _ text fp t); auto; [exact (chained_wf _ _ W)|exact (chained_report E rest v r rs R HF)].
Qed.
(** A chain in parentheses is one operand, with the report of that chain. *)
Theorem C26_parentheses : forall E v rest r rs, operands v rest = true -> rest <> [] ->
  report E v = Ok r -> Forall2 (fun p s => report E (snd p) = Ok s) rest rs ->
  exists e, tokens e = ([Sym "("] ++ chain_tokens (v, rest) ++ [Sym ")"])%list /\ value_ok e = true /\ open e = false /\
    report E e = Ok (right_nested r (combine (map fst rest) rs)).
Proof.
  intros E v rest r rs W N R HF. exists (EParen (chained v rest)). cbn [tokens open]. rewrite chained_tokens. split; [reflexivity|].
  split; [|split; [reflexivity|exact (chained_report E rest v r rs R HF)]].
  pose proof (chained_wf rest v W) as H. unfold value_ok in *. apply andb_true_iff in H as [H1 H2]. cbn [ordinary wf]. rewrite H1, H2.
  destruct rest as [|[o w] rest]; [congruence|reflexivity].
Qed.

(** A case: [var x = a + b * (c - 1) == -d ? 'y' : z], written with odd blanks. *)
Definition chain0 : chain := (ERef (u "a"), [(Add, ERef (u "b")); (Mul, EParen (EBin Sub (ERef (u "c")) (EInt (u "1")))); (Eq, ECond (ERef (u "d")) (EStr (u "y")) (EMinus (ERef (u "z"))))]).
Definition chain0_text : str := u "var x = a+b  * (c - 1)==d? 'y' : -z ".
Example C26_chain_ex : operands (fst chain0) (snd chain0) = true /\ spells env0 None ([Kw "var"; Name (u "x"); Sym "="] ++ chain_tokens chain0) chain0_text /\
  balanced chain0_text /\ exists r rs, report env0 (fst chain0) = Ok r /\ Forall2 (fun p s => report env0 (snd p) = Ok s) (snd chain0) rs.
Proof.
  split; [reflexivity|]. split; [apply spell_check_sound; vm_compute; reflexivity|]. split; [apply balanced_valid; reflexivity|].
  do 2 eexists. split; [reflexivity|]. repeat constructor.
Qed.
(** Precedence is not applied: [a * b + c] is [a * (b + c)]. *)
Example C26_no_precedence : bicep_parse env0 ex_fs false (Some (u "var x = a * b + c")) None = Ok (document [default_scope false;
  entry_of "variables" (u "x") [(u "decorators", PList []); (u "value", binary "multiply" (PElem (u "a")) (binary "add" (PElem (u "b")) (PElem (u "c"))))]]).
Proof. vm_compute. reflexivity. Qed.

(** A program with most constructs, written in a way of its own. *)
Definition big_text : str := u ("// head" ++ nl ++ "targetScope = 'tenant'  " ++ nl ++ nl ++ "import {a as b, c} from 'x.bicep'" ++ nl ++
  "@description('d')" ++ nl ++ "param p string[]? = [" ++ nl ++ " 1, q" ++ nl ++ " -f(x)]" ++ nl ++
  "resource r 'A/b@2020' = if (p == 1) {" ++ nl ++ " name: 'n'" ++ nl ++ "}" ++ nl ++
  "resource s 'A/c@2021' = {" ++ nl ++ "  k: [for i in items(p): i.v ]" ++ nl ++ " resource t 'd' = {" ++ nl ++ "  'w': r::t!" ++ nl ++ " }" ++ nl ++ "}" ++ nl ++
  "module m 'br/al:mod/x:v1' = {}" ++ nl ++ "output o (int | bool) = p.?x[0]").
Definition br1 : str := [10%N].
Definition big_program : list line :=
  [Blank (u ("// head" ++ nl)); Declared (DScope (u "tenant")) (Some (u (nl ++ nl)));
   Declared (DImports (SName (u "a") (Some (u "b"))) [SName (u "c") None] (u "x.bicep")) (Some br1);
   Declared (DParam [{| d_name := u "description"; d_lead := None; d_arg := Some (EStr (u "d")); d_trail := None; d_after := [br1] |}] (u "p") (ArrayOf (Named (u "string"))) true
     (Some (EArray [br1] [(EInt (u "1"), [ERef (u "q")], [br1]); (EMinus (ECall (u "f") None (Some (ERef (u "x"))) [] None), [], [])]))) (Some br1);
   Declared (DResource [] (u "r") (u "A/b@2020") false (EIf None (EBin Eq (ERef (u "p")) (EInt (u "1"))) (EObject [br1] [(Pairs (KName (u "name")) (EStr (u "n")) false [], [br1])]))) (Some br1);
   Declared (DResource [] (u "s") (u "A/c@2021") false (EObject [br1]
     [(Pairs (KName (u "k")) (ELoop None (OverItems (u "i")) (ECall (u "items") None (Some (ERef (u "p"))) [] None) None (EDot false (ERef (u "i")) (ERef (u "v"))) None) false [], [br1]);
      (Child (u "t") (u "d") false (EObject [br1] [(Pairs (Spec.Syntax.KQuoted (u "w")) (ENested (ERef (u "r")) (EBang (ERef (u "t")))) false [], [br1])]), [br1])])) (Some br1);
   Declared (DModule [] (u "m") (u "br/al:mod/x:v1") (EObject [] [])) (Some br1);
   Declared (DOutput [] (u "o") (Union [Named (u "int"); Named (u "bool")]) false (EDot true (ERef (u "p")) (EIndex false (ERef (u "x")) (EInt (u "0"))))) None].
Example C39_ex : program_wf false big_program = true /\ Forall unclaimed_decl (declarations big_program) /\ writes env0 big_program big_text /\ balanced big_text /\
  bicep_parse env0 ex_fs false (Some big_text) None = meaning env0 big_program /\ exists v, meaning env0 big_program = Ok v.
Proof.
  assert (W : program_wf false big_program = true) by reflexivity.
  assert (U : Forall unclaimed_decl (declarations big_program)).
  { repeat constructor; intros H; vm_compute in H; repeat destruct H as [H|H]; try discriminate; exact H. }
  assert (Wr : writes env0 big_program big_text) by (apply spell_check_sound; vm_compute; reflexivity).
  assert (B : balanced big_text) by (apply balanced_valid; reflexivity).
  split; [exact W|]. split; [exact U|]. split; [exact Wr|]. split; [exact B|]. split.
  - apply (C39_meaning env0 ex_fs big_program _ _ big_text); auto. apply ex_source. do 2 eexists. reflexivity.
  - eexists. vm_compute. reflexivity.
Qed.

(** All theorems of this file at once (the walk over the proofs is slow). *)
Definition meaning_theorems := (@C39_meaning,
  @C26_chain,
  @C26_parentheses).
Print Assumptions meaning_theorems.
