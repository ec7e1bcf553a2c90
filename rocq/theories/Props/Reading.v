(** C42: every accepted text is a program, reported as that program;
    C43: the brackets of an accepted text match. *)
From Coq Require Import List Arith NArith ZArith Bool String Lia.
From Verif Require Import Py.Str Py.Val Lark.Tree Lark.Shape Lark.Terminals
  Pycep.Utils Pycep.Transformer Pycep.Main Pycep.Bicep
  Spec.Json Spec.Schema Spec.Outcomes Spec.Calls Spec.Text Spec.Trees Spec.Lexemes Spec.Program Spec.Reports Spec.Parts Spec.Numbering Spec.Declarations Spec.Types Spec.Sentences Spec.Spelling Spec.Syntax Spec.Outline Spec.Reading Spec.Meaning
  Proofs.Base Proofs.TreeGrammar Proofs.Transform Proofs.State Proofs.EndToEnd Proofs.Documents Proofs.Parts
  Proofs.Generate Proofs.SyntaxInd Proofs.Derive Proofs.DerivePrograms Proofs.Outline Proofs.Like Proofs.Meaning Proofs.MeaningPrograms Proofs.UnparseText
  Props.Calls Props.Documents Props.Numbering Props.Syntax Props.Meaning.
Import ListNotations.
Local Open Scope string_scope.

(** ** C42 *)
Lemma lines_shaped p : program_shaped p = true -> Forall (fun d => decl_shaped d = true) (declarations p).
Proof.
  unfold program_shaped, declarations. induction p as [|[d br|br] p IH]; cbn [forallb line_shaped flat_map app]; intros H; [constructor| |exact (IH H)].
  apply andb_true_iff in H as [H1 H2]. constructor; auto.
Qed.
Lemma shaped_meaning E t p m cs : lark_parse E t = Ok (TNode L_start m cs) -> program_shaped p = true -> like (TNode L_start m cs) (program_tree p) ->
  Forall unclaimed_decl (declarations p) -> transform E false (TNode L_start m cs) = meaning E p.
Proof.
  intros P Sh T U. assert (Q : program E t cs) by (exists m; exact P). pose proof (program_ok E t cs Q) as Hok.
  unfold meaning. apply (start_meaning E t m); [exact Hok|].
  unfold program_tree in T. rewrite lines_declarations in T. inversion T as [| |? ? ? ? ? HF]; subst.
  pose proof (lines_shaped p Sh) as Hw. pose proof (Forall_impl _ decl_unclaimed U) as Hc. apply oks_Forall in Hok.
  assert (Hp : Forall (fun c => part_of E t c) cs). { apply Forall_forall. intros c Hc'. apply (part_child E t L_start m cs); [|exact Hc']. exists (TNode L_start m cs). split; [exact P|]. constructor. }
  remember (declarations p) as ds. clear -HF Hw Hc Hok Hp. remember (map decl_tree ds) as ts. revert ds Heqts Hw Hc. induction HF as [|c y cs ts Hy HF IH]; intros [|d ds] He Hw Hc; try discriminate; [constructor|].
  injection He as -> ->. inversion Hw; subst. inversion Hc; subst. inversion Hok; subst. inversion Hp; subst. constructor; [|apply IH; auto].
  split; [split; [assumption|discriminate]|]. auto.
Qed.

(** Whatever text is accepted, there is a program with exactly the tokens of the
    text, [create_tree] prints its outline and [parse] reports its meaning. *)
Theorem C42_accepted : forall E fs text fp t o, source fs text fp t -> bicep_create_tree E fs text fp = Ok o ->
  exists p, program_shaped p = true /\ reads_as E (program_tokens p) t /\ o = outline_text (program_outline p) /\
    (Forall unclaimed_decl (declarations p) -> bicep_parse E fs false text fp = meaning E p).
Proof.
  intros E fs text fp t o S H. rewrite (tree_source E fs _ _ _ S) in H. rewrite (parse_source E fs false _ _ _ S).
  destruct (is_valid t); [|discriminate]. destruct (lark_parse E t) as [x|e] eqn:P; cbn [bind] in *; [|discriminate]. injection H as <-.
  destruct (accepted_program E t x P) as (p & Sh & R & L). exists p. split; [exact Sh|]. split; [exact R|]. split.
  - rewrite <- pretty_program. unfold pretty. rewrite (like_pretty _ _ L). reflexivity.
  - intros U. destruct (lark_start E t x P) as (m & cs & ->). apply (shaped_meaning E t p m cs P Sh L U).
Qed.
(** A result of [parse] is the meaning of a program with the tokens of the text. *)
Theorem C42_reported : forall E fs text fp t r, source fs text fp t -> bicep_parse E fs false text fp = Ok r ->
  exists p, program_shaped p = true /\ reads_as E (program_tokens p) t /\ (Forall unclaimed_decl (declarations p) -> meaning E p = Ok r).
Proof.
  intros E fs text fp t r S H. assert (T : exists o, bicep_create_tree E fs text fp = Ok o).
  { rewrite (tree_source E fs _ _ _ S). rewrite (parse_source E fs false _ _ _ S) in H. destruct (is_valid t); [|discriminate].
    destruct (lark_parse E t); [|discriminate]. eexists. reflexivity. }
  destruct T as (o & T). destruct (C42_accepted E fs text fp t o S T) as (p & Sh & R & _ & M). exists p. split; [exact Sh|]. split; [exact R|].
  intros U. rewrite <- (M U). exact H.
Qed.
(** A text accepted although no program is written that way according to
    Spec/Spelling.v: an expression inside quotes is not closed. *)
Definition odd_text : str := u ("var x = 'a${b{c' // d" ++ nl ++ nl ++ "output y int = [ f(" ++ nl ++ "x)!]").
Example C42_ex : exists o r, bicep_create_tree env0 ex_fs (Some odd_text) None = Ok o /\ bicep_parse env0 ex_fs false (Some odd_text) None = Ok r /\
  exists p, program_shaped p = true /\ reads_as env0 (program_tokens p) odd_text /\ o = outline_text (program_outline p) /\
    (Forall unclaimed_decl (declarations p) -> meaning env0 p = Ok r).
Proof.
  do 2 eexists. split; [vm_compute; reflexivity|]. split; [vm_compute; reflexivity|].
  edestruct (C42_accepted env0 ex_fs (Some odd_text) None odd_text) as (p & Sh & R & O & M); [apply ex_source; do 2 eexists; reflexivity|vm_compute; reflexivity|].
  exists p. split; [exact Sh|]. split; [exact R|]. split; [exact O|]. intros U. rewrite <- (M U). vm_compute. reflexivity.
Qed.

(** ** C43 *)
Lemma matched_app a b : matched a -> matched b -> matched (a ++ b).
Proof.
  intros H Hb. induction H as [|t ts Ho Hc H IH|t c inside ts Ho Hi _ H IH]; cbn [app]; [exact Hb|apply matched_plain; assumption|].
  rewrite <- app_assoc. cbn [app]. apply matched_group; assumption.
Qed.
Lemma matched_one t : opener t = None -> closer t = false -> matched [t].
Proof. intros Ho Hc. apply matched_plain; [assumption..|constructor]. Qed.
Lemma matched_wrap t c inside rest : opener t = Some c -> matched inside -> matched rest -> matched ((t :: inside) ++ Sym c :: rest).
Proof. intros. apply matched_group; assumption. Qed.
Lemma matched_flat {A} (f : A -> list tokn) l : Forall (fun x => matched (f x)) l -> matched (flat_map f l).
Proof. induction 1; cbn [flat_map]; [constructor|]. apply matched_app; assumption. Qed.
Lemma matched_breaks l : matched (breaks l).
Proof. induction l; cbn [breaks map]; [constructor|]. apply matched_plain; auto. Qed.
Lemma matched_break o : matched (break o).
Proof. destruct o; cbn [break opt]; [apply matched_one; reflexivity|constructor]. Qed.
Lemma matched_mark b s : opener (Sym s) = None -> closer (Sym s) = false -> matched (mark b s).
Proof. destruct b; cbn [mark]; [apply matched_one|constructor]. Qed.
Lemma key_plain k ts : matched ts -> matched (key_token k :: ts).
Proof. intros H. apply matched_plain; [destruct k; reflexivity|destruct k; reflexivity|exact H]. Qed.
Lemma op_plain o ts : matched ts -> matched (Sym (op_sign o) :: ts).
Proof. intros H. apply matched_plain; [destruct o; reflexivity|destruct o; reflexivity|exact H]. Qed.
Lemma matched_around t c inside rest : opener t = Some c -> matched inside -> matched rest -> matched (t :: inside ++ Sym c :: rest).
Proof. intros. apply matched_group; assumption. Qed.
Lemma range_matched r ts : matched ts -> matched (range_tokens r ts).
Proof.
  intros H. destruct r; cbn [range_tokens app].
  - repeat (apply matched_plain; [reflexivity..|]). exact H.
  - apply (matched_group (Sym "(") ")" [_; _; _]); [reflexivity| |]; repeat (apply matched_plain; [reflexivity..|]); [constructor|exact H].
  - repeat (apply matched_plain; [reflexivity..|]). apply (matched_group (Sym "(") ")" ts []); [reflexivity|exact H|constructor].
Qed.
(** Put the tokens between two brackets together. *)
Ltac group := match goal with
  | |- matched (?t :: ?a ++ Sym ?c :: ?r) => apply (matched_group t c a r); [reflexivity| |]
  | |- matched (?t :: ?a ++ ?b ++ Sym ?c :: ?r) => rewrite (app_assoc a b); apply (matched_group t c (a ++ b) r); [reflexivity| |]
  | |- matched (?t :: ?a ++ ?b ++ ?d ++ Sym ?c :: ?r) => rewrite (app_assoc b d), (app_assoc a (b ++ d)); apply (matched_group t c (a ++ b ++ d) r); [reflexivity| |]
  | |- matched (?t :: ?a ++ ?b ++ ?d ++ ?e ++ Sym ?c :: ?r) => rewrite (app_assoc d e), (app_assoc b (d ++ e)), (app_assoc a (b ++ d ++ e)); apply (matched_group t c (a ++ b ++ d ++ e) r); [reflexivity| |]
  end.
Ltac plain := first
  [ assumption | apply matched_end | apply matched_breaks | apply matched_break | apply matched_mark; reflexivity
  | apply key_plain; plain | apply op_plain; plain | apply range_matched; plain
  | apply matched_plain; [reflexivity|reflexivity|plain] | apply matched_app; [plain|plain] | idtac ].
Lemma tokens_matched : (forall e, matched (tokens e)) /\ (forall i, matched (item_tokens i)).
Proof.
  apply syntax_induction; intros; cbn [tokens item_tokens app]; try solve [plain].
  - group; [|constructor]. plain. apply matched_flat. eapply Forall_impl; [|eassumption]. intros [[x xs] brs] [Hx Hxs]. cbn [fst snd] in *. plain.
    apply matched_flat. eapply Forall_impl; [|exact Hxs]. intros y Hy. plain.
  - group; [|constructor]. plain. apply matched_flat. eapply Forall_impl; [|eassumption]. intros [i brs] Hi. cbn [fst snd] in *. plain.
  - group; [|constructor]. plain; [destruct first; cbn [maybe] in *; plain|]. apply matched_flat. eapply Forall_impl; [|eassumption]. intros [b x] Hx. cbn [fst snd] in *. plain.
  - apply matched_app; [plain|]. group; [|constructor]. plain.
  - apply matched_app; [plain|]. apply matched_plain; [reflexivity..|]. apply matched_plain; [reflexivity..|]. group; [|constructor].
    plain; [destruct first; cbn [maybe] in *; plain|]. apply matched_flat. eapply Forall_impl; [|eassumption]. intros y Hy. plain.
  - replace (tokens x ++ Sym "," :: tokens y ++ flat_map (fun z => Sym "," :: tokens z) more ++ Sym ")" :: Sym "=>" :: tokens b)%list
      with ((tokens x ++ Sym "," :: tokens y ++ flat_map (fun z => Sym "," :: tokens z) more) ++ Sym ")" :: Sym "=>" :: tokens b)%list by (rewrite <- !app_assoc; cbn [app]; rewrite <- !app_assoc; reflexivity).
    group; [|plain]. plain. apply matched_flat. eapply Forall_impl; [|eassumption]. intros z Hz. plain.
  - group; plain.
  - set (rng := range_tokens r (tokens over)). set (cnd := match cond with Some c => tokens c | None => [] end).
    replace (break lead ++ Kw "for" :: rng ++ Sym ":" :: cnd ++ tokens body ++ break trail ++ [Sym "]"])%list
      with ((break lead ++ Kw "for" :: rng ++ Sym ":" :: cnd ++ tokens body ++ break trail) ++ Sym "]" :: [])%list by (rewrite <- !app_assoc; cbn [app]; rewrite <- !app_assoc; cbn [app]; rewrite <- !app_assoc; reflexivity).
    group; [|constructor]. assert (Hr : matched rng) by (apply range_matched; assumption). assert (Hc : matched cnd) by (unfold cnd; destruct cond; cbn [maybe] in *; plain). plain.
  - apply matched_app; [plain|]. apply matched_plain; [reflexivity..|]. group; plain.
  - plain. apply matched_flat. eapply Forall_impl; [|eassumption]. intros [[k' v'] q'] Hv. cbn [fst snd] in *. plain.
  - apply matched_plain; [reflexivity..|]. apply matched_plain; [reflexivity..|]. apply matched_plain; [reflexivity..|]. destruct ex; plain.
Qed.
Lemma type_matched : forall t, matched (type_tokens t).
Proof.
  fix IH 1. intros [n|t|ts]; cbn [type_tokens app].
  - plain.
  - apply matched_app; [apply IH|]. apply (matched_group (Sym "[") "]" [] []); [reflexivity|constructor|constructor].
  - destruct ts as [|t ts]; [apply (matched_group (Sym "(") ")" [] []); [reflexivity|constructor|constructor]|].
    rewrite <- app_assoc. group; [|constructor]. apply matched_app; [apply IH|]. induction ts as [|t' ts IHts]; cbn [flat_map]; [constructor|].
    apply matched_app; [|exact IHts]. apply matched_plain; [reflexivity..|]. apply IH.
Qed.
Lemma deco_matched d : matched (deco_tokens d).
Proof.
  unfold deco_tokens. cbn [app]. apply matched_plain; [reflexivity..|]. apply matched_plain; [reflexivity..|]. group; plain.
  destruct (d_arg d); cbn [opt]; [apply tokens_matched|constructor].
Qed.
Lemma symbol_matched s : matched (symbol_tokens s).
Proof. destruct s as [v [a|]|[a|]]; cbn; plain. Qed.
Lemma param_matched p : matched (param_tokens p).
Proof. apply matched_plain; [reflexivity..|]. apply type_matched. Qed.
Lemma comma_matched {A} (f : A -> list tokn) s l : opener (Sym s) = None -> closer (Sym s) = false -> (forall x, matched (f x)) -> matched (flat_map (fun x => Sym s :: f x) l).
Proof. intros Ho Hc H. apply matched_flat, Forall_forall. intros x _. apply matched_plain; auto. Qed.
Lemma decl_matched d : matched (decl_tokens d).
Proof.
  assert (Hd : forall ds, matched (flat_map deco_tokens ds)) by (intros ds; apply matched_flat, Forall_forall; intros d' _; apply deco_matched).
  pose proof (proj1 tokens_matched) as Ht. pose proof type_matched as Hy. pose proof symbol_matched as Hs. pose proof param_matched as Hp.
  destruct d; cbn [decl_tokens app]; try (apply matched_app; [apply Hd|]).
  - plain.
  - plain.
  - apply matched_plain; [reflexivity..|]. apply matched_app; [apply Hs|plain].
  - apply matched_plain; [reflexivity..|]. group; [|plain]. apply matched_app; [apply Hs|]. apply comma_matched; auto.
  - apply matched_plain; [reflexivity..|]. apply matched_plain; [reflexivity..|]. apply matched_app; [destruct config; cbn [opt]; [apply matched_plain; auto|constructor]|]. destruct alias; cbn; plain.
  - plain.
  - apply matched_plain; [reflexivity..|]. apply matched_plain; [reflexivity..|]. apply matched_app; [apply Hy|]. apply matched_app; [plain|]. destruct default; cbn [opt]; [apply matched_plain; auto|constructor].
  - apply matched_plain; [reflexivity..|]. apply matched_plain; [reflexivity..|]. apply matched_app; [destruct t as [[t q]|]; cbn [opt fst snd]; [apply matched_app; [apply Hy|plain]|constructor]|]. apply matched_plain; auto.
  - apply matched_plain; [reflexivity..|]. apply matched_plain; [reflexivity..|]. apply matched_app; [apply Hy|]. apply matched_app; [plain|]. apply matched_plain; auto.
  - repeat (apply matched_plain; [reflexivity..|]). apply matched_app; [destruct existing; plain|]. apply matched_plain; auto.
  - repeat (apply matched_plain; [reflexivity..|]). apply Ht.
  - repeat (apply matched_plain; [reflexivity..|]). apply matched_app; [apply Ht|]. apply comma_matched; auto.
  - apply matched_plain; [reflexivity..|]. apply matched_plain; [reflexivity..|]. group; [destruct params as [|p ps]; [constructor|apply matched_app; [apply Hp|apply comma_matched; auto]]|].
    apply matched_app; [apply Hy|]. apply matched_plain; auto.
Qed.
Lemma program_matched p : matched (program_tokens p).
Proof.
  unfold program_tokens. apply matched_flat, Forall_forall. intros [d br|br] _; cbn [line_tokens]; [|plain]. apply matched_app; [apply decl_matched|plain].
Qed.

(** An accepted text is made of tokens with matching brackets; they are those of
    the program whose outline [create_tree] prints. *)
Theorem C43_brackets : forall E fs text fp t o, source fs text fp t -> bicep_create_tree E fs text fp = Ok o ->
  exists p, reads_as E (program_tokens p) t /\ o = outline_text (program_outline p) /\ matched (program_tokens p).
Proof.
  intros E fs text fp t o S H. destruct (C42_accepted E fs text fp t o S H) as (p & _ & R & O & _). exists p. split; [exact R|]. split; [exact O|apply program_matched].
Qed.
Example C43_ex : (exists o, bicep_create_tree env0 ex_fs (Some odd_text) None = Ok o) /\
  matched [Sym "["; Fun (u "f"); Sym ")"; Sym "]"] /\ ~ matched [Sym "["; Fun (u "f"); Sym "]"; Sym ")"].
Proof.
  split; [eexists; vm_compute; reflexivity|]. split; [apply (matched_group _ "]" [_; _] []); [reflexivity|apply (matched_group _ ")" [] []); [reflexivity|constructor|constructor]|constructor]|].
  intros H. repeat match goal with
  | H : matched (_ :: _) |- _ => inversion H; clear H; subst; try discriminate
  | H : opener _ = Some _ |- _ => injection H; clear H; intros; subst
  | H : (?l ++ _)%list = _ |- _ => destruct l; cbn [app] in H; try discriminate; injection H; clear H; intros; subst; try discriminate
  end.
Qed.

Definition reading_theorems := (@C42_accepted, @C42_reported, @C43_brackets).
Print Assumptions reading_theorems.
