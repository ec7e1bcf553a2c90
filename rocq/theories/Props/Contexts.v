(** C40: a value is reported alike wherever it stands. *)
From Coq Require Import List Arith NArith ZArith Bool String Lia.
From Verif Require Import Py.Str Py.Val Lark.Tree Lark.Shape Lark.Terminals Pycep.Main Pycep.Bicep
  Spec.Json Spec.Outcomes Spec.Calls Spec.Text Spec.Program Spec.Reports Spec.Declarations Spec.Sentences Spec.Spelling Spec.Syntax Spec.Meaning
  Proofs.SpellCheck Proofs.Canon Props.Calls Props.Documents Props.Numbering Props.Syntax Props.Meaning.
Import ListNotations.
Local Open Scope string_scope.

(** Where a value stands: the frames around it, the outermost first. *)
Inductive frame := Element | Entry (k : key).
Definition around (f : frame) (ts : list tokn) : list tokn :=
  match f with
  | Element => Sym "[" :: ts ++ [Sym "]"]
  | Entry k => Sym "{" :: key_token k :: Sym ":" :: ts ++ [Sym "}"]
  end.
Definition put (f : frame) (v : pyval) : pyval :=
  match f with Element => PList [v] | Entry k => PDict [(key_text k, v)] end.
Definition framed (f : frame) (e : expr) : expr :=
  match f with Element => EArray [] [(e, [], [])] | Entry k => EObject [] [(Pairs k e false [], [])] end.

Lemma framed_tokens f e : tokens (framed f e) = around f (tokens e).
Proof. destruct f; cbn; rewrite ?app_nil_r; reflexivity. Qed.
Lemma framed_wf f e : value_ok e = true -> same_line e = true -> value_ok (framed f e) = true /\ same_line (framed f e) = true.
Proof.
  unfold value_ok. intros H Hs. apply andb_true_iff in H as [H1 H2]. split; [|destruct f; reflexivity].
  destruct f; cbn; [rewrite Hs|unfold pair_ok]; rewrite ?H1, ?H2; reflexivity.
Qed.
Lemma framed_report E f e r : report E e = Ok r -> report E (framed f e) = Ok (put f r).
Proof.
  intros H. destruct f as [|k]; cbn [framed].
  - cbn. rewrite H. reflexivity.
  - rewrite report_object. cbn [collect fst]. rewrite report_pairs, H. reflexivity.
Qed.

(** An expression is reported inside any number of arrays and objects as it is
    on its own. *)
Theorem C40_same_report : forall E fs n C e r text fp t, value_ok e = true -> same_line e = true -> report E e = Ok r ->
  source fs text fp t -> spells E None ([Kw "var"; Name n; Sym "="] ++ fold_right around (tokens e) C) t -> balanced t ->
  bicep_parse E fs false text fp =
    Ok (document [default_scope false; entry_of "variables" n [(u "decorators", PList []); (u "value", fold_right put r C)]]).
Proof.
  intros E fs n C e r text fp t W L R S Wr B.
  assert (H : tokens (fold_right framed e C) = fold_right around (tokens e) C /\
    (value_ok (fold_right framed e C) = true /\ same_line (fold_right framed e C) = true) /\
    report E (fold_right framed e C) = Ok (fold_right put r C)).
  { clear Wr. induction C as [|f C (H1 & (H2 & H3) & H4)]; [auto|]. cbn [fold_right]. rewrite framed_tokens, H1.
    split; [reflexivity|]. split; [apply framed_wf; assumption|]. apply framed_report. exact H4. }
  destruct H as (H1 & (H2 & _) & H4). rewrite <- H1 in Wr. apply (variable_report E fs n (fold_right framed e C) _ text fp t); assumption.
Qed.
Definition framed0 : str := u "var x = {k: [{'q r': a ? b : c }]}".
Example C40_ex : let e := ECond (ERef (u "a")) (ERef (u "b")) (ERef (u "c")) in let C := [Entry (KName (u "k")); Element; Entry (KQuoted (u "q r"))] in
  value_ok e = true /\ same_line e = true /\ (exists r, report env0 e = Ok r) /\
  spells env0 None ([Kw "var"; Name (u "x"); Sym "="] ++ fold_right around (tokens e) C) framed0.
Proof.
  split; [reflexivity|]. split; [reflexivity|]. split; [eexists; reflexivity|]. apply spell_check_sound. vm_compute. reflexivity.
Qed.

(** Texts are another matter.  A text that is read as a value of a variable need
    not be one as the value of an entry ... *)
Definition as_variable (s : str) : str := (u "var a = " ++ s)%list.
Definition as_entry (s : str) : str := (u "var a = { k: " ++ s ++ u " }")%list.
Theorem C40_accepted_text_refuted : exists s v,
  bicep_parse env0 ex_fs false (Some (as_variable s)) None = Ok v /\
  bicep_parse env0 ex_fs false (Some (as_entry s)) None = Err EUnexpectedToken.
Proof. exists (u "c ? '${f('x')}' : 'y'"). eexists. split; vm_compute; reflexivity. Qed.
(** ... and even where it is accepted, it may be read as something else, without
    an error. *)
Definition value_of (v : pyval) : option pyval :=
  match lookup (u "variables") (u "a") v with Some (PDict d) => aget (u "value") d | _ => None end.
Theorem C40_same_text_refuted : exists s v w x y,
  bicep_parse env0 ex_fs false (Some (as_variable s)) None = Ok v /\ value_of v = Some x /\
  bicep_parse env0 ex_fs false (Some (as_entry s)) None = Ok w /\ value_of w = Some y /\
  y <> PDict [(u "k", x)] /\ y = PDict [(u "k", PElem (u "a")); (u "b", PElem (u "c"))].
Proof.
  exists (u ("a ?" ++ nl ++ " b : c")). do 4 eexists. split; [vm_compute; reflexivity|]. split; [vm_compute; reflexivity|].
  split; [vm_compute; reflexivity|]. split; [vm_compute; reflexivity|]. split; [intros H; discriminate H|vm_compute; reflexivity].
Qed.

Definition contexts_theorems := (@C40_same_report, @C40_accepted_text_refuted, @C40_same_text_refuted).
Print Assumptions contexts_theorems.
