(** C20, C21, C32 and the reports of operators: decorators, loops, conditions. *)
From Coq Require Import List Arith NArith ZArith Bool String Lia.
From Verif Require Import Py.Str Py.Val Lark.Tree Lark.Shape Lark.Terminals
  Pycep.Utils Pycep.Decorators Pycep.Transformer Pycep.Main Pycep.Bicep
  Spec.Json Spec.Schema Spec.Outcomes Spec.Calls Spec.Text Spec.Trees Spec.Lexemes Spec.Program Spec.Reports Spec.Children Spec.Declarations
  Spec.Parts Spec.Values Spec.Functions
  Proofs.Base Proofs.Grammar Proofs.JsonLemmas Proofs.TokenForms Proofs.TreeGrammar Proofs.Transform Proofs.State Proofs.Tokens Proofs.EndToEnd Proofs.Quiet Proofs.Program
  Proofs.Children Proofs.Elements Proofs.Documents Proofs.Parts Proofs.Values Proofs.Functions Props.Calls Props.Documents Props.Values Props.Functions.
Import ListNotations.
Local Open Scope string_scope.
Arguments u : simpl never.

(** ** C20 *)
(** Plain decorators. *)
Definition plainly (ty : str) (k : takes) (args : list pyval) (r : result pyval) : Prop :=
  match k with
  | NoArgument => r = Ok (flag ty)
  | AnArgument => match args with a :: _ => r = Ok (marked ty a) | [] => r = Err (EVisitError (u "decorator") EIndexError) end
  | LowerBound | UpperBound => args = [] -> r = Err (EVisitError (u "decorator") EIndexError)
  end.
Theorem C20_known : forall E ln text m k vs ws n ty t, part_of E text (TNode L_decorator m (TTok k :: vs)) ->
  In (n, (ty, t)) decorators_known -> tval k = u n \/ tval k = (u "sys." ++ u n)%list ->
  all_ok (transform E ln) vs = Ok ws ->
  List.length ws <= 1 /\ plainly (u ty) t ws (transform E ln (TNode L_decorator m (TTok k :: vs))).
Proof.
  intros E ln text m k vs ws n ty t H Hin Hk Hw.
  pose proof (part_shape E text _ _ _ H) as Hs. cbn [node_shape] in Hs. destruct Hs as (k' & vs' & [= <- <-] & _ & _ & Hl).
  split; [apply all_ok_length in Hw; lia|]. part H. cbn [all_ok]. rewrite transform_tok, Hw. cbn [bind]. unfold callv. cbn [call pure]. unfold cb_decorator. cbn [py_str].
  unfold decorators_known in Hin. cbn [In] in Hin.
  repeat destruct Hin as [[= <- <- <-]|Hin]; try contradiction; destruct Hk as [->| ->]; unfold plainly; destruct ws as [|w ws]; try reflexivity; intros Hx; (reflexivity || discriminate Hx).
Qed.
(** Decorators of any other name keep it, and their argument. *)
Theorem C20_unknown : forall E ln text m k vs ws, part_of E text (TNode L_decorator m (TTok k :: vs)) ->
  (forall n x, In (n, x) decorators_known -> tval k <> u n /\ tval k <> (u "sys." ++ u n)%list) ->
  all_ok (transform E ln) vs = Ok ws ->
  transform E ln (TNode L_decorator m (TTok k :: vs)) = Ok (match ws with [] => flag (tval k) | w :: _ => marked (tval k) w end).
Proof.
  intros E ln text m k vs ws H Hn Hw. part H. cbn [all_ok]. rewrite transform_tok, Hw. cbn [bind]. unfold callv. cbn [call pure]. unfold cb_decorator. cbn [py_str].
  assert (Ha : aget (tval k) (DECORATORS E) = None).
  { apply aget_None. change (map fst (DECORATORS E)) with (flat_map (fun x => [u (fst x); (u "sys." ++ u (fst x))%list]) decorators_known).
    intros Hin. apply in_flat_map in Hin as ([n x] & Hin & Hk). destruct (Hn n x Hin) as [H1 H2]. cbn [fst In] in Hk. intuition congruence. }
  rewrite Ha. unfold unknown_deco. destruct ws; reflexivity.
Qed.
(** All of them, in source order. *)
Theorem C20_in_order : forall E ln text m ds, part_of E text (TNode L_decorators m ds) ->
  transform E ln (TNode L_decorators m ds) =
    match all_ok (transform E ln) ds with Ok vs => Ok (PList vs) | Err e => Err e end /\
  ds <> [] /\ forall d, In d ds -> exists md k vs, d = TNode L_decorator md (TTok k :: vs).
Proof.
  intros E ln text m ds H. split; [|split].
  - part H. destruct (all_ok _ ds) as [vs|e]; reflexivity.
  - apply part_shape in H as [_ H]. exact H.
  - intros d Hd. pose proof (part_child E text _ _ _ d H Hd) as Hp. apply part_shape in H as [H _]. apply TreeGrammar.oks_Forall in H.
    rewrite Forall_forall in H. specialize (H d Hd). inversion H; subst; match goal with H : ok E (sTok _) _ |- _ => apply tok_inv in H as (? & -> & _) end; do 3 eexists; reflexivity.
Qed.
Definition deco_text : str := u ("@secure()" ++ nl ++ "@sys.minValue(-3)" ++ nl ++ "@az(1)" ++ nl ++ "@maxValue(7)" ++ nl ++ "@description('d')" ++ nl ++ "param p int").
Example C20_ex : exists m ds, part_of env0 deco_text (TNode L_decorators m ds) /\ List.length ds = 5 /\
  transform env0 false (TNode L_decorators m ds) = Ok (PList [flag (u "secure"); marked (u "min_value") (PInt (-3)); marked (u "az") (PInt 1);
    marked (u "max_value") (PInt 7); marked (u "description") (PStr (u "d"))]).
Proof. do 2 eexists. split; [found 0|]. split; vm_compute; reflexivity. Qed.

(** ** C21 *)
Definition minus_report (v : pyval) : pyval :=
  PDict [(u "operator", PDict [(u "type", PStr (u "minus")); (u "operands", PDict [(u "integer_value", v)])])].
(** What a minus sign in front of a value is reported as. *)
Theorem C21_minus : forall E ln text m m' x v, part_of E text (TNode L_operator m [TNode L_minus m' [x]]) ->
  transform E ln x = Ok v -> transform E ln (TNode L_operator m [TNode L_minus m' [x]]) = Ok (minus_report v).
Proof.
  intros E ln text m m' x v H Hx. pose proof (part_child E text _ _ _ _ H (or_introl eq_refl)) as H'.
  assert (Hm : transform E ln (TNode L_minus m' [x]) = Ok (PDict [(u "type", PStr (u "minus")); (u "operands", PDict [(u "integer_value", v)])])).
  { part H'. cbn [all_ok]. rewrite Hx. reflexivity. }
  part H. cbn [all_ok]. rewrite Hm. reflexivity.
Qed.
Definition minValue (k : token) : Prop := tval k = u "minValue" \/ tval k = u "sys.minValue".
Definition maxValue (k : token) : Prop := tval k = u "maxValue" \/ tval k = u "sys.maxValue".
Theorem C21_bounds : forall E ln text m k x v z, part_of E text (TNode L_decorator m [TTok k; x]) -> transform E ln x = Ok v ->
  (minValue k -> v = PInt z -> transform E ln (TNode L_decorator m [TTok k; x]) = Ok (marked (u "min_value") (PInt z))) /\
  (minValue k -> v = minus_report (PInt z) -> transform E ln (TNode L_decorator m [TTok k; x]) = Ok (marked (u "min_value") (PInt (- z)))) /\
  (maxValue k -> v = PInt z -> transform E ln (TNode L_decorator m [TTok k; x]) = Ok (marked (u "max_value") (PInt z))) /\
  (maxValue k -> v = minus_report (PInt z) -> transform E ln (TNode L_decorator m [TTok k; x]) = Err (EVisitError (u "decorator") (ETypeError []))).
Proof.
  intros E ln text m k x v z H Hx.
  assert (Ht : transform E ln (TNode L_decorator m [TTok k; x]) = wrap L_decorator (cb_decorator E [PTok k; v])).
  { part H. cbn [all_ok]. rewrite transform_tok, Hx. cbn [bind]. unfold callv. cbn [call pure]. destruct (cb_decorator E [PTok k; v]); reflexivity. }
  rewrite Ht. unfold cb_decorator. cbn [py_str].
  split; [|split; [|split]]; intros [Hk|Hk] ->; rewrite Hk; reflexivity.
Qed.
(** The same for the integers as they are written. *)
Theorem C21_literals : forall E ln text m k mi ki n, part_of E text (TNode L_decorator m [TTok k; TNode L_int_type mi [TTok ki]]) ->
  denotes (tval ki) n -> (List.length (tval ki) <= digit_limit)%nat ->
  (minValue k -> transform E ln (TNode L_decorator m [TTok k; TNode L_int_type mi [TTok ki]]) = Ok (marked (u "min_value") (PInt (Z.of_N n)))) /\
  (maxValue k -> transform E ln (TNode L_decorator m [TTok k; TNode L_int_type mi [TTok ki]]) = Ok (marked (u "max_value") (PInt (Z.of_N n)))).
Proof.
  intros E ln text m k mi ki n H Hd Hl. pose proof (part_child E text _ _ _ _ H (or_intror (or_introl eq_refl))) as Hi.
  destruct (C28_integers E ln text mi ki Hi) as (_ & _ & n' & Hd' & Hr). assert (n' = n) as -> by (eapply denotes_unique; eassumption). apply Nat.leb_le in Hl. rewrite Hl in Hr.
  destruct (C21_bounds E ln text m k _ _ (Z.of_N n) H Hr) as (H1 & _ & H3 & _). auto.
Qed.
Theorem C21_negative_literals : forall E ln text m k mo mm mi ki n,
  part_of E text (TNode L_decorator m [TTok k; TNode L_operator mo [TNode L_minus mm [TNode L_int_type mi [TTok ki]]]]) ->
  denotes (tval ki) n -> (List.length (tval ki) <= digit_limit)%nat ->
  (minValue k -> transform E ln (TNode L_decorator m [TTok k; TNode L_operator mo [TNode L_minus mm [TNode L_int_type mi [TTok ki]]]]) =
     Ok (marked (u "min_value") (PInt (- Z.of_N n)))) /\
  (maxValue k -> transform E ln (TNode L_decorator m [TTok k; TNode L_operator mo [TNode L_minus mm [TNode L_int_type mi [TTok ki]]]]) =
     Err (EVisitError (u "decorator") (ETypeError []))).
Proof.
  intros E ln text m k mo mm mi ki n H Hd Hl. pose proof (part_child E text _ _ _ _ H (or_intror (or_introl eq_refl))) as Ho.
  pose proof (part_child E text _ _ _ _ Ho (or_introl eq_refl)) as Hm. pose proof (part_child E text _ _ _ _ Hm (or_introl eq_refl)) as Hi.
  destruct (C28_integers E ln text mi ki Hi) as (_ & _ & n' & Hd' & Hr). assert (n' = n) as -> by (eapply denotes_unique; eassumption). apply Nat.leb_le in Hl. rewrite Hl in Hr.
  pose proof (C21_minus E ln text _ _ _ _ Ho Hr) as Hmr.
  destruct (C21_bounds E ln text m k _ _ (Z.of_N n) H Hmr) as (_ & H2 & _ & H4). auto.
Qed.
Example C21_ex : (exists m k mi ki, part_of env0 deco_text (TNode L_decorator m [TTok k; TNode L_int_type mi [TTok ki]]) /\ maxValue k) /\
  (exists m k mo mm mi ki, part_of env0 deco_text (TNode L_decorator m [TTok k; TNode L_operator mo [TNode L_minus mm [TNode L_int_type mi [TTok ki]]]]) /\ minValue k).
Proof.
  split.
  - do 4 eexists. split; [found 3|]. left. vm_compute. reflexivity.
  - do 6 eexists. split; [found 1|]. right. vm_compute. reflexivity.
Qed.

(** ** C32 *)
(** Where a loop takes its items from. *)
Theorem C32_sources : forall E ln text m k i x v,
  (part_of E text (TNode L_loop_array m [TTok k; x]) -> transform E ln x = Ok v ->
     transform E ln (TNode L_loop_array m [TTok k; x]) =
       Ok (source_report "array" [(u "item_name", PStr (tval k)); (u "array_name", v)])) /\
  (part_of E text (TNode L_loop_array_index m [TTok k; TTok i; x]) -> transform E ln x = Ok v ->
     transform E ln (TNode L_loop_array_index m [TTok k; TTok i; x]) =
       Ok (source_report "array_index" [(u "item_name", PStr (tval k)); (u "index_name", PStr (tval i)); (u "array_name", v)])) /\
  (part_of E text (TNode L_loop_object m [TTok k; x]) -> transform E ln x = Ok v ->
     transform E ln (TNode L_loop_object m [TTok k; x]) =
       Ok (source_report "object" [(u "item_name", PStr (tval k)); (u "object_name", PStr (py_str E v))])).
Proof.
  intros E ln text m k i x v. split; [|split]; intros H Hx; part H; cbn [all_ok]; rewrite ?transform_tok, Hx; reflexivity.
Qed.
(** Every loop has one of these sources, perhaps a condition, and a body. *)
Theorem C32_shape : forall E text m cs, part_of E text (TNode L_loop m cs) -> exists l ml ks x c b,
  cs = [TNode l ml (map TTok ks ++ [x])%list; c; b] /\
  (l = L_loop_array /\ List.length ks = 1 \/ l = L_loop_array_index /\ List.length ks = 2 \/ l = L_loop_object /\ List.length ks = 1).
Proof.
  intros E text m cs H. pose proof (part_shape E text _ _ _ H) as Hs. cbn [node_shape] in Hs. destruct Hs as (a & c & v & -> & Ha & _).
  inversion Ha; subst; repeat match goal with Hx : ok E (sTok _) ?t |- _ => is_var t; apply tok_inv in Hx as (? & -> & Hx) end.
  - eexists _, _, [_], _, c, v. split; [reflexivity|]. auto.
  - eexists _, _, [_; _], _, c, v. split; [reflexivity|]. auto.
  - eexists _, _, [_], _, c, v. split; [reflexivity|]. auto.
Qed.
Theorem C32_no_condition : forall E ln text m a b va vb, part_of E text (TNode L_loop m [a; TNone; b]) ->
  transform E ln a = Ok va -> transform E ln b = Ok vb ->
  transform E ln (TNode L_loop m [a; TNone; b]) = Ok (loop_report va PNone vb).
Proof. intros E ln text m a b va vb H Ha Hb. part H. cbn [all_ok]. rewrite transform_none, Ha, Hb. reflexivity. Qed.
Lemma loop_node E ln text m a c b va vc vb : part_of E text (TNode L_loop m [a; c; b]) ->
  transform E ln a = Ok va -> transform E ln c = Ok vc -> transform E ln b = Ok vb ->
  transform E ln (TNode L_loop m [a; c; b]) = wrap L_loop (cb_loop [va; vc; vb]).
Proof.
  intros H Ha Hc Hb. part H. cbn [all_ok]. rewrite Ha, Hc, Hb. cbn [bind]. unfold callv. cbn [call pure].
  destruct (cb_loop [va; vc; vb]); reflexivity.
Qed.
(** if(x): the condition is x. *)
Theorem C32_if : forall E ln text m a mf k xs b va vb args, part_of E text (TNode L_loop m [a; TNode L_function mf (TTok k :: xs); b]) ->
  tval k = u "if(" -> transform E ln a = Ok va -> transform E ln b = Ok vb -> all_ok (transform E ln) xs = Ok args ->
  transform E ln (TNode L_loop m [a; TNode L_function mf (TTok k :: xs); b]) =
    match args with
    | x :: _ => Ok (loop_report va x vb)
    | [] => Err (EVisitError (u "loop") EKeyError)
    end.
Proof.
  intros E ln text m a mf k xs b va vb args H Hk Ha Hb Hx.
  pose proof (part_child E text _ _ _ _ H (or_intror (or_introl eq_refl))) as Hf.
  destruct (C22_calls E ln text mf _ Hf) as (k' & ns & n & vs & [= <- <-] & _ & Hv & _ & _ & Hc). specialize (Hc args Hx).
  assert (Hn : (ns ++ n)%list = u "if").
  { rewrite Hk, app_assoc in Hv. change (u "if(") with (u "if" ++ u "(")%list in Hv. apply app_inv_tail in Hv. congruence. }
  rewrite Hn in Hc. change (call_report (u "if") args) with
    (@Ok pyval (PDict [(u "function", PDict [(u "type", PStr (u "if")); (u "parameters", PDict (listed "arg_" 1 args))])])) in Hc.
  rewrite (loop_node E ln text m a _ b va _ vb H Ha Hc Hb). destruct args as [|x args]; reflexivity.
Qed.
(** Any other call, operator, literal, ... is its own condition. *)
Definition plain_condition (v : pyval) : Prop :=
  match v with PDict d => aget (u "function") d = None | _ => True end.
Lemma cb_loop_plain va vc vb : plain_condition vc -> cb_loop [va; vc; vb] = Ok (loop_report va vc vb).
Proof. intros H. destruct vc; try reflexivity. cbn [plain_condition] in H. unfold cb_loop. cbn [py_get]. rewrite H. reflexivity. Qed.
Theorem C32_other_condition : forall E ln text m a c b va vc vb, part_of E text (TNode L_loop m [a; c; b]) ->
  transform E ln a = Ok va -> transform E ln c = Ok vc -> transform E ln b = Ok vb ->
  plain_condition vc \/ (exists mf k xs, c = TNode L_function mf (TTok k :: xs) /\ tval k <> u "if(") ->
  transform E ln (TNode L_loop m [a; c; b]) = Ok (loop_report va vc vb).
Proof.
  intros E ln text m a c b va vc vb H Ha Hc Hb Hp. rewrite (loop_node E ln text m a c b va vc vb H Ha Hc Hb).
  destruct Hp as [Hp|(mf & k & xs & -> & Hk)]; [rewrite (cb_loop_plain va vc vb Hp); reflexivity|].
  pose proof (part_child E text _ _ _ _ H (or_intror (or_introl eq_refl))) as Hf.
  destruct (C22_calls E ln text mf _ Hf) as (k' & ns & n & vs & [= <- <-] & _ & Hv & _ & _ & Hr).
  assert (Hx : exists args, all_ok (transform E ln) xs = Ok args).
  { rewrite (part_node E ln text _ _ _ Hf ltac:(discriminate)) in Hc. cbn [all_ok] in Hc. rewrite transform_tok in Hc.
    destruct (all_ok (transform E ln) xs) as [args|e]; [eauto|discriminate]. }
  destruct Hx as (args & Hx). rewrite (Hr args Hx) in Hc. unfold call_report in Hc.
  assert (Hty : exists ty rest, vc = PDict [(u "function", PDict ((u "type", PStr ty) :: rest))] /\ ty <> u "if").
  { destruct (known (ns ++ n)%list) as [bu|] eqn:Hkn.
    - destruct (parameters_of (b_sig bu) args) as [ps|e]; [|discriminate]. injection Hc as <-.
      assert (Hb' : u (b_type bu) <> u "if").
      { apply find_some in Hkn as [Hin _]. revert Hin. clear. unfold builtins. cbn [In]. intros Hin.
        repeat destruct Hin as [<-|Hin]; try contradiction; discriminate. }
      unfold Spec.Functions.body. destruct (b_sig bu); eexists; eexists; (split; [reflexivity|exact Hb']).
    - injection Hc as <-. eexists; eexists; split; [reflexivity|]. intros He. apply Hk. rewrite Hv, app_assoc, He. reflexivity. }
  destruct Hty as (ty & rest & -> & Hty). unfold cb_loop. cbn [py_get aget].
  change (str_eqb (u "function") (u "function")) with true. cbn iota. cbn [bind py_get aget].
  change (str_eqb (u "type") (u "type")) with true. cbn iota. cbn [bind]. unfold eq_lit. cbn [str_text].
  apply str_eqb_neq in Hty. rewrite Hty. reflexivity.
Qed.
Theorem C32_deploy_condition : forall E ln text m c b vc vb, part_of E text (TNode L_deploy_condition m [c; b]) ->
  transform E ln c = Ok vc -> transform E ln b = Ok vb ->
  transform E ln (TNode L_deploy_condition m [c; b]) = Ok (PDict [(u "condition", vc); (u "config", vb)]).
Proof. intros E ln text m c b vc vb H Hc Hb. part H. cbn [all_ok]. rewrite Hc, Hb. reflexivity. Qed.
Definition loops_text : str := u ("var a = [for x in l: if(x > 1) {}]" ++ nl ++ "var b = [for (x, i) in l: x]" ++ nl ++ "resource r 'a@b' = if (c) {}" ++ nl ++ "var d = [for x in l: if() x]").
Example C32_ex : (exists m a mf k xs b va vb args, part_of env0 loops_text (TNode L_loop m [a; TNode L_function mf (TTok k :: xs); b]) /\
    tval k = u "if(" /\ transform env0 false a = Ok va /\ transform env0 false b = Ok vb /\ all_ok (transform env0 false) xs = Ok args /\ List.length args = 1) /\
  (exists m a b va vb, part_of env0 loops_text (TNode L_loop m [a; TNone; b]) /\ transform env0 false a = Ok va /\ transform env0 false b = Ok vb) /\
  (exists m c b vc vb, part_of env0 loops_text (TNode L_deploy_condition m [c; b]) /\ transform env0 false c = Ok vc /\ transform env0 false b = Ok vb) /\
  (exists m a mf k b va vb, part_of env0 loops_text (TNode L_loop m [a; TNode L_function mf [TTok k]; b]) /\
    tval k = u "if(" /\ transform env0 false a = Ok va /\ transform env0 false b = Ok vb).
Proof.
  split; [|split; [|split]].
  - do 9 eexists. split; [found 0|]. repeat split; vm_compute; reflexivity.
  - do 5 eexists. split; [found 1|]. repeat split; vm_compute; reflexivity.
  - do 5 eexists. split; [found 0|]. repeat split; vm_compute; reflexivity.
  - do 7 eexists. split; [found 2|]. repeat split; vm_compute; reflexivity.
Qed.

(** ** C26, the part about trees: operators are reported with their operands in order *)
Definition binary_operators : list (label * string) :=
  [(L_greater_than_or_equals, "greater_than_or_equals"); (L_greater_than, "greater_than"); (L_less_than_or_equals, "less_than_or_equals");
   (L_less_than, "less_than"); (L_equals, "equals"); (L_not_equals, "not_equals"); (L_equals_case_insens, "equals_case_insensitive");
   (L_not_equals_case_insens, "not_equals_case_insensitive"); (L_and_op, "and"); (L_or_op, "or"); (L_coalesce, "coalesce");
   (L_add, "add"); (L_divide, "divide"); (L_modulo, "modulo"); (L_multiply, "multiply"); (L_substract, "substract");
   (L_index_accessor, "index_accessor"); (L_nested_resource_accessor, "nested_resource_accessor"); (L_property_accessor, "property_accessor")].
Theorem C26_binary : forall E ln text m mo l ty a b va vb, part_of E text (TNode L_operator mo [TNode l m [a; b]]) -> In (l, ty) binary_operators ->
  transform E ln a = Ok va -> transform E ln b = Ok vb ->
  transform E ln (TNode L_operator mo [TNode l m [a; b]]) = Ok (operation (op_report ty [(u "operand_1", va); (u "operand_2", vb)])).
Proof.
  intros E ln text m mo l ty a b va vb H Hl Ha Hb. pose proof (part_child E text _ _ _ _ H (or_introl eq_refl)) as H'.
  assert (Hi : transform E ln (TNode l m [a; b]) = Ok (op_report ty [(u "operand_1", va); (u "operand_2", vb)])).
  { rewrite (part_node E ln text _ _ _ H'); [|intros ->; unfold binary_operators in Hl; cbn [In] in Hl; repeat destruct Hl as [Hl|Hl]; try discriminate; contradiction].
    cbn [all_ok]. rewrite Ha, Hb. unfold binary_operators in Hl; cbn [In] in Hl. repeat destruct Hl as [[= <- <-]|Hl]; try contradiction; reflexivity. }
  part H. cbn [all_ok]. rewrite Hi. reflexivity.
Qed.
Theorem C26_unary : forall E ln text m mo a va,
  transform E ln a = Ok va ->
  (part_of E text (TNode L_operator mo [TNode L_not_op m [a]]) ->
     transform E ln (TNode L_operator mo [TNode L_not_op m [a]]) = Ok (operation (op_report "not" [(u "bool_value", va)]))) /\
  (part_of E text (TNode L_operator mo [TNode L_minus m [a]]) ->
     transform E ln (TNode L_operator mo [TNode L_minus m [a]]) = Ok (operation (op_report "minus" [(u "integer_value", va)]))).
Proof.
  intros E ln text m mo a va Ha. split; intros H; pose proof (part_child E text _ _ _ _ H (or_introl eq_refl)) as H';
    [assert (Hi : transform E ln (TNode L_not_op m [a]) = Ok (op_report "not" [(u "bool_value", va)]))
    |assert (Hi : transform E ln (TNode L_minus m [a]) = Ok (op_report "minus" [(u "integer_value", va)]))];
    try (part H'; cbn [all_ok]; rewrite Ha; reflexivity); part H; cbn [all_ok]; rewrite Hi; reflexivity.
Qed.
Theorem C26_conditional : forall E ln text m mo c a b vc va vb, part_of E text (TNode L_operator mo [TNode L_conditional m [c; a; b]]) ->
  transform E ln c = Ok vc -> transform E ln a = Ok va -> transform E ln b = Ok vb ->
  transform E ln (TNode L_operator mo [TNode L_conditional m [c; a; b]]) =
    Ok (operation (op_report "conditional" [(u "condition", vc); (u "true_value", va); (u "false_value", vb)])).
Proof.
  intros E ln text m mo c a b vc va vb H Hc Ha Hb. pose proof (part_child E text _ _ _ _ H (or_introl eq_refl)) as H'.
  assert (Hi : transform E ln (TNode L_conditional m [c; a; b]) = Ok (op_report "conditional" [(u "condition", vc); (u "true_value", va); (u "false_value", vb)]))
    by (part H'; cbn [all_ok]; rewrite Hc, Ha, Hb; reflexivity).
  part H. cbn [all_ok]. rewrite Hi. reflexivity.
Qed.
(** Every operator in a tree is one of these (or a function accessor, C34). *)
Theorem C26_operators : forall E text m cs, part_of E text (TNode L_operator m cs) -> exists l mo os, cs = [TNode l mo os] /\
  ((exists ty, In (l, ty) binary_operators) /\ List.length os = 2 \/ (l = L_not_op \/ l = L_minus) /\ List.length os = 1 \/
   l = L_conditional /\ List.length os = 3 \/ l = L_function_accessor).
Proof.
  intros E text m cs H. pose proof (part_shape E text _ _ _ H) as Hs. cbn [node_shape] in Hs. destruct Hs as (a & -> & Ha).
  pose proof (part_child E text _ _ _ _ H (or_introl eq_refl)) as H'.
  inversion Ha; subst; (eexists; eexists; eexists; split; [reflexivity|]); auto 10.
  - left. split; [|reflexivity]. match goal with Hl : binary_label ?l = true |- _ => destruct l; try discriminate Hl end; eexists; unfold binary_operators; cbn [In]; intuition reflexivity.
  - right; left. split; [|reflexivity]. match goal with Hl : unary_label ?l = true |- _ => destruct l; try discriminate Hl end; auto.
Qed.
Example C26_ex : exists m mo l a b va vb, part_of env0 loops_text (TNode L_operator mo [TNode l m [a; b]]) /\ In (l, "greater_than") binary_operators /\
  transform env0 false a = Ok va /\ transform env0 false b = Ok vb.
Proof. do 7 eexists. split; [found 0|]. split; [right; left; reflexivity|]. split; vm_compute; reflexivity. Qed.

(** All theorems of this file at once (the walk over the proofs is slow). *)
Definition constructs_theorems := (@C20_known,
  @C20_unknown,
  @C20_in_order,
  @C21_minus,
  @C21_bounds,
  @C21_literals,
  @C21_negative_literals,
  @C32_sources,
  @C32_shape,
  @C32_no_condition,
  @C32_if,
  @C32_other_condition,
  @C32_deploy_condition,
  @C26_binary,
  @C26_unary,
  @C26_conditional,
  @C26_operators).
Print Assumptions constructs_theorems.
