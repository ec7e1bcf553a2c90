(** C27-C30, C34, C38: literals, references, arrays, objects, accessors, lambdas;
    reports are compositional. *)
From Coq Require Import List Arith NArith ZArith Bool String Lia.
From Verif Require Import Py.Str Py.Val Lark.Tree Lark.Shape Lark.Terminals
  Pycep.Utils Pycep.Transformer Pycep.Main Pycep.Bicep
  Spec.Json Spec.Schema Spec.Outcomes Spec.Calls Spec.Text Spec.Trees Spec.Lexemes Spec.Program Spec.Reports Spec.Children Spec.Declarations
  Spec.Parts Spec.Values
  Proofs.Base Proofs.Grammar Proofs.JsonLemmas Proofs.TokenForms Proofs.TreeGrammar Proofs.Transform Proofs.State Proofs.Tokens Proofs.EndToEnd Proofs.Quiet Proofs.Program
  Proofs.Children Proofs.Elements Proofs.Documents Proofs.Parts Proofs.Values Props.Calls Props.Documents.
Import ListNotations.
Local Open Scope string_scope.

Ltac part H := rewrite (part_node _ _ _ _ _ _ H ltac:(discriminate)).
(** The tokens of a part are literally in the text. *)
Lemma part_token E text x k : part_of E text x -> In k (toks x) -> contains (tval k) text.
Proof.
  intros (tree & Hp & Hw) Hk. assert (Hin : In k (toks tree)).
  { clear Hp. induction Hw as [|l m cs c Hc Hw IH]; [exact Hk|]. cbn [toks]. apply in_flat_map. exists c. split; [exact Hc|exact IH]. }
  destruct (lark_parse_tok_in E text tree k Hp Hin) as (a & b & H & _). exists a, b. exact H.
Qed.
Ltac tokens := cbn [all_ok]; rewrite ?transform_tok; cbn [bind].
Lemma qtype k E : tk E "QUOTED_INTERPOLATION" k -> str_eqb (ttype k) (u "MULTI_LINE_STRING") = false /\
  str_eqb (ttype k) (u "QUOTED_STRING") || str_eqb (ttype k) (u "QUOTED_INTERPOLATION") = true.
Proof. intros [-> _]. split; reflexivity. Qed.

(** ** C27 *)
Theorem C27_strings : forall E ln text m k, part_of E text (TNode L_string m [TTok k]) ->
  contains (tval k) text /\
  ((exists b, tval k = quote b /\ transform E ln (TNode L_string m [TTok k]) = Ok (PStr b)) \/
   (ident E (tval k) /\ transform E ln (TNode L_string m [TTok k]) = Ok (PElem (tval k)))).
Proof.
  intros E ln text m k H. split; [exact (part_token E text _ k H (or_introl eq_refl))|].
  pose proof (part_shape E text _ _ _ H) as Hs. cbn [node_shape] in Hs.
  destruct Hs as (k' & [= <-] & Hk). part H. tokens.
  destruct Hk as [[Ht Hk]|[Ht Hk]]; unfold callv; cbn [call arg_at nth_error cb_string bind pure transform_string_token]; rewrite Ht.
  - right. split; [exact (tok_string E _ Hk)|reflexivity].
  - left. destruct (tok_quoted E _ Hk) as (b & Hb). exists b. split; [exact Hb|]. rewrite Hb, slice_quote. reflexivity.
Qed.
(** Every string part has one token, and the report determines it. *)
Theorem C27_one_token : forall E text m cs, part_of E text (TNode L_string m cs) -> exists k, cs = [TTok k].
Proof. intros E text m cs H. apply part_shape in H as (k & -> & _). eauto. Qed.
Lemma ident_not_quote E b : ~ ident E (quote b).
Proof. intros (c & s' & H & Hc & _). injection H as <- _. discriminate Hc. Qed.
Theorem C27_report_determines_token : forall E ln text text' m m' k k',
  part_of E text (TNode L_string m [TTok k]) -> part_of E text' (TNode L_string m' [TTok k']) ->
  transform E ln (TNode L_string m [TTok k]) = transform E ln (TNode L_string m' [TTok k']) -> tval k = tval k'.
Proof.
  intros E ln text text' m m' k k' H H' He.
  destruct (C27_strings E ln text m k H) as [_ [(b & Hb & Hr)|[Hi Hr]]], (C27_strings E ln text' m' k' H') as [_ [(b' & Hb' & Hr')|[Hi' Hr']]];
    rewrite Hr, Hr' in He; injection He as He; congruence.
Qed.
Definition values_text : str := u ("var a = 'x${b}y'" ++ nl ++ "var b = c" ++ nl ++ "var d = [007, '', true, null]" ++ nl
  ++ "var e = { 'k': 1, r: { }, 'k': 2 }" ++ nl ++ "var f = '''" ++ nl ++ "raw" ++ nl ++ "'''" ++ nl ++ "var g = p.getSecret(0, 'x')" ++ nl ++ "var h = map(l, i => i)").
Ltac found n := match goal with |- part_of ?E ?t (TNode ?l _ _) => apply (part_found E t l n); vm_compute; reflexivity end.
Example C27_ex : (exists m k, part_of env0 values_text (TNode L_string m [TTok k]) /\ tval k = quote (u "x${b}y")) /\
  (exists m k, part_of env0 values_text (TNode L_string m [TTok k]) /\ tval k = u "c").
Proof. split; do 2 eexists; split; [found 0|vm_compute; reflexivity|found 1|vm_compute; reflexivity]. Qed.

(** ** C28 *)
Theorem C28_integers : forall E ln text m k, part_of E text (TNode L_int_type m [TTok k]) ->
  contains (tval k) text /\ digits (tval k) /\ exists n, denotes (tval k) n /\
  transform E ln (TNode L_int_type m [TTok k]) =
    if Nat.leb (List.length (tval k)) digit_limit then Ok (PInt (Z.of_N n))
    else Err (EVisitError (u "int_type") (EValueError [])).
Proof.
  intros E ln text m k H. split; [exact (part_token E text _ k H (or_introl eq_refl))|].
  pose proof (part_shape E text _ _ _ H) as Hs. cbn [node_shape] in Hs.
  destruct Hs as (k' & [= <-] & [Ht Hk]). pose proof (tok_int E _ Hk) as Hd. split; [exact Hd|].
  destruct (int_digits_spec E _ Hd) as (n & Hn & _). exists n. split; [exact Hn|]. part H. tokens.
  unfold callv; cbn [call arg_at nth_error cb_int_type bind pure py_int]. rewrite (int_of_digits E _ n Hd Hn).
  destruct (Nat.leb _ _); reflexivity.
Qed.
(** Leading zeros carry no weight; the value is unique. *)
Theorem C28_value_unique : forall s n m, denotes s n -> denotes s m -> n = m.
Proof. intros s n m H H'. exact (denotes_unique s n H m H'). Qed.
Example C28_ex : exists m k, part_of env0 values_text (TNode L_int_type m [TTok k]) /\ tval k = u "007" /\ denotes (u "007") 7.
Proof.
  do 2 eexists. split; [found 0|]. split; [vm_compute; reflexivity|].
  apply (denotes_snoc [48; 48]%N 0 7); [|reflexivity]. apply (denotes_snoc [48]%N 0 0); [|reflexivity]. apply (denotes_snoc [] 0 0); [constructor|reflexivity].
Qed.

(** ** C29 *)
Theorem C29_arrays : forall E ln text m cs, part_of E text (TNode L_array m cs) ->
  transform E ln (TNode L_array m cs) =
    match all_ok (transform E ln) cs with Ok vs => Ok (PList vs) | Err e => Err e end.
Proof.
  intros E ln text m cs H. pose proof (part_shape E text _ _ _ H) as Hs. cbn [node_shape] in Hs. part H.
  destruct (all_ok (transform E ln) cs) as [vs|e] eqn:Hv; [|reflexivity]. cbn [bind].
  unfold callv. cbn [call cb_array bind pure]. rewrite (untoken_list vs (vals_json E ln cs vs Hs Hv)). reflexivity.
Qed.
(** Entries of an object: the key as written, and the report of the value. *)
Definition entry_report (E : pyenv) (ln : bool) (e : ptree) : result (str * pyval) :=
  match e with
  | TNode L_pair _ [TNode L_key _ [TTok k]; x] =>
      match transform E ln x with Ok v => Ok (tval k, v) | Err e => Err e end
  | _ => Err EKeyError
  end.
Definition is_pair (e : ptree) : bool := match e with TNode L_pair _ _ => true | _ => false end.
Lemma entry_pair E ln e : ok E sEnt e -> is_pair e = true ->
  transform E ln e = match entry_report E ln e with Ok (k, v) => Ok (PTup [PStr k; v]) | Err e => Err e end.
Proof.
  intros H Hp. inversion H; subst; try discriminate Hp.
  match goal with Hk : ok E sKey ?k |- _ => inversion Hk; subst end;
    match goal with Ht : ok E (sTok _) ?a |- _ => apply tok_inv in Ht as (k & -> & [_ Hk']) end;
    cbn [entry_report]; (rewrite transform_node_quiet; [|cbn [forallb quiet]; rewrite (quiet_ok E sVarVal v ltac:(assumption) eq_refl); reflexivity]);
    cbn [all_ok]; (rewrite (transform_node_quiet _ _ L_key); [|reflexivity]); tokens;
    unfold callv; cbn [call cb_key arg_at nth_error bind pure wrap]; unfold wrap; cbn [py_str' py_str bind];
    (destruct (transform E ln v) as [w|e] eqn:Hw; [|reflexivity]); cbn [bind cb_pair];
    rewrite (json_untoken w (varval_json E ln v w ltac:(assumption) Hw)); reflexivity.
Qed.
Theorem C29_objects : forall E ln text m es, part_of E text (TNode L_object m es) -> forallb is_pair es = true ->
  transform E ln (TNode L_object m es) =
    match all_ok (entry_report E ln) es with Ok ps => Ok (PDict (dict_of ps)) | Err e => Err e end.
Proof.
  intros E ln text m es H Hp. pose proof (part_shape E text _ _ _ H) as Hs. cbn [node_shape] in Hs. part H.
  assert (Hall : all_ok (transform E ln) es = match all_ok (entry_report E ln) es with
    Ok ps => Ok (map (fun kv => PTup [PStr (fst kv); snd kv]) ps) | Err e => Err e end).
  { apply TreeGrammar.oks_Forall in Hs. clear H. induction Hs as [|e es He Hes IH]; [reflexivity|]. cbn [forallb] in Hp.
    apply andb_true_iff in Hp as [Hp1 Hp2]. cbn [all_ok]. rewrite (entry_pair E ln e He Hp1), (IH Hp2).
    destruct (entry_report E ln e) as [[k v]|x]; [|reflexivity]. destruct (all_ok (entry_report E ln) es); reflexivity. }
  rewrite Hall. destruct (all_ok (entry_report E ln) es) as [ps|e]; [|reflexivity]. cbn [bind]. unfold callv. cbn [call cb_object].
  assert (Ht : tuple_pairs (map (fun kv => PTup [PStr (fst kv); snd kv]) ps) = Ok ps).
  { clear. induction ps as [|[k v] ps IH]; [reflexivity|]. cbn [map tuple_pairs str_text fst snd]. rewrite IH. reflexivity. }
  unfold cb_object. rewrite Ht. reflexivity.
Qed.
(** The dict of a list of entries: keys in order of first occurrence, each with
    the value said last. *)
Theorem C29_keys_and_values : forall (ps : list (str * pyval)),
  map fst (dict_of ps) = firsts (map fst ps) /\ NoDup (map fst (dict_of ps)) /\
  forall k v, In (k, v) (dict_of ps) <-> last_of k ps v.
Proof. intros ps. split; [apply dict_of_firsts|]. split; [apply dict_of_NoDup|]. intros k v. apply in_dict_last. Qed.
(** Keys are reported as written: a name, the word [resource], or quoted with the quotes. *)
Theorem C29_keys : forall E text m cs, part_of E text (TNode L_key m cs) -> exists k, cs = [TTok k] /\ contains (tval k) text /\
  (ident E (tval k) \/ tval k = u "resource" \/ exists b, tval k = quote b).
Proof.
  intros E text m cs H. pose proof (part_shape E text _ _ _ H) as Hs. cbn [node_shape] in Hs. destruct Hs as (k & -> & Hk).
  exists k. split; [reflexivity|]. split; [exact (part_token E text _ k H (or_introl eq_refl))|].
  destruct Hk as [[_ Hk]|[[_ Hk]|[[_ Hk]|[_ Hk]]]].
  - right. left. exact (tok_resource E _ Hk).
  - left. exact (tok_string E _ Hk).
  - right. right. exact (tok_quoted_string E _ Hk).
  - right. right. exact (tok_quoted E _ Hk).
Qed.
Example C29_ex : (exists m cs, part_of env0 values_text (TNode L_array m cs) /\ List.length cs = 4) /\
  (exists m es, part_of env0 values_text (TNode L_object m es) /\ forallb is_pair es = true /\
     transform env0 false (TNode L_object m es) = Ok (PDict [(quote (u "k"), PInt 2); (u "r", PDict [])])) /\
  exists m cs, part_of env0 values_text (TNode L_key m cs).
Proof. split; [|split]; do 2 eexists; (split; [found 0|]) || found 0; repeat split; vm_compute; reflexivity. Qed.

(** ** C30 *)
Theorem C30_multi_line : forall E ln text m k, part_of E text (TNode L_multi_line_string m [TTok k]) ->
  contains (tval k) text /\ exists b r, tval k = triple_quote b /\ trimmed b r /\
    transform E ln (TNode L_multi_line_string m [TTok k]) = Ok (PStr r).
Proof.
  intros E ln text m k H. split; [exact (part_token E text _ k H (or_introl eq_refl))|].
  pose proof (part_shape E text _ _ _ H) as Hs. cbn [node_shape] in Hs. destruct Hs as (k' & [= <-] & [Ht Hk]).
  destruct (tok_multi E _ Hk) as (b & Hb). destruct (sanitize_spec b) as (r & Hr & Hs). exists b, r. split; [exact Hb|]. split; [exact Hr|].
  part H. tokens. unfold callv. cbn [call cb_multi_line_string arg_at nth_error bind pure py_str]. rewrite Hb, Hs. reflexivity.
Qed.
Example C30_ex : exists m k, part_of env0 values_text (TNode L_multi_line_string m [TTok k]) /\ tval k = triple_quote (10%N :: u "raw" ++ [10%N])%list.
Proof. do 2 eexists. split; [found 0|]. vm_compute. reflexivity. Qed.

(** ** C34 *)
Lemma kept_filter vs : forall n, filter (fun kv => truthy (snd kv)) (listed "operand_" n vs) = kept n vs.
Proof.
  induction vs as [|v vs IH]; intros n; [reflexivity|]. unfold listed in *. cbn [List.length seq map combine filter snd kept].
  rewrite IH. reflexivity.
Qed.
Lemma kept_keys vs : forall n, NoDup (map fst (kept n vs)) /\ forall k, In k (map fst (kept n vs)) -> exists i, n <= i /\ k = nth_key "operand_" i.
Proof.
  induction vs as [|v vs IH]; intros n; cbn [kept map].
  - split; [constructor|contradiction].
  - destruct (IH (Datatypes.S n)) as [H1 H2]. destruct (truthy v); cbn [map fst].
    + split.
      * constructor; [|exact H1]. intros Hin. destruct (H2 _ Hin) as (i & Hi & He). apply nth_key_inj in He. lia.
      * intros k [<-|Hin]; [eauto|]. destruct (H2 k Hin) as (i & Hi & ->). exists i. split; [lia|reflexivity].
    + split; [exact H1|]. intros k Hin. destruct (H2 k Hin) as (i & Hi & ->). exists i. split; [lia|reflexivity].
Qed.
(** The receiver, the function's name, and the arguments except falsy ones, which
    vanish without a trace but keep their number. *)
Theorem C34_function_accessor : forall E ln text m a k vs va ws, part_of E text (TNode L_function_accessor m (a :: TTok k :: vs)) ->
  transform E ln a = Ok va -> all_ok (transform E ln) vs = Ok ws ->
  transform E ln (TNode L_function_accessor m (a :: TTok k :: vs)) =
    Ok (op_report "function_accessor" ((u "operand_1", va) :: (u "func_name", PStr (tval k)) :: kept 2 ws)).
Proof.
  intros E ln text m a k vs va ws H Ha Hvs. part H. cbn [all_ok]. rewrite Ha, transform_tok, Hvs. cbn [bind].
  unfold callv. cbn [call cb_function_accessor]. unfold cb_function_accessor, op_dict. cbn [bind pure].
  change (u "operand_1") with (nth_key "operand_" 1). change 2%N with (N.of_nat 2). rewrite (numbered_listed "operand_" ws 2), kept_filter.
  rewrite dict_of_id; [reflexivity|]. cbn [map fst]. destruct (kept_keys ws 2) as [H1 H2].
  constructor; [|constructor; [|exact H1]].
  - intros [He|Hin]; [discriminate|]. destruct (H2 _ Hin) as (i & Hi & He). apply nth_key_inj in He. lia.
  - intros Hin. destruct (H2 _ Hin) as (i & _ & He). discriminate.
Qed.
Theorem C34_accessor_shape : forall E text m cs, part_of E text (TNode L_function_accessor m cs) ->
  exists a k vs, cs = a :: TTok k :: vs /\ vs <> [].
Proof. intros E text m cs H. apply part_shape in H as (a & k & vs & -> & Hv & _). eauto. Qed.
(** The variables of a lambda in order, then its expression; a variable is the
    text of whatever stands in its place. *)
Theorem C34_lambda : forall E ln text m ps x ws v, part_of E text (TNode L_lambda_expression m (ps ++ [x])) -> ps <> [] ->
  all_ok (transform E ln) ps = Ok ws -> transform E ln x = Ok v ->
  transform E ln (TNode L_lambda_expression m (ps ++ [x])) =
    Ok (PDict [(u "type", PStr (u "lambda_expression"));
               (u "detail", PDict (listed "var_" 1 (map (fun w => PStr (py_str E w)) ws) ++ [(u "expression", v)]))]).
Proof.
  intros E ln text m ps x ws v H Hne Hps Hx. part H. rewrite all_ok_app, Hps. cbn [all_ok]. rewrite Hx. cbn [bind].
  destruct ws as [|w ws]; [apply all_ok_length in Hps; destruct ps; [congruence|discriminate]|].
  unfold callv. cbn [call cb_lambda_expression app bind]. unfold cb_lambda_expression.
  replace (match (ws ++ [v])%list with [] => Err ve | _ :: _ => Ok (PDict [(u "type", S "lambda_expression");
    (u "detail", PDict (dict_of ((u "var_1", py_str' E w) :: numbered (u "var_") 2 (map (py_str' E) (removelast (tl (w :: ws ++ [v])))) ++
       [(u "expression", last (tl (w :: ws ++ [v])) PNone)])))]) end)
    with (@Ok pyval (PDict [(u "type", S "lambda_expression"); (u "detail", PDict (dict_of ((u "var_1", py_str' E w) :: numbered (u "var_") 2 (map (py_str' E) ws) ++ [(u "expression", v)])))])).
  2:{ cbn [tl]. rewrite removelast_last, last_last. destruct (ws ++ [v])%list eqn:Hw; [destruct ws; discriminate|reflexivity]. }
  cbn [pure bind]. unfold S. change (u "var_1", py_str' E w) with (nth_key "var_" 1, py_str' E w).
  change 2%N with (N.of_nat 2). rewrite (numbered_listed "var_" _ 2).
  assert (Hl : ((nth_key "var_" 1, py_str' E w) :: listed "var_" 2 (map (py_str' E) ws) ++ [(u "expression", v)])%list =
               (listed "var_" 1 (map (fun w => PStr (py_str E w)) (w :: ws)) ++ [(u "expression", v)])%list) by reflexivity.
  rewrite Hl, dict_of_id; [reflexivity|]. rewrite map_app. cbn [map fst]. apply NoDup_snoc; [apply listed_NoDup|].
  intros Hin. apply (listed_in "var_" 1) in Hin as (i & _ & He). discriminate.
Qed.
(** Plain parameters are reported by name. *)
Theorem C34_lambda_names : forall E ln text m ks, part_of E text (TNode L_string m [TTok ks]) -> ident E (tval ks) ->
  exists w, transform E ln (TNode L_string m [TTok ks]) = Ok w /\ py_str E w = tval ks.
Proof.
  intros E ln text m k H Hi. destruct (C27_strings E ln text m k H) as [_ [(b & Hb & _)|[_ Hr]]].
  - exfalso. rewrite Hb in Hi. exact (ident_not_quote E b Hi).
  - exists (PElem (tval k)). split; [exact Hr|reflexivity].
Qed.
Example C34_ex : (exists m a k vs va ws, part_of env0 values_text (TNode L_function_accessor m (a :: TTok k :: vs)) /\
    transform env0 false a = Ok va /\ all_ok (transform env0 false) vs = Ok ws /\ kept 2 ws = [(u "operand_3", PStr (u "x"))]) /\
  exists m p x, part_of env0 values_text (TNode L_lambda_expression m ([p] ++ [x])).
Proof.
  split.
  - do 6 eexists. split; [found 0|]. repeat split; vm_compute; reflexivity.
  - do 3 eexists. found 0.
Qed.

(** ** C38 *)
Lemma list_congr E ln a : forall b b' st, (forall s, transform_list E ln b s = transform_list E ln b' s) ->
  transform_list E ln (a ++ b) st = transform_list E ln (a ++ b') st.
Proof.
  induction a as [|c a IH]; intros b b' st H; [apply H|]. cbn [app transform_list].
  destruct (transform_tree E ln c st) as [[v s]|e]; [|reflexivity]. cbn [bind]. rewrite (IH b b' s H). reflexivity.
Qed.
Lemma replaced_tree E ln x y t t' : replaced x y t t' -> quiet x = true -> quiet y = true -> transform E ln x = transform E ln y ->
  forall st, transform_tree E ln t st = transform_tree E ln t' st.
Proof.
  induction 1 as [|l m a c c' b Hr IH]; intros Hx Hy He st.
  - rewrite (transform_quiet E ln x Hx), (transform_quiet E ln y Hy), He. reflexivity.
  - rewrite !transform_node. rewrite (list_congr E ln a (c :: b) (c' :: b)); [reflexivity|]. intros s. cbn [transform_list].
    rewrite (IH Hx Hy He s). reflexivity.
Qed.
Theorem C38_compositional : forall E ln x y t t', replaced x y t t' -> quiet x = true -> quiet y = true ->
  transform E ln x = transform E ln y -> transform E ln t = transform E ln t'.
Proof. intros E ln x y t t' H Hx Hy He. unfold transform. rewrite (replaced_tree E ln x y t t' H Hx Hy He). reflexivity. Qed.
(** A result exists only when every part below a declaration has a report. *)
Theorem C38_parts_report : forall E fs ln text fp t v x, source fs text fp t -> bicep_parse E fs ln text fp = Ok v ->
  part_of E t x -> quiet x = true -> exists w, transform E ln x = Ok w.
Proof.
  intros E fs ln text fp t v x Hs Hv (tree & Hp & Hw) Hq. destruct (parse_ok E fs ln text fp t v Hs Hv) as (m & cs & Hp' & Ht).
  assert (tree = TNode L_start m cs) by congruence. subst tree. exact (within_reports E ln x _ v Hw Hq Ht).
Qed.
Theorem C38_failing_part : forall E fs ln text fp t x e, source fs text fp t -> part_of E t x -> quiet x = true ->
  transform E ln x = Err e -> exists e', bicep_parse E fs ln text fp = Err e'.
Proof.
  intros E fs ln text fp t x e Hs Hp Hq Hx. destruct (bicep_parse E fs ln text fp) as [v|e'] eqn:Hv; [|eauto].
  destruct (C38_parts_report E fs ln text fp t v x Hs Hv Hp Hq) as (w & Hw). congruence.
Qed.
Example C38_ex : exists m k m' k' t', part_of env0 values_text (TNode L_int_type m [TTok k]) /\
  replaced (TNode L_int_type m [TTok k]) (TNode L_int_type m' [TTok k']) (TNode L_array m [TNode L_int_type m [TTok k]]) t' /\
  tval k <> tval k' /\ transform env0 false (TNode L_int_type m [TTok k]) = transform env0 false (TNode L_int_type m' [TTok k']).
Proof.
  do 2 eexists. exists None, {| ttype := u "INT"; tval := u "7"; tline := 1; tend := 1 |}. eexists. split; [found 0|]. split.
  - eapply (replaced_child _ _ L_array _ [] _ _ []). constructor.
  - split; [discriminate|]. vm_compute. reflexivity.
Qed.

(** All theorems of this file at once (the walk over the proofs is slow). *)
Definition values_theorems := (@C27_strings,
  @C27_one_token,
  @C27_report_determines_token,
  @C28_integers,
  @C28_value_unique,
  @C29_arrays,
  @C29_objects,
  @C29_keys_and_values,
  @C29_keys,
  @C30_multi_line,
  @C34_function_accessor,
  @C34_accessor_shape,
  @C34_lambda,
  @C34_lambda_names,
  @C38_compositional,
  @C38_parts_report,
  @C38_failing_part).
Print Assumptions values_theorems.
