(** The transformer on trees of the grammar: callback by callback. *)
From Coq Require Import List Arith NArith ZArith Bool String Lia.
From Verif Require Import Py.Str Py.Val Pycep.Utils Pycep.Decorators Pycep.Functions Pycep.Transformer Lark.Tree
  Spec.Json Spec.Schema Spec.Trees Spec.Outcomes
  Proofs.Base Proofs.JsonLemmas Proofs.FunctionsLemmas Proofs.Lexer Proofs.TreeGrammar Proofs.Transform.
Import ListNotations.
Local Open Scope string_scope.

Lemma u_inj a : forall b, u a = u b -> a = b.
Proof.
  unfold u. induction a as [|x a IH]; intros [|y b] H; cbn in H; try discriminate; [reflexivity|].
  inversion H. f_equal; [|apply IH; assumption].
  rewrite <- (Ascii.ascii_N_embedding x), <- (Ascii.ascii_N_embedding y). congruence.
Qed.
Ltac in_schema := unfold schema; cbn [app map module_details In]; repeat (first [left; reflexivity | right]).

Section Typing.
  Variable E : pyenv.
  Variable ln : bool.
  Variable mg : bool.
  Notation vok := (vok E ln mg).
  Notation entry_ok := (entry_ok mg ln).

  Lemma entry_kind kind a : entry_ok kind a -> In kind (map fst (schema ln)).
  Proof.
    intros [(row & d & H & _)|(_ & -> & _)].
    - apply (in_map fst) in H. exact H.
    - unfold schema. cbn [app map fst In]. tauto.
  Qed.

  (** ** start *)
  Definition groups_ok (g : list (str * pyval)) : Prop :=
    NoDup (map fst g) /\ In (u "globals") (map fst g) /\
    Forall (fun g => exists kind, fst g = u kind /\ In kind (map fst (schema ln)) /\ group_ok mg ln kind (snd g)) g.
  Lemma aset_mono {A} k (v : A) d x : In x (map fst d) -> In x (map fst (aset k v d)).
  Proof. intros H. destruct (aset_keys k v d) as [->|[_ ->]]; [exact H|]. apply in_or_app. auto. Qed.
  Lemma add_entry_ok g kind name attrs c : groups_ok g -> entry_ok kind attrs ->
    (kind = "globals" -> name = u "scope") ->
    aget (u "__name__") c = Some (PStr name) -> aget (u "__attrs__") c = Some attrs ->
    exists g', add_entry g (u kind) (PDict c) = Ok g' /\ groups_ok g'.
  Proof.
    intros (Hn & Hg & Hf) He Hs Hc Ha. unfold add_entry. cbn [py_getitem]. rewrite Ha, Hc. cbn [bind str_text].
    pose proof (entry_kind _ _ He) as Hk. destruct (aget (u kind) g) as [v|] eqn:Hv.
    - pose proof (aget_Forall _ _ _ _ Hf Hv) as (kind' & Hk' & _ & Hgr). cbn [fst snd] in Hk', Hgr. apply u_inj in Hk'. subst kind'.
      destruct Hgr as (es & -> & Hne & Hnd & Hall & Hgl). eexists. split; [reflexivity|]. split; [|split].
      + apply aset_NoDup. exact Hn.
      + apply aset_mono. exact Hg.
      + apply aset_Forall_k; [|exact Hf]. exists kind. cbn [fst snd]. split; [reflexivity|]. split; [exact Hk|].
        eexists. split; [reflexivity|]. split; [|split; [|split]].
        * destruct es as [|[k x] es]; cbn [aset]; [discriminate|]. destruct (str_eqb name k); discriminate.
        * apply aset_NoDup. exact Hnd.
        * apply aset_Forall; [intros; exact He|exact Hall].
        * intros Hkg. specialize (Hgl Hkg). specialize (Hs Hkg). subst name.
          destruct (aset_keys (u "scope") attrs es) as [->|[Hni _]]; [exact Hgl|]. exfalso. apply Hni. rewrite Hgl. left. reflexivity.
    - eexists. split; [reflexivity|]. split; [|split].
      + apply aset_NoDup. exact Hn.
      + apply aset_mono. exact Hg.
      + apply aset_Forall_k; [|exact Hf]. exists kind. cbn [fst snd]. split; [reflexivity|]. split; [exact Hk|].
        eexists. split; [reflexivity|]. split; [discriminate|]. split; [|split].
        * repeat constructor. intros [].
        * constructor; [exact He|constructor].
        * intros Hkg. rewrite (Hs Hkg). reflexivity.
  Qed.
  Definition addable (v : pyval) : Prop :=
    v = PNone \/ exists kind c name attrs, v = PDict [(u kind, PDict c)] /\ entry_ok kind attrs /\
      (kind = "globals" -> name = u "scope") /\
      aget (u "__name__") c = Some (PStr name) /\ aget (u "__attrs__") c = Some attrs.
  Lemma add_all_ok : forall vs g, groups_ok g -> Forall addable vs ->
    exists g', add_all g vs = Ok g' /\ groups_ok g'.
  Proof.
    induction vs as [|v vs IH]; intros g Hg Hvs; cbn [add_all]; [eauto|].
    inversion Hvs as [|? ? Hv Hvs']; subst. destruct Hv as [->|(kind & c & name & attrs & -> & He & Hs & Hn & Ha)]; cbn [truthy add_entries].
    - apply IH; assumption.
    - destruct (add_entry_ok g kind name attrs c Hg He Hs Hn Ha) as (g' & Hg' & Hok). rewrite Hg'. cbn [bind]. apply IH; assumption.
  Qed.
  Lemma elem_addable v : elem_ok ln mg v -> addable v.
  Proof. intros (kind & name & attrs & -> & H & Hs). right. exists kind. do 3 eexists. split; [reflexivity|]. split; [exact H|]. split; [exact Hs|]. split; reflexivity. Qed.
  Lemma import_addable v : import_ok ln v -> addable v.
  Proof. intros (name & attrs & -> & H). right. exists "imports". do 3 eexists. split; [reflexivity|]. split; [left; exact H|]. split; [discriminate|]. split; reflexivity. Qed.
  Lemma lift_addable v : lift_ok ln mg v -> addable v.
  Proof. intros (c & name & attrs & -> & H1 & H2 & H). right. exists "resources". do 3 eexists. split; [reflexivity|]. split; [exact H|]. split; [discriminate|]. split; eassumption. Qed.
  Lemma start_init_ok : groups_ok (start_init ln).
  Proof.
    unfold start_init. split; [repeat constructor; intros []|]. split; [left; reflexivity|]. repeat constructor. exists "globals".
    split; [reflexivity|]. split; [left; reflexivity|]. eexists. split; [reflexivity|]. split; [discriminate|].
    split; [repeat constructor; intros []|]. split; [|reflexivity]. constructor; [|constructor]. left. unfold attrs_ok.
    destruct ln; (do 2 eexists; split; [in_schema|split; [reflexivity|]]); cbn [app line_keys]; repeat constructor; cbn [fst snd has_aty]; eauto.
    - exists "resourceGroup". split; [left|]; reflexivity.
    - exists "resourceGroup". split; [left|]; reflexivity.
  Qed.
  Lemma cb_start_ok st vs : state_ok ln mg st -> Forall (vok sElem) vs ->
    exists v, cb_start ln st vs = Ok v /\ document_ok mg ln v.
  Proof.
    intros [Hi Hc] Hvs. unfold cb_start.
    destruct (add_all_ok (vs ++ imports st ++ child_resources st) (start_init ln) start_init_ok) as (g & Hg & Hok).
    { apply Forall_app. split; [|apply Forall_app; split].
      - eapply Forall_impl; [|exact Hvs]. intros v [->|H]; [left; reflexivity|apply elem_addable; exact H].
      - eapply Forall_impl; [|exact Hi]. apply import_addable.
      - eapply Forall_impl; [|exact Hc]. apply lift_addable. }
    rewrite Hg. cbn [bind]. eexists. split; [reflexivity|]. exists g. split; [reflexivity|]. exact Hok.
  Qed.

  (** ** Declarations *)
  Lemma elem_row ks kind row m name d : In (kind, row ++ line_keys ln)%list (schema ln) -> m <> None ->
    Forall2 (fun c kv => fst kv = u (fst c) /\ has_aty (snd c) (snd kv)) row d ->
    ~ In "__start_line__" (map fst row) -> ~ In "__end_line__" (map fst row) ->
    (kind = "globals" -> name = u "scope") ->
    rok ks (vok sElem) (let* attrs := with_lines ln m d in Ok (response kind (PStr name) attrs)).
  Proof.
    intros Hin Hm HF H1 H2 Hk. destruct (lines_ok ln m d row Hm HF H1 H2) as (d' & -> & HF'). cbn [bind rok].
    right. exists kind, name, (PDict d'). split; [reflexivity|]. split; [|exact Hk]. left. do 2 eexists. split; [exact Hin|]. split; [reflexivity|exact HF'].
  Qed.
  Ltac row := match goal with
    | |- Forall2 _ [] [] => apply Forall2_nil
    | |- Forall2 _ (_ :: _) (_ :: _) => apply Forall2_cons; [split; [reflexivity|]|row]
    end.
  Ltac notin := cbn [map fst In]; intros Hin; repeat destruct Hin as [Hin|Hin]; try discriminate Hin; try contradiction.
  Lemma decos_ok v : vok (sOpt sDecos) v -> has_aty ADecos (or_empty v).
  Proof.
    intros [->|(l & -> & H)]; cbn.
    - exists []. split; [reflexivity|constructor].
    - unfold or_empty. destruct l; cbn; eauto.
  Qed.
  Lemma string_ok n v : vok (sTok n) v -> exists r, transform_string_token v = Ok r /\ json r.
  Proof.
    intros (t & -> & _). cbn [transform_string_token].
    destruct (str_eqb (ttype t) (u "MULTI_LINE_STRING")); [eexists; split; [reflexivity|constructor]|].
    destruct (negb _); eexists; split; try reflexivity; constructor.
  Qed.
  Lemma quoted_ok v : vok (sTok "QUOTED_INTERPOLATION") v -> exists s, transform_string_token v = Ok (PStr s).
  Proof. intros (t & -> & Ht & _). cbn [transform_string_token]. rewrite Ht. eexists. reflexivity. Qed.

  Lemma cb_scope_ok m a : vok (sTok "QUOTED_INTERPOLATION") a -> rok [KValue] (vok sElem) (cb_scope E ln (Some m) [a]).
  Proof.
    intros _. unfold cb_scope. cbn [arg_at nth_error bind].
    destruct (existsb (str_eqb (slice_1_m1 (py_str E a))) VALID_TARGET_SCOPES) eqn:He; [|kin].
    eapply (elem_row _ "globals" [("value", AOneOf scopes)]); [in_schema|discriminate| |notin|notin|reflexivity].
    row. cbn [snd has_aty]. unfold VALID_TARGET_SCOPES in He. apply existsb_exists in He. destruct He as (x & Hx & Hex).
    apply str_eqb_eq in Hex. rewrite Hex. cbn [In] in Hx. unfold scopes.
    destruct Hx as [<-|[<-|[<-|[<-|[]]]]]; eexists; (split; [|reflexivity]); cbn; tauto.
  Qed.
  Lemma cb_extension_ok m a b c : vok (sTok "STRING") a -> vok (sOpt sObj) b -> vok (sOpt (sTok "STRING")) c ->
    rok [] (vok sElem) (cb_extension E ln (Some m) [a; b; c]).
  Proof.
    intros _ Hb _. unfold cb_extension. cbn zeta.
    destruct (truthy b) eqn:Htb, (truthy c) eqn:Htc; cbn [app].
    - eapply (elem_row _ "extensions" [("config", ADict); ("alias", AStr)]); [in_schema|discriminate| |notin|notin|discriminate].
      row; cbn [snd has_aty]; [|eexists; reflexivity]. destruct Hb as [->|(Hj & Hd & _)]; [discriminate|auto].
    - eapply (elem_row _ "extensions" [("config", ADict)]); [in_schema|discriminate| |notin|notin|discriminate].
      row; cbn [snd has_aty]. destruct Hb as [->|(Hj & Hd & _)]; [discriminate|auto].
    - eapply (elem_row _ "extensions" [("alias", AStr)]); [in_schema|discriminate| |notin|notin|discriminate].
      row; cbn [snd has_aty]; eexists; reflexivity.
    - eapply (elem_row _ "extensions" []); [in_schema|discriminate| |notin|notin|discriminate]. constructor.
  Qed.
  Lemma cb_metadata_ok m a b : vok (sTok "STRING") a -> vok sMetaVal b -> rok [] (vok sElem) (cb_metadata E ln (Some m) [a; b]).
  Proof.
    intros _ Hb. eapply (elem_row _ "metadata" [("value", AStr)]); [in_schema|discriminate| |notin|notin|discriminate]. row. exact Hb.
  Qed.
  Lemma opt_json s v : (forall v, vok s v -> json v) -> vok (sOpt s) v -> json v.
  Proof. intros H [->|Hv]; [constructor|auto]. Qed.
  Lemma cb_param_ok m d a t v : vok (sOpt sDecos) d -> vok sType t -> vok (sOpt sVal) v -> rok [] (vok sElem) (cb_param E ln (Some m) [d; a; t; v]).
  Proof.
    intros Hd Ht Hv.
    eapply (elem_row _ "parameters" [("decorators", ADecos); ("type", AType); ("default", AJson)]); [in_schema|discriminate| |notin|notin|discriminate].
    row; cbn [snd]; [exact (decos_ok d Hd)|exact Ht|]. apply (opt_json sVal); auto.
  Qed.
  Lemma cb_var_ok m d a t v : vok (sOpt sDecos) d -> vok (sOpt sType) t -> json v -> rok [] (vok sElem) (cb_var E ln (Some m) [d; a; t; v]).
  Proof.
    intros Hd Ht Hv. unfold cb_var. cbn zeta. destruct (truthy t) eqn:Htt; cbn [app].
    - eapply (elem_row _ "variables" [("decorators", ADecos); ("value", AJson); ("type", AType)]); [in_schema|discriminate| |notin|notin|discriminate].
      row; cbn [snd]; [exact (decos_ok d Hd)|exact Hv|]. destruct Ht as [->|Ht]; [discriminate|exact Ht].
    - eapply (elem_row _ "variables" [("decorators", ADecos); ("value", AJson)]); [in_schema|discriminate| |notin|notin|discriminate].
      row; cbn [snd]; [exact (decos_ok d Hd)|exact Hv].
  Qed.
  Lemma cb_output_ok m d a t v : vok (sOpt sDecos) d -> vok sType t -> json v -> rok [] (vok sElem) (cb_output E ln (Some m) [d; a; t; v]).
  Proof.
    intros Hd Ht Hv.
    eapply (elem_row _ "outputs" [("decorators", ADecos); ("type", AType); ("value", AJson)]); [in_schema|discriminate| |notin|notin|discriminate].
    row; cbn [snd]; [exact (decos_ok d Hd)|exact Ht|exact Hv].
  Qed.
  Lemma cb_module_ok m d a p v : vok (sOpt sDecos) d -> vok sMP p -> bodyok ln mg v -> rok [] (vok sElem) (cb_module E ln (Some m) [d; a; p; v]).
  Proof.
    intros Hd (k & fs & dd & Hk & -> & Hj) (Hb1 & Hb2 & _).
    match goal with |- rok _ _ ?x => change x with (let* attrs := with_lines ln (Some m)
          [(u "decorators", or_empty d); (u "type", PStr (u k)); (u "detail", dd); (u "config", v)] in
        Ok (response "modules" (PStr (py_str E a)) attrs)) end.
    eapply (elem_row _ "modules" [("decorators", ADecos); ("type", AOneOf [k]); ("detail", ARecord fs); ("config", ADict)]); [|discriminate| |notin|notin|discriminate].
    - unfold schema. apply in_or_app. right. apply (in_map (fun k => ("modules", [("decorators", ADecos); ("type", AOneOf [fst k]); ("detail", ARecord (snd k)); ("config", ADict)] ++ line_keys ln)%list)) in Hk. exact Hk.
    - row; [exact (decos_ok d Hd)| |exact Hj|split; auto]. exists k. split; [left; reflexivity|reflexivity].
  Qed.
  Lemma cb_custom_type_ok m d a v : vok (sOpt sDecos) d -> json v -> rok [] (vok sElem) (cb_custom_type E ln (Some m) [d; a; v]).
  Proof.
    intros Hd Hv.
    eapply (elem_row _ "types" [("decorators", ADecos); ("value", AJson)]); [in_schema|discriminate| |notin|notin|discriminate].
    row; cbn [snd]; [exact (decos_ok d Hd)|exact Hv].
  Qed.
  Definition pairs_ok (vs : list pyval) : Prop := exists ps, zip_pairs E vs = Ok ps /\ Forall (fun kv => data_type (snd kv)) ps.
  Lemma cb_custom_func_ok m d a ps t v : vok (sOpt sDecos) d -> pairs_ok ps -> data_type t -> json v ->
    rok [] (vok sElem) (cb_custom_func E ln (Some m) (d :: a :: ps ++ [t; v])).
  Proof.
    intros Hd (l & Hl & Hps) Ht Hv. unfold cb_custom_func. rewrite rev_app_distr. cbn [rev app]. rewrite rev_involutive, Hl. cbn [bind].
    eapply (elem_row _ "functions" [("decorators", ADecos); ("args", AArgs); ("type", AType); ("expression", AJson)]); [in_schema|discriminate| |notin|notin|discriminate].
    row; cbn [snd has_aty]; [exact (decos_ok d Hd)| |exact Ht|exact Hv].
    destruct (dict_of_ind _ _ Hps) as [H1 H2]. eauto.
  Qed.
  Lemma cb_resource_ok m d a t x v st : vok (sOpt sDecos) d -> vok sTAP t -> bodyok ln mg v -> state_ok ln mg st ->
    match call E ln L_resource (Some m) [d; a; t; x; v] st with Ok (v, st') => vok sElem v /\ state_ok ln mg st' | Err e => may_fail mg (u "resource") e end.
  Proof.
    intros Hd (ty & api & ->) Hv [Hs1 Hs2]. unfold call, cb_resource.
    change (py_getitem (PDict [(u "type", PStr ty); (u "api_version", PStr api)]) (u "type")) with (Ok (PStr ty)).
    change (py_getitem (PDict [(u "type", PStr ty); (u "api_version", PStr api)]) (u "api_version")) with (Ok (PStr api)).
    cbn [bind py_str]. pose proof (pcr_bodyok E ln mg (py_str E a) ty api v Hv) as Hp.
    fold (py_str E a). destruct (process_child_resource E (pv_depth v) (py_str E a) ty api v) as [[cfg ch]|e]; cbn [bind pcr_ok] in *.
    2:{ exists "resource". eexists. split; [|split; [reflexivity|exact Hp]]. cbn [failure_table In]. tauto. }
    destruct Hp as (Hj & Hdd & Hch).
    pose proof (elem_row [] "resources" [("decorators", ADecos); ("type", AStr); ("api_version", AStr); ("existing", ABool); ("config", ADict)]
      (Some m) (py_str E a) [(u "decorators", or_empty d); (u "type", PStr ty); (u "api_version", PStr api); (u "existing", PBool (truthy x)); (u "config", cfg)]) as H.
    destruct (with_lines ln (Some m) _) as [attrs|e]; cbn [bind rok] in H |- *.
    - split; [|split; cbn; [exact Hs1|apply Forall_app; split; [exact Hs2|exact Hch]]].
      apply H; [in_schema|discriminate| |notin|notin|discriminate].
      row; cbn [snd has_aty]; [exact (decos_ok d Hd)|eauto|eauto|eauto|eauto].
    - exfalso. assert (Hk : kind_in [] e); [|destruct Hk as (? & _ & [])].
      apply H; [in_schema|discriminate| |notin|notin|discriminate].
      row; cbn [snd has_aty]; [exact (decos_ok d Hd)|eauto|eauto|eauto|eauto].
  Qed.
  Lemma cb_child_ok m a b x v : bodyok ln mg v -> rok [] (vok sEnt) (cb_child_resource E ln (Some m) [a; b; x; v]).
  Proof.
    intros (Hj & Hd & Hb). unfold cb_child_resource, with_lines_child.
    assert (Hdec : has_aty ADecos (PList [])) by (exists []; split; [reflexivity|constructor]).
    assert (H : forall tl, tail_ok ln tl -> vok sEnt (PTup [S "__child_resource__"; child_record (py_str E a)
      (res_attrs (PList []) (PStr (slice_1_m1 (py_str E b))) (S "") (PBool (truthy x)) v tl)])).
    { intros tl Htl. cbn [Transform.vok]. do 2 eexists. split; [reflexivity|]. split.
      - unfold child_record. apply json_lit; [nodup_lit|]. constructor; [constructor|]. constructor; [|constructor]. cbn [snd].
        eapply attrs_ok_json. apply res_attrs_ok; [exact Hdec|eexists; reflexivity|eexists; reflexivity|eexists; reflexivity|split; assumption|exact Htl].
      - intros Hm _. do 7 eexists. split; [reflexivity|]. split; [exact Hdec|]. split; [eexists; reflexivity|]. split; [eexists; reflexivity|]. split; [eexists; reflexivity|]. split; [exact Htl|exact (Hb Hm)]. }
    destruct ln.
    - destruct m as [l l']. cbn [bind rok]. apply (H [_; _]). repeat constructor; cbn; eauto.
    - cbn [bind rok]. apply (H []). constructor.
  Qed.

  (** ** imports *)
  Lemma import_entry_ok m fp na s : transform_string_token fp = Ok (PStr s) -> vok sImp na ->
    exists e, import_entry E ln (Some m) fp na = Ok e /\ import_ok ln e.
  Proof.
    intros Hfp Hna. unfold import_entry. rewrite Hfp.
    assert (Hrow : forall name d row, In ("imports", row ++ line_keys ln)%list (schema ln) ->
       Forall2 (fun c kv => fst kv = u (fst c) /\ has_aty (snd c) (snd kv)) row d ->
       ~ In "__start_line__" (map fst row) -> ~ In "__end_line__" (map fst row) ->
       exists e, (let* attrs := with_lines ln (Some m) d in Ok (response "imports" (PStr name) attrs)) = Ok e /\ import_ok ln e).
    { intros name d row Hin HF H1 H2. destruct (lines_ok ln (Some m) d row ltac:(discriminate) HF H1 H2) as (d' & -> & HF').
      cbn [bind]. eexists. split; [reflexivity|]. exists name, (PDict d'). split; [reflexivity|]. do 2 eexists. split; [exact Hin|]. split; [reflexivity|exact HF']. }
    destruct Hna as [(n & ->)|(n & al & ->)].
    - change (py_getitem (PDict [(u "name", PStr n)]) (u "name")) with (Ok (PStr n)).
      change (py_get (PDict [(u "name", PStr n)]) (u "alias") PNone) with (Ok PNone). cbn [bind truthy].
      apply (Hrow _ _ [("file_path", AStr)]); [in_schema| |notin|notin]. row; cbn [snd has_aty]; eauto.
    - change (py_getitem (PDict [(u "name", PStr n); (u "alias", PStr al)]) (u "name")) with (Ok (PStr n)).
      change (py_get (PDict [(u "name", PStr n); (u "alias", PStr al)]) (u "alias") PNone) with (Ok (PStr al)). cbn [bind].
      destruct (truthy (PStr al)).
      + apply (Hrow _ _ [("file_path", AStr); ("alias", AStr)]); [in_schema| |notin|notin]. row; cbn [snd has_aty]; eexists; reflexivity.
      + apply (Hrow _ _ [("file_path", AStr)]); [in_schema| |notin|notin]. row; cbn [snd has_aty]; eauto.
  Qed.
  Lemma import_entries_ok m fp s nas : transform_string_token fp = Ok (PStr s) -> Forall (vok sImp) nas ->
    exists es, import_entries E ln (Some m) fp nas = Ok es /\ Forall (import_ok ln) es.
  Proof.
    intros Hfp H. induction H as [|na nas Hna H (es & IH & Hes)]; cbn [import_entries].
    - eauto.
    - destruct (import_entry_ok m fp na s Hfp Hna) as (e & -> & He). cbn [bind]. rewrite IH. cbn [bind]. eauto.
  Qed.
  Lemma cb_custom_import_ok m vs : (exists a, vs = [a] /\ vok (sTok "QUOTED_INTERPOLATION") a) \/
    (exists c cs a, vs = c :: cs ++ [a] /\ vok sImp c /\ Forall (vok sImp) cs /\ vok (sTok "QUOTED_INTERPOLATION") a)%list ->
    exists es, cb_custom_import E ln (Some m) vs = Ok es /\ Forall (import_ok ln) es.
  Proof.
    intros [(a & -> & Ha)|(c & cs & a & -> & Hc & Hcs & Ha)]; destruct (quoted_ok a Ha) as (s & Hs).
    - cbn [cb_custom_import]. rewrite Hs. cbn [bind]. eexists. split; [reflexivity|]. repeat constructor.
      exists s, (PDict []). split; [reflexivity|]. exists [], []. split; [in_schema|]. split; [reflexivity|constructor].
    - assert (He : cb_custom_import E ln (Some m) (c :: cs ++ [a]) = import_entries E ln (Some m) a (c :: cs)).
      { unfold cb_custom_import. destruct (cs ++ [a])%list as [|y l] eqn:Hy; [destruct cs; discriminate|]. rewrite <- Hy.
        change (c :: cs ++ [a])%list with ((c :: cs) ++ [a])%list. rewrite last_last, removelast_last. reflexivity. }
      rewrite He. apply (import_entries_ok m a s); [exact Hs|]. constructor; assumption.
  Qed.

  (** ** Types, paths *)
  Lemma cb_data_type_ok a vs : data_type a -> rok [] (vok sType) (cb_data_type (a :: vs)).
  Proof.
    cbn [cb_data_type rok Transform.vok]. revert a. induction vs as [|v vs IH]; intros a Ha; cbn [fold_left]; [exact Ha|].
    apply IH. apply dt_array. exact Ha.
  Qed.
  Lemma cb_base_type_ok a : (exists n, vok (sTok n) a) \/ data_type a -> rok [] (vok sBase) (cb_base_type [a]).
  Proof.
    intros [(n & t & -> & _)|H]; cbn.
    - constructor.
    - destruct H; constructor; assumption.
  Qed.
  Lemma cb_type_api_pair_ok a : rok [KValue] (vok sTAP) (cb_type_api_pair E [a]).
  Proof.
    unfold cb_type_api_pair. cbn [arg_at nth_error bind].
    destruct (split_char 64 _) as [|t [|v [|]]]; cbn; try kin. eauto.
  Qed.
  Lemma cb_module_path_ok a : rok [KValue] (vok sMP) (cb_module_path E [a]).
  Proof.
    unfold cb_module_path. cbn [arg_at nth_error bind]. cbn zeta.
    assert (H : forall k fs d, In (k, fs) module_details -> has_aty (ARecord fs) (PDict d) -> rok [] (vok sMP) (path_result k d)).
    { intros k fs d Hk Hd. exists k, fs, (PDict d). split; [exact Hk|]. split; [reflexivity|exact Hd]. }
    repeat match goal with
    | |- rok _ _ (if ?b then _ else _) => destruct b
    | |- rok _ _ (path_result ?k ?d) => eapply H; [unfold module_details; cbn [In]; repeat first [left; reflexivity | right]|
        eexists; split; [reflexivity|]; split; [cbn [map fst]; nodup_lit|repeat (constructor; [split; [reflexivity|eexists; reflexivity]|]); constructor]]
    | |- rok _ _ (match ?x with Some _ => _ | None => _ end) => destruct x
    | |- rok _ _ (match ?x with [] => _ | _ :: _ => _ end) => destruct x
    | |- rok _ _ (Err _) => kin
    end.
  Qed.
  Lemma cb_import_alias_ok a b : rok [] (vok sImp) (cb_import_alias E [a; b]).
  Proof. cbn [cb_import_alias rok Transform.vok]. destruct (truthy b); [right|left]; unfold py_str'; eauto. Qed.

  (** ** Objects and values *)
  Lemma body_of_dict d : json (PDict d) -> (mg = false -> forall c, aget reserved_key d = Some c -> child_ok ln c) ->
    bodyok ln mg (PDict d).
  Proof.
    intros Hj H. split; [exact Hj|]. split; [eauto|]. intros Hm. specialize (H Hm).
    destruct (aget reserved_key d) as [c|] eqn:Hc; [|apply body_leaf; assumption].
    destruct (H c eq_refl) as (n & dec & ty & api & ex & cfg & tl & -> & H1 & H2 & H3 & H4 & H5 & H6).
    exact (body_child ln d n dec ty api ex cfg tl Hj Hc H1 H2 H3 H4 H5 H6).
  Qed.
  Lemma cb_object_ok vs : Forall (vok sEnt) vs -> rok [] (vok sObj) (cb_object vs).
  Proof.
    intros H. unfold cb_object.
    assert (Hp : exists ps, tuple_pairs vs = Ok ps /\ Forall (fun kv => json (snd kv) /\ (mg = false -> fst kv = reserved_key -> child_ok ln (snd kv))) ps).
    { induction H as [|v vs (k & x & -> & Hx & Hc) H (ps & IH & Hps)]; cbn [tuple_pairs str_text]; [eauto|]. rewrite IH. cbn [bind].
      eexists. split; [reflexivity|]. constructor; [split; [exact Hx|exact Hc]|exact Hps]. }
    destruct Hp as (ps & -> & Hps). cbn [bind rok Transform.vok]. destruct (dict_of_ind _ _ Hps) as [H1 H2]. apply body_of_dict.
    - constructor; [exact H1|]. eapply Forall_impl; [|exact H2]. intros kv [Hj _]. exact Hj.
    - intros Hm c Hc. pose proof (aget_Forall _ _ _ _ H2 Hc) as [_ Hk]. apply Hk; [exact Hm|reflexivity].
  Qed.
  Lemma body_lit d : json (PDict d) -> aget reserved_key d = None -> bodyok ln mg (PDict d).
  Proof. intros Hj Hn. apply body_of_dict; [exact Hj|]. congruence. Qed.
  Lemma cb_loop_ok a c v : json a -> json c -> json v -> rok [KType; KKey; KAttr] (vok sLoop) (cb_loop [a; c; v]).
  Proof.
    intros Ha Hc Hv. unfold cb_loop.
    match goal with |- rok _ _ (bind ?x _) => assert (Hx : rjson [KType; KKey; KAttr] x) end.
    { destruct c; try exact Hc. apply rjson_bind; [apply rjson_get; [cbn; tauto|exact Hc|constructor; [constructor|constructor]]|].
      intros func Hf. apply rjson_bind; [apply rjson_get; [cbn; tauto|exact Hf|constructor]|]. intros ty Hty.
      destruct (eq_lit ty (u "if")); [|exact Hc]. apply rjson_bind; [apply rjson_getitem; [cbn; tauto|cbn; tauto|exact Hf]|]. intros ps Hps. apply rjson_getitem; [cbn; tauto|cbn; tauto|exact Hps]. }
    match goal with |- rok _ _ (bind ?x _) => destruct x as [c'|e] end; cbn [bind rok rjson] in *; [|exact Hx].
    apply body_lit; [|reflexivity]. apply json_lit; [nodup_lit|]. repeat constructor; assumption.
  Qed.
  Lemma cb_cond_ok c v : json c -> json v -> rok [] (vok sCond) (cb_deploy_condition [c; v]).
  Proof.
    intros Hc Hv. cbn [cb_deploy_condition rok Transform.vok]. apply body_lit; [|reflexivity]. apply json_lit; [nodup_lit|]. repeat constructor; assumption.
  Qed.
  Lemma cb_pair_ok k v : vok sKey k -> json v -> rok [] (vok sEnt) (cb_pair [k; v]).
  Proof.
    intros (s & -> & Hs) Hv. cbn [cb_pair rok Transform.vok]. do 2 eexists. split; [reflexivity|].
    split; [destruct Hv; constructor; assumption|]. intros Hm Hk. destruct (Hs Hm Hk).
  Qed.
  Lemma untoken_json v : json v -> json (untoken v).
  Proof. intros H. destruct H; constructor; assumption. Qed.
  Lemma cb_array_ok vs : Forall json vs -> rok [] json (cb_array vs).
  Proof. intros H. cbn. constructor. apply Forall_map. eapply Forall_impl; [|exact H]. apply untoken_json. Qed.
  Lemma cb_int_ok a : rok [KValue] json (cb_int_type E [PTok a]).
  Proof.
    unfold cb_int_type. cbn [arg_at nth_error bind]. cbn [py_int]. destruct (int_of_str E (tval a)) eqn:He; cbn [bind rok]; [constructor|eapply int_of_str_err; exact He].
  Qed.
  Lemma cb_function_ok f vs : Forall json vs -> rok fn_kinds json (cb_function E (f :: vs)).
  Proof.
    intros Hvs. unfold cb_function. cbn zeta.
    match goal with |- rok _ _ (bind ?x _) => assert (Hx : rjson fn_kinds x) end.
    { destruct (aget (remove_suffix (u "(") (py_str E f)) FUNCTIONS) as [g|] eqn:Hg.
      - apply (aget_Forall _ _ _ _ functions_ok Hg). exact Hvs.
      - apply f_unknown_ok. exact Hvs. }
    match goal with |- rok _ _ (bind ?x _) => destruct x as [c'|e] end; cbn [bind rok rjson] in *; [|exact Hx].
    apply json_lit; [nodup_lit|]. repeat constructor. exact Hx.
  Qed.
  Lemma cb_decorator_ok a vs : Forall json vs -> rok py_kinds (vok sDeco) (cb_decorator E (a :: vs)).
  Proof.
    intros Hvs. unfold cb_decorator. cbn zeta.
    destruct (aget (py_str E a) (DECORATORS E)) as [g|] eqn:Hg.
    - apply (aget_Forall _ _ _ _ (decorators_ok E) Hg). exact Hvs.
    - apply unknown_deco_ok. exact Hvs.
  Qed.
  Lemma op_dict_json ty d : vals_json d -> json (op_dict ty d).
  Proof. intros H. apply json_lit; [nodup_lit|]. constructor; [constructor|]. constructor; [|constructor]. apply json_dict_of. exact H. Qed.
  Lemma binary_ok l m a b st : binary_label l = true -> json a -> json b ->
    exists v, call E ln l m [a; b] st = Ok (v, st) /\ json v.
  Proof.
    intros Hl Ha Hb. destruct l; try discriminate Hl; eexists; (split; [reflexivity|]); apply op_dict_json; repeat constructor; assumption.
  Qed.
  Lemma unary_ok l m a st : unary_label l = true -> json a -> exists v, call E ln l m [a] st = Ok (v, st) /\ json v.
  Proof.
    intros Hl Ha. destruct l; try discriminate Hl; eexists; (split; [reflexivity|]); apply op_dict_json; repeat constructor; assumption.
  Qed.
  Lemma cb_facc_ok a f vs : json a -> Forall json vs -> rok [] json (cb_function_accessor E (a :: f :: vs)).
  Proof.
    intros Ha Hvs. cbn [cb_function_accessor rok]. apply op_dict_json. constructor; [exact Ha|]. constructor; [constructor|].
    apply incl_Forall with (l1 := numbered (u "operand_") 2 vs); [intros x Hx; apply filter_In in Hx; tauto|]. apply numbered_json. exact Hvs.
  Qed.
  Lemma last_Forall {A} (P : A -> Prop) l d : Forall P l -> P d -> P (last l d).
  Proof. intros H Hd. induction H as [|x l Hx H IH]; [exact Hd|]. cbn. destruct l; [exact Hx|exact IH]. Qed.
  Lemma cb_lambda_ok a b vs : json a -> json b -> Forall json vs -> rok [] json (cb_lambda_expression E (a :: b :: vs)).
  Proof.
    intros Ha Hb Hvs. cbn [cb_lambda_expression rok]. apply json_lit; [nodup_lit|]. constructor; [constructor|]. constructor; [|constructor]. cbn [snd].
    apply json_dict_of. constructor; [constructor|]. apply Forall_app. split.
    - apply numbered_json. apply Forall_map. apply Forall_forall. intros. constructor.
    - constructor; [|constructor]. cbn [snd tl]. apply last_Forall; [constructor; assumption|constructor].
  Qed.

  (** ** The theorem *)
  Notation P := (P E ln mg).
  Notation LP := (LP E ln mg).
  Lemma oks_LP_nil s : LP (Forall (vok s)) [].
  Proof. eapply LP_weak; [|apply LP_nil]. intros vs ->. constructor. Qed.
  Lemma oks_LP_cons s c cs : P s c -> LP (Forall (vok s)) cs -> LP (Forall (vok s)) (c :: cs).
  Proof. intros Hc Hcs. eapply LP_weak; [|apply LP_cons; [exact Hc|exact Hcs]]. intros vs (v & vs' & -> & H1 & H2). constructor; assumption. Qed.

  Ltac inv_args := repeat match goal with
    | H : cons_ok _ _ _ _ _ _ |- _ => let v := fresh "v" in let vs := fresh "vs" in let Hv := fresh "Hv" in destruct H as (v & vs & -> & Hv & H)
    | H : nil_ok _ |- _ => hnf in H; subst
    end.
  Ltac kids := repeat match goal with
    | |- LP _ [] => apply LP_nil
    | H : LP _ ?cs |- LP _ ?cs => exact H
    | H : P ?s ?c |- LP _ (?c :: _) => eapply (LP_cons E ln mg s); [exact H|]
    end.
  Ltac node := eapply node_ok; [kids|intros vs st Hvs Hst; inv_args].
  Lemma fails0 l e : kind_in [] e -> may_fail mg (label_name l) e.
  Proof. intros (? & _ & []). Qed.
  Lemma fails l name ks e : label_name l = u name -> In (name, ks) (failure_table mg) -> kind_in ks e -> may_fail mg (label_name l) e.
  Proof. intros -> Hin Hk. exists name, ks. auto. Qed.
  Ltac pnode := node; (eapply pure_ok;
    [first [intros; eapply fails; [cbn [label_name]; reflexivity|cbn [failure_table In]; solve [repeat first [left; reflexivity | right]]|eassumption] | apply fails0] | assumption |]).

  Lemma typing : (forall s t, ok E s t -> P s t) /\ (forall s cs, oks E s cs -> LP (Forall (vok s)) cs) /\
    (forall cs, okp E cs -> LP pairs_ok cs).
  Proof.
    apply ok_mutind; intros.
    - (* tok *) intros _ st Hst. cbn. split; [|exact Hst]. eauto.
    - intros _ st Hst. cbn. split; [left; reflexivity|exact Hst].
    - eapply P_weak; [|eassumption]. intros v Hv. right. exact Hv.
    - (* start *) node. cbn [call]. destruct (cb_start_ok st vs Hst Hvs) as (v & -> & Hv). cbn. split; [exact Hv|exact Hst].
    - pnode. apply cb_scope_ok. assumption.
    - node. cbn [call]. destruct (cb_custom_import_ok m [v]) as (es & -> & Hes); [left; eauto|]. cbn. split; [left; reflexivity|].
      destruct Hst as [H1 H2]. split; cbn; [apply Forall_app; auto|exact H2].
    - eapply node_ok.
      { eapply (LP_cons E ln mg sImp); [eassumption|]. eapply LP_app; [eassumption|]. eapply (LP_cons E ln mg (sTok "QUOTED_INTERPOLATION")); [eassumption|apply LP_nil]. }
      intros vs st (v & vs' & -> & Hv & (l & w & -> & Hl & Hw)) Hst. inv_args. cbn [call].
      destruct (cb_custom_import_ok m (v :: l ++ [v0])) as (es & -> & Hes); [right; do 3 eexists; eauto|]. cbn. split; [left; reflexivity|].
      destruct Hst as [H1' H2']. split; cbn; [apply Forall_app; auto|exact H2'].
    - pnode. apply cb_extension_ok; assumption.
    - pnode. apply cb_metadata_ok; assumption.
    - pnode. apply cb_param_ok; assumption.
    - pnode. apply cb_var_ok; assumption.
    - pnode. apply cb_output_ok; assumption.
    - node. apply cb_resource_ok; assumption.
    - pnode. apply cb_module_ok; assumption.
    - pnode. apply cb_custom_type_ok; assumption.
    - (* custom_func *) eapply node_ok.
      { eapply (LP_cons E ln mg (sOpt sDecos)); [eassumption|]. eapply (LP_cons E ln mg (sTok "STRING")); [eassumption|].
        eapply LP_app; [eassumption|]. eapply (LP_cons E ln mg sType); [eassumption|]. eapply (LP_cons E ln mg sVal); [eassumption|]. apply LP_nil. }
      intros vs st (v1 & vs1 & -> & Hv1 & (v2 & vs2 & -> & Hv2 & (l & w & -> & Hl & Hw))) Hst. inv_args.
      eapply pure_ok; [apply fails0|exact Hst|]. apply cb_custom_func_ok; assumption.
    - node. cbn. split; [constructor|exact Hst].
    - node. cbn. split; [constructor|exact Hst].
    - node. cbn. split; [constructor|exact Hst].
    - pnode. destruct Hv as (t & -> & _). apply cb_int_ok.
    - pnode. destruct (string_ok _ _ Hv) as (r & Hr & Hj). unfold cb_string. cbn [arg_at nth_error bind]. rewrite Hr. exact Hj.
    - pnode. destruct (string_ok _ _ Hv) as (r & Hr & Hj). unfold cb_string. cbn [arg_at nth_error bind]. rewrite Hr. exact Hj.
    - pnode. cbn. constructor.
    - pnode. apply cb_array_ok. exact Hvs.
    - eapply P_weak; [|eassumption]. intros v Hv. apply (bodyok_json ln mg). exact Hv.
    - pnode. apply cb_function_ok. exact Hvs.
    - pnode. cbn. apply json_lit; [nodup_lit|]. repeat constructor. assumption.
    - pnode. apply cb_lambda_ok; assumption.
    - eapply P_weak; [|eassumption]. intros v Hv. exact Hv.
    - eapply P_weak; [|eassumption]. intros v Hv. apply (bodyok_json ln mg). exact Hv.
    - (* metaval *) pnode. destruct (quoted_ok _ Hv) as (s & Hs). unfold cb_string. cbn [arg_at nth_error bind]. rewrite Hs. cbn. eauto.
    - eapply P_weak; [|eassumption]. intros v Hv. exact Hv.
    - eapply P_weak; [|eassumption]. intros v Hv. exact Hv.
    - eapply P_weak; [|eassumption]. intros v Hv. exact Hv.
    - pnode. apply cb_child_ok. assumption.
    - eapply P_weak; [|eassumption]. intros v Hv. exact Hv.
    - pnode. cbn. constructor.
    - pnode. apply cb_data_type_ok. assumption.
    - pnode. apply cb_base_type_ok. left. eauto.
    - pnode. apply cb_base_type_ok. right. assumption.
    - pnode. cbn. apply dt_union; [cbn; lia|]. constructor; [assumption|]. constructor; assumption.
    - node. cbn. split; [reflexivity|exact Hst].
    - pnode. apply cb_type_api_pair_ok.
    - pnode. apply cb_module_path_ok.
    - pnode. apply cb_import_alias_ok.
    - pnode. apply cb_import_alias_ok.
    - (* loop *) pnode. apply cb_loop_ok; try assumption. apply (opt_json sVal); auto.
    - pnode. cbn [cb_loop_array rok Transform.vok]. apply json_lit; [nodup_lit|]. constructor; [constructor|]. constructor; [|constructor]. apply json_lit; [nodup_lit|]. repeat constructor. assumption.
    - pnode. cbn [cb_loop_array_index rok Transform.vok]. apply json_lit; [nodup_lit|]. constructor; [constructor|]. constructor; [|constructor]. apply json_lit; [nodup_lit|]. repeat constructor. assumption.
    - pnode. cbn [cb_loop_object rok Transform.vok]. apply json_lit; [nodup_lit|]. constructor; [constructor|]. constructor; [|constructor]. apply json_lit; [nodup_lit|]. repeat constructor.
    - pnode. apply cb_cond_ok; assumption.
    - pnode. apply cb_object_ok. exact Hvs.
    - pnode. apply cb_pair_ok; assumption.
    - (* keys *) inversion H; subst. intros Hcl st Hst. cbn. split; [|exact Hst]. eexists. split; [reflexivity|].
      intros Hm Hk. specialize (Hcl Hm). cbn [clean] in Hcl. cbn in Hk. rewrite Hk, str_eqb_refl in Hcl. discriminate.
    - inversion H; subst. intros Hcl st Hst. cbn. split; [|exact Hst]. eexists. split; [reflexivity|].
      intros Hm Hk. specialize (Hcl Hm). cbn [clean] in Hcl. cbn in Hk. rewrite Hk, str_eqb_refl in Hcl. discriminate.
    - inversion H; subst. intros Hcl st Hst. cbn. split; [|exact Hst]. eexists. split; [reflexivity|].
      intros Hm Hk. specialize (Hcl Hm). cbn [clean] in Hcl. cbn in Hk. rewrite Hk, str_eqb_refl in Hcl. discriminate.
    - inversion H; subst. intros Hcl st Hst. cbn. split; [|exact Hst]. eexists. split; [reflexivity|].
      intros Hm Hk. specialize (Hcl Hm). cbn [clean] in Hcl. cbn in Hk. rewrite Hk, str_eqb_refl in Hcl. discriminate.
    - pnode. apply cb_decorator_ok. constructor.
    - pnode. apply cb_decorator_ok. constructor; [assumption|constructor].
    - node. cbn. split; [|exact Hst]. eexists. split; [reflexivity|]. constructor; assumption.
    - node. destruct (binary_ok l (Some m) v v0 st) as (r & -> & Hr); try assumption. split; [exact Hr|exact Hst].
    - node. destruct (unary_ok l (Some m) v st) as (r & -> & Hr); try assumption. split; [exact Hr|exact Hst].
    - pnode. cbn. apply op_dict_json. repeat constructor; assumption.
    - (* function accessor *) pnode. apply cb_facc_ok; [assumption|]. constructor; [apply (opt_json sVal); auto|].
      eapply Forall_impl; [|exact Hvs]. intros x Hx. apply (opt_json sVal); auto.
    - apply oks_LP_nil.
    - apply oks_LP_cons; assumption.
    - eapply LP_weak; [|apply LP_nil]. intros vs ->. exists []. split; [reflexivity|constructor].
    - eapply LP_weak; [|kids]. intros vs Hvs. inv_args. destruct Hvs as (ps & Hps & Hall). hnf. cbn [zip_pairs]. rewrite Hps. cbn [bind].
      eexists. split; [reflexivity|]. constructor; [assumption|exact Hall].
  Qed.
End Typing.
