(** The function table meets its specification. *)
From Coq Require Import List Arith NArith ZArith Bool String Lia.
From Verif Require Import Py.Str Py.Val Pycep.Functions Spec.Values Spec.Functions
  Proofs.Base Proofs.JsonLemmas Proofs.Children Proofs.Values.
Import ListNotations.
Local Open Scope string_scope.
Arguments u : simpl never.

Definition row_ok (r : builtin * fn) : Prop := forall n args,
  snd r n args = match parameters_of (b_sig (fst r)) args with
                 | Ok ps => Ok (body (u (b_type (fst r))) (b_sig (fst r)) ps)
                 | Err e => Err e
                 end.

Fixpoint evens {A} (l : list A) : list A := match l with a :: _ :: l' => a :: evens l' | _ => [] end.
Definition rows : list (builtin * fn) := combine builtins (evens (map snd FUNCTIONS)).
Lemma functions_rows : FUNCTIONS =
  flat_map (fun r => [(u (b_name (fst r)), snd r); ((u (b_space (fst r)) ++ u "." ++ u (b_name (fst r)))%list, snd r)]) rows.
Proof. vm_compute. reflexivity. Qed.
Lemma builtins_rows : builtins = map fst rows.
Proof. vm_compute. reflexivity. Qed.

Lemma rows_lookup n (l : list (builtin * fn)) :
  match find (fun b => owns b n) (map fst l) with
  | Some b => exists f, In (b, f) l /\
      aget n (flat_map (fun r => [(u (b_name (fst r)), snd r); ((u (b_space (fst r)) ++ u "." ++ u (b_name (fst r)))%list, snd r)]) l) = Some f
  | None => aget n (flat_map (fun r => [(u (b_name (fst r)), snd r); ((u (b_space (fst r)) ++ u "." ++ u (b_name (fst r)))%list, snd r)]) l) = None
  end.
Proof.
  induction l as [|[b f] l IH]; [reflexivity|]. cbn [map fst find flat_map app aget snd]. unfold owns at 1.
  destruct (str_eqb n (u (b_name b))); cbn [orb]; [exists f; split; [left|]; reflexivity|].
  destruct (str_eqb n (u (b_space b) ++ u "." ++ u (b_name b))%list); [exists f; split; [left|]; reflexivity|].
  destruct (find _ _) as [b'|]; [|exact IH]. destruct IH as (f' & Hin & Hf). exists f'. split; [right; exact Hin|exact Hf].
Qed.

Lemma NoDup_app_intro {A} (a b : list A) : NoDup a -> NoDup b -> (forall x, In x a -> ~ In x b) -> NoDup (a ++ b).
Proof.
  induction 1 as [|x a Hx Ha IH]; intros Hb Hd; [exact Hb|]. cbn [app]. constructor.
  - rewrite in_app_iff. intros [H|H]; [exact (Hx H)|exact (Hd x (or_introl eq_refl) H)].
  - apply IH; [exact Hb|]. intros y Hy. apply Hd. right. exact Hy.
Qed.
Lemma nodup_with_listed (a b : list (str * pyval)) p n vs : NoDup (map fst (a ++ b)%list) ->
  (forall k, In k (map fst (a ++ b)%list) -> forall i, n <= i -> k <> nth_key p i) ->
  NoDup (map fst (a ++ listed p n vs ++ b)%list).
Proof.
  induction a as [|[k v] a IH]; cbn [app map fst]; intros H Hk.
  - rewrite map_app. apply NoDup_app_intro; [apply listed_NoDup|exact H|]. intros x Hx Hb. apply listed_in in Hx as (i & Hi & ->).
    exact (Hk _ Hb i (proj1 Hi) eq_refl).
  - apply NoDup_cons_iff in H as [Hn H]. constructor.
    + rewrite !map_app, !in_app_iff. intros [Hi|[Hi|Hi]].
      * apply Hn. rewrite map_app, in_app_iff. tauto.
      * apply listed_in in Hi as (i & Hi & ->). exact (Hk _ (or_introl eq_refl) i (proj1 Hi) eq_refl).
      * apply Hn. rewrite map_app, in_app_iff. tauto.
    + apply IH; [exact H|]. intros x Hx. apply Hk. right. exact Hx.
Qed.

Lemma fdict_nodup ty ps : NoDup (map fst ps) -> fdict ty ps = Ok (PDict [(u "type", PStr (u ty)); (u "parameters", PDict ps)]).
Proof. intros H. unfold fdict. rewrite (dict_of_id ps H). reflexivity. Qed.
(** [Many]: required names first, the rest numbered. *)
Lemma many_ok ty req p n a rest : List.length a = List.length req ->
  NoDup (map u req) -> (forall k, In k (map u req) -> forall i, n <= i -> k <> nth_key p i) ->
  fdict ty (combine (map u req) a ++ numbered (u p) (N.of_nat n) rest)%list =
  match parameters_of (Many req p n) (a ++ rest)%list with
  | Ok ps => Ok (body (u ty) (Many req p n) ps) | Err e => Err e end.
Proof.
  intros Hl Hnd Hk. cbn [parameters_of]. rewrite app_length, Hl. destruct (Nat.ltb_spec (List.length req + List.length rest) (List.length req)); [lia|].
  rewrite <- Hl at 1. rewrite skipn_app, skipn_all, Nat.sub_diag. cbn [skipn app]. unfold named.
  assert (Hc : combine (map u req) (a ++ rest)%list = combine (map u req) a).
  { assert (Hl' : List.length a = List.length (map u req)) by (rewrite map_length; exact Hl). revert Hl'. clear. generalize (map u req). intros ks. revert a.
    induction ks as [|k ks IH]; intros [|x a] Hl; try discriminate; [reflexivity|]. cbn [app combine]. f_equal. apply IH. injection Hl as Hl. exact Hl. }
  rewrite Hc, numbered_listed. apply fdict_nodup.
  assert (Hf : map fst (combine (map u req) a) = map u req).
  { assert (Hl' : List.length a = List.length (map u req)) by (rewrite map_length; exact Hl). revert Hl'. clear. generalize (map u req). intros ks. revert a.
    induction ks as [|k ks IH]; intros [|x a] Hl; try discriminate; [reflexivity|]. cbn [map combine fst]. f_equal. apply IH. injection Hl as Hl. exact Hl. }
  rewrite <- (app_nil_r (listed p n rest)). apply nodup_with_listed; rewrite app_nil_r, Hf; assumption.
Qed.

Ltac fixed_row := intros n args; destruct args as [|? [|? [|? [|? [|? [|? ?]]]]]]; reflexivity.
Ltac key_neq := intros k H i Hi He; cbn [map In] in H; repeat destruct H as [H|H]; try contradiction; subst k;
  first [discriminate He
        |change (u "arg_1") with (nth_key "arg_" 1) in He; apply nth_key_inj in He; lia
        |change (u "arg_2") with (nth_key "arg_" 2) in He; apply nth_key_inj in He; lia].
Ltac distinct_keys := cbn [map]; repeat constructor; cbn [In];
  let H := fresh in intros H; repeat destruct H as [H|H]; try contradiction; discriminate.
Ltac many := cbn [fst snd b_sig b_type sys]; apply many_ok; [reflexivity|distinct_keys|key_neq].
Ltac many1 := intros n args; destruct args as [|a rest]; [reflexivity|];
  match goal with |- context [Many ?r ?p ?k] =>
    match goal with |- context [sys _ ?ty _] =>
      change (fdict ty (combine (map u r) [a] ++ numbered (u p) (N.of_nat k) rest)%list =
        match parameters_of (Many r p k) ([a] ++ rest)%list with Ok ps => Ok (body (u ty) (Many r p k) ps) | Err e => Err e end)
    end end; many.
Ltac many2 := intros n args; destruct args as [|a [|b rest]]; [reflexivity|reflexivity|];
  match goal with |- context [Many ?r ?p ?k] =>
    match goal with |- context [sys _ ?ty _] =>
      change (fdict ty (combine (map u r) [a; b] ++ numbered (u p) (N.of_nat k) rest)%list =
        match parameters_of (Many r p k) ([a; b] ++ rest)%list with Ok ps => Ok (body (u ty) (Many r p k) ps) | Err e => Err e end)
    end end; many.
Lemma resource_id_row : row_ok (az "resourceId" "resource_id" ResourceId, f_resource_id).
Proof.
  intros n args. destruct args as [|s [|g [|t [|n1 [|n2 rest]]]]]; try reflexivity.
  cbn [fst snd b_sig b_type az parameters_of]. unfold f_resource_id.
  cbn [arg_at nth_error bind skipn]. change 1%N with (N.of_nat 1). rewrite numbered_listed. unfold body. apply fdict_nodup.
  apply (nodup_with_listed [_]).
  - cbn [app map fst]. repeat constructor; cbn [In]; intros H; repeat destruct H as [H|H]; try contradiction; discriminate.
  - intros k H i _ He. cbn [app map fst In] in H. repeat destruct H as [<-|H]; try contradiction; discriminate.
Qed.
Lemma resource_group_row : row_ok (az "resourceGroup" "resource_group" ResourceGroup, f_resource_group).
Proof.
  intros n args. destruct args as [|a [|b [|c rest]]]; try reflexivity.
  - cbn [fst snd b_sig b_type az parameters_of]. unfold f_resource_group. cbn [truthy]. rewrite andb_false_r. reflexivity.
  - cbn [fst snd b_sig b_type az parameters_of]. unfold f_resource_group. destruct (truthy a && truthy b); reflexivity.
Qed.
Lemma all_rows : Forall row_ok rows.
Proof.
  cbv [rows builtins evens map snd FUNCTIONS combine].
  repeat (constructor; [first [exact resource_id_row | exact resource_group_row | fixed_row | many1 | many2]|]). constructor.
Qed.

(** Any call. *)
Lemma unknown_row n args : f_unknown_func n args =
  Ok (PDict [(u "type", PStr n); (u "parameters", PDict (listed "arg_" 1 args))]).
Proof.
  unfold f_unknown_func. change 1%N with (N.of_nat 1). rewrite numbered_listed, dict_of_id; [reflexivity|]. apply listed_NoDup.
Qed.
Lemma function_called n args :
  match known n with
  | Some b => exists f, aget n FUNCTIONS = Some f /\ f n args = match parameters_of (b_sig b) args with Ok ps => Ok (body (u (b_type b)) (b_sig b) ps) | Err e => Err e end
  | None => aget n FUNCTIONS = None
  end.
Proof.
  unfold known. rewrite builtins_rows, functions_rows. pose proof (rows_lookup n rows) as H.
  destruct (find _ _) as [b|]; [|exact H]. destruct H as (f & Hin & Hf). exists f. split; [exact Hf|].
  pose proof all_rows as Hr. rewrite Forall_forall in Hr. exact (Hr _ Hin n args).
Qed.
