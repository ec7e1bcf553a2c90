(** C49: the model's callbacks, functions and decorators are what the text of pycep/*.py computes. *)
From Coq Require Import List NArith ZArith Bool String.
From Verif Require Import Py.Str Py.Val Lark.Tree Python.Syntax Python.SourceText Python.Eval Python.Program Pycep.Utils Pycep.Functions Pycep.Decorators
  Proofs.Base Proofs.PyHeap Proofs.PyRun Proofs.PyMethods Proofs.PyDecorators Proofs.PyFunctions1 Proofs.PyFunctions2 Proofs.PyFunctions3 Proofs.PyCallbacks4 Proofs.PyUserfunc
  Proofs.PyChildren Proofs.PyChildren2 Proofs.PyImports Proofs.PyState Proofs.PyInit.
From Verif Require Pycep.Transformer.
Import ListNotations.
Local Open Scope string_scope.

(** The program run is the text of the files, and defines no name twice. *)
Theorem C49_program : program_of pycep_files = Some pycep /\ NoDup (map fst pycep).
Proof.
  split; [exact pycep_text|]. pose proof pycep_names as H. revert H. generalize (map fst pycep) as l. induction l as [|x r IH]; intros H; [constructor|].
  cbn [distinct] in H. apply andb_true_iff in H as [H1 H2]. constructor; [|exact (IH H2)]. intros Hi. apply negb_true_iff in H1.
  assert (existsb (String.eqb x) r = true); [|congruence]. apply existsb_exists. exists x. split; [exact Hi|apply String.eqb_refl].
Qed.

(** Looking a name up in the dict FUNCTIONS of the text finds a function that computes what the
    model's does; a name that the model does not know is not in it.  [fun_like]: called with a name
    and a list that stands for [ps], it returns a value that stands for the model's result,
    changing nothing that was there before, or raises the model's exception. *)
Definition looks_up (E : pyenv) (rt : Pycep.Main.path -> result str) (x : string) (T : list (str * (str -> list pyval -> result pyval))) : Prop :=
  forall n h, exists l h' d, pcall E rt (S n) x [] [] h = Got (VRef l, h') /\ get h' l = Some (ODict d) /\
    forall name, match aget name T with
                 | Some m => exists f, aget name d = Some (VFun f) /\ fun_like E rt f m
                 | None => aget name d = None
                 end.
Lemma looked_up E rt x T d : (forall n h, pcall E rt (S n) x [] [] h = Got (VRef (next h), push h (ODict d))) -> Forall2 (same_entry E rt) d T -> looks_up E rt x T.
Proof.
  intros H Hs n h. exists (next h), (push h (ODict d)), d. split; [apply H|]. split; [apply get_push_new|]. intros name.
  pose proof (same_aget E rt name _ _ Hs) as A. destruct (aget name T); [|exact A]. destruct A as (f & A & B & _). eauto.
Qed.
Theorem C49_functions : forall E rt, looks_up E rt "FUNCTIONS" FUNCTIONS.
Proof. intros E rt. exact (looked_up E rt _ _ _ (run_functions E rt) (functions_same E rt)). Qed.
Theorem C49_decorators : forall E rt, looks_up E rt "DECORATORS" (DECORATORS E).
Proof. intros E rt. exact (looked_up E rt _ _ _ (run_decorators E rt) (decorators_same E rt)). Qed.
(** The functions for names that are in no dict. *)
Theorem C49_unknown : forall E rt, fun_like E rt "unknown_func" f_unknown_func /\ fun_like E rt "unknown_deco" unknown_deco.
Proof. intros E rt. split; [exact (text_unknown_func E rt)|exact (text_unknown_deco E rt)]. Qed.

(** The method of BicepToJson for a tree with label [l], called the way Lark calls it with the values of the
    children, computes what the model's callback does: for all labels whose callback leaves the state alone. *)
Theorem C49_callbacks : forall E rt l n ln ls mt h vs ps F st, stateless l = true ->
  (l = L_object -> exists qs, Transformer.tuple_pairs ps = Ok qs) -> self_at h ls ln -> reps h vs ps F -> own h F ->
  match Transformer.wrap l (Transformer.call E ln l mt ps st) with
  | Ok (p, st') => st' = st /\ exists v h' F', puserfunc E rt (4 + n) ls l mt vs h = Got (v, h') /\ rep h' v p F' /\ ext h h' /\ fits h h' F F'
  | Err e => puserfunc E rt (4 + n) ls l mt vs h = Exn e
  end.
Proof.
  intros E rt l n ln ls mt h vs ps F st Hl Ho Hs R O. destruct (callback E rt l n ln ls mt h vs ps F st Hl Ho Hs R O) as (r & Hr & G). rewrite Hr.
  destruct r as [p|e]; cbn [bind gives] in *; [split; [reflexivity|exact G]|exact G].
Qed.

(** Making a transformer gives a new object with two empty lists and changes nothing else, which is the state the
    model starts with. *)
Theorem C49_init : forall E rt n h ln, exists h' li lc, pcall E rt (S (S n)) "BicepToJson" [] [("add_line_numbers", VBool ln)] h = Got (VRef (next h), h') /\
  self_is h' (next h) ln li lc /\ get h' li = Some (OList []) /\ get h' lc = Some (OList []) /\ ext h h' /\ own h' [next h; li; lc].
Proof. exact text_init. Qed.

(** Two callbacks write the state of the transformer, which is two lists of the object [self] ([self_is]).
    resource returns what the model's returns and appends to self.child_resources what the model appends to its
    list: the child resources declared in the config [cq].  [fam]: where the config has a child resource, that is
    an element with a name, a type and a config that is a dict, and so on inside.  Only self.child_resources and
    objects of the arguments may change. *)
Theorem C49_resource : forall E rt n h ls ln li lc vc mt vs F dec nm tq ex cq ty api st, self_is h ls ln li lc -> get h lc = Some (OList vc) ->
  reps h vs [dec; nm; PDict tq; ex; PDict cq] F -> own h (ls :: lc :: F) -> aget (u "type") tq = Some (PStr ty) -> aget (u "api_version") tq = Some (PStr api) ->
  fam cq -> Transformer.pv_depth (PDict cq) <= n ->
  match Transformer.wrap L_resource (Transformer.call E ln L_resource mt [dec; nm; PDict tq; ex; PDict cq] st) with
  | Ok (p, st') => exists new v h' F1 vnew F2, st' = {| Transformer.imports := Transformer.imports st; Transformer.child_resources := (Transformer.child_resources st ++ new)%list |} /\
      puserfunc E rt (2 + n) ls L_resource mt vs h = Got (v, h') /\ rep h' v p F1 /\ get h' lc = Some (OList (vc ++ vnew)) /\ reps h' vnew new F2 /\
      (forall k, k < next h -> cnt (lc :: F) k = 0 -> get h' k = get h k) /\ fits h h' F (F1 ++ F2)
  | Err e => puserfunc E rt (2 + n) ls L_resource mt vs h = Exn e
  end.
Proof. exact call_resource. Qed.
(** custom_import returns None and appends to self.imports what the model appends to its list, made of new objects;
    nothing else that was there before changes ([appends]). *)
Theorem C49_custom_import : forall E rt n h ls ln li lc vi mt vs F nas t st, self_is h ls ln li lc -> get h li = Some (OList vi) ->
  reps h vs (nas ++ [PTok t]) F -> own h (ls :: li :: F) -> Forall named nas ->
  match Transformer.wrap L_custom_import (Transformer.call E ln L_custom_import mt (nas ++ [PTok t]) st) with
  | Ok (p, st') => exists new h' vnew, p = PNone /\ st' = {| Transformer.imports := (Transformer.imports st ++ new)%list; Transformer.child_resources := Transformer.child_resources st |} /\
      puserfunc E rt (4 + n) ls L_custom_import mt vs h = Got (VNone, h') /\ appends h li vi h' vnew new
  | Err e => puserfunc E rt (4 + n) ls L_custom_import mt vs h = Exn e
  end.
Proof. exact call_custom_import. Qed.

(** ** Concrete cases *)
(** An object [self], and [concat('a', [1])] as it is reported: the list of arguments is an object of the heap. *)
Definition self0 : heap := push (push (push empty_heap (OInst "BicepToJson" [("add_line_numbers", VBool true); ("imports", VRef 1); ("child_resources", VRef 2)])) (OList [])) (OList []).
Definition args0 : list pyval := [PTok {| ttype := u "FUNC_NAME"; tval := u "concat("; tline := 1; tend := 1 |}; PStr (u "a"); PList [PInt 1]].
Example C49_ex : exists h vs F, self_at h 0 true /\ reps h vs args0 F /\ own h F /\ stateless L_function = true.
Proof.
  exists (push self0 (OList [VInt 1])), [VTok {| ttype := u "FUNC_NAME"; tval := u "concat("; tline := 1; tend := 1 |}; VStr (u "a"); VRef 3], [3].
  split; [eexists; split; [reflexivity|repeat constructor]|]. split; [|split; [|reflexivity]].
  - change [3] with ([] ++ ([] ++ ([3] ++ [])))%list. repeat (constructor; [constructor|]). constructor; [|constructor].
    change [3] with (3 :: ([] ++ []))%list. econstructor; [reflexivity|]. repeat constructor.
  - intros l. cbn. destruct l as [|[|[|[|]]]]; cbn; repeat constructor.
Qed.

(** A resource with one resource inside, and [import { a as b } from 'f'], with the same [self]. *)
Definition tok0 (ty v : string) : token := {| ttype := u ty; tval := u v; tline := 1; tend := 1 |}.
Definition type0 : list (str * pyval) := [(u "type", PStr (u "A/b")); (u "api_version", PStr (u "1"))].
Definition config0 : list (str * pyval) :=
  [(u "__child_resource__", PDict [(u "__name__", PStr (u "c")); (u "__attrs__", PDict [(u "type", PStr (u "d")); (u "config", PDict [])])])].
Example C49_resource_ex : exists h vs F, self_is h 0 true 1 2 /\ get h 2 = Some (OList []) /\
  reps h vs [PNone; PTok (tok0 "CNAME" "r"); PDict type0; PNone; PDict config0] F /\ own h (0 :: 2 :: F) /\ fam config0.
Proof.
  exists (push (push (push (push (push self0 (ODict [(u "type", VStr (u "A/b")); (u "api_version", VStr (u "1"))])) (ODict [])) (ODict [(u "type", VStr (u "d")); (u "config", VRef 4)]))
    (ODict [(u "__name__", VStr (u "c")); (u "__attrs__", VRef 5)])) (ODict [(u "__child_resource__", VRef 6)])).
  exists [VNone; VTok (tok0 "CNAME" "r"); VRef 3; VNone; VRef 7], [3; 7; 6; 5; 4].
  split; [reflexivity|]. split; [reflexivity|]. split; [|split].
  - change [3; 7; 6; 5; 4] with ([] ++ ([] ++ ([3] ++ ([] ++ ([7; 6; 5; 4] ++ [])))))%list.
    repeat (constructor; [constructor|]). constructor.
    { change [3] with (3 :: ([] ++ ([] ++ [])))%list. econstructor; [reflexivity|]. repeat constructor. }
    repeat (constructor; [constructor|]). constructor; [|constructor].
    change [7; 6; 5; 4] with (7 :: ((6 :: ([] ++ ((5 :: ([] ++ ([4] ++ []))) ++ []))) ++ []))%list.
    econstructor; [reflexivity|]. constructor; [|constructor].
    econstructor; [reflexivity|]. constructor; [constructor|]. constructor; [|constructor].
    econstructor; [reflexivity|]. constructor; [constructor|]. constructor; [|constructor].
    econstructor; [reflexivity|constructor].
  - intros l. cbn. do 9 (destruct l as [|l]; [cbn; repeat constructor|]). cbn. repeat constructor.
  - eapply fam_child; try reflexivity. apply fam_none. reflexivity.
Qed.
Example C49_custom_import_ex : exists h vs F, self_is h 0 true 1 2 /\ get h 1 = Some (OList []) /\
  reps h vs ([PDict [(u "name", PTok (tok0 "CNAME" "a")); (u "alias", PTok (tok0 "CNAME" "b"))]] ++ [PTok (tok0 "QUOTED_STRING" "'f'")]) F /\ own h (0 :: 1 :: F) /\
  Forall named [PDict [(u "name", PTok (tok0 "CNAME" "a")); (u "alias", PTok (tok0 "CNAME" "b"))]].
Proof.
  exists (push self0 (ODict [(u "name", VTok (tok0 "CNAME" "a")); (u "alias", VTok (tok0 "CNAME" "b"))])), [VRef 3; VTok (tok0 "QUOTED_STRING" "'f'")], [3].
  split; [reflexivity|]. split; [reflexivity|]. split; [|split].
  - change [3] with ((3 :: ([] ++ ([] ++ []))) ++ ([] ++ []))%list. constructor; [|repeat constructor]. econstructor; [reflexivity|]. repeat constructor.
  - intros l. cbn. do 5 (destruct l as [|l]; [cbn; repeat constructor|]). cbn. repeat constructor.
  - constructor; [|constructor]. do 2 eexists. split; reflexivity.
Qed.

Definition source_code_theorems := (@C49_program, @C49_functions, @C49_decorators, @C49_unknown, @C49_callbacks, @C49_init, @C49_resource, @C49_custom_import).
Print Assumptions source_code_theorems.
