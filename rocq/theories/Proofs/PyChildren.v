(** pycep/transformer.py, process_child_resource: running its text is calling the model's. *)
From Coq Require Import List Arith NArith ZArith Bool String Lia.
From Verif Require Import Py.Str Py.Val Python.Syntax Python.Eval Python.Program Proofs.Base Proofs.PyHeap Proofs.PyRun Proofs.PyLoops Proofs.PyMethods.
From Verif Require Import Pycep.Utils Lark.Tree.
From Verif Require Pycep.Transformer.
Import ListNotations.
Local Open Scope string_scope.

(** Different cells; not seen by lia. *)
Definition ne (a b : nat) : Prop := a <> b.
Ltac ne_tac := match goal with H : ne ?a ?b |- ?a <> ?b => exact H | H : ne ?b ?a |- ?a <> ?b => exact (fun e => H (eq_sym e)) end.
Ltac lt_tac ::= first [ne_tac | repeat first [rewrite next_push in * | rewrite next_set in *]; lia].
Ltac step2 := let r := now_of in let x := head r in
  first [match goal with HI : x = _ |- _ => rewrite HI end
        |lazymatch x with aget ?k (aset ?k' ?v ?d) => rewrite (aget_aset k k' v d) end
        |head_step x]; lengths; crunch; rewrite ?app_nil_r.
Ltac run2 := lengths; crunch; repeat step2.

Ltac lits := repeat match goal with
  | H : context [u ?s] |- _ => let r := eval compute in (u s) in change (u s) with r in H
  | |- context [u ?s] => let r := eval compute in (u s) in change (u s) with r
  end;
  repeat match goal with
  | H : context [(cons ?x ?a ++ ?b)%list] |- _ => change (cons x a ++ b)%list with (x :: (a ++ b))%list in H
  | H : context [(nil ++ ?b)%list] |- _ => change (nil ++ b)%list with b in H
  end.
Ltac pair_calls n := match goal with |- ?L = ?R =>
  match L with context [pcall ?E ?rt n ?f ?p ?k ?h2] => match R with context [pcall E rt n ?f' ?p' ?k' ?h2'] =>
    unify p p'; unify k k'; unify h2 h2';
    let X := fresh in set (X := pcall E rt n f p k h2); change (pcall E rt n f' p' k' h2') with X; clearbody X; destruct X as [[? ?]| |]; reflexivity end end end.
Section C.
  Variable E : pyenv.
  Variable rt : Pycep.Main.path -> result str.
  Definition self_is (h : heap) (ls : nat) (ln : bool) (li lc : nat) : Prop :=
    get h ls = Some (OInst "BicepToJson" [("add_line_numbers", VBool ln); ("imports", VRef li); ("child_resources", VRef lc)]).
  Definition pcr (n : nat) (ls : nat) (pname : str) (lp lcfg : nat) (h : heap) :=
    pcall E rt n "BicepToJson.process_child_resource" [VRef ls] [("parent_resource_name", VStr pname); ("parent_type_api_pair", VRef lp); ("config", VRef lcfg)] h.
  Lemma pcr_none n h ls pname lp lcfg d : get h lcfg = Some (ODict d) -> aget (u "__child_resource__") d = None -> pcr (S n) ls pname lp lcfg h = Got (VNone, h).
  Proof. intros Hc Hd. lits. unfold pcr. enter. run2. reflexivity. Qed.
  Lemma pcr_new n h ls ln li lc vc pname lp dp pty papi lcfg d lch dch vn nm lat dat vt ty lcc dcc : self_is h ls ln li lc -> get h lc = Some (OList vc) ->
    get h lp = Some (ODict dp) -> aget (u "type") dp = Some (VStr pty) -> aget (u "api_version") dp = Some (VStr papi) ->
    get h lcfg = Some (ODict d) -> aget (u "__child_resource__") d = Some (VRef lch) -> get h lch = Some (ODict dch) ->
    aget (u "__name__") dch = Some vn -> str_of E (set h lcfg (ODict (adel (u "__child_resource__") d))) vn = Some nm ->
    aget (u "__attrs__") dch = Some (VRef lat) -> get h lat = Some (ODict dat) -> 
    aget (u "type") dat = Some vt -> str_of E (set (set h lcfg (ODict (adel (u "__child_resource__") d))) lch (ODict (aset (u "__name__") (VStr (pname ++ u "__" ++ nm)%list) dch))) vt = Some ty ->
    aget (u "config") dat = Some (VRef lcc) -> get h lcc = Some (ODict dcc) -> aget (u "depends_on") dcc = None ->
    ls < next h -> lc < next h -> lp < next h -> lcfg < next h -> lch < next h -> lat < next h -> lcc < next h ->
    ne ls lc -> ne ls lp -> ne ls lcfg -> ne ls lch -> ne ls lat -> ne ls lcc -> ne lc lp -> ne lc lcfg -> ne lc lch -> ne lc lat -> ne lc lcc -> ne lp lcfg -> ne lp lch -> ne lp lat -> ne lp lcc -> ne lcfg lch -> ne lcfg lat -> ne lcfg lcc -> ne lch lat -> ne lch lcc -> ne lat lcc ->
    exists h2 lp2 lent ldo, pcr (S n) ls pname lp lcfg h = match pcr n ls (pname ++ u "__" ++ nm)%list lp2 lcc h2 with Got (_, h3) => Got (VNone, h3) | Exn e => Exn e | Stuck => Stuck end /\
      self_is h2 ls ln li lc /\ get h2 lc = Some (OList (vc ++ [VRef lent])) /\ get h2 lp2 = Some (ODict [(u "type", VStr (pty ++ u "/" ++ ty)%list); (u "api_version", VStr papi)]) /\
      get h2 lcfg = Some (ODict (adel (u "__child_resource__") d)) /\ get h2 lch = Some (ODict (aset (u "__name__") (VStr (pname ++ u "__" ++ nm)%list) dch)) /\
      get h2 lat = Some (ODict (aset (u "api_version") (VStr papi) (aset (u "type") (VStr (pty ++ u "/" ++ ty)%list) dat))) /\
      get h2 lcc = Some (ODict (aset (u "depends_on") (VRef ldo) dcc)) /\ get h2 ldo = Some (OList [VElem pname]) /\ get h2 lent = Some (ODict [(u "resources", VRef lch)]) /\
      next h <= ldo /\ lp2 < ldo /\ ldo < lent /\ next h <= lp2 /\ next h <= lent /\ lp2 < lent /\ lent < next h2 /\
      forall k, k < next h -> k <> lc -> k <> lcfg -> k <> lch -> k <> lat -> k <> lcc -> get h2 k = get h k.
  Proof.
    unfold self_is, pcr. intros. lits. eexists _, _, _, _. split.
    { enter. run2. pair_calls n. }
    repeat match goal with |- _ /\ _ => split end; try (cell; fail); try lt_tac; try (now rewrite ?next_set, ?next_push).
    intros k; intros; repeat first [rewrite get_set_other by (first [assumption | repeat first [rewrite next_set | rewrite next_push]; lia]) | rewrite get_push_old by (repeat first [rewrite next_set | rewrite next_push]; lia)]; reflexivity.
  Qed.
  Lemma pcr_old n h ls ln li lc vc pname lp dp pty papi lcfg d lch dch vn nm lat dat vt ty lcc dcc ldo vdo : self_is h ls ln li lc -> get h lc = Some (OList vc) ->
    get h lp = Some (ODict dp) -> aget (u "type") dp = Some (VStr pty) -> aget (u "api_version") dp = Some (VStr papi) ->
    get h lcfg = Some (ODict d) -> aget (u "__child_resource__") d = Some (VRef lch) -> get h lch = Some (ODict dch) ->
    aget (u "__name__") dch = Some vn -> str_of E (set h lcfg (ODict (adel (u "__child_resource__") d))) vn = Some nm ->
    aget (u "__attrs__") dch = Some (VRef lat) -> get h lat = Some (ODict dat) -> 
    aget (u "type") dat = Some vt -> str_of E (set (set h lcfg (ODict (adel (u "__child_resource__") d))) lch (ODict (aset (u "__name__") (VStr (pname ++ u "__" ++ nm)%list) dch))) vt = Some ty ->
    aget (u "config") dat = Some (VRef lcc) -> get h lcc = Some (ODict dcc) -> aget (u "depends_on") dcc = Some (VRef ldo) -> get h ldo = Some (OList vdo) ->
    ls < next h -> lc < next h -> lp < next h -> lcfg < next h -> lch < next h -> lat < next h -> lcc < next h -> ldo < next h ->
    ne ls lc -> ne ls lp -> ne ls lcfg -> ne ls lch -> ne ls lat -> ne ls lcc -> ne ls ldo -> ne lc lp -> ne lc lcfg -> ne lc lch -> ne lc lat -> ne lc lcc -> ne lc ldo -> ne lp lcfg -> ne lp lch -> ne lp lat -> ne lp lcc -> ne lp ldo -> ne lcfg lch -> ne lcfg lat -> ne lcfg lcc -> ne lcfg ldo -> ne lch lat -> ne lch lcc -> ne lch ldo -> ne lat lcc -> ne lat ldo -> ne lcc ldo ->
    exists h2 lp2 lent, pcr (S n) ls pname lp lcfg h = match pcr n ls (pname ++ u "__" ++ nm)%list lp2 lcc h2 with Got (_, h3) => Got (VNone, h3) | Exn e => Exn e | Stuck => Stuck end /\
      self_is h2 ls ln li lc /\ get h2 lc = Some (OList (vc ++ [VRef lent])) /\ get h2 lp2 = Some (ODict [(u "type", VStr (pty ++ u "/" ++ ty)%list); (u "api_version", VStr papi)]) /\
      get h2 lcfg = Some (ODict (adel (u "__child_resource__") d)) /\ get h2 lch = Some (ODict (aset (u "__name__") (VStr (pname ++ u "__" ++ nm)%list) dch)) /\
      get h2 lat = Some (ODict (aset (u "api_version") (VStr papi) (aset (u "type") (VStr (pty ++ u "/" ++ ty)%list) dat))) /\
      get h2 lcc = Some (ODict dcc) /\ get h2 ldo = Some (OList (vdo ++ [VElem pname])) /\ get h2 lent = Some (ODict [(u "resources", VRef lch)]) /\
      next h <= lp2 /\ next h <= lent /\ lp2 < lent /\ lent < next h2 /\
      forall k, k < next h -> k <> lc -> k <> lcfg -> k <> lch -> k <> lat -> k <> lcc -> k <> ldo -> get h2 k = get h k.
  Proof.
    unfold self_is, pcr. intros. lits. eexists _, _, _. split.
    { enter. run2. pair_calls n. }
    repeat match goal with |- _ /\ _ => split end; try (cell; fail); try lt_tac; try (now rewrite ?next_set, ?next_push).
    intros k; intros; repeat first [rewrite get_set_other by (first [assumption | repeat first [rewrite next_set | rewrite next_push]; lia]) | rewrite get_push_old by (repeat first [rewrite next_set | rewrite next_push]; lia)]; reflexivity.
  Qed.
  Lemma pcr_bad n h ls ln li lc vc pname lp dp pty papi lcfg d lch dch vn nm lat dat vt ty lcc dcc vdo pdo Gd : self_is h ls ln li lc -> get h lc = Some (OList vc) ->
    get h lp = Some (ODict dp) -> aget (u "type") dp = Some (VStr pty) -> aget (u "api_version") dp = Some (VStr papi) ->
    get h lcfg = Some (ODict d) -> aget (u "__child_resource__") d = Some (VRef lch) -> get h lch = Some (ODict dch) ->
    aget (u "__name__") dch = Some vn -> str_of E (set h lcfg (ODict (adel (u "__child_resource__") d))) vn = Some nm ->
    aget (u "__attrs__") dch = Some (VRef lat) -> get h lat = Some (ODict dat) -> 
    aget (u "type") dat = Some vt -> str_of E (set (set h lcfg (ODict (adel (u "__child_resource__") d))) lch (ODict (aset (u "__name__") (VStr (pname ++ u "__" ++ nm)%list) dch))) vt = Some ty ->
    aget (u "config") dat = Some (VRef lcc) -> get h lcc = Some (ODict dcc) -> aget (u "depends_on") dcc = Some vdo ->
    ls < next h -> lc < next h -> lp < next h -> lcfg < next h -> lch < next h -> lat < next h -> lcc < next h ->
    ne ls lc -> ne ls lp -> ne ls lcfg -> ne ls lch -> ne ls lat -> ne ls lcc -> ne lc lp -> ne lc lcfg -> ne lc lch -> ne lc lat -> ne lc lcc -> ne lp lcfg -> ne lp lch -> ne lp lat -> ne lp lcc -> ne lcfg lch -> ne lcfg lat -> ne lcfg lcc -> ne lch lat -> ne lch lcc -> ne lat lcc ->
    rep h vdo pdo Gd -> (forall x, pdo <> PList x) -> (forall x, vdo = VRef x -> x < next h /\ ne x lcfg /\ ne x lch /\ ne x lat /\ ne x lcc) ->
    pcr (S n) ls pname lp lcfg h = Exn EAttributeError.
  Proof.
    unfold self_is, pcr. intros. lits. enter. run2.
    all: try reflexivity.
    all: match goal with N : forall x, _ <> PList x |- _ => try (exfalso; eapply N; reflexivity) end.
    all: match goal with L : forall x, VRef _ = VRef x -> _ |- _ => destruct (L _ eq_refl) as (? & ? & ? & ? & ?); clear L; run2; reflexivity end.
  Qed.
End C.
