(** Derivations of abstract syntax, part 1: one derivation step, with the tree
    Lark shapes from it. *)
From Coq Require Import List Arith NArith PArith Bool String Lia.
From Verif Require Import Py.Str Py.Val Lark.Tree Lark.Ebnf Lark.Lalr Lark.BicepGrammar Lark.BicepTables Lark.Driver
     Lark.Shape Spec.Lexemes Spec.Sentences Spec.Spelling Spec.Numbering
     Proofs.LR Proofs.Refine Proofs.Complete Proofs.Lexable Proofs.Accept.
Import ListNotations.
Local Open Scope string_scope.

Definition leaf (t : tokn) : ptree := TTok {| ttype := u (tname t); tval := text t; tline := 0; tend := 0 |}.
Definition labelled (t : tokn) (y : yl) : Prop :=
  legal t /\ exists k, y = (class_of t, Leaf (tname t) k) /\ ttype k = u (tname t) /\ tval k = text t.
Definition labels : list tokn -> list yl -> Prop := Forall2 labelled.

(** The tokens [ts] have a derivation from [x] with tag [tag], shaped like [t]. *)
Definition gen (x : positive) (tag : N) (ts : list tokn) (t : ptree) : Prop :=
  forall w, labels ts w -> exists c, (forall m, N.testbit m tag = true -> rderiv (RN x m) c w) /\ same_tree (sv_tree (shape c)) t.
Lemma gen_eq x tag ts t ts' t' : gen x tag ts t -> ts = ts' -> t = t' -> gen x tag ts' t'.
Proof. intros H -> ->. exact H. Qed.

Inductive part := PT (t : tokn) | PN (x : positive) (tag : N) (ts : list tokn) (t : ptree).
Definition part_tokens (p : part) : list tokn := match p with PT t => [t] | PN _ _ ts _ => ts end.
Definition part_tree (p : part) : ptree := match p with PT t => leaf t | PN _ _ _ t => t end.
Fixpoint parts_fit (rhs : list rsym) (ps : list part) : Prop :=
  match rhs, ps with
  | [], [] => True
  | RT c :: rhs', PT t :: ps' => class_of t = c /\ parts_fit rhs' ps'
  | RN x m :: rhs', PN x' tag ts t :: ps' => x' = x /\ N.testbit m tag = true /\ gen x' tag ts t /\ parts_fit rhs' ps'
  | _, _ => False
  end.

(** Selecting children, on trees alone. *)
Definition inner (t : ptree) : list ptree := match t with TNode _ _ cs => cs | _ => [] end.
Fixpoint choose (raw : list rawsym) (vs : list ptree) : list ptree :=
  match raw with
  | [] => []
  | Hole :: raw' => TNone :: choose raw' vs
  | Ebnf.Sym _ sl :: raw' =>
      match vs with
      | [] => []
      | v :: vs' =>
          match sl with
          | Keep => v :: choose raw' vs'
          | Drop => choose raw' vs'
          | Splice => (inner v ++ choose raw' vs')%list
          end
      end
  end.
Definition make (single : bool) (l : label) (cs : list ptree) : ptree :=
  match single, cs with true, [c] => c | _, _ => TNode l None cs end.
Lemma select_choose raw : forall vs, select raw vs = choose raw (map sv_tree vs).
Proof.
  induction raw as [|[|s sl] raw IH]; intros vs; cbn [select choose]; [reflexivity|rewrite IH; reflexivity|].
  destruct vs as [|v vs]; cbn [map]; [reflexivity|]. destruct sl; rewrite IH; reflexivity.
Qed.
Lemma choose_same raw : forall vs vs', Forall2 same_tree vs vs' -> Forall2 same_tree (choose raw vs) (choose raw vs').
Proof.
  induction raw as [|[|s sl] raw IH]; intros vs vs' H; cbn [choose]; [constructor|constructor; [constructor|apply IH; exact H]|].
  inversion H as [|v v' ws ws' Hv Hws]; subst; [constructor|]. specialize (IH _ _ Hws). destruct sl; [constructor; assumption|assumption|].
  apply Forall2_app; [|exact IH]. inversion Hv; subst; cbn [inner]; [constructor|constructor|assumption].
Qed.
Definition node_info (p : prod) : bool * label :=
  (match p_expand1 p, p_alias p with true, None => true | _, _ => false end, prod_label p).
Lemma build_make p cs : build_node p cs = make (fst (node_info p)) (snd (node_info p)) cs.
Proof. unfold build_node, make, node_info. cbn [fst snd]. destruct (p_expand1 p), (p_alias p), cs as [|c [|d cs]]; reflexivity. Qed.
Lemma make_same b l cs cs' : Forall2 same_tree cs cs' -> same_tree (make b l cs) (make b l cs').
Proof.
  intros H. unfold make. destruct b; [|constructor; exact H].
  inversion H as [|c c' r r' Hc Hr]; subst; [constructor; exact H|]. inversion Hr; subst; [exact Hc|constructor; exact H].
Qed.
Lemma propagate_same raw t t' : same_tree t t' -> same_tree (sv_tree (propagate raw t)) t'.
Proof. intros H. inversion H; subst; cbn [propagate sv_tree]; constructor; assumption. Qed.

Definition info (i : positive) : option (positive * N * list rsym * list rawsym * (bool * label)) :=
  match rget i with
  | Some r => let p := the_prod (rp_p r) in Some (rp_lhs r, rp_tag r, rp_rhs r, p_raw p, node_info p)
  | None => None
  end.
Lemma labels_app ts ts' w : labels (ts ++ ts') w -> exists a b, w = (a ++ b)%list /\ labels ts a /\ labels ts' b.
Proof. intros H. apply Forall2_app_inv_l in H as (a & b & H1 & H2 & ->). eauto. Qed.
Lemma parts_derive : forall rhs ps, parts_fit rhs ps -> forall w, labels (flat_map part_tokens ps) w ->
  exists cs, rderivs rhs cs w /\ Forall2 same_tree (map (fun c => sv_tree (shape c)) cs) (map part_tree ps).
Proof.
  induction rhs as [|s rhs IH]; intros ps H w Hw.
  - destruct ps; [|contradiction]. inversion Hw; subst. exists []. split; constructor.
  - destruct s as [c|x m], ps as [|[t|x' tag ts tr] ps]; cbn [parts_fit] in H; try contradiction.
    + destruct H as [Hc H]. cbn [flat_map part_tokens app] in Hw. inversion Hw as [|? y ? w' Hy Hw']; subst.
      destruct Hy as (Hl & k & -> & Hk1 & Hk2). destruct (IH ps H w' Hw') as (cs & Hd & Hs).
      exists (Leaf (tname t) k :: cs). split.
      * change ((class_of t, Leaf (tname t) k) :: w') with ([(class_of t, Leaf (tname t) k)] ++ w')%list. constructor; [|exact Hd].
        constructor; [symmetry; exact (class_term t Hl)|exact (proj2 (rep_class t Hl))].
      * cbn [map shape sv_tree part_tree]. constructor; [|exact Hs]. constructor; [exact Hk1|exact Hk2].
    + destruct H as (-> & Hm & Hg & H). cbn [flat_map part_tokens] in Hw. apply labels_app in Hw as (a & b & -> & Ha & Hb).
      destruct (Hg a Ha) as (c & Hc & Hcs). destruct (IH ps H b Hb) as (cs & Hd & Hs). exists (c :: cs). split.
      * constructor; [exact (Hc m Hm)|exact Hd].
      * cbn [map part_tree]. constructor; assumption.
Qed.
Theorem rule i x tag rhs raw b l ps : info i = Some (x, tag, rhs, raw, (b, l)) -> parts_fit rhs ps ->
  gen x tag (flat_map part_tokens ps) (make b l (choose raw (map part_tree ps))).
Proof.
  intros Hi Hp w Hw. unfold info in Hi. destruct (rget i) as [r|] eqn:Hr; [|discriminate]. cbv zeta in Hi. assert (Hn : node_info (the_prod (rp_p r)) = (b, l)) by congruence. assert (rp_lhs r = x /\ rp_tag r = tag /\ rp_rhs r = rhs /\ p_raw (the_prod (rp_p r)) = raw) as (<- & <- & <- & <-) by (repeat split; congruence).
  destruct (parts_derive _ _ Hp w Hw) as (cs & Hd & Hs). exists (Br (rp_p r) cs). split.
  - intros m Hm. apply (rd_node i r m cs w Hr Hm Hd).
  - cbn [shape]. apply propagate_same. rewrite build_make, Hn. cbn [fst snd]. apply make_same. rewrite select_choose, map_map. apply choose_same. exact Hs.
Qed.

Ltac get_info := vm_compute; reflexivity.
(** Apply refined production [i] to the parts [ps]; what remains are the parts. *)
Ltac by_rule i ps :=
  eapply gen_eq; [eapply (rule i _ _ _ _ _ _ ps); [get_info|cbn [parts_fit]; repeat split]| |].
