(** Running the functions of pycep by computation, with values known by what they
    stand for only. *)
From Coq Require Import List NArith ZArith Bool String Lia.
From Verif Require Import Py.Str Py.Val Python.Syntax Python.Eval Python.Program Proofs.Base Proofs.PyHeap.
Import ListNotations.
Local Open Scope string_scope.

(** [{key(i): v_i, key(i + 1): v_(i+1), ...}] *)
Fixpoint vnum (key : Z -> str) (i : Z) (vs : list val) : list (str * val) :=
  match vs with [] => [] | v :: r => (key i, v) :: vnum key (i + 1)%Z r end.
(** The functions of the program: one statement at a time. *)
Fixpoint vnumo (key : Z -> str) (g : val -> pyval -> option val) (i : Z) (vs : list val) (ps : list pyval) : list (str * val) :=
  match vs, ps with
  | v :: vs', p :: ps' => match g v p with Some w => (key i, w) :: vnumo key g (i + 1) vs' ps' | None => vnumo key g (i + 1) vs' ps' end
  | _, _ => []
  end.
Fixpoint vmap (g : val -> pyval -> val) (vs : list val) (ps : list pyval) : list val :=
  match vs, ps with v :: vs', p :: ps' => g v p :: vmap g vs' ps' | _, _ => [] end.
Section Steps.
  Variables (E : pyenv) (rt : Pycep.Main.path -> result str) (n : nat).
  Definition peval : expr -> state -> out (val * state) := eval E grammar_file rt (lark_of E) pycep (pcall E rt n).
  Definition pevals := evals peval.
  Definition pfmt := eval_fmt E peval.
  Definition pdict := eval_dict peval.
  Definition popt := eval_opt peval.
  Definition ptarget := bind_target peval.
  Definition ppass : list arg -> state -> out (list val * list (string * val) * state) :=
    fix pass (l : list arg) (s : state) : out (list val * list (string * val) * state) :=
      match l with
      | [] => Got ([], [], s)
      | a :: r =>
          match a with
          | APos e => let! (v, s1) := peval e s in let! (vs, kw, s2) := pass r s1 in Got (v :: vs, kw, s2)
          | AStar e => let! (v, s1) := peval e s in let! l := items (snd s1) v in
                       let! (vs, kw, s2) := pass r s1 in Got ((l ++ vs)%list, kw, s2)
          | AKw x e => let! (v, s1) := peval e s in let! (vs, kw, s2) := pass r s1 in Got (vs, (x, v) :: kw, s2)
          end
      end.
  Definition pglobal := global pycep (pcall E rt n).
  Definition pvalue := call_value E pycep (pcall E rt n).
  Definition pmethod := call_method grammar_file rt (lark_of E) pycep (pcall E rt n).
  Definition peval1 (e : expr) (s : state) : out (val * state) :=
    match e with
    | EName x =>
        match assoc x (fst s) with
        | Some v => Got (v, s)
        | None => let! (v, h) := pglobal x (snd s) in Got (v, (fst s, h))
        end
    | ENum n => Got (VInt (Z.of_N n), s)
    | EStr t => Got (VStr (u t), s)
    | EEllipsis => Stuck
    | EFmt l => let! (t, s1) := pfmt l s in Got (VStr t, s1)
    | EAttr a x => let! (v, s1) := peval a s in let! w := attr (snd s1) v x in Got (w, s1)
    | ESub a i => let! (v, s1) := peval a s in let! (k, s2) := peval i s1 in let! w := subscript (snd s2) v k in Got (w, s2)
    | ESlice a lo hi =>
        let! (v, s1) := peval a s in
        let! (x, s2) := popt lo s1 in let! (y, s3) := popt hi s2 in
        let! lo' := bound x in let! hi' := bound y in
        match v with
        | VStr t => Got (VStr (slice t lo' hi'), s3)
        | VRef l => match get (snd s3) l with
                    | Some (OList vs) => Got (VRef (next (snd s3)), (fst s3, push (snd s3) (OList (slice vs lo' hi'))))
                    | _ => Stuck
                    end
        | _ => Stuck
        end
    | ECall f args =>
        match f with
        | EAttr o m =>
            if existsb (String.eqb (name_of o)) namespaces then
              let! (vs, kw, s1) := ppass args s in
              let! (v, h) := pvalue (VFun (name_of o ++ "." ++ m)) vs kw (snd s1) in Got (v, (fst s1, h))
            else
              let! (v, s1) := peval o s in let! (vs, kw, s2) := ppass args s1 in
              let! (w, h) := pmethod v m vs kw (snd s2) in Got (w, (fst s2, h))
        | _ =>
            let! (v, s1) := peval f s in let! (vs, kw, s2) := ppass args s1 in
            let! (w, h) := pvalue v vs kw (snd s2) in Got (w, (fst s2, h))
        end
    | EDict l => let! (d, s1) := pdict l [] s in Got (VRef (next (snd s1)), (fst s1, push (snd s1) (ODict d)))
    | EList l | ESet l => let! (vs, s1) := pevals l s in Got (VRef (next (snd s1)), (fst s1, push (snd s1) (OList vs)))
    | ETup l => let! (vs, s1) := pevals l s in Got (VTup vs, s1)
    | EStar _ => Stuck
    | EBin o a b =>
        let! (x, s1) := peval a s in let! (y, s2) := peval b s1 in
        let! (v, h) := binary_op o x y (snd s2) in Got (v, (fst s2, h))
    | ECmp o a b =>
        let! (x, s1) := peval a s in let! (y, s2) := peval b s1 in
        let! r := some (compare o x y (snd s2)) in Got (VBool r, s2)
    | ENot a => let! (v, s1) := peval a s in let! b := some (truth (snd s1) v) in Got (VBool (negb b), s1)
    | ENeg a => let! (v, s1) := peval a s in match v with VInt z => Got (VInt (- z), s1) | _ => Stuck end
    | EAnd a b => let! (v, s1) := peval a s in let! t := some (truth (snd s1) v) in if t then peval b s1 else Got (v, s1)
    | EOr a b => let! (v, s1) := peval a s in let! t := some (truth (snd s1) v) in if t then Got (v, s1) else peval b s1
    | ECond c a b => let! (v, s1) := peval c s in let! t := some (truth (snd s1) v) in if t then peval a s1 else peval b s1
    | EWalrus x a => let! (v, s1) := peval a s in Got (v, ((x, v) :: fst s1, snd s1))
    | EListComp elt t i c =>
        let! (v, s1) := peval i s in let! l := items (snd s1) v in
        let! (vs, s2) :=
          comp_list (fun x s => let! sa := ptarget t x s in
                                let! (w, sb) := popt c sa in
                                let! ok := (match w with None => Got true | Some w => some (truth (snd sb) w) end) in
                                if ok then let! (r, sc) := peval elt sb in Got (Some r, sc) else Got (None, sb)) l s1 in
        Got (VRef (next (snd s2)), (fst s1, push (snd s2) (OList vs)))
    | EDictComp k e t i c =>
        let! (v, s1) := peval i s in let! l := items (snd s1) v in
        let! (d, s2) :=
          comp_dict (fun x s => let! sa := ptarget t x s in
                                let! (w, sb) := popt c sa in
                                let! ok := (match w with None => Got true | Some w => some (truth (snd sb) w) end) in
                                if ok then let! (kv, sc) := peval k sb in let! k' := some (text_of kv) in
                                           let! (r, sd) := peval e sc in Got (Some (k', r), sd)
                                else Got (None, sb)) l [] s1 in
        Got (VRef (next (snd s2)), (fst s1, push (snd s2) (ODict d)))
    end.
  Lemma peval_1 e s : peval e s = peval1 e s.
  Proof. destruct e; reflexivity. Qed.
  Definition pevals1 l s := match l with
      | [] => Got ([], s)
      | e :: r => let! (v, s1) := peval e s in let! (vs, s2) := pevals r s1 in Got (v :: vs, s2)
      end.
  Lemma pevals_1 l s : pevals l s = pevals1 l s. Proof. destruct l; reflexivity. Qed.
  Definition pfmt1 (l : list (string + expr)) s : out (str * state) := match l with
      | [] => Got ([], s)
      | inl t :: r => let! (x, s1) := pfmt r s in Got ((u t ++ x)%list, s1)
      | inr e :: r =>
          let! (v, s1) := peval e s in let! t := some (str_of E (snd s1) v) in
          let! (x, s2) := pfmt r s1 in Got ((t ++ x)%list, s2)
      end.
  Lemma pfmt_1 l s : pfmt l s = pfmt1 l s. Proof. destruct l as [|[|]]; reflexivity. Qed.
  Definition pdict1 (l : list (option expr * expr)) d s : out (list (str * val) * state) := match l with
      | [] => Got (d, s)
      | (Some k, e) :: r =>
          let! (kv, s1) := peval k s in let! k' := some (text_of kv) in
          let! (v, s2) := peval e s1 in pdict r (aset k' v d) s2
      | (None, e) :: r =>
          let! (v, s1) := peval e s in
          match v with
          | VRef l' => match get (snd s1) l' with
                       | Some (ODict d') => pdict r (merge d d') s1
                       | _ => Stuck
                       end
          | _ => Stuck
          end
      end.
  Lemma pdict_1 l d s : pdict l d s = pdict1 l d s. Proof. destruct l as [|[[|] ?]]; reflexivity. Qed.
  Definition popt1 (o : option expr) s : out (option val * state) :=
    match o with None => Got (None, s) | Some e => let! (v, s1) := peval e s in Got (Some v, s1) end.
  Lemma popt_1 o s : popt o s = popt1 o s. Proof. destruct o; reflexivity. Qed.
  Definition ptarget1 (t : expr) (v : val) (s : state) : out state :=
      match t with
      | EName x => Got ((x, v) :: fst s, snd s)
      | ETup ts => let! l := items (snd s) v in unpack ts l s
      | ESub e i =>
          let! (o, s1) := peval e s in let! (k, s2) := peval i s1 in
          let! h := store (snd s2) o k v in Got (fst s2, h)
      | EAttr e x =>
          let! (o, s1) := peval e s in
          match o with
          | VRef l => match get (snd s1) l with
                      | Some (OInst c attrs) => Got (fst s1, set (snd s1) l (OInst c (assoc_set x v attrs)))
                      | _ => Stuck
                      end
          | _ => Stuck
          end
      | _ => Stuck
      end.
  Lemma ptarget_1 t v s : ptarget t v s = ptarget1 t v s. Proof. destruct t; reflexivity. Qed.
  Definition ppass1 (l : list arg) (s : state) : out (list val * list (string * val) * state) :=
      match l with
      | [] => Got ([], [], s)
      | a :: r =>
          match a with
          | APos e => let! (v, s1) := peval e s in let! (vs, kw, s2) := ppass r s1 in Got (v :: vs, kw, s2)
          | AStar e => let! (v, s1) := peval e s in let! l := items (snd s1) v in
                       let! (vs, kw, s2) := ppass r s1 in Got ((l ++ vs)%list, kw, s2)
          | AKw x e => let! (v, s1) := peval e s in let! (vs, kw, s2) := ppass r s1 in Got (vs, (x, v) :: kw, s2)
          end
      end.
  Lemma ppass_1 l s : ppass l s = ppass1 l s. Proof. destruct l; reflexivity. Qed.
  Definition pexec : stmt -> state -> out (flow * state) := exec E grammar_file rt (lark_of E) pycep (pcall E rt n).
  Definition pblock : list stmt -> state -> out (flow * state) := block pexec.
  Definition pexec1 (c : stmt) (s : state) : out (flow * state) :=
    match c with
    | SExpr e => let! (_, s1) := peval e s in Got (Next, s1)
    | SAssign t e => let! (v, s1) := peval e s in let! s2 := ptarget t v s1 in Got (Next, s2)
    | SIf e a b =>
        let! (v, s1) := peval e s in let! t := some (truth (snd s1) v) in
        if t then pblock a s1 else pblock b s1
    | SFor t e b =>
        let! (v, s1) := peval e s in let! l := items (snd s1) v in
        for_loop (fun x s => let! sa := ptarget t x s in pblock b sa) l s1
    | SReturn e => let! (v, s1) := peval e s in Got (Ret v, s1)
    | SRaise (ECall (EName x) [APos e]) =>
        let! (v, s1) := peval e s in
        match v, x with
        | VStr t, "ValueError" => Exn (EValueError t)
        | VStr t, "TypeError" => Exn (ETypeError t)
        | _, _ => Stuck
        end
    | SRaise _ => Stuck
    | SContinue => Got (Cont, s)
    | SPass => Got (Next, s)
    | SImport | SDef _ _ _ _ | SClass _ _ _ => Stuck
    end.
  Lemma pblock_cons c r s : pblock (c :: r) s = let! (w, s1) := pexec1 c s in match w with Next => pblock r s1 | _ => Got (w, s1) end.
  Proof. destruct c; reflexivity. Qed.
  Lemma pblock_nil s : pblock [] s = Got (Next, s).
  Proof. reflexivity. Qed.
  Definition pbind := bind_params E grammar_file rt (lark_of E) pycep (pcall E rt n).
  Lemma pcall_fun f m ps body pos kw h : entry_of pycep f = Some (Function m ps body) ->
    pcall E rt (S n) f pos kw h =
      let! (env, h1) := pbind ps pos kw h in
      let! (w, s) := pblock body (env, h1) in
      match w with Ret v => Got (v, snd s) | Next => Got (VNone, snd s) | Cont => Stuck end.
  Proof. intros H. unfold pcall. cbn [call]. rewrite H. reflexivity. Qed.
  Lemma pcall_const f e pos kw h : entry_of pycep f = Some (Constant e) ->
    pcall E rt (S n) f pos kw h = let! (v, s) := peval e ([], h) in Got (v, snd s).
  Proof. intros H. unfold pcall. cbn [call]. rewrite H. reflexivity. Qed.
  Lemma pcall_class f pos kw h : entry_of pycep f = Some Class ->
    pcall E rt (S n) f pos kw h =
      let! (_, h1) := pcall E rt n (f ++ ".__init__") (VRef (next h) :: pos) kw (push h (OInst f [])) in Got (VRef (next h), h1).
  Proof. intros H. unfold pcall. cbn [call]. rewrite H. reflexivity. Qed.
End Steps.

Ltac look f := match eval vm_compute in (entry_of pycep f) with Some ?e => constr:(e) end.
Ltac enter_at E rt n f pos kw h :=
  let e := look f in
  lazymatch e with
  | Function ?m ?ps ?b => rewrite (pcall_fun E rt n f m ps b pos kw h) by (vm_cast_no_check (@eq_refl _ (Some e)))
  | Constant ?x => rewrite (pcall_const E rt n f x pos kw h) by (vm_cast_no_check (@eq_refl _ (Some e)))
  | Class => rewrite (pcall_class E rt n f pos kw h) by (vm_cast_no_check (@eq_refl _ (Some e)))
  end.
Ltac enter :=
  match goal with |- context [pcall ?E ?rt (S ?n) ?f ?pos ?kw ?h] => enter_at E rt n f pos kw h end.
Ltac crunch0 := cbv -[next push get set truth str_of readback slice aget aset adel merge comp_list comp_dict for_loop pcall pycep entry_of grammar_file lark_of
   equal to_int regex_match zip_strict dict_of enum vnum vnumo vmap pblock peval pevals pfmt pdict popt ptarget ppass pglobal pvalue pmethod attr subscript store binary_op compare items unpack instance_of contains
   builtin method call_method
   gives own ext fits below cnt lt
   py_str truthy py_int numbered dec dec_Z Z.add Z.mul Z.sub Z.opp Z.of_nat Z.of_N slice_1_m1 slice_n_mn removelast last app firstn skipn rev List.length Nat.ltb Z.leb
   str_eqb starts_with remove_prefix remove_suffix split_char join count].
(** Dicts whose keys are known *)
Ltac dict_eval x := eval cbv beta iota zeta delta [equal text_of aset aget adel dict_of merge fold_left str_eqb N.eqb Pos.eqb fst snd andb] in x.
Ltac asets := repeat match goal with
  | |- context [aset ?k ?v ?d] => lazymatch d with nil => idtac | cons _ _ => idtac end; let r := dict_eval (aset k v d) in lazymatch r with nil => idtac | cons _ _ => idtac end; change (aset k v d) with r
  end.
Lemma slice_ends (s : str) : slice s (Some 1%Z) (Some (-1)%Z) = slice_1_m1 s.
Proof.
  unfold slice, index, slice_1_m1. cbn [Z.ltb Z.compare]. change (Z.to_nat (- -1)) with 1. change (Z.to_nat 1) with 1.
  destruct s as [|x s]; [reflexivity|]. cbn [List.length]. rewrite Nat.min_r by lia. cbn [skipn tl].
  rewrite removelast_firstn_len. f_equal. lia.
Qed.
Lemma slice_mid (s : str) : slice s (Some 3%Z) (Some (-3)%Z) = slice_n_mn 3 s.
Proof.
  unfold slice, index, slice_n_mn. cbn [Z.ltb Z.compare]. change (Z.to_nat (- -3)) with 3. change (Z.to_nat 3) with 3.
  destruct (Nat.le_gt_cases 3 (List.length s)) as [H|H].
  - rewrite Nat.min_r by exact H. f_equal. lia.
  - rewrite Nat.min_l by lia. rewrite (skipn_all2 s (n := 3)) by lia. rewrite (skipn_all2 s (n := List.length s)) by lia. now rewrite !firstn_nil.
Qed.
Lemma slice_from {A} (l : list A) k : slice l (Some (Z.of_nat k)) None = skipn k l.
Proof.
  unfold slice, index. replace (Z.of_nat k <? 0)%Z with false by (symmetry; apply Z.ltb_ge; lia). rewrite Nat2Z.id.
  destruct (Nat.le_gt_cases k (List.length l)) as [H|H].
  - rewrite Nat.min_r by exact H. apply firstn_all2. rewrite skipn_length. lia.
  - rewrite Nat.min_l by lia. rewrite Nat.sub_diag, (skipn_all2 l (n := k)) by lia. reflexivity.
Qed.
Lemma slice_from3 (s : str) : slice s (Some 3%Z) None = skipn 3 s.
Proof. exact (slice_from s 3). Qed.
Ltac truths := repeat match goal with
  | |- context [(cons ?x ?a ++ ?b)%list] => change (cons x a ++ b)%list with (x :: (a ++ b))%list
  | |- context [(nil ++ ?b)%list] => change (nil ++ b)%list with b
  | H : aget ?k ?q = _ |- context [aget ?k ?q] => rewrite H; crunch0
  | |- context [@rev expr ?l] => let r := eval cbv beta iota delta [rev app] in (@rev expr l) in change (@rev expr l) with r; crunch0
  | |- context [@rev ?A nil] => change (@rev A nil) with (@nil A); crunch0
  | |- context [truthy PNone] => change (truthy PNone) with false; crunch0
  | |- context [Z.opp (Z.pos ?p)] => change (Z.opp (Z.pos p)) with (Z.neg p); crunch0
  | |- context [Z.of_N (N.pos ?p)] => change (Z.of_N (N.pos p)) with (Z.pos p); crunch0
  | |- context [Z.of_N 0] => change (Z.of_N 0) with 0%Z; crunch0
  | |- context [slice ?s (Some 1%Z) (Some (-1)%Z)] => rewrite (slice_ends s)
  | |- context [slice ?s (Some 3%Z) None] => rewrite (slice_from3 s)
  | |- context [slice ?s (Some 3%Z) (Some (-3)%Z)] => rewrite (slice_mid s)
  | |- context [aget ?k []] => change (aget k []) with (@None pyval); crunch0
  | |- context [truthy (PBool ?b)] => change (truthy (PBool b)) with b; crunch0
  end.
Ltac crunch := crunch0; asets; truths.
(** Cells *)
Ltac lt_tac := repeat first [rewrite next_push in * | rewrite next_set in *]; lia.
Ltac cell :=
  match goal with
  | |- get (push ?h ?o) ?l = _ => first [ rewrite (get_push_new' h o l) by lt_tac; reflexivity | rewrite (get_push_old h o l) by lt_tac; cell ]
  | |- get (set ?h ?l ?o) ?k = _ => first [ rewrite (get_set_same h l o); reflexivity | rewrite (get_set_other h l k o) by lt_tac; cell ]
  | K : forall k, k <> _ -> get ?h k = get _ k |- get ?h ?l = _ => rewrite (K l) by lt_tac; cell
  | |- get _ _ = _ => eassumption
  end.
Ltac cells :=
  repeat match goal with
  | |- context [get ?h ?l] => let H := fresh in eassert (H : get h l = Some _) by cell; rewrite H; clear H
  end.
Ltac ext_tac := repeat first [ apply ext_refl | assumption | apply ext_push' | apply ext_set; [|lt_tac] ].
Lemma below_sub h F G : own h F -> (forall l, cnt G l <= cnt F l) -> below h G.
Proof. intros H S l Hl. apply (own_below h F H). specialize (S l). lia. Qed.
Ltac cnt_tac :=
  let l := fresh "l" in
  intros l;
  repeat match goal with H : own _ _ |- _ => specialize (H l) end;
  repeat match goal with H : forall l : nat, _ <= _ |- _ => specialize (H l) end;
  repeat first [rewrite next_push in * | rewrite next_set in *]; repeat (progress (rewrite ?cnt_app in *; cbn [cnt] in *));
  repeat match goal with
  | |- context [Nat.eqb ?a ?b] => destruct (Nat.eqb_spec a b)
  | |- context [Nat.ltb ?a ?b] => destruct (Nat.ltb_spec a b)
  | H : context [Nat.eqb ?a ?b] |- _ => destruct (Nat.eqb_spec a b)
  | H : context [Nat.ltb ?a ?b] |- _ => destruct (Nat.ltb_spec a b)
  end; lia.
Ltac below_tac := match goal with O : own ?h _ |- below ?h _ => solve [eapply below_sub; [exact O|cnt_tac]] end.
Ltac own_tac := match goal with O : own ?h _ |- own ?h _ => solve [eapply own_sub; [exact O|cnt_tac]] end.
Ltac rep_tac :=
  repeat match goal with
  | |- rep _ VNone _ _ => constructor
  | |- rep _ (VBool _) _ _ => constructor
  | |- rep _ (VInt _) _ _ => constructor
  | |- rep _ (VStr _) _ _ => constructor
  | |- rep _ (VElem _) _ _ => constructor
  | |- rep _ (VTok _) _ _ => constructor
  | |- rep _ (VTup _) _ _ => constructor
  | |- rep _ (VRef _) (PDict (_ :: _)) _ => eapply r_dict; [cell|]
  | |- rep _ (VRef _) (PDict []) _ => eapply r_dict; [cell|]
  | |- rep _ (VRef _) (PDict (dict_of _)) _ => eapply r_dict; [cell|]
  | |- rep _ (VRef _) (PDict (merge _ _)) _ => eapply r_dict; [cell|]
  | |- rep _ (VRef _) (PDict (aset _ _ _)) _ => eapply r_dict; [cell|]
  | |- rep _ (VRef _) (PList (_ :: _)) _ => eapply r_list; [cell|]
  | |- rep _ (VRef _) (PList []) _ => eapply r_list; [cell|]
  | H : rep ?h ?v ?p ?F |- rep _ ?v ?p _ => apply (rep_ext h _ v p F); [below_tac|ext_tac|exact H]
  | H : repd ?h ?v ?p ?F |- repd _ ?v ?p _ => apply (repd_ext h _ v p F); [below_tac|ext_tac|exact H]
  | H : reps ?h ?v ?p ?F |- reps _ ?v ?p _ => apply (reps_ext h _ v p F); [below_tac|ext_tac|exact H]
  | |- rep _ (VRef _) (PList _) _ => eapply r_list; [cell|]
  | |- rep _ (VRef _) (PDict _) _ => eapply r_dict; [cell|]
  | |- reps _ [] _ _ => constructor
  | |- reps _ (_ :: _) _ _ => constructor
  | |- repd _ [] _ _ => constructor
  | |- repd _ (_ :: _) _ _ => constructor
  end.
Ltac done_tac :=
  match goal with
  | |- gives _ _ (Ok _) (Got _) => do 3 eexists; split; [reflexivity|]; split; [rep_tac|]; split; [ext_tac|cnt_tac]
  | |- gives _ _ (Err _) (Exn _) => rewrite ?app_nil_r; reflexivity
  end.
(** Argument lists, by what they stand for. *)
Lemma reps_nil h ps F : reps h [] ps F -> ps = [] /\ F = [].
Proof. inversion 1. auto. Qed.
Lemma reps_cons h v vs ps F : reps h (v :: vs) ps F -> exists p G qs H, ps = p :: qs /\ F = (G ++ H)%list /\ rep h v p G /\ reps h vs qs H.
Proof. inversion 1; subst. eauto 10. Qed.
Lemma own_split h (F G : list nat) : own h (F ++ G)%list -> below h F /\ own h F /\ own h G.
Proof. intros H. split; [|split]; eauto using own_app_l, own_app_r, own_below. Qed.
Ltac arg vs := destruct vs as [|? vs];
  match goal with
  | R : reps _ [] _ _ |- _ => apply reps_nil in R as [-> ->]
  | R : reps _ (_ :: _) _ _, O : own _ _ |- _ =>
      let p := fresh "p" in let G := fresh "G" in let qs := fresh "qs" in let H := fresh "H" in let R1 := fresh "R" in let R2 := fresh "R" in
      let B := fresh "B" in let O1 := fresh "O" in
      apply reps_cons in R as (p & G & qs & H & -> & -> & R1 & R2)
  end.

(** What is said of a function with a name and a list of arguments. *)
Definition fun_like (E : pyenv) (rt : Pycep.Main.path -> result str) (f : string) (m : str -> list pyval -> result pyval) : Prop :=
  forall n h l vs ps F name, get h l = Some (OList vs) -> reps h vs ps F -> own h (l :: F) ->
  gives h (l :: F) (m name ps) (pcall E rt (S n) f [VStr name; VRef l] [] h).

(** ** Numbered keys *)
Lemma comp_dict_enum (f : val -> state -> out (option (str * val) * state)) (key : Z -> str) :
  (forall i v env h, exists env', f (VTup [VInt i; v]) (env, h) = Got (Some (key i, v), (env', h))) ->
  forall vs i d env h, exists env', comp_dict f (enum i vs) d (env, h) = Got (merge d (vnum key i vs), (env', h)).
Proof.
  intros Hf. induction vs as [|v vs IH]; intros i d env h; cbn [enum comp_dict vnum]; [now exists env|].
  destruct (Hf i v env h) as [env1 ->]. destruct (IH (i + 1)%Z (aset (key i) v d) env1 h) as [env2 ->]. now exists env2.
Qed.
Lemma repd_vnum h key pre : forall vs ps F i n, reps h vs ps F -> (forall j, key (i + Z.of_N j)%Z = (pre ++ dec (n + j))%list) ->
  repd h (vnum key i vs) (numbered pre n ps) F.
Proof.
  induction vs as [|v vs IH]; intros ps F i n R K; inversion R; subst; cbn [vnum numbered]; [constructor|].
  assert (K0 := K 0%N). rewrite Z.add_0_r, N.add_0_r in K0. rewrite K0. constructor; [assumption|]. apply IH; [assumption|].
  intros j. replace (i + 1 + Z.of_N j)%Z with (i + Z.of_N (N.succ j))%Z by lia. rewrite K. f_equal. f_equal. lia.
Qed.
Lemma str_of_int E h z : str_of E h (VInt z) = Some (dec_Z z).
Proof. unfold str_of. now destruct (next h). Qed.
Lemma str_of_str E h s : str_of E h (VStr s) = Some s.
Proof. unfold str_of. now destruct (next h). Qed.
Lemma dec_Z_of_N z n : z = Z.of_N n -> dec_Z z = dec n.
Proof. intros ->. now destruct n. Qed.

Lemma truth_list h l vs : get h l = Some (OList vs) -> truth h (VRef l) = Some (match vs with [] => false | _ => true end).
Proof. intros H. cbn. now rewrite H. Qed.
Ltac truth_step h v :=
  match goal with
  | |- _ => lazymatch v with VNone => change (truth h v) with (Some false) | VBool ?b => change (truth h v) with (Some b) | VMatch _ => change (truth h v) with (Some true) end
  | R : rep ?h0 v ?p ?F |- _ =>
      let T := fresh "T" in
      assert (T : truth h v = Some (truthy p)) by (eapply truth_rep; apply (rep_ext h0 h v p F); [below_tac|ext_tac|exact R]);
      rewrite T; clear T; first [match goal with H : truthy p = _ |- _ => rewrite H end | destruct (truthy p) eqn:?]
  | |- _ => lazymatch v with VRef ?l =>
      let T := fresh "T" in
      eassert (T : truth h (VRef l) = Some _) by (eapply truth_list; cell); rewrite T; clear T end
  end.
Lemma equal_len n k : (0 <= k)%Z -> equal (VInt (Z.of_nat n)) (VInt k) = Some (Nat.eqb n (Z.to_nat k)).
Proof. intros H. cbn. f_equal. destruct (Z.eqb_spec (Z.of_nat n) k), (Nat.eqb_spec n (Z.to_nat k)); lia. Qed.
Lemma leb_len n k : (0 <= k)%Z -> Z.leb k (Z.of_nat n) = Nat.leb (Z.to_nat k) n.
Proof. intros H. destruct (Z.leb_spec k (Z.of_nat n)), (Nat.leb_spec (Z.to_nat k) n); lia. Qed.
Ltac lengths := cbn [List.length].
Ltac head t := lazymatch t with match ?x with _ => _ end => head x | _ => constr:(t) end.
Ltac closed x := let r := dict_eval x in
  lazymatch r with Some true => change x with r | Some false => change x with r | Some (match _ with _ => _ end) => fail | Some ?y => lazymatch type of y with bool => fail | _ => change x with r end | None => change x with r | nil => change x with r | cons _ _ => change x with r | true => change x with true | false => change x with false end.
Ltac cell_step x := let H := fresh in eassert (H : x = Some _) by cell; rewrite H; clear H.
(** A value known by what it stands for only *)
Ltac add_lt :=
  repeat match goal with
  | Hg : get ?h ?l = Some _, O : own ?h ?F |- _ =>
      lazymatch goal with _ : l < next h |- _ => fail | _ => idtac end;
      assert (l < next h) by (apply (own_below h F O); repeat match goal with C : forall l : nat, _ <= _ |- _ => specialize (C l) end; repeat (progress (rewrite ?cnt_app in *; cbn [cnt] in *)); rewrite ?Nat.eqb_refl in *; lia)
  end.
Ltac val_cases v := match goal with R : rep ?h v ?p ?F |- _ => inversion R; subst end; repeat match goal with t : token |- _ => destruct t end; add_lt.
Ltac dict_case k d :=
  match goal with RD : repd ?h d ?q ?F |- _ =>
    let A := fresh "A" in let w := fresh "w" in let G := fresh "G" in let Ea := fresh "Ea" in let Rw := fresh "Rw" in let C := fresh "C" in
    pose proof (repd_aget h k d q F RD) as A;
    first [match goal with Hq : aget k q = _ |- _ => rewrite Hq in A; rewrite ?Hq end | destruct (aget k q) eqn:?];
    first [destruct A as (w & G & Ea & Rw & C); rewrite Ea | rewrite A; clear A]
  end.
Lemma equal_lit a s : equal a (VStr s) = Some (match text_of a with Some t => str_eqb t s | None => false end).
Proof. unfold equal; cbn [text_of]; destruct (text_of a); reflexivity. Qed.
Lemma to_int_rep E h v p F : rep h v p F -> to_int E h v = match py_int E p with Ok z => Got z | Err e => Exn e end.
Proof. intros R. inversion R; subst; cbn; try reflexivity; try (destruct (int_of_str E _); reflexivity); rewrite H; reflexivity. Qed.
Ltac int_step E h v :=
  match goal with
  | R : rep ?h0 v ?p ?F |- _ =>
      let T := fresh "T" in
      assert (T : to_int E h v = match py_int E p with Ok z => Got z | Err e => Exn e end) by
        (eapply to_int_rep; apply (rep_ext h0 h v p F); [below_tac|ext_tac|exact R]);
      rewrite T; clear T; destruct (py_int E p)
  end.
Ltac str_step E h v :=
  match goal with
  | R : rep ?h0 v ?p ?F |- _ =>
      let T := fresh "T" in
      assert (T : str_of E h v = Some (py_str E p)) by
        (eapply str_of_rep; [apply (rep_ext h0 h v p F); [below_tac|ext_tac|exact R]|apply (own_ext h0 h F); [own_tac|ext_tac]]);
      rewrite T; clear T
  end.
Ltac head_step x :=
  lazymatch x with
  | pblock ?E ?rt ?n (?c :: ?r) ?s => change x with (let! (w, s1) := pexec1 E rt n c s in match w with Next => pblock E rt n r s1 | _ => Got (w, s1) end)
  | pblock ?E ?rt ?n [] ?s => change x with (Got (Next, s))
  | peval ?E ?rt ?n ?e ?s => change x with (peval1 E rt n e s)
  | pevals ?E ?rt ?n ?e ?s => change x with (pevals1 E rt n e s)
  | pfmt ?E ?rt ?n ?e ?s => change x with (pfmt1 E rt n e s)
  | pdict ?E ?rt ?n ?e ?d ?s => change x with (pdict1 E rt n e d s)
  | popt ?E ?rt ?n ?e ?s => change x with (popt1 E rt n e s)
  | ptarget ?E ?rt ?n ?e ?d ?s => change x with (ptarget1 E rt n e d s)
  | ppass ?E ?rt ?n ?e ?s => change x with (ppass1 E rt n e s)
  | pglobal _ _ _ _ _ => let y := eval cbv beta delta [pglobal global] in x in change x with y
  | pvalue ?E ?rt ?n ?v ?pos ?kw ?h => first [match goal with HV : forall pos kw h, pvalue E rt _ v pos kw h = _ |- _ => rewrite (HV pos kw h) end | let y := eval cbv beta delta [pvalue call_value] in x in change x with y]
  | pmethod _ _ _ _ _ _ _ _ => let y := eval cbv beta delta [pmethod call_method] in x in change x with y
  | builtin _ _ _ _ _ => let y := eval cbv beta delta [builtin] in x in change x with y
  | method _ _ _ _ _ _ _ => let y := eval cbv beta delta [method] in x in change x with y
  | attr _ _ _ => let y := eval cbv beta delta [attr] in x in change x with y
  | subscript _ _ _ => let y := eval cbv beta delta [subscript] in x in change x with y
  | store _ _ _ _ => let y := eval cbv beta delta [store] in x in change x with y
  | binary_op _ _ _ _ => let y := eval cbv beta delta [binary_op] in x in change x with y
  | compare _ _ _ _ => let y := eval cbv beta delta [compare] in x in change x with y
  | items _ _ => let y := eval cbv beta delta [items] in x in change x with y
  | unpack _ _ _ => let y := eval cbv beta delta [unpack] in x in change x with y
  | instance_of _ _ _ => let y := eval cbv beta delta [instance_of] in x in change x with y
  | contains _ _ _ => let y := eval cbv beta delta [contains] in x in change x with y
  | get _ _ => cell_step x
  | truth ?h ?v => truth_step h v
  | str_of ?E ?h (VInt ?z) => rewrite (str_of_int E h z)
  | str_of ?E ?h (VStr ?z) => rewrite (str_of_str E h z)
  | str_of ?E ?h ?v => str_step E h v
  | aget ?k ?d => first [match goal with H : aget k d = _ |- _ => rewrite H end | is_var d; dict_case k d | closed x]
  | str_eqb _ _ => first [closed x | destruct x eqn:?]
  | Z.opp 1 => change x with (-1)%Z
  | equal (VInt (Z.of_nat ?n)) (VInt ?k) => rewrite (equal_len n k) by discriminate
  | Z.leb ?k (Z.of_nat ?n) => rewrite (leb_len n k) by discriminate
  | equal ?a (VStr ?s) => first [closed x | rewrite (equal_lit a s)]
  | equal _ _ => closed x
  | pcall ?E ?rt (S ?n) ?f ?pos ?kw ?h => first [match goal with HC : forall h, pcall E rt (S n) f pos kw h = _ |- _ => rewrite (HC h) end | enter_at E rt n f pos kw h]
  | starts_with _ _ => first [match goal with HI : x = _ |- _ => rewrite HI end | destruct x eqn:?]
  | regex_match ?E ?r ?s => match goal with HR : forall s, regex_match E r s = _ |- _ => rewrite (HR s) end; try match goal with HI : ?f s = _ |- context [match ?f s with _ => _ end] => rewrite HI end
  | to_int ?E ?h ?v => int_step E h v
  | entry_of pycep ?f => let r := eval vm_compute in x in replace x with r by (vm_cast_no_check (@eq_refl _ r))
  | ?v => first [is_var v; val_cases v | match goal with HI : v = _ |- _ => rewrite HI end]
  end.
Ltac now_of := lazymatch goal with |- gives _ _ _ ?r => constr:(r) | |- ?r = _ => constr:(r) end.
Ltac step := let r := now_of in let x := head r in head_step x; lengths; crunch.
Ltac run := lengths; crunch; repeat step.
Ltac dicts := repeat match goal with |- context [dict_of ?d] =>
  lazymatch d with context [numbered] => fail | _ => let r := dict_eval (dict_of d) in change (dict_of d) with r end end.
Ltac args0 := intros E rt n h l vs ps F name Hl R O; enter.
Ltac finish := run; dicts; done_tac.
Lemma own_head h l F : own h (l :: F) -> l < next h.
Proof. intros O. apply (own_below h _ O). cbn. rewrite Nat.eqb_refl. lia. Qed.
Ltac split_args d vs := lazymatch d with O => idtac | S ?d' => arg vs; [|split_args d' vs] end.
Ltac by_args d := let vs := fresh "vs" in intros n h l vs ps F name Hl R O; assert (Ll := own_head _ _ _ O); enter; split_args d vs; finish.

(** Numbered arguments *)
Lemma merge_nil {A} (d e : list (str * A)) : merge d (merge [] e) = merge d e.
Proof. exact (merge_dict_of e d). Qed.
Ltac comp_step key :=
  lazymatch goal with |- context [comp_dict ?f (enum ?i ?vs) ?d ?st] =>
    let e := fresh "env" in let C := fresh "C" in
    lazymatch st with (?env, ?h) => destruct (fun K => comp_dict_enum f key K vs i d env h) as [e C] end;
      [intros; eexists; run; rewrite ?app_nil_r; reflexivity | lazymatch type of C with _ = ?r => replace (comp_dict f (enum i vs) d st) with r by (symmetry; exact C) end; clear C]
  end.
Ltac num_eq := let j := fresh "j" in intros j; cbv beta; f_equal; apply dec_Z_of_N; lia.
Ltac num_have R key pre i n :=
  lazymatch type of R with reps ?h ?vs ?ps ?F =>
    let N := fresh "N" in assert (N : repd h (vnum key i vs) (numbered pre n ps) F) by (apply repd_vnum; [exact R|num_eq]);
    let D := fresh "D" in let F' := fresh "F" in let M := fresh "M" in let B := fresh "B" in
    match goal with |- context [merge ?d (vnum key i vs)] =>
      lazymatch goal with |- context [merge ?q (numbered pre n ps)] =>
        eassert (D : repd h d q _) by rep_tac; destruct (repd_merge h _ _ _ _ _ _ N D) as (F' & M & B) end end
  end.
Ltac num_model := repeat match goal with
  | |- context [dict_of (numbered ?a ?b ?c)] => change (dict_of (numbered a b c)) with (merge [] (numbered a b c))
  | |- context [dict_of (?x :: numbered ?a ?b ?c)] => change (dict_of (x :: numbered a b c)) with (merge [x] (numbered a b c))
  | |- context [dict_of (?x :: ?y :: numbered ?a ?b ?c)] => let d := dict_eval (dict_of [x; y]) in change (dict_of (x :: y :: numbered a b c)) with (merge d (numbered a b c))
  end.

