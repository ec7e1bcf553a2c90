(** C10, C11, C15: what fails for programs that write the reserved name
    [__child_resource__] themselves. *)
From Coq Require Import List Arith NArith ZArith Bool String Lia Permutation.
From Verif Require Import Py.Str Py.Val Lark.Tree Lark.Shape Lark.Terminals Lark.BicepGrammar
  Pycep.Utils Pycep.Transformer Pycep.Main Pycep.Bicep
  Spec.Json Spec.Schema Spec.Outcomes Spec.Calls Spec.Text Spec.Trees Spec.Lexemes Spec.Program Spec.Reports Spec.Children Spec.Declarations Spec.Numbering
  Proofs.Base Proofs.Program Props.Calls Props.Documents Props.Numbering Props.Layout.
Import ListNotations.
Local Open Scope string_scope.

(** A resource [name] whose body has a property that looks like a child resource. *)
Definition forged (name child type : string) : string :=
  "resource " ++ name ++ " 'T@1' = {" ++ nl ++ "  __child_resource__: {" ++ nl
  ++ "    __name__: '" ++ child ++ "'" ++ nl ++ "    __attrs__: {" ++ nl ++ "      type: '" ++ type ++ "'" ++ nl ++ "      config: {}" ++ nl
  ++ "    }" ++ nl ++ "  }" ++ nl ++ "}" ++ nl.

(** It is reported as a resource nobody declared. *)
Theorem C10_exactly_declared_refuted : exists text cs v a, program env0 text cs /\
  bicep_parse env0 ex_fs true (Some text) None = Ok v /\
  declared cs = [(u "resources", u "a")] /\ lookup (u "resources") (u "a__b") v = Some a.
Proof.
  exists (u (forged "a" "b" "U")). do 3 eexists. split; [eexists; vm_compute; reflexivity|]. split; [vm_compute; reflexivity|].
  split; vm_compute; reflexivity.
Qed.
(** It has no lines. *)
Theorem C15_lines_refuted : exists text v a, bicep_parse env0 ex_fs true (Some text) None = Ok v /\
  lookup (u "resources") (u "a__b") v = Some (PDict a) /\ aget (u "__start_line__") a = None /\ aget (u "__end_line__") a = None.
Proof.
  exists (u (forged "a" "b" "U")). do 2 eexists. split; [vm_compute; reflexivity|]. split; [vm_compute; reflexivity|].
  split; vm_compute; reflexivity.
Qed.
(** Two of them can have the same name although the declared names are distinct;
    then the order of the declarations decides. *)
Definition forged1 : str := u (forged "a" "b__c" "U" ++ forged "a__b" "c" "V").
Definition forged2 : str := u (forged "a__b" "c" "V" ++ forged "a" "b__c" "U").
Theorem C11_order_refuted : exists v1 v2, reordered env0 forged1 forged2 /\ balanced forged2 /\
  bicep_parse env0 ex_fs false (Some forged1) None = Ok v1 /\ bicep_parse env0 ex_fs false (Some forged2) None = Ok v2 /\
  ~ same_document v1 v2.
Proof.
  do 2 eexists. split; [|split; [|split; [vm_compute; reflexivity|split; [vm_compute; reflexivity|]]]].
  - do 3 eexists. split; [eexists; vm_compute; reflexivity|]. split; [eexists; vm_compute; reflexivity|]. split; [apply perm_swap|]. split; [same|].
    vm_compute. repeat (constructor; [cbn [In]; intuition discriminate|]). constructor.
  - exists 0. split; [|exists 0; reflexivity]. vm_compute. repeat (apply occ_skip; [intros s H; discriminate H|]). apply occ_nil.
  - intros (d & e & Hd & He & _ & H). injection Hd as <-. injection He as <-. specialize (H (u "resources")). vm_compute in H.
    match type of H with Permutation ?g _ => assert (Hin : In (nth 2 g (u "", PNone)) g) by (cbn [nth In]; auto) end.
    apply (Permutation_in _ H) in Hin. cbn [nth In] in Hin. destruct Hin as [Hin|[Hin|[Hin|[]]]]; discriminate Hin.
Qed.

(** All theorems of this file at once (the walk over the proofs is slow). *)
Definition reserved_theorems := (@C10_exactly_declared_refuted, @C15_lines_refuted, @C11_order_refuted).
Print Assumptions reserved_theorems.
