(** C47: files are UTF-8 text with line ends of any kind. *)
From Coq Require Import List Arith NArith ZArith Bool String Lia.
From Verif Require Import Py.Str Py.Val Py.Files Lark.Tree Lark.Shape Lark.Terminals Lark.Located
  Pycep.Utils Pycep.Transformer Pycep.Main Pycep.Bicep
  Spec.Calls Spec.Text Spec.Errors Spec.Files
  Proofs.Base Proofs.EndToEnd Proofs.Files
  Props.Calls Props.Numbering Props.Errors.
Import ListNotations.
Local Open Scope string_scope.

(** A file with the bytes of [t] is the source [t], with line feeds for its line
    ends, and is parsed like this text. *)
Theorem C47_file_bytes : forall E disk ln text p t t', ~ given_text text -> path_truthy p = true ->
  disk p = Ok (utf8 t) -> Forall scalar t -> line_ends t t' ->
  source (read_text disk) text (Some p) t' /\
  (forall fs, t' <> [] -> balanced t' ->
   bicep_parse E (read_text disk) ln text (Some p) = bicep_parse E fs ln (Some t') None /\
   bicep_create_tree E (read_text disk) text (Some p) = bicep_create_tree E fs (Some t') None).
Proof.
  intros E disk ln text p t t' Hx Hp Hd Ht Hl. assert (S : source (read_text disk) text (Some p) t') by (constructor; [exact Hx|exact Hp|exact (read_ok disk p t t' Hd Ht Hl)]).
  split; [exact S|]. intros fs Hn B. assert (V : is_valid t' = true) by (destruct B as (k & Hk & He); rewrite (is_valid_occurs _ _ Hk); apply Nat.even_spec; exact He).
  assert (S' : source fs (Some t') None t') by (constructor; [destruct t' as [|c r]; [contradiction|exists c, r; reflexivity]|intros (q & H & _); discriminate H]).
  rewrite (parse_source E _ ln _ _ _ S), (parse_source E _ ln _ _ _ S'), (tree_source E _ _ _ _ S), (tree_source E _ _ _ _ S'), V. split; reflexivity.
Qed.
(** There is nothing else a source from a file can be. *)
Theorem C47_source_is_file : forall (disk : path -> result (list N)) text p t', ~ given_text text -> source (read_text disk) text (Some p) t' ->
  path_truthy p = true /\ exists t, disk p = Ok (utf8 t) /\ Forall scalar t /\ line_ends t t'.
Proof.
  intros disk text p t' Hx S. inversion S as [? ? Hg|? ? ? _ Hp Hr]; subst; [exfalso; exact (Hx Hg)|]. split; [exact Hp|exact (read_inv disk p t' Hr)].
Qed.
(** Bytes that are no UTF-8: the exception holds the position behind the longest
    text in front. *)
Theorem C47_not_utf8 : forall E disk ln text p b, ~ given_text text -> path_truthy p = true ->
  disk p = Ok b -> (forall t, Forall scalar t -> b <> utf8 t) ->
  exists t r, b = (utf8 t ++ r)%list /\ Forall scalar t /\ r <> [] /\ (forall c r', scalar c -> r <> (char_bytes c ++ r')%list) /\
    bicep_parse E (read_text disk) ln text (Some p) = Err (EUnicodeDecodeError (N.of_nat (List.length (utf8 t)))) /\
    bicep_create_tree E (read_text disk) text (Some p) = Err (EUnicodeDecodeError (N.of_nat (List.length (utf8 t)))).
Proof.
  intros E disk ln text p b Hx Hp Hd Hno. destruct (read_bad disk p b Hd Hno) as (t & r & H1 & H2 & H3 & H4 & H5). exists t, r.
  split; [exact H1|]. split; [exact H2|]. split; [exact H3|]. split; [intros c r' Hc Hr; apply H4; exists c, r'; split; assumption|].
  unfold bicep_parse, parse, bicep_create_tree, create_tree. rewrite (raw_read_error E _ _ _ _ Hx Hp H5). split; reflexivity.
Qed.
(** Nothing but these exceptions of the system comes from reading. *)
Theorem C47_read_errors : forall (disk : path -> result (list N)) p e, (forall p e, disk p = Err e -> read_error e) -> read_text disk p = Err e -> read_error e.
Proof.
  intros disk p e Hd H. unfold read_text in H. destruct (disk p) as [b|e'] eqn:Hb; cbn [bind] in H; [|injection H as <-; exact (Hd p _ Hb)].
  destruct (utf8_decode 0 b) as [t|e'] eqn:Ht; cbn [bind] in H; [discriminate H|]. injection H as <-. destruct (decode_err_ge _ _ _ _ (le_n _) Ht) as (q & -> & _). right. eauto.
Qed.
(** The line ends of DOS make no difference in a file. *)
Theorem C47_line_endings : forall E disk ln text p q t, ~ given_text text -> path_truthy p = true -> path_truthy q = true ->
  ~ In 13%N t -> Forall scalar t -> balanced t -> disk p = Ok (utf8 (dos t)) -> disk q = Ok (utf8 t) ->
  bicep_parse E (read_text disk) ln text (Some p) = bicep_parse E (read_text disk) ln text (Some q) /\
  bicep_create_tree E (read_text disk) text (Some p) = bicep_create_tree E (read_text disk) text (Some q).
Proof.
  intros E disk ln text p q t Hx Hp Hq Hcr Ht B Hdp Hdq. assert (V : is_valid t = true) by (destruct B as (k & Hk & He); rewrite (is_valid_occurs _ _ Hk); apply Nat.even_spec; exact He).
  assert (Hd : Forall scalar (dos t)).
  { clear - Ht. induction Ht as [|c t Hc _ IH]; [constructor|]. unfold dos. cbn [flat_map]. apply Forall_app. split; [|exact IH].
    destruct (c =? 10)%N; repeat (apply Forall_cons; [(exact Hc || (left; reflexivity))|]); apply Forall_nil. }
  destruct (C47_file_bytes E disk ln text p _ t Hx Hp Hdp Hd (ends_dos t Hcr)) as [Sp _].
  destruct (C47_file_bytes E disk ln text q _ t Hx Hq Hdq Ht (ends_same t Hcr)) as [Sq _].
  rewrite (parse_source E _ ln _ _ _ Sp), (parse_source E _ ln _ _ _ Sq), (tree_source E _ _ _ _ Sp), (tree_source E _ _ _ _ Sq), V. split; reflexivity.
Qed.
(** A byte order mark is a character no program starts with. *)
Theorem C47_byte_order_mark : forall E disk ln text p t t', ~ given_text text -> path_truthy p = true ->
  disk p = Ok ([239; 187; 191]%N ++ utf8 t)%list -> Forall scalar t -> line_ends t t' -> balanced t' ->
  locate E (65279%N :: t') = AtCharacters 0 1 1 /\
  bicep_create_tree E (read_text disk) text (Some p) = Err EUnexpectedCharacters /\
  bicep_parse E (read_text disk) ln text (Some p) = Err EUnexpectedCharacters.
Proof.
  intros E disk ln text p t t' Hx Hp Hd Ht Hl (k & Hk & He). 
  destruct (C47_file_bytes E disk ln text p (65279%N :: t) (65279%N :: t') Hx Hp) as [S _].
  - exact Hd.
  - constructor; [right; split; [discriminate|reflexivity]|exact Ht].
  - apply ends_char; [discriminate|exact Hl].
  - apply (C46_first_character E _ ln _ _ _ _ S); [|discriminate]. exists k. split; [|exact He]. apply occ_skip; [intros s' H; discriminate H|exact Hk].
Qed.

(** A program with the line ends of DOS, a euro sign and a key, as bytes; the same
    bytes cut off in the middle of the euro sign; with a mark in front. *)
Definition ex_dos : list N := (u "var a = '''x" ++ [13; 10; 226; 130; 172]%N ++ u "'''" ++ [13; 10]%N)%list.
Definition ex_disk (p : path) : result (list N) :=
  if str_eqb (path_str p) (u "main.bicep") then Ok ex_dos else
  if str_eqb (path_str p) (u "cut.bicep") then Ok (firstn 16 ex_dos) else
  if str_eqb (path_str p) (u "mark.bicep") then Ok ([239; 187; 191]%N ++ ex_dos)%list else Err (EOSError (u "No such file")).
Definition ex_named (s : string) : path := {| path_str := u s; path_truthy := true |}.
Definition ex_text : str := (u "var a = '''x" ++ [10; 8364]%N ++ u "'''" ++ [10]%N)%list.
Example C47_ex :
  ex_dos = utf8 (dos ex_text) /\ Forall scalar ex_text /\ ~ In 13%N ex_text /\ balanced ex_text /\
  (exists d, bicep_parse env0 (read_text ex_disk) false None (Some (ex_named "main.bicep")) = Ok (PDict d) /\
             bicep_parse env0 ex_fs false (Some ex_text) None = Ok (PDict d)) /\
  bicep_parse env0 (read_text ex_disk) false None (Some (ex_named "cut.bicep")) = Err (EUnicodeDecodeError 14) /\
  bicep_parse env0 (read_text ex_disk) false None (Some (ex_named "mark.bicep")) = Err EUnexpectedCharacters.
Proof.
  split; [vm_compute; reflexivity|]. split; [repeat (apply Forall_cons; [left; reflexivity|]); apply Forall_nil|]. split; [vm_compute; intuition discriminate|]. split.
  - exists 2. split; [|exists 1; reflexivity]. repeat (apply occ_skip; [intros s' H; discriminate H|]). apply (occ_hit triple). repeat (apply occ_skip; [intros s' H; discriminate H|]). apply (occ_hit triple). apply occ_skip; [intros s' H; discriminate H|]. apply occ_nil.
  - split; [|split; vm_compute; reflexivity]. eexists. split; vm_compute; reflexivity.
Qed.
(** A text passed as such keeps its carriage returns: not the same as the file. *)
Theorem C47_same_bytes_refuted :
  ~ forall E disk ln p t, path_truthy p = true -> disk p = Ok (utf8 t) -> Forall scalar t -> balanced t ->
      bicep_parse E (read_text disk) ln None (Some p) = bicep_parse E (read_text disk) ln (Some t) None.
Proof.
  intros H. specialize (H env0 ex_disk false (ex_named "main.bicep") (dos ex_text) eq_refl).
  assert (D : ex_disk (ex_named "main.bicep") = Ok (utf8 (dos ex_text))) by (vm_compute; reflexivity). specialize (H D).
  assert (F : Forall scalar (dos ex_text)) by (repeat (apply Forall_cons; [left; reflexivity|]); apply Forall_nil). specialize (H F).
  assert (B : balanced (dos ex_text)).
  { exists 2. split; [|exists 1; reflexivity]. repeat (apply occ_skip; [intros s' Hs; discriminate Hs|]). apply (occ_hit triple). repeat (apply occ_skip; [intros s' Hs; discriminate Hs|]). apply (occ_hit triple). repeat (apply occ_skip; [intros s' Hs; discriminate Hs|]). apply occ_nil. }
  specialize (H B). vm_compute in H. discriminate H.
Qed.
Definition C47_all := (@C47_file_bytes, @C47_source_is_file, @C47_not_utf8, @C47_read_errors, @C47_line_endings, @C47_byte_order_mark, C47_ex, C47_same_bytes_refuted).
Print Assumptions C47_all.
