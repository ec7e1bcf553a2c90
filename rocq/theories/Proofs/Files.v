(** UTF-8 and line ends. *)
From Coq Require Import List Arith NArith ZArith Bool Lia ZifyBool.
From Verif Require Import Py.Str Py.Val Py.Files Spec.Files.
Import ListNotations.
Local Open Scope N_scope.

Ltac arith := unfold in_range, second_of_3, second_of_4, continues, scalar, byte in *; unfold in_range in *; zify; Z.to_euclidean_division_equations; lia.
Lemma decode_char c r pos : scalar c -> utf8_decode pos (char_bytes c ++ r) = let* t := utf8_decode (pos + N.of_nat (List.length (char_bytes c))) r in Ok (c :: t).
Proof.
  intros Hc. unfold char_bytes. destruct (c <? 128) eqn:H1; [cbn [app utf8_decode]; rewrite H1; reflexivity|].
  destruct (c <? 2048) eqn:H2; [|destruct (c <? 65536) eqn:H3]; cbn [app utf8_decode List.length].
  - assert (A : (192 + c / 64 <? 128) = false) by arith. assert (B : in_range 194 223 (192 + c / 64) = true) by arith. assert (C : continues (128 + c mod 64) = true) by arith.
    rewrite A, B, C. replace ((192 + c / 64 - 192) * 64 + (128 + c mod 64 - 128)) with c by arith. reflexivity.
  - assert (A : (224 + c / 4096 <? 128) = false) by arith. assert (B : in_range 194 223 (224 + c / 4096) = false) by arith. assert (B' : in_range 224 239 (224 + c / 4096) = true) by arith.
    assert (C : second_of_3 (224 + c / 4096) (128 + c / 64 mod 64) = true) by arith. assert (D : continues (128 + c mod 64) = true) by arith.
    rewrite A, B, B', C, D. cbn [andb]. replace ((224 + c / 4096 - 224) * 4096 + (128 + c / 64 mod 64 - 128) * 64 + (128 + c mod 64 - 128)) with c by arith. reflexivity.
  - assert (A : (240 + c / 262144 <? 128) = false) by arith. assert (B : in_range 194 223 (240 + c / 262144) = false) by arith. assert (B' : in_range 224 239 (240 + c / 262144) = false) by arith.
    assert (B2 : in_range 240 244 (240 + c / 262144) = true) by arith.
    assert (C : second_of_4 (240 + c / 262144) (128 + c / 4096 mod 64) = true) by arith. assert (D : continues (128 + c / 64 mod 64) = true) by arith. assert (D' : continues (128 + c mod 64) = true) by arith.
    rewrite A, B, B', B2, C, D, D'. cbn [andb].
    replace ((240 + c / 262144 - 240) * 262144 + (128 + c / 4096 mod 64 - 128) * 4096 + (128 + c / 64 mod 64 - 128) * 64 + (128 + c mod 64 - 128)) with c by arith. reflexivity.
Qed.
Lemma decode_err_ge n : forall b pos e, (List.length b <= n)%nat -> utf8_decode pos b = Err e -> exists p, e = EUnicodeDecodeError p /\ pos <= p.
Proof.
  induction n as [|n IH]; intros b pos e Hn H; destruct b as [|b0 r0]; cbn [utf8_decode List.length] in *; try discriminate H; [lia|].
  assert (Hstop : forall x, Err (EUnicodeDecodeError pos) = Err (A := str) x -> exists p, x = EUnicodeDecodeError p /\ pos <= p) by (intros x Hx; injection Hx as <-; exists pos; split; [reflexivity|lia]).
  assert (Hstep : forall k r f x, (List.length r <= n)%nat -> (let* t := utf8_decode (pos + k) r in Ok (f t)) = Err (A := str) x -> exists p, x = EUnicodeDecodeError p /\ pos <= p).
  { intros k r f x Hr Hx. destruct (utf8_decode (pos + k) r) as [t|e'] eqn:Hd; cbn [bind] in Hx; [discriminate Hx|]. injection Hx as <-. destruct (IH _ _ _ Hr Hd) as (p & -> & Hp). exists p. split; [reflexivity|lia]. }
  destruct (b0 <? 128); [eapply Hstep; [|exact H]; lia|]. destruct (in_range 194 223 b0).
  - destruct r0 as [|b1 r1]; [auto|]. cbn [List.length] in Hn. destruct (continues b1); [eapply Hstep; [|exact H]; lia|auto].
  - destruct (in_range 224 239 b0).
    + destruct r0 as [|b1 [|b2 r2]]; auto. cbn [List.length] in Hn. destruct (second_of_3 b0 b1 && continues b2); [eapply Hstep; [|exact H]; lia|auto].
    + destruct (in_range 240 244 b0); [|auto]. destruct r0 as [|b1 [|b2 [|b3 r3]]]; auto. cbn [List.length] in Hn. destruct (second_of_4 b0 b1 && continues b2 && continues b3); [eapply Hstep; [|exact H]; lia|auto].
Qed.
Definition begins_char (b : list N) : Prop := exists c r, scalar c /\ b = (char_bytes c ++ r)%list.
Lemma decode_cases pos b : b <> [] -> begins_char b \/ utf8_decode pos b = Err (EUnicodeDecodeError pos).
Proof.
  intros Hb. destruct b as [|b0 r0]; [contradiction|]. cbn [utf8_decode]. destruct (b0 <? 128) eqn:H0.
  { left. exists b0, r0. split; [arith|]. unfold char_bytes. rewrite H0. reflexivity. }
  destruct (in_range 194 223 b0) eqn:H1.
  { destruct r0 as [|b1 r1]; [auto|]. destruct (continues b1) eqn:Hc; [|auto]. left. exists ((b0 - 192) * 64 + (b1 - 128)), r1. split; [arith|]. unfold char_bytes.
    destruct (N.ltb_spec ((b0 - 192) * 64 + (b1 - 128)) 128); [arith|]. destruct (N.ltb_spec ((b0 - 192) * 64 + (b1 - 128)) 2048); [|arith].
    cbn [app]. f_equal; [|f_equal]; arith. }
  destruct (in_range 224 239 b0) eqn:H2.
  { destruct r0 as [|b1 [|b2 r2]]; auto. destruct (second_of_3 b0 b1 && continues b2) eqn:Hc; [|auto]. left. exists ((b0 - 224) * 4096 + (b1 - 128) * 64 + (b2 - 128)), r2. split; [arith|]. unfold char_bytes.
    set (c := (b0 - 224) * 4096 + (b1 - 128) * 64 + (b2 - 128)). assert (Hd : c = (b0 - 224) * 4096 + (b1 - 128) * 64 + (b2 - 128)) by reflexivity. clearbody c.
    destruct (N.ltb_spec c 128); [arith|]. destruct (N.ltb_spec c 2048); [arith|]. destruct (N.ltb_spec c 65536); [|arith].
    cbn [app]. f_equal; [|f_equal; [|f_equal]]; arith. }
  destruct (in_range 240 244 b0) eqn:H3; [|auto].
  destruct r0 as [|b1 [|b2 [|b3 r3]]]; auto. destruct (second_of_4 b0 b1 && continues b2 && continues b3) eqn:Hc; [|auto]. left. exists ((b0 - 240) * 262144 + (b1 - 128) * 4096 + (b2 - 128) * 64 + (b3 - 128)), r3. split; [arith|]. unfold char_bytes.
  set (c := (b0 - 240) * 262144 + (b1 - 128) * 4096 + (b2 - 128) * 64 + (b3 - 128)). assert (Hd : c = (b0 - 240) * 262144 + (b1 - 128) * 4096 + (b2 - 128) * 64 + (b3 - 128)) by reflexivity. clearbody c.
  destruct (N.ltb_spec c 128); [arith|]. destruct (N.ltb_spec c 2048); [arith|]. destruct (N.ltb_spec c 65536); [arith|].
  cbn [app]. f_equal; [|f_equal; [|f_equal; [|f_equal]]]; arith.
Qed.
Lemma char_bytes_len c : (1 <= List.length (char_bytes c))%nat.
Proof. unfold char_bytes. destruct (c <? 128), (c <? 2048), (c <? 65536); cbn [List.length]; lia. Qed.

Lemma decode_utf8 t : forall pos, Forall scalar t -> utf8_decode pos (utf8 t) = Ok t.
Proof.
  induction t as [|c t IH]; intros pos Ht; [reflexivity|]. inversion Ht; subst. change (utf8 (c :: t)) with (char_bytes c ++ utf8 t)%list. rewrite decode_char, IH by assumption. reflexivity.
Qed.
(** What is decoded, or where decoding ends. *)
Lemma decode_spec n : forall b pos, (List.length b <= n)%nat ->
  match utf8_decode pos b with
  | Ok t => Forall scalar t /\ b = utf8 t
  | Err e => exists t r, b = (utf8 t ++ r)%list /\ Forall scalar t /\ r <> [] /\ ~ begins_char r /\ e = EUnicodeDecodeError (pos + N.of_nat (List.length (utf8 t)))
  end.
Proof.
  induction n as [|n IH]; intros b pos Hn; destruct b as [|b0 r0]; [split; [constructor|reflexivity]|cbn [List.length] in Hn; lia|split; [constructor|reflexivity]|].
  destruct (decode_cases pos (b0 :: r0) ltac:(discriminate)) as [(c & r & Hc & Hb)|He].
  - rewrite Hb in Hn |- *. rewrite app_length in Hn. pose proof (char_bytes_len c) as Hl. rewrite (decode_char c r pos Hc). specialize (IH r (pos + N.of_nat (List.length (char_bytes c))) ltac:(lia)).
    destruct (utf8_decode (pos + N.of_nat (List.length (char_bytes c))) r) as [t|e]; cbn [bind].
    + destruct IH as [Ht ->]. split; [constructor; assumption|reflexivity].
    + destruct IH as (t & r' & -> & Ht & Hr & Hno & ->). exists (c :: t), r'. change (utf8 (c :: t)) with (char_bytes c ++ utf8 t)%list. rewrite <- app_assoc, app_length. split; [reflexivity|]. split; [constructor; assumption|]. split; [exact Hr|]. split; [exact Hno|]. f_equal. lia.
  - rewrite He. exists [], (b0 :: r0). split; [reflexivity|]. split; [constructor|]. split; [discriminate|]. split; [|cbn; f_equal; lia].
    intros (c & r & Hc & Hb). rewrite Hb, (decode_char c r pos Hc) in He. pose proof (char_bytes_len c) as Hl. destruct (utf8_decode (pos + N.of_nat (List.length (char_bytes c))) r) as [t|e] eqn:Hd; cbn [bind] in He; [discriminate He|].
    destruct (decode_err_ge _ _ _ _ (le_n _) Hd) as (p & -> & Hp). injection He as He. lia.
Qed.

Lemma newlines_spec n : forall s s', (List.length s <= n)%nat -> (line_ends s s' <-> universal_newlines s = s').
Proof.
  induction n as [|n IH]; intros s s' Hn; (destruct s as [|c s]; cbn [List.length] in Hn; [|try lia]).
  - split; [intros H; inversion H; reflexivity|intros <-; constructor].
  - split; [intros H; inversion H; reflexivity|intros <-; constructor].
  - cbn [universal_newlines]. destruct (N.eqb_spec c 13) as [->|Hc].
    + destruct s as [|d s].
      * split; [intros H; inversion H as [|? ? ? Hd| |? ? Hd Hr]; subst; [contradiction|inversion Hr; reflexivity]|intros <-; apply ends_cr; [discriminate|constructor]].
      * cbn [List.length] in Hn. destruct (N.eqb_spec d 10) as [->|Hd].
        -- split; [intros H; inversion H as [|? ? ? Hd|? ? Hr|? ? Hd Hr]; subst; [contradiction|apply (IH s) in Hr; [congruence|lia]|exfalso; eapply Hd; reflexivity]|].
           intros <-. apply ends_crlf. apply IH; [lia|reflexivity].
        -- split; [intros H; inversion H as [|? ? ? Hd'|? ? Hr|? ? Hd' Hr]; subst; [contradiction|contradiction|apply (IH (d :: s)) in Hr; [congruence|cbn [List.length]; lia]]|].
           intros <-. apply ends_cr; [intros r Hr; congruence|]. apply IH; [cbn [List.length]; lia|reflexivity].
    + split; [intros H; inversion H as [|? ? ? Hd Hr| |]; subst; try contradiction; apply (IH s) in Hr; [congruence|lia]|]. intros <-. apply ends_char; [exact Hc|]. apply IH; [lia|reflexivity].
Qed.
Lemma newlines_ends s s' : line_ends s s' <-> universal_newlines s = s'.
Proof. apply (newlines_spec (List.length s)). apply le_n. Qed.
Lemma ends_same t : ~ In 13 t -> line_ends t t.
Proof. induction t as [|c t IH]; intros H; [constructor|]. apply ends_char; [intros ->; apply H; left; reflexivity|]. apply IH. intros Hi. apply H. right. exact Hi. Qed.
Lemma ends_dos t : ~ In 13 t -> line_ends (dos t) t.
Proof.
  induction t as [|c t IH]; intros H; [constructor|]. assert (Ht : ~ In 13 t) by (intros Hi; apply H; right; exact Hi). unfold dos. cbn [flat_map].
  destruct (N.eqb_spec c 10) as [->|Hc]; cbn [app]; [apply ends_crlf; apply IH; exact Ht|]. apply ends_char; [intros ->; apply H; left; reflexivity|]. apply IH. exact Ht.
Qed.

(** ** Reading *)
Section Read.
  Context {path : Type}.
  Variable disk : path -> result (list N).
  Lemma read_ok p t t' : disk p = Ok (utf8 t) -> Forall scalar t -> line_ends t t' -> read_text disk p = Ok t'.
  Proof. intros Hd Ht Hl. unfold read_text. rewrite Hd. cbn [bind]. rewrite (decode_utf8 t 0 Ht). cbn [bind]. apply newlines_ends in Hl. rewrite Hl. reflexivity. Qed.
  Lemma read_inv p t' : read_text disk p = Ok t' -> exists t, disk p = Ok (utf8 t) /\ Forall scalar t /\ line_ends t t'.
  Proof.
    unfold read_text. intros H. destruct (disk p) as [b|e]; cbn [bind] in H; [|discriminate H]. pose proof (decode_spec _ b 0 (le_n _)) as Hd. destruct (utf8_decode 0 b) as [t|e]; cbn [bind] in H; [|discriminate H].
    injection H as H. destruct Hd as [Ht ->]. exists t. split; [reflexivity|]. split; [exact Ht|]. apply newlines_ends. exact H.
  Qed.
  Lemma read_bad p b : disk p = Ok b -> (forall t, Forall scalar t -> b <> utf8 t) ->
    exists t r, b = (utf8 t ++ r)%list /\ Forall scalar t /\ r <> [] /\ ~ begins_char r /\ read_text disk p = Err (EUnicodeDecodeError (N.of_nat (List.length (utf8 t)))).
  Proof.
    unfold read_text. intros -> Hno. cbn [bind]. pose proof (decode_spec _ b 0 (le_n _)) as Hd. destruct (utf8_decode 0 b) as [t|e]; cbn [bind].
    - destruct Hd as [Ht ->]. exfalso. apply (Hno t Ht). reflexivity.
    - destruct Hd as (t & r & H1 & H2 & H3 & H4 & ->). exists t, r. repeat (split; [assumption|]). reflexivity.
  Qed.
End Read.
