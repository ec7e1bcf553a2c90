(** Reading a file (main.py:42 [file_path.read_text()]): the bytes are decoded as
    UTF-8, strictly, and line ends are translated (io.TextIOWrapper with
    newline=None).  Models the Python runtime where the encoding of the locale is
    UTF-8.  A byte is a number below 256. *)
From Coq Require Import List NArith Bool.
From Verif Require Import Py.Str Py.Val.
Import ListNotations.
Local Open Scope N_scope.

Definition byte (b : N) : Prop := b < 256.
Definition continues (b : N) : bool := in_range 128 191 b.
(** The second of three, of four bytes: no longer forms, no surrogates, nothing
    beyond U+10FFFF. *)
Definition second_of_3 (b0 b1 : N) : bool :=
  continues b1 && (negb (b0 =? 224) || (160 <=? b1)) && (negb (b0 =? 237) || (b1 <=? 159)).
Definition second_of_4 (b0 b1 : N) : bool :=
  continues b1 && (negb (b0 =? 240) || (144 <=? b1)) && (negb (b0 =? 244) || (b1 <=? 143)).
(** [bytes.decode('utf-8')], from position [pos]. *)
Fixpoint utf8_decode (pos : N) (b : list N) : result str :=
  match b with
  | [] => Ok []
  | b0 :: r0 =>
      if b0 <? 128 then let* t := utf8_decode (pos + 1) r0 in Ok (b0 :: t)
      else if in_range 194 223 b0 then
        match r0 with
        | b1 :: r1 =>
            if continues b1 then let* t := utf8_decode (pos + 2) r1 in Ok ((b0 - 192) * 64 + (b1 - 128) :: t)
            else Err (EUnicodeDecodeError pos)
        | _ => Err (EUnicodeDecodeError pos)
        end
      else if in_range 224 239 b0 then
        match r0 with
        | b1 :: b2 :: r2 =>
            if second_of_3 b0 b1 && continues b2
            then let* t := utf8_decode (pos + 3) r2 in Ok ((b0 - 224) * 4096 + (b1 - 128) * 64 + (b2 - 128) :: t)
            else Err (EUnicodeDecodeError pos)
        | _ => Err (EUnicodeDecodeError pos)
        end
      else if in_range 240 244 b0 then
        match r0 with
        | b1 :: b2 :: b3 :: r3 =>
            if second_of_4 b0 b1 && continues b2 && continues b3
            then let* t := utf8_decode (pos + 4) r3 in
                 Ok ((b0 - 240) * 262144 + (b1 - 128) * 4096 + (b2 - 128) * 64 + (b3 - 128) :: t)
            else Err (EUnicodeDecodeError pos)
        | _ => Err (EUnicodeDecodeError pos)
        end
      else Err (EUnicodeDecodeError pos)
  end.
(** io.IncrementalNewlineDecoder with translate=True. *)
Fixpoint universal_newlines (s : str) : str :=
  match s with
  | [] => []
  | c :: s' =>
      if c =? 13 then 10 :: match s' with d :: s'' => if d =? 10 then universal_newlines s'' else universal_newlines s' | [] => [] end
      else c :: universal_newlines s'
  end.
(** [Path.read_text()] on a disk. *)
Definition read_text {path} (disk : path -> result (list N)) (p : path) : result str :=
  let* b := disk p in
  let* t := utf8_decode 0 b in
  Ok (universal_newlines t).
