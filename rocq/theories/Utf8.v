(** * UTF-8, ASCII and Latin-1 codecs

    Models [bytes.decode(enc)] and [str.encode("utf8")] as used in
    punx/utils.py:51 and punx/utils.py:60. *)

From Coq Require Import List NArith Bool.
From Verif Require Import PyBase.
Import ListNotations.
Local Open Scope N_scope.

(** a code point that may occur in encoded text *)
Definition scalar (c : N) : bool := (c <? 55296) || ((57343 <? c) && (c <? 1114112)).

(** the UTF-8 bytes of one character *)
Definition utf8_encode1 (c : N) : list N :=
  if c <? 128 then [c]
  else if c <? 2048 then [192 + c / 64; 128 + c mod 64]
  else if c <? 65536 then [224 + c / 4096; 128 + (c / 64) mod 64; 128 + c mod 64]
  else [240 + c / 262144; 128 + (c / 4096) mod 64; 128 + (c / 64) mod 64; 128 + c mod 64].

(** [s.encode("utf8")]: surrogates raise UnicodeEncodeError *)
Fixpoint utf8_encode (s : pystr) : res (list N) :=
  match s with
  | [] => Ok []
  | c :: s' => if scalar c then rmap (app (utf8_encode1 c)) (utf8_encode s') else Exn UnicodeEncodeError
  end.

(** a continuation byte of UTF-8 *)
Definition cont (b : N) : bool := (128 <=? b) && (b <? 192).

(** strict UTF-8 decoding: overlong forms, surrogates and values above
    U+10FFFF are errors *)
Fixpoint utf8_decode (b : list N) : option pystr :=
  match b with
  | [] => Some []
  | b0 :: r =>
      if b0 <? 128 then option_map (cons b0) (utf8_decode r)
      else if b0 <? 194 then None
      else if b0 <? 224 then
        match r with
        | b1 :: r1 =>
            if cont b1 then option_map (cons ((b0 - 192) * 64 + (b1 - 128))) (utf8_decode r1) else None
        | _ => None
        end
      else if b0 <? 240 then
        match r with
        | b1 :: b2 :: r2 =>
            let v := (b0 - 224) * 4096 + (b1 - 128) * 64 + (b2 - 128) in
            if cont b1 && cont b2 && (2048 <=? v) && scalar v
            then option_map (cons v) (utf8_decode r2) else None
        | _ => None
        end
      else if b0 <? 245 then
        match r with
        | b1 :: b2 :: b3 :: r3 =>
            let v := (b0 - 240) * 262144 + (b1 - 128) * 4096 + (b2 - 128) * 64 + (b3 - 128) in
            if cont b1 && cont b2 && cont b3 && (65536 <=? v) && scalar v
            then option_map (cons v) (utf8_decode r3) else None
        | _ => None
        end
      else None
  end.

(** [bytes.decode("ascii")] *)
Definition ascii_decode (b : list N) : option pystr :=
  if forallb (fun x => x <? 128) b then Some b else None.

(** [bytes.decode("latin-1")] *)
Definition latin1_decode (b : list N) : option pystr := Some b.

(** encodings of sys.stdout that are modelled *)
Inductive encoding := EncUtf8 | EncAscii | EncLatin1.

(** [bytes.decode(encoding)] *)
Definition decode_bytes (e : encoding) (b : list N) : res pystr :=
  match (match e with EncUtf8 => utf8_decode b | EncAscii => ascii_decode b | EncLatin1 => latin1_decode b end) with
  | Some s => Ok s
  | None => Exn UnicodeDecodeError
  end.
