(** The UTF-8 codec of CPython as transport.py 462-473 uses it:
    [bytearray(value, encoding="utf-8", errors='strict')] and
    [bytearray.decode("utf-8")]. A [str] is its list of code points. *)
From Verif.Base Require Import Prelude.
Local Open Scope N_scope.

(** One code point to bytes. CPython refuses surrogates; larger numbers than
    0x10FFFF are not code points. *)
Definition utf8_char (c : N) : res (list N) :=
  if c <? 0x80 then Ok [c]
  else if c <? 0x800 then Ok [0xC0 + c / 64; 0x80 + c mod 64]
  else if (0xD800 <=? c) && (c <=? 0xDFFF) then Err UnicodeError
  else if c <? 0x10000 then
    Ok [0xE0 + c / 4096; 0x80 + (c / 64) mod 64; 0x80 + c mod 64]
  else if c <? 0x110000 then
    Ok [0xF0 + c / 262144; 0x80 + (c / 4096) mod 64; 0x80 + (c / 64) mod 64;
        0x80 + c mod 64]
  else Err UnicodeError.

Fixpoint utf8_encode (s : list N) : res (list N) :=
  match s with
  | [] => Ok []
  | c :: s' =>
      b <- utf8_char c ;;
      bs <- utf8_encode s' ;;
      Ok (b ++ bs)
  end.

Definition in_range (lo hi b : N) : bool := (lo <=? b) && (b <=? hi).
(** A continuation byte. *)
Definition cont (b : N) : bool := in_range 0x80 0xBF b.

(** The bytes that may follow a leading byte of three or four bytes
    (overlong forms, surrogates and numbers over 0x10FFFF are refused). *)
Definition second3 (b0 b1 : N) : bool :=
  if b0 =? 0xE0 then in_range 0xA0 0xBF b1
  else if b0 =? 0xED then in_range 0x80 0x9F b1
  else cont b1.
Definition second4 (b0 b1 : N) : bool :=
  if b0 =? 0xF0 then in_range 0x90 0xBF b1
  else if b0 =? 0xF4 then in_range 0x80 0x8F b1
  else cont b1.

Fixpoint utf8_decode (l : list N) : res (list N) :=
  match l with
  | [] => Ok []
  | b0 :: l1 =>
      if b0 <? 0x80 then s <- utf8_decode l1 ;; Ok (b0 :: s)
      else if in_range 0xC2 0xDF b0 then
        match l1 with
        | b1 :: l2 =>
            if cont b1 then
              s <- utf8_decode l2 ;; Ok ((b0 - 0xC0) * 64 + (b1 - 0x80) :: s)
            else Err UnicodeError
        | _ => Err UnicodeError
        end
      else if in_range 0xE0 0xEF b0 then
        match l1 with
        | b1 :: b2 :: l3 =>
            if second3 b0 b1 && cont b2 then
              s <- utf8_decode l3 ;;
              Ok ((b0 - 0xE0) * 4096 + (b1 - 0x80) * 64 + (b2 - 0x80) :: s)
            else Err UnicodeError
        | _ => Err UnicodeError
        end
      else if in_range 0xF0 0xF4 b0 then
        match l1 with
        | b1 :: b2 :: b3 :: l4 =>
            if second4 b0 b1 && cont b2 && cont b3 then
              s <- utf8_decode l4 ;;
              Ok ((b0 - 0xF0) * 262144 + (b1 - 0x80) * 4096 + (b2 - 0x80) * 64
                  + (b3 - 0x80) :: s)
            else Err UnicodeError
        | _ => Err UnicodeError
        end
      else Err UnicodeError
  end.
