(** Python's "utf-16" text codec (CPython built-in, not repository code):
    [bytes.decode("utf-16")] and [str.encode("utf-16")], error mode "strict". *)
From Verif Require Import Py.

Definition is_high (u : Z) : bool := (0xD800 <=? u) && (u <? 0xDC00).
Definition is_low (u : Z) : bool := (0xDC00 <=? u) && (u <? 0xE000).

(** 16-bit units of a byte string; an odd trailing byte is an error. *)
Fixpoint units_le (b : bytes) : res (list Z) :=
  match b with
  | [] => Ok []
  | [_] => Err UnicodeError
  | x :: y :: r => us <- units_le r ;; Ok (x + 256 * y :: us)
  end.
Fixpoint units_be (b : bytes) : res (list Z) :=
  match b with
  | [] => Ok []
  | [_] => Err UnicodeError
  | x :: y :: r => us <- units_be r ;; Ok (256 * x + y :: us)
  end.

(** Code points from units; lone surrogates are an error. *)
Fixpoint decode_units (us : list Z) : res str :=
  match us with
  | [] => Ok []
  | u :: r =>
    if is_high u then
      match r with
      | v :: r' =>
        if is_low v then
          t <- decode_units r' ;; Ok (0x10000 + (u - 0xD800) * 1024 + (v - 0xDC00) :: t)
        else Err UnicodeError
      | [] => Err UnicodeError
      end
    else if is_low u then Err UnicodeError
    else t <- decode_units r ;; Ok (u :: t)
  end.

(** A leading byte-order mark selects the byte order and is dropped; without one
    the native (little-endian) order is used. *)
Definition decode16 (b : bytes) : res str :=
  match b with
  | 0xFF :: 0xFE :: r => us <- units_le r ;; decode_units us
  | 0xFE :: 0xFF :: r => us <- units_be r ;; decode_units us
  | _ => us <- units_le b ;; decode_units us
  end.

Definition enc_units (c : Z) : list Z :=
  if c <? 0x10000 then [c]
  else [0xD800 + (c - 0x10000) / 1024; 0xDC00 + (c - 0x10000) mod 1024].
Definition le2 (u : Z) : bytes := [u mod 256; u / 256].

Definition is_surrogate (c : Z) : bool := is_high c || is_low c.
(** [str.encode("utf-16")]: byte-order mark, then little-endian units; a surrogate
    code point in the string is an error. *)
Definition encode16 (t : str) : res bytes :=
  if existsb is_surrogate t then Err UnicodeError
  else Ok (0xFF :: 0xFE :: flat_map le2 (flat_map enc_units t)).
