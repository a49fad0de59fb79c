(** Unicode strings and their storage in .xlsb files ([MS-XLSB] 2.5.168
    XLWideString: 4-byte count of UTF-16 units, then the units, no byte-order
    mark). *)
From Verif Require Import Py Utf16.

(** A Unicode scalar value. *)
Definition char_ok (c : Z) : bool :=
  (0 <=? c) && (c <? 0x110000) && negb ((0xD800 <=? c) && (c <? 0xE000)).
Definition str_ok (t : str) : bool := forallb char_ok t.

(** UTF-16LE (RFC 2781). *)
Definition utf16le (t : str) : bytes := flat_map le2 (flat_map enc_units t).
(** Number of UTF-16 units. *)
Definition n_units (t : str) : Z :=
  fold_right (fun c n => (if c <? 0x10000 then 1 else 2) + n) 0 t.
Definition wide_string (t : str) : bytes := le4 (n_units t) ++ utf16le t.
Definition starts_with_mark (t : str) : bool :=
  match t with c :: _ => (c =? 0xFEFF) || (c =? 0xFFFE) | [] => false end.

(** What Excel can store: scalar values, count below the null marker. *)
Definition wide_ok (t : str) : bool :=
  str_ok t && negb (starts_with_mark t) && (n_units t <? 0xFFFFFFFF).
