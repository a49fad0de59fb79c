(** Python text primitives: [str.strip], [str.encode("utf-8")], decimal [str(int)] and
    [int(str)] (CPython built-ins, not repository code). *)
From Verif Require Import Py.

(** [str.isspace] characters, as used by [strip] with no argument. *)
Definition is_space (c : Z) : bool :=
  ((9 <=? c) && (c <=? 13)) || ((28 <=? c) && (c <=? 32)) || (c =? 0x85) || (c =? 0xA0)
  || (c =? 0x1680) || ((0x2000 <=? c) && (c <=? 0x200A)) || (c =? 0x2028) || (c =? 0x2029)
  || (c =? 0x202F) || (c =? 0x205F) || (c =? 0x3000).
Fixpoint lstrip (t : str) : str :=
  match t with [] => [] | c :: r => if is_space c then lstrip r else t end.
Definition strip (t : str) : str := rev (lstrip (rev (lstrip t))).

(** UTF-8 encoding of one scalar value (surrogates do not occur: the XML parser never
    delivers them). *)
Definition utf8_char (c : Z) : bytes :=
  if c <? 0x80 then [c]
  else if c <? 0x800 then [0xC0 + c / 64; 0x80 + c mod 64]
  else if c <? 0x10000 then [0xE0 + c / 4096; 0x80 + (c / 64) mod 64; 0x80 + c mod 64]
  else [0xF0 + c / 262144; 0x80 + (c / 4096) mod 64; 0x80 + (c / 64) mod 64; 0x80 + c mod 64].
Definition utf8 (t : str) : bytes := flat_map utf8_char t.

(** Decimal digits of [n >= 0], most significant first ([str(n)]). *)
Fixpoint dec_fuel (fuel : nat) (n : Z) : str :=
  match fuel with
  | O => []
  | S f => if n <? 10 then [48 + n] else dec_fuel f (n / 10) ++ [48 + n mod 10]
  end.
Definition dec (n : Z) : str := dec_fuel (S (Z.to_nat (Z.log2 (Z.max 1 n)))) n.

Definition is_digit (c : Z) : bool := (48 <=? c) && (c <=? 57).
(** [int(t)] of a [str] or [bytes], base 10: space around it (ASCII: 9-13 and 32), one sign,
    digits with single underscores between them.  Simplification: in a [str] that is not ASCII
    Python also reads the other Unicode digits and spaces (here ValueError), and it refuses
    more than 4300 digits. *)
Definition is_aspace (c : Z) : bool := ((9 <=? c) && (c <=? 13)) || (c =? 32).
Fixpoint askip (t : str) : str := match t with c :: r => if is_aspace c then askip r else t | [] => [] end.
Fixpoint int_digits (after_digit : bool) (a : Z) (t : str) : option Z :=
  match t with
  | [] => if after_digit then Some a else None
  | c :: r => if is_digit c then int_digits true (a * 10 + (c - 48)) r
              else if (c =? 95) && after_digit then int_digits false a r else None
  end.
Definition py_int (t : str) : res Z :=
  match
    match rev (askip (rev (askip t))) with
    | 45 :: r => option_map Z.opp (int_digits false 0 r)
    | 43 :: r => int_digits false 0 r
    | r => int_digits false 0 r
    end
  with Some n => Ok n | None => Err ValueError end.
