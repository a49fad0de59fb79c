(** Independent specification of the BIFF12 framing. *)
From Verif Require Import Py Biff.

(** A record id that the two-byte id form can carry ([MS-XLSB] 2.1.4): one byte
    without the high bit, or two bytes whose first has the high bit. *)
Definition id_encodable (id : Z) : bool :=
  ((0 <=? id) && (id <? 0x80)) || ((0 <=? id) && (id <? 0x10000) && Z.testbit id 7).

(** A record that fits the format: encodable id, payload of bytes, size limit. *)
Definition rec_ok (r : record) : bool :=
  id_encodable (rec_id r) && bytes_ok (rec_data r) && (zlen (rec_data r) <? 2 ^ 29).

(** Value of a little-endian base-128 number whose last group may use 8 bits. *)
Fixpoint base128 (l : bytes) : Z :=
  match l with
  | [] => 0
  | [b] => b
  | b :: r => b mod 128 + 128 * base128 r
  end.

(** All bytes but the last carry the continuation bit; the last does not, except
    in fourth position (the format has at most four size bytes). *)
Fixpoint continued (k : nat) (l : bytes) : bool :=
  match l with
  | [] => false
  | [b] => (b <? 128) || (Nat.eqb k 3)
  | b :: r => (128 <=? b) && continued (S k) r
  end.

(** Number of 7-bit groups needed, capped at four. *)
Definition groups (i : Z) : nat :=
  if i <? 2 ^ 7 then 1 else if i <? 2 ^ 14 then 2 else if i <? 2 ^ 21 then 3 else 4.

(** Keep the records whose id is in the set. *)
Definition only_ids (ids : list Z) (rs : list record) : list record :=
  filter (fun r => if in_dec Z.eq_dec (rec_id r) ids then true else false) rs.

(** Id bytes on disk: little-endian, one byte below 0x80, else two. *)
Definition id_bytes (id : Z) : bytes := if id <? 128 then [id] else [id mod 256; id / 256].

(** Size in bytes of a record on disk: id, size prefix, payload. *)
Definition disk_size (r : record) : Z :=
  zlen (id_bytes (rec_id r)) + Z.of_nat (groups (zlen (rec_data r))) + zlen (rec_data r).

(** The records of [rs] that lie completely within the first [k] bytes of the
    concatenation of the encodings. *)
Fixpoint fitting (k : Z) (rs : list record) : list record :=
  match rs with
  | [] => []
  | r :: rs' => if disk_size r <=? k then r :: fitting (k - disk_size r) rs' else []
  end.

(** On-disk form of logical record type [n] ([MS-XLSB] 2.1.4): low seven bits
    with the continuation bit, then the high bits. *)
Definition disk_id (n : Z) : Z :=
  if n <? 128 then n else (n mod 128 + 128) + 256 * (n / 128).

(** A record as it may stand in a file: the size prefix is any size number of at most four
    bytes, not only the shortest. *)
Inductive frame (r : record) : bytes -> Prop :=
  Frame sb : id_encodable (rec_id r) = true -> bytes_ok sb = true -> (List.length sb <= 4)%nat -> continued 0 sb = true ->
    bytes_ok (rec_data r) = true -> base128 sb = zlen (rec_data r) -> frame r (id_bytes (rec_id r) ++ sb ++ rec_data r).
Inductive framed : list record -> bytes -> Prop :=
| framed_nil : framed [] []
| framed_cons r rs b b' : frame r b -> framed rs b' -> framed (r :: rs) (b ++ b').
(** No record stands at the beginning of [t]. *)
Definition no_frame (t : bytes) : Prop := forall r b q, frame r b -> t <> b ++ q.
