(** What the cells added to a column stand for, independently of runs and chunks. *)
From Verif Require Import Py PyText Cell Casts Chunk ChunkSpec Utf8 Series.
From Flocq Require Import IEEE754.Bits.
Set Implicit Arguments. Unset Strict Implicit.

Section Spec.
  Context (o : oracle) (sc : sconf).
  (** The value of a well-formed cell, [None]: malformed (or a number that does not parse). *)
  Definition num (x : f8) : tag := (KNum, false, CNum x).
  Definition time (x : f8) : tag := (KTemp, false, CTime (ms_of o x)).
  Definition text (t : str) : tag := (KStr, false, CText t).
  Definition shared_text (i : Z) : option tag :=
    if in_table (sc_shared sc) i && (i <? 2 ^ 32) then Some (KStr, true, shared_at (sc_shared sc) i) else None.
  Definition bin_tag (xdt : Z) (v : cval) : option tag :=
    match v with
    | VStr t => if xdt =? 0x18 then Some (text t) else None
    | VBytes [b0] => if xdt =? 0x22 then Some (num (f8_of_Z b0)) else None
    | VBytes [b0; b1; b2; b3] =>
      let n := b0 + 2 ^ 8 * b1 + 2 ^ 16 * b2 + 2 ^ 24 * b3 in
      if xdt =? 0x11 then shared_text n
      else if xdt =? 0x21 then Some (num (rk_to_f8 n))
      else if xdt =? 0x25 then Some (time (rk_to_f8 n)) else None
    | VBytes [b0; b1; b2; b3; b4; b5; b6; b7] =>
      let x := b64_of_bits (b0 + 2 ^ 8 * b1 + 2 ^ 16 * b2 + 2 ^ 24 * b3 + 2 ^ 32 * b4 + 2 ^ 40 * b5 + 2 ^ 48 * b6 + 2 ^ 56 * b7) in
      if xdt =? 0x28 then Some (num x) else if xdt =? 0x24 then Some (time x) else None
    | _ => None
    end.
  Definition txt_tag (xdt : Z) (v : cval) : option tag :=
    match v with
    | VStr _ => None
    | VBytes b =>
      if xdt =? 0x18 then match decode8 b with Some t => Some (text t) | None => None end
      else if xdt =? 0x11 then match py_int b with Ok i => shared_text i | Err _ => None end
      else if xdt =? 0x20 then match o_float o b with Some x => Some (num x) | None => None end
      else if xdt =? 0x24 then match o_float o b with Some x => Some (time x) | None => None end
      else None
    end.
  Definition cell_tag (c : cell) : option tag := if sc_binary sc then bin_tag (c_xdt c) (c_val c) else txt_tag (c_xdt c) (c_val c).
  Definition good (c : cell) : bool := match cell_tag c with Some _ => true | None => false end.
  Definition tag_of (c : cell) : tag := match cell_tag c with Some t => t | None => tnull end.

  (** Rows strictly increasing, all after [last]. *)
  Fixpoint increasing (last : Z) (l : list cell) : bool :=
    match l with [] => true | c :: r => (last <? c_row c) && increasing (c_row c) r end.
  Definition last_row (l : list cell) : Z := match rev l with [] => -1 | c :: _ => c_row c end.
  (** The content of row [r]. *)
  Definition at_row (l : list cell) (r : Z) : tag :=
    match find (fun c => c_row c =? r) l with Some c => tag_of c | None => tnull end.
  (** Rows [off .. off+n-1]; the rows a read asks for. *)
  Definition at_rows (l : list cell) (off n : Z) : list tag := map (fun i => at_row l (off + Z.of_nat i)) (seq 0 (Z.to_nat n)).
  Definition wanted (l : list cell) (off len : Z) (idx : option (list bool)) : list tag :=
    match idx with
    | Some m => masked (at_rows l off (zlen m)) m
    | None => if (off =? 0) && (len =? 0) then at_rows l 0 (last_row l + 1) else at_rows l off len
    end.
End Spec.

(** *** Histories of calls *)
Inductive op := Add (c : cell) | Arrow (off len : Z) (idx : option (list bool)) | Utf (off len : Z) (idx : option (list bool)).
(** What a call returns or raises. *)
Inductive answer := Row (r : Z) | Values (a : array) | Raised (e : exn).
Definition adds (h : list op) : list cell := flat_map (fun x => match x with Add c => [c] | _ => [] end) h.
(** Reads of a window or mask, and in mode "no" reads of the whole column. *)
Definition calm (cf : conf) (off len : Z) (idx : option (list bool)) : bool :=
  request off len idx && (negb ((off =? 0) && (len =? 0) && match idx with None => true | _ => false end) || negb (cf_datetime cf) && negb (cf_numerics cf)).
Definition calm_op (cf : conf) (x : op) : bool :=
  match x with Add _ => true | Arrow a b c | Utf a b c => calm cf a b c end.
(** The row of the last successful [add]. *)
Fixpoint last_added (last : Z) (l : list answer) : Z :=
  match l with [] => last | Row r :: l => last_added r l | _ :: l => last_added last l end.
