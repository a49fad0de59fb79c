(** Structure of the .xlsb parts as Excel writes them ([MS-XLSB] section 2.4), and what a
    reader should deliver for them. *)
From Verif Require Import Py Biff BiffSpec Utf16 Utf16Spec NumFmt NumFmtSpec Cell.

(** ** Worksheet *)

(** The value of a cell record; [f] tells the formula variant of the record. *)
Inductive bval :=
  | BRk (v : bytes)              (* BrtCellRk *)
  | BReal (f : bool) (v : bytes) (* BrtCellReal / BrtFmlaNum *)
  | BBool (f : bool) (v : Z)     (* BrtCellBool / BrtFmlaBool *)
  | BStr (f : bool) (t : str)    (* BrtCellSt / BrtFmlaString *)
  | BShared (i : Z).             (* BrtCellIsst *)

(** Cell: column, 24-bit style reference, flag byte, value, trailing bytes (formula). *)
Record bcell := mkB { b_col : Z; b_style : bytes; b_flags : Z; b_val : bval; b_tail : bytes }.

Definition bcell_id (c : bcell) : Z :=
  match b_val c with
  | BRk _ => 2
  | BReal f _ => if f then 9 else 5
  | BBool f _ => if f then 10 else 4
  | BStr f _ => if f then 8 else 6
  | BShared _ => 7
  end.
Definition bval_bytes (v : bval) : bytes :=
  match v with
  | BRk v => v
  | BReal _ v => v
  | BBool _ b => [b]
  | BStr _ t => wide_string t
  | BShared i => le4 i
  end.
Definition bcell_record (c : bcell) : record :=
  mkRec (bcell_id c) (le4 (b_col c) ++ b_style c ++ [b_flags c] ++ bval_bytes (b_val c) ++ b_tail c).

Definition bcell_ok (c : bcell) : bool :=
  (0 <=? b_col c) && (b_col c <? 2 ^ 32) && (zlen (b_style c) =? 3) &&
  match b_val c with
  | BRk v => zlen v =? 4
  | BReal _ v => zlen v =? 8
  | BBool _ _ => true
  | BStr _ t => wide_ok t
  | BShared i => (0 <=? i) && (i <? 2 ^ 32)
  end.

(** Between cells there may be other records, which a reader must ignore. *)
Inductive item := IC (c : bcell) | IX (r : record).
Definition used_ids : list Z := [0; 2; 4; 5; 6; 7; 8; 9; 10; 402].
Definition item_ok (x : item) : bool :=
  match x with IC c => bcell_ok c | IX r => negb (existsb (Z.eqb (rec_id r)) used_ids) end.
Definition item_record (x : item) : record :=
  match x with IC c => bcell_record c | IX r => r end.
Definition item_cells (l : list item) : list bcell :=
  flat_map (fun x => match x with IC c => [c] | IX _ => [] end) l.

(** A row: content of the row header record, items. *)
Definition brow := (bytes * list item)%type.
Definition row_records (r : brow) : list record := mkRec 0 (fst r) :: map item_record (snd r).
Definition row_cells (r : brow) : list bcell := item_cells (snd r).

(** A worksheet part: other records, rows, BrtEndSheetData, other records. *)
Definition sheet_records (pre : list record) (rows : list brow) (e : bytes) (post : list record)
  : list record := pre ++ flat_map row_records rows ++ mkRec 402 e :: post.
Definition unused (l : list record) : bool :=
  forallb (fun r => negb (existsb (Z.eqb (rec_id r)) used_ids)) l.
Definition sheet_ok (pre : list record) (rows : list brow) (post : list record) : bool :=
  unused pre && unused post && forallb (fun r => forallb item_ok (snd r)) rows.

(** What should be delivered for a cell in (delivered) row [row]: nothing when the
    column is skipped or the text is null; otherwise position, kind and value. *)
Section Expected.
  Context (temporal : bytes -> bool) (null_text : str -> bool) (null_index : Z -> bool).
  Context (skip_cols : list Z).

  Definition expected (row : Z) (c : bcell) : list cell :=
    if existsb (Z.eqb (b_col c)) skip_cols then []
    else
      let tm := temporal (b_style c) in
      match b_val c with
      | BRk v => [mkCell row (b_col c) (if tm then 0x25 else 0x21) (VBytes v)]
      | BReal _ v => [mkCell row (b_col c) (if tm then 0x24 else 0x28) (VBytes v)]
      | BBool _ b => [mkCell row (b_col c) 0x22 (VBytes [b])]
      | BStr _ t => if null_text t then [] else [mkCell row (b_col c) 0x18 (VStr t)]
      | BShared i => if null_index i then [] else [mkCell row (b_col c) 0x11 (VBytes (le4 i))]
      end.

  Definition expected_row (row : Z) (r : brow) : list cell := flat_map (expected row) (row_cells r).
  (** A row is empty for the reader when nothing is delivered from it. *)
  Definition row_nonempty (r : brow) : bool :=
    match expected_row 0 r with [] => false | _ => true end.
End Expected.

Fixpoint enum_from {A} (i : Z) (l : list A) : list (Z * A) :=
  match l with [] => [] | x :: r => (i, x) :: enum_from (i + 1) r end.

(** Each row with the number of earlier rows satisfying [p]. *)
Fixpoint count_before {A} (p : A -> bool) (n : Z) (l : list A) : list (Z * A) :=
  match l with [] => [] | x :: r => (n, x) :: count_before p (if p x then n + 1 else n) r end.

(** ** Shared strings: BrtSSTItem records (flag byte, wide string, trailing runs) among others *)
Inductive sitem := SI (flags : Z) (t : str) (tail : bytes) | SX (r : record).
Definition sitem_ok (x : sitem) : bool :=
  match x with SI _ t _ => wide_ok t | SX r => negb (rec_id r =? 19) end.
Definition sitem_record (x : sitem) : record :=
  match x with SI f t tail => mkRec 19 (f :: wide_string t ++ tail) | SX r => r end.
Definition sitem_texts (l : list sitem) : list str :=
  flat_map (fun x => match x with SI _ t _ => [t] | SX _ => [] end) l.

(** ** Styles: BrtXF and BrtFmt records among others *)
Inductive yitem :=
  | YXF (parent fmt : Z) (tail : bytes)   (* BrtXF: parent style (0xFFFF in cellStyleXfs), format id *)
  | YFmt (id : Z) (code : str)            (* BrtFmt: format id, format code *)
  | YX (r : record).
Definition yitem_ok (x : yitem) : bool :=
  match x with
  | YXF p f _ => (0 <=? p) && (p <? 2 ^ 16) && (0 <=? f) && (f <? 2 ^ 16)
  | YFmt i c => (0 <=? i) && (i <? 2 ^ 16) && wide_ok c
  | YX r => negb ((rec_id r =? 47) || (rec_id r =? 44))
  end.
Definition yitem_record (x : yitem) : record :=
  match x with
  | YXF p f tail => mkRec 47 (le2 p ++ le2 f ++ tail)
  | YFmt i c => mkRec 44 (le2 i ++ wide_string c)
  | YX r => r
  end.
(** Format ids of the cell XFs, in order. *)
Definition cell_xfs (l : list yitem) : list Z :=
  flat_map (fun x => match x with
                     | YXF p f _ => if p =? 0xFFFF then [] else [f]
                     | _ => [] end) l.
Definition custom_fmts (l : list yitem) : list (Z * str) :=
  flat_map (fun x => match x with YFmt i c => [(i, c)] | _ => [] end) l.

(** Built-in date/time formats (ECMA-376 18.8.30): 14-22 and 45-47. *)
Definition builtin_temporal (f : Z) : bool :=
  ((14 <=? f) && (f <=? 22)) || ((45 <=? f) && (f <=? 47)).
