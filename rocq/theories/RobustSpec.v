(** Vocabulary for claims about arbitrary parts: what a longer run is, which cells an
    exclusion hides, where a value comes from, what a complete cell record is. *)
From Verif Require Import Py Biff Utf16 Utf16Spec Cell.

(** A run [b] goes on where the run [a] stops; nothing can be added to a run that failed. *)
Definition extends (a b : trace) : Prop :=
  (exists rest, fst b = fst a ++ rest) /\ (snd a <> None -> b = a).

(** The value comes from the record: fixed bytes, or the text of an inline string. *)
Definition payload (r : record) (v : cval) : Prop :=
  match v with
  | VBytes b => exists k, In k [9; 12; 16] /\ b = sub (rec_data r) 8 k
  | VStr x => exists k, unpack_I (sub (rec_data r) 8 12) = Ok k /\ decode16 (py_slice (rec_data r) (Some 12) (Some (k * 2 + 12))) = Ok x
  end.

(** Not hidden by the null values or the skipped columns: .xlsb, .xlsx. *)
Definition visible (nv : str -> bool) (nul : bytes -> bool) (cols : list Z) (c : cell) : bool :=
  negb (mem_Z (c_col c) cols) &&
  match c_val c with
  | VStr x => negb (nv x)
  | VBytes b => negb ((c_xdt c =? Z.lor TYPE_STRING REPR_SHARED) && nul b)
  end.
Definition xvisible (p : bytes -> bool) (cols : list Z) (c : cell) : bool :=
  negb (mem_Z (c_col c) cols) && match c_val c with VStr _ => true | VBytes b => negb (p b) end.
(** A cell without its row number. *)
Definition no_row (c : cell) : cell := mkCell 0 (c_col c) (c_xdt c) (c_val c).

(** [MS-XLSB] 2.5.9 Cell: a column and a style, then for BrtCellSt and BrtFmlaString a
    wide string. *)
Definition good_cell (r : record) : Prop :=
  4 <= zlen (rec_data r) /\
  (rec_id r = 6 \/ rec_id r = 8 ->
   exists h x rest, zlen h = 8 /\ wide_ok x = true /\ rec_data r = h ++ wide_string x ++ rest).
