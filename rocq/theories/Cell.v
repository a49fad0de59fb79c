(** Model of rxls/cell.py and rxls/constants.py, and of what the worksheet
    iterators produce. *)
From Verif Require Import Py.

(** constants.py:27-35. *)
Definition TYPE_STRING := 0x10.
Definition TYPE_NUMERIC := 0x20.
Definition REPR_PLAIN := 0x00.
Definition REPR_SHARED := 0x01.
Definition REPR_RKNUMBER := 0x01.
Definition REPR_BOOLEAN := 0x02.
Definition REPR_TEMPORAL := 0x04.
Definition REPR_PREPARED := 0x08.

(** The dynamic type of [cell.val]: [bytes] or (BrtCellSt) [str]. *)
Inductive cval := VBytes (b : bytes) | VStr (t : str).

(** cell.py:9-27. *)
Record cell := mkCell { c_row : Z; c_col : Z; c_xdt : Z; c_val : cval }.

(** What a worksheet iterator does, in order: yield a cell, call [row_callback]. *)
Inductive out := OCell (c : cell) | OCall.

(** A finished (or failed) iteration: the outputs and the exception, if any. *)
Definition trace := (list out * option exn)%type.

Definition cells_of (l : list out) : list cell :=
  flat_map (fun o => match o with OCell c => [c] | OCall => [] end) l.
Definition calls_of (l : list out) : Z :=
  zlen (filter (fun o => match o with OCall => true | OCell _ => false end) l).

(** [null_values] argument: None, a sequence of strings, or a predicate. *)
Inductive null_arg := NNone | NList (l : list str) | NPred (p : str -> bool).

(** The error strings (xlsx.py:46-63, xlsb.py:37-55), as text.  The Cyrillic ones are
    given by code point. *)
Definition ERROR_TEXTS : list str :=
  [s "#NULL!"; s "#DIV/0!"; s "#VALUE!"; s "#REF!"; s "#NAME?"; s "#NUM!"; s "#N/A";
   s "#GETTING_DATA";
   [35; 1044; 1045; 1051; 47; 48; 33];
   [35; 1047; 1053; 1040; 1063; 33];
   [35; 1057; 1057; 1067; 1051; 1050; 1040; 33];
   [35; 1048; 1052; 1071; 63];
   [35; 1063; 1048; 1057; 1051; 1054; 33];
   [35; 1053; 47; 1044]].
