(** Parts of a sheet: the cells of a column from one row on, or between two rows. *)
From Verif Require Import Py Cell Reader ReaderSpec.
Set Implicit Arguments. Unset Strict Implicit.

Definition rows_from (a : Z) (l : list cell) (k : Z) : list cell := filter (fun c => a <=? c_row c) (content l k).
Definition rows_between (a b : Z) (l : list cell) (k : Z) : list cell := filter (fun c => (a <=? c_row c) && (c_row c <? b)) (content l k).
(** Number of rows of the header. *)
Definition header_rows (op : ropts) : Z := match r_header op with HInt n => n | HList _ => 0 end.
