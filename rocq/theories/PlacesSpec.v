(** What a table should hold, in terms of the places of the delivered sheet: a function from
    row and column to the cell's value ([tnull]: no cell) and the number of rows. *)
From Coq Require Import Sorted.
From Verif Require Import Py PyText Cell Casts Chunk ChunkSpec Utf8 Series SeriesSpec Reader ReaderSpec XlsbSpec XlsxSpec Workbook WorkbookSpec.
Set Implicit Arguments. Unset Strict Implicit.

(** ** Rows *)
(** Rows [skip .. skip+take]; all of them when neither number is given. *)
Definition rows_from {A} (skip take : Z) (l : list A) : list A :=
  if skip + take =? 0 then l else firstn (Z.to_nat (take + 1)) (skipn (Z.to_nat skip) l).
(** The rows a read of an .xlsb sheet delivers.  With empty rows left out, any [skip] leaves
    nothing (C16). *)
Definition b_delivered (texts : list str) (nv : str -> bool) (cols : list Z) (tne : bool) (skip take : Z) (rows : list brow) : list brow :=
  if tne then rows_from skip take rows
  else if 0 <? skip then [] else rows_from 0 take (b_rows texts nv cols false rows).
(** The same for .xlsx: every skipped and every empty row above the first cell counts twice
    towards the limit (C16, C23); empty rows below the first cell are never left out (C24). *)
Definition x_delivered (nv : str -> bool) (cols : list Z) (tne : bool) (skip take : Z) (rows : list xrow) : list xrow :=
  if tne then
    let above := Z.min (zlen rows) skip + leading (x_row_shown nv cols) (skipn (Z.to_nat skip) rows) in
    rows_from skip (take + 2 * above) rows
  else if 0 <? skip then [] else rows_from 0 take (x_rows nv cols false rows).
(** The cells of each row stand in the order of their columns. *)
Definition b_sorted (rows : list brow) : Prop := forall r, In r rows -> StronglySorted Z.le (map b_col (row_cells r)).
Definition x_sorted (rows : list xrow) : Prop := forall r, In r rows -> StronglySorted Z.le (map x_col (xrow_cells r)).

(** ** Tables *)
Section Places.
  Context (ro : roracle) (cf : conf) (P : Z -> Z -> tag) (n : Z).
  Local Notation o := (ro_o ro).
  Local Notation sc := (mkSC [] true cf).
  (** The columns with a cell, in ascending order. *)
  Definition has_columns (ks : list Z) : Prop :=
    StronglySorted Z.lt ks /\ forall k, In k ks <-> exists r, 0 <= r < n /\ P r k <> tnull.
  (** First and last row of a column with a cell. *)
  Definition starts (k a : Z) : Prop := 0 <= a < n /\ P a k <> tnull /\ forall r, 0 <= r < a -> P r k = tnull.
  Definition ends (k b : Z) : Prop := 0 <= b < n /\ P b k <> tnull /\ forall r, b < r < n -> P r k = tnull.
  (** The largest number of rows between the first and the last cell of a column. *)
  Definition longest (ks : list Z) (t : Z) : Prop :=
    (exists k a b, In k ks /\ starts k a /\ ends k b /\ t = b - a + 1) /\
    forall k a b, In k ks -> starts k a -> ends k b -> b - a + 1 <= t.
  (** The columns by first row, those of the same first row from left to right. *)
  Definition by_first_cell (ks os : list Z) : Prop :=
    (forall k, In k os <-> In k ks) /\
    StronglySorted (fun j k => exists a b, starts j a /\ starts k b /\ (a < b \/ a = b /\ j < k)) os.

  Definition rows_of (k off len : Z) : list tag := map (fun i => P (off + Z.of_nat i) k) (seq 0 (Z.to_nat len)).
  Definition chosen_rows (k off len : Z) (idx : option (list bool)) : list tag :=
    match idx with None => rows_of k off len | Some m => masked (rows_of k off len) m end.
  (** The array shows these values: each one as it is or converted (only where the mode and the
      other values allow), else in the natural type. *)
  Definition showing (w : list tag) (a : array) : Prop :=
    Forall2 (delivers o cf (a_type a)) w (a_vals a) /\
    (attempted sc w = false -> a_type a = natural o sc w /\ Forall2 (fun x v => render o (a_type a) (t_val x) = Ok v) w (a_vals a)).
  Definition showing_text (w : list tag) (ts : list (option str)) : Prop :=
    exists a, showing w a /\ ts = map (text_form o) (a_vals a).

  (** The row where the header starts. *)
  Definition header_at (op : ropts) (ks : list Z) (r : Z) : Prop :=
    match r_lookup op with
    | None => r = 0
    | Some (LCol k) => In k ks /\ exists ts, showing_text (rows_of k 0 (r_size op)) ts /\ first_at filled r ts
    | Some (LText t) => exists p before k after ts, ro_search ro t = Some p /\ by_first_cell ks (before ++ k :: after) /\
        showing_text (rows_of k 0 (r_size op)) ts /\ first_at (fits p) r ts /\
        forall j, In j before -> exists ts, showing_text (rows_of j 0 (r_size op)) ts /\ existsb (fits p) ts = false
    end.
  (** Its height and the names of the columns. *)
  Definition names_at (op : ropts) (ks : list Z) (r height : Z) (names : list str) : Prop :=
    match r_header op with
    | HList given => height = 0 /\ names = given /\ List.length given = List.length ks
    | HInt h => height = h /\
      if h =? 0 then names = map (fun i => s "Unnamed. " ++ dec (Z.of_nat i)) (seq 0 (List.length ks))
      else exists blocks, Forall2 (fun k b => showing_text (rows_of k r h) b) ks blocks /\ names = titles blocks
    end.
  (** The rows kept by the row filter ([None]: all). *)
  Definition kept_at (op : ropts) (fs : list Z) (off len : Z) (idx : option (list bool)) : Prop :=
    match fs, idx with
    | [], None => True
    | _ :: _, Some m =>
      exists arrays, Forall2 (fun k a => showing (rows_of k off len) a) fs arrays /\
        m = map (fun i => keep (r_strategy op) (map (fun a => present (nth i (a_vals a) None)) arrays)) (seq 0 (Z.to_nat len)) /\
        In true m
    | _, _ => False
    end.
  (** The table of the sheet under the given options. *)
  Definition table_of (op : ropts) (ks : list Z) (tbl : table ro) : Prop :=
    List.length tbl = List.length ks /\
    exists tall first height idx,
      longest ks tall /\ header_at op ks first /\ names_at op ks first height (map fst tbl) /\
      let off := height + first + r_skip_after op in let len := tall - off in
      0 < len ->
      kept_at op (chosen_columns ro (r_filters op) (map fst tbl) ks) off len idx /\
      forall i k, nth_error ks i = Some k ->
        exists name c a, nth_error tbl i = Some (name, c) /\ showing (chosen_rows k off len idx) a /\
          converted (type_wanted (r_dtypes op) i name) a c.
End Places.
