(** Workbook files: which members of the archive hold what, and the value a table should
    show for each place of the sheet. *)
From Verif Require Import Py PyText Biff BiffSpec Utf16 Utf16Spec NumFmt NumFmtSpec Cell Xlsx XlsbSpec XlsbProofs XlsbParts XlsxSpec XlsxParts
  XlsxNorm Sheets SheetsSpec Casts Chunk ChunkSpec Utf8 Series SeriesSpec Workbook.
From Flocq Require Import IEEE754.Bits.
Set Implicit Arguments. Unset Strict Implicit.

(** The first member of that name; an XML member with these events. *)
Definition member (z : archive) (n : str) (b : bytes) : Prop := find (fun p => str_eqb n (fst p)) z = Some (n, b).
Definition absent (z : archive) (n : str) : Prop := forall b, ~ In (n, b) z.
Definition xml_member (expat : bytes -> list event * option exn) (z : archive) (n : str) (es : list event) : Prop :=
  exists b, member z n b /\ expat b = (es, None).

(** The sheet asked for: by position or by name. *)
Definition asked (d : list (str * str)) (a : sheet_arg) (path : str) : Prop :=
  match a with
  | SIdx i => 0 <= i /\ exists n, nth_error d (Z.to_nat i) = Some (n, path)
  | SName n => In (n, path) d
  end.

(** A row of the delivered sheet, a column: one place. *)
Definition le_value (b : bytes) : Z := fold_right (fun x a => x + 256 * a) 0 b.

Section Package.
  Context (expat : bytes -> list event * option exn) (z : archive).

  (** The workbook part lists these sheets (name, member). *)
  Definition xlsb_book (d : list (str * str)) : Prop :=
    exists rl bl wb,
      xml_member expat z (s "xl/_rels/workbook.bin.rels") (flat_map ritem_events rl) /\ forallb ritem_ok rl = true /\
      member z (s "xl/workbook.bin") wb /\ dump_all (map bitem_record bl) = Ok wb /\ forallb bitem_ok bl = true /\
      forallb rec_ok (map bitem_record bl) = true /\ NoDup (map fst (bsheet_list bl)) /\
      (forall n i, In (n, i) (bsheet_list bl) -> rel_of (rel_list rl) i <> None) /\
      d = sheet_table (rel_list rl) (bsheet_list bl).
  (** The sheet asked for is the member [path], with rows [rows]. *)
  Definition xlsb_sheet (a : sheet_arg) (rows : list brow) (path : str) : Prop :=
    exists d pre e post part, xlsb_book d /\ asked d a path /\ member z path part /\ is_part pre rows e post part.
  (** An .xlsb file: shared strings [sl], styles [yl], and the sheet asked for with rows [rows]. *)
  Record xlsb_file (a : sheet_arg) (sl : list sitem) (yl : list yitem) (rows : list brow) : Prop := {
    bf_kind : absent z (s "xl/workbook.xml");
    bf_sheet : exists path, xlsb_sheet a rows path;
    bf_shared : exists sst, member z (s "xl/sharedStrings.bin") sst /\ is_sst sl sst /\ zlen (sitem_texts sl) <= 2 ^ 32;
    bf_styles : exists st, member z (s "xl/styles.bin") st /\ is_styles yl st /\ zlen (cell_xfs yl) <= 2 ^ 16;
    (** Cells refer to styles and shared strings that exist. *)
    bf_refs : forall r c, In r rows -> In c (row_cells r) ->
      (exists k f, nth_error (cell_xfs yl) k = Some f /\ b_style c = le2 (Z.of_nat k) ++ [0]) /\
      (forall i, b_val c = BShared i -> i < zlen (sitem_texts sl)) }.

  (** The same for .xlsx. *)
  Definition xlsx_book (d : list (str * str)) : Prop :=
    exists rl wl,
      xml_member expat z (s "xl/_rels/workbook.xml.rels") (flat_map ritem_events rl) /\ forallb ritem_ok rl = true /\
      xml_member expat z (s "xl/workbook.xml") (flat_map witem_events wl) /\ forallb witem_ok wl = true /\
      NoDup (map fst (rel_list rl)) /\ NoDup (map fst (sheet_list wl)) /\ NoDup (map snd (sheet_list wl)) /\
      (forall n i, In (n, i) (sheet_list wl) -> exists t, rel_of (rel_list rl) i = Some (s "worksheet", t)) /\
      d = sheet_table (rel_list rl) (sheet_list wl).
  Definition xlsx_sheet (a : sheet_arg) (rows : list xrow) (path : str) : Prop :=
    exists d es, xlsx_book d /\ asked d a path /\ xml_member expat z path es /\ is_xsheet rows es.
  Record xlsx_file (a : sheet_arg) (sl : list xsi) (yl : list ystyle) (rows : list xrow) : Prop := {
    xf_sheet : exists path, xlsx_sheet a rows path;
    xf_shared : xml_member expat z (s "xl/sharedStrings.xml") (flat_map xsi_events sl) /\ forallb xsi_ok sl = true;
    xf_styles : xml_member expat z (s "xl/styles.xml") (flat_map ystyle_events yl) /\ forallb ystyle_ok yl = true }.
End Package.

Section Values.
  Context (o : oracle).
  (** *** .xlsb: [tm] tells the temporal formats, by format id. *)
  Section B.
    Context (tm : Z -> bool) (xfs : list Z) (texts : list str) (nv : str -> bool) (skip_cols : list Z).
    Definition b_temporal (c : bcell) : bool :=
      match nth_error xfs (Z.to_nat (le_value (b_style c))) with Some f => tm f | None => false end.
    Definition b_null (c : bcell) : bool :=
      match b_val c with
      | BStr _ t => nv t
      | BShared i => match nth_error texts (Z.to_nat i) with Some t => nv t | None => false end
      | _ => false
      end.
    Definition b_shown (c : bcell) : bool := negb (existsb (Z.eqb (b_col c)) skip_cols) && negb (b_null c).
    Definition b_tag (c : bcell) : tag :=
      match b_val c with
      | BRk v => (if b_temporal c then time o else num) (rk_to_f8 (le_value v))
      | BReal _ v => (if b_temporal c then time o else num) (b64_of_bits (le_value v))
      | BBool _ b => num (f8_of_Z b)
      | BStr _ t => text t
      | BShared i => match nth_error texts (Z.to_nat i) with Some t => (KStr, true, CText t) | None => tnull end
      end.
    (** The rows of the delivered sheet: all, or those with a cell to show. *)
    Definition b_rows (tne : bool) (rows : list brow) : list brow := filter (fun r => tne || existsb b_shown (row_cells r)) rows.
    Definition b_at (rows : list brow) (r k : Z) : tag :=
      match nth_error rows (Z.to_nat r) with
      | None => tnull
      | Some x => match find (fun c => (b_col c =? k) && b_shown c) (row_cells x) with Some c => b_tag c | None => tnull end
      end.
    (** The first cell (outside skipped columns, inline null texts aside) is no null shared string. *)
    Definition starts_well (rows : list brow) : Prop :=
      match filter (fun c => negb (existsb (Z.eqb (b_col c)) skip_cols)
                             && negb (match b_val c with BStr _ t => nv t | _ => false end)) (flat_map row_cells rows) with
      | c :: _ => b_null c = false
      | [] => True
      end.
  End B.

  (** *** .xlsx: [kind] tells number and time formats, by format id; [table] the shared strings. *)
  Inductive xkind := XNumber | XTime.
  Section X.
    Context (kind : Z -> option xkind) (xfs : list Z) (table : list (option str)) (nv : str -> bool) (skip_cols : list Z).
    Definition x_format (c : xcell) : option xkind :=
      match py_int (match x_style c with Some t => t | None => s "0" end) with
      | Ok k => match nth_error xfs (Z.to_nat k) with Some f => kind f | None => None end
      | Err _ => None
      end.
    (** The value: the first text that is neither blank nor null. *)
    Definition x_text (c : xcell) : option str :=
      option_map strip (find (fun t => negb (blank t) && negb (nv (strip t))) (x_texts c)).
    Definition x_shown (c : xcell) : bool :=
      negb (existsb (Z.eqb (x_col c)) skip_cols) && match x_text c with Some _ => true | None => false end.
    Definition x_tag (c : xcell) : option tag :=
      match x_text c with
      | None => None
      | Some t =>
        if (match x_type c with Some u => str_eqb u (s "s") | None => false end) then
          match py_int t with
          | Ok i => if (0 <=? i) && (i <? 2 ^ 32) then
                      match nth_error table (Z.to_nat i) with Some v => Some (KStr, true, ctext v) | None => None end
                    else None
          | Err _ => None
          end
        else match x_format c with
             | Some XNumber => option_map num (o_float o (utf8 t))
             | Some XTime => option_map (time o) (o_float o (utf8 t))
             | None => Some (text t)
             end
      end.
    (** Every cell has an existing style and at most one value; every shown cell can be read. *)
    Definition x_readable (rows : list xrow) : Prop :=
      forall r c, In r rows -> In c (xrow_cells r) ->
        (exists k f, nth_error xfs k = Some f /\ (match x_style c with Some t => t | None => s "0" end) = dec (Z.of_nat k)) /\
        (List.length (x_texts c) <= 1)%nat /\ (forall t, In t (x_texts c) -> scalars t = true) /\
        (x_shown c = true -> x_tag c <> None).
    (** The rows of the delivered sheet: all, or those from the first with a cell to show. *)
    Definition x_row_shown (r : xrow) : bool := existsb x_shown (xrow_cells r).
    Definition x_rows (tne : bool) (rows : list xrow) : list xrow :=
      if tne then rows else skipn (Z.to_nat (leading x_row_shown rows)) rows.
    Definition x_at (rows : list xrow) (r k : Z) : tag :=
      match nth_error rows (Z.to_nat r) with
      | None => tnull
      | Some x => match find (fun c => (x_col c =? k) && x_shown c) (xrow_cells x) with
                  | Some c => match x_tag c with Some t => t | None => tnull end
                  | None => tnull
                  end
      end.
  End X.
End Values.
