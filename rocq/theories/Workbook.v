(** Model of [read] from the archive on: rxls/reader/common.py:98-176, and how the two
    workbook classes reach their parts (rxls/reader/xlsx.py:118-152, 255-287, 439-460;
    rxls/reader/xlsb.py:88-121, 180-228).

    Simplifications: an opened archive is the dict from member names to contents that
    [zipfile] builds (decompression and checksums are not modelled); the XML parser is an
    arbitrary function [expat] from a part to its events and the error that ends them, if
    any; [row_callback] does not raise.  [utf8_type_infers] is an argument that [read] never
    looks at. *)
From Verif Require Import Py PyText Biff BiffRecs NumFmt Cell Xlsb Xlsx Sheets Casts Chunk Series Reader XlsbParts.
Set Implicit Arguments. Unset Strict Implicit.

Definition archive := list (str * bytes).
(** [zf.open(name)]: KeyError when there is no such member. *)
Definition zopen (z : archive) (n : str) : res bytes :=
  match dget str_eqb z n with Some b => Ok b | None => Err KeyError end.
Definition has_member (z : archive) (n : str) : bool := mem_str n (map fst z).

(** Arguments of [read] that concern the workbook. *)
Record wopts := mkWO {
  wo_sheet : sheet_arg; wo_skip : Z; wo_take : Z; wo_tne : bool; wo_cols : list Z;
  wo_nulls : null_arg; wo_conf : conf; wo_infers : bool }.

Section Book.
  Context (expat : bytes -> list event * option exn).

  (** [parser.ParseFile(io)] with handlers [f]: an error of a handler ends the parse, the
      parser's own error comes after the events before it. *)
  Definition parse {A} (f : list event -> res A) (b : bytes) : res A :=
    let '(es, e) := expat b in
    a <- f es ;; match e with Some e => Err e | None => Ok a end.

  (** *** .xlsx *)
  (** xlsx.py:128-152 [sheets]. *)
  Definition xbook_sheets (z : archive) : res (list (str * str)) :=
    rb <- zopen z (s "xl/_rels/workbook.xml.rels") ;; rels <- parse scan_rels rb ;;
    wb <- zopen z (s "xl/workbook.xml") ;; names <- parse (fun es => xlsx_names es []) wb ;;
    xlsx_join (xlsx_files rels) names [].
  (** xlsx.py:154-193 [shared]. *)
  Definition xbook_shared (z : archive) (nv : str -> bool) : res (list (option str)) :=
    b <- zopen z (s "xl/sharedStrings.xml") ;; p <- parse (fun es => Ok (xlsx_shared nv es)) b ;; Ok (fst p).
  (** xlsx.py:195-253 [styles]. *)
  Definition xbook_styles (z : archive) : res xstyles :=
    b <- zopen z (s "xl/styles.xml") ;;
    ' (xl, fms) <- parse (fun es => xlsx_scan_styles es [] []) b ;; xlsx_styles_of xl fms.
  (** xlsx.py:255-460 [iter_worksheet] as the caller sees it: an error in the thread is not
      passed on, the sentinel ends the iteration (Queue.v). *)
  Definition xbook_iter (z : archive) (w : wopts) : trace :=
    let start := d <- xbook_sheets z ;; p <- select_sheet d (wo_sheet w) ;;
      if wo_skip w <? 0 then Err ValueError else if wo_take w <? 0 then Err ValueError
      else b <- zopen z p ;; st <- xbook_styles z ;; Ok (b, st) in
    match start with
    | Err e => ([], Some e)
    | Ok (b, st) =>
      let '(es, e) := expat b in
      (fst (xlsx_iter (style_get st) (xlsx_null (wo_nulls w)) (wo_skip w) (wo_take w) (wo_tne w) (wo_cols w) es e), None)
    end.

  (** *** .xlsb *)
  (** xlsb.py:101-121 [sheets]; inside the generator a StopIteration becomes RuntimeError. *)
  Definition bbook_sheets (z : archive) : res (list (str * str)) :=
    rb <- zopen z (s "xl/_rels/workbook.bin.rels") ;; rels <- parse scan_rels rb ;;
    wb <- zopen z (s "xl/workbook.bin") ;;
    match xlsb_sheets_from rels (scan_part [412] wb) [] with
    | Err StopIterationError => Err RuntimeError
    | r => r
    end.
  Definition bbook_shared (z : archive) (nv : str -> bool) : res (list str * list bytes) :=
    b <- zopen z (s "xl/sharedStrings.bin") ;; xlsb_shared nv b.
  Definition bbook_styles (z : archive) : res (list bytes) := b <- zopen z (s "xl/styles.bin") ;; xlsb_styles b.
  (** xlsb.py:180-303 [iter_worksheet] under [read]: [null_shared] is filled when the first
      cell has been delivered. *)
  Definition bbook_iter (z : archive) (w : wopts) : trace :=
    let nv := xlsb_null (wo_nulls w) in
    let nul := match bbook_shared z nv with Ok (_, keys) => fun k => mem_str k keys | Err _ => fun _ => false end in
    let start := d <- bbook_sheets z ;; p <- select_sheet d (wo_sheet w) ;;
      if wo_skip w <? 0 then Err ValueError else if wo_take w <? 0 then Err ValueError else zopen z p in
    match start with
    | Err e => ([], Some e)
    | Ok b => xlsb_iter (bbook_styles z) nv (filled_after_first nul) (wo_skip w) (wo_take w) (wo_tne w) (wo_cols w) b
    end.

  (** *** common.py:138-176 *)
  Context (ro : roracle).
  (** [_reader.shared] is read when the first cell has been delivered, and only then. *)
  Definition read_cells (binary : bool) (sh : res (list (option str))) (w : wopts) (op : ropts) (t : trace) : res (table ro) :=
    match Cell.cells_of (fst t) with
    | [] => read_trace ro (mkSC [] binary (wo_conf w)) op t
    | _ => l <- sh ;; read_trace ro (mkSC l binary (wo_conf w)) op t
    end.
  Definition read_book (z : archive) (w : wopts) (op : ropts) : res (table ro) :=
    if has_member z (s "xl/workbook.xml") then
      read_cells false (xbook_shared z (xlsx_null (wo_nulls w))) w op (xbook_iter z w)
    else if has_member z (s "xl/workbook.bin") then
      read_cells true (p <- bbook_shared z (xlsb_null (wo_nulls w)) ;; Ok (map Some (fst p))) w op (bbook_iter z w)
    else Err AssertionError.
End Book.
