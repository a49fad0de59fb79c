(** Why reading a file may fail: the causes, in terms of the members of the archive. *)
From Verif Require Import Py PyText Biff BiffRecs Utf16 Utf16Spec Cell Xlsb Xlsx Sheets Casts Chunk Series Reader ReaderSpec TableSpec Workbook WorkbookSpec RobustSpec.
Set Implicit Arguments. Unset Strict Implicit.

Section Causes.
  Context (expat : bytes -> list event * option exn) (z : archive).
  (** The member is missing. *)
  Definition missing (n : str) (e : exn) : Prop := e = KeyError /\ absent z n.
  (** The XML parser rejects the member with this error. *)
  Definition ill_formed (n : str) (e : exn) : Prop := exists b es, member z n b /\ expat b = (es, Some e).
  (** Elements of an XML member up to its end or to the parser's error. *)
  Definition element (n tag : str) (a : list (str * str)) : Prop := exists b, member z n b /\ In (EStart tag a) (fst (expat b)).
  Definition lacks (n tag key : str) (e : exn) : Prop := e = KeyError /\ exists a, element n tag a /\ attr a key = None.
  (** A binary member has a record of this type that is not as it should be. *)
  Definition bad_record (n : str) (ids : list Z) (good : record -> Prop) : Prop :=
    exists b r, member z n b /\ In r (scan_part ids b) /\ In (rec_id r) ids /\ ~ good r.

  (** *** Sheets *)
  Definition relations_cause (rels : str) (e : exn) : Prop :=
    missing rels e \/ ill_formed rels e \/
    exists k, In k [s "Id"; s "Type"; s "Target"] /\ lacks rels (s "Relationship") k e.
  (** A relationship of this kind: the last part of its type. *)
  Definition of_kind (kind t : str) : Prop := t = kind \/ exists p, t = p ++ [47] ++ kind.
  (** A sheet of the workbook without a worksheet. *)
  Definition dangling_xml (e : exn) : Prop :=
    e = KeyError /\ exists a i, element (s "xl/workbook.xml") (s "sheet") a /\ attr a (s "r:id") = Some i /\
      forall b t, element (s "xl/_rels/workbook.xml.rels") (s "Relationship") b -> attr b (s "Id") = Some i -> attr b (s "Type") = Some t -> ~ of_kind (s "worksheet") t.
  Definition xlsx_sheets_cause (e : exn) : Prop :=
    relations_cause (s "xl/_rels/workbook.xml.rels") e \/
    ill_formed (s "xl/workbook.xml") e \/
    (exists k, In k [s "name"; s "r:id"] /\ lacks (s "xl/workbook.xml") (s "sheet") k e) \/
    dangling_xml e.

  (** [MS-XLSB] 2.4.311 BrtBundleSh: two numbers, two nullable wide strings. *)
  Definition nullable (x : option str) : bytes := match x with Some t => wide_string t | None => [255; 255; 255; 255] end.
  Definition nullable_ok (x : option str) : bool := match x with Some t => wide_ok t | None => true end.
  Definition good_bundle (r : record) : Prop :=
    exists h x y rest, zlen h = 8 /\ nullable_ok x = true /\ nullable_ok y = true /\ rec_data r = h ++ nullable x ++ nullable y ++ rest.
  (** A sheet whose relationship does not exist. *)
  Definition dangling_bin (e : exn) : Prop :=
    e = RuntimeError /\ exists b r bn, member z (s "xl/workbook.bin") b /\ In r (scan_part [412] b) /\ bundle_loadr r = Ok bn /\
      forall a, element (s "xl/_rels/workbook.bin.rels") (s "Relationship") a ->
        attr a (s "Id") <> Some (match strRelID bn with Some i => i | None => [] end).
  Definition text_error (e : exn) : Prop := e = StructError \/ e = UnicodeError.
  Definition xlsb_sheets_cause (e : exn) : Prop :=
    relations_cause (s "xl/_rels/workbook.bin.rels") e \/
    text_error e /\ bad_record (s "xl/workbook.bin") [412] good_bundle \/
    dangling_bin e.

  (** The sheet asked for is not in the table of sheets [d], or the arguments are negative. *)
  Definition selection_cause (d : list (str * str)) (w : wopts) (e : exn) : Prop :=
    (exists i, wo_sheet w = SIdx i /\ e = IndexError /\ (i < 0 \/ zlen d <= i)) \/
    (exists n, wo_sheet w = SName n /\ e = KeyError /\ ~ In n (map fst d)) \/
    e = ValueError /\ (wo_skip w < 0 \/ wo_take w < 0).

  (** *** Styles *)
  Definition xlsx_styles_cause (e : exn) : Prop :=
    missing (s "xl/styles.xml") e \/ ill_formed (s "xl/styles.xml") e \/
    (exists k, In k [s "formatCode"; s "numFmtId"] /\ lacks (s "xl/styles.xml") (s "numFmt") k e) \/
    lacks (s "xl/styles.xml") (s "xf") (s "numFmtId") e \/
    (e = ValueError /\ exists a y, element (s "xl/styles.xml") (s "xf") a /\ attr a (s "numFmtId") = Some y /\ forall n, py_int y <> Ok n).
  Definition good_xf (r : record) : Prop := 4 <= zlen (rec_data r).
  Definition good_fmt (r : record) : Prop := exists t, decode16 (skipn 2 (rec_data r)) = Ok t.
  (** At most 2^16 formatted styles. *)
  Definition xlsb_styles_cause (e : exn) : Prop :=
    missing (s "xl/styles.bin") e \/
    (e = IndexError /\ bad_record (s "xl/styles.bin") [47] good_xf) \/
    (e = UnicodeError /\ bad_record (s "xl/styles.bin") [44] good_fmt) \/
    (e = StructError /\ exists b, member z (s "xl/styles.bin") b /\ 2 ^ 16 < zlen (scan_part [47] b)).

  (** *** Shared strings *)
  Definition xlsx_shared_cause (e : exn) : Prop := missing (s "xl/sharedStrings.xml") e \/ ill_formed (s "xl/sharedStrings.xml") e.
  (** [MS-XLSB] 2.4.820 BrtSSTItem: flags and a wide string. *)
  Definition good_item (r : record) : Prop := exists f t rest, wide_ok t = true /\ rec_data r = f :: wide_string t ++ rest.
  Definition xlsb_shared_cause (e : exn) : Prop :=
    missing (s "xl/sharedStrings.bin") e \/
    (text_error e /\ bad_record (s "xl/sharedStrings.bin") [19] good_item) \/
    (e = StructError /\ exists b, member z (s "xl/sharedStrings.bin") b /\ 2 ^ 32 < zlen (scan_part [19] b)).

  (** *** The sheet *)
  (** The exceptions of a read of cells, legible or not. *)
  Definition raisable (ro : roracle) (sc : sconf) (l : list cell) (op : ropts) (e : exn) : Prop :=
    match e with
    | IndexError | ValueError | TypeError | ArrowInvalid | Undefined => True
    | KeyError => exists k, r_lookup op = Some (LCol k) /\ forall c, In c l -> c_col c <> k
    | ReError => exists t, In t (patterns (r_filters op)) /\ ro_match ro t = None
    | ArrowNotImplemented => cf_datetime (sc_conf sc) = true
    | _ => False
    end.
  (** No cell at all; a cell whose content cannot be what its type says; otherwise the causes
      of TableSpec.v. *)
  Definition cells_cause (ro : roracle) (sc : sconf) (l : list cell) (op : ropts) (e : exn) : Prop :=
    (l = [] /\ e = ValueError) \/
    ((exists c, In c l /\ legible (ro_o ro) sc c = false) /\ raisable ro sc l op e) \/
    exists ks n, listing l ks /\ tallest l ks n /\ cause ro sc l op ks n e.
End Causes.
