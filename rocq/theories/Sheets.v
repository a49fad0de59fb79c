(** Model of rxls/rels.py and of the sheet tables of the two readers. *)
From Verif Require Import Utf8 Py PyText Biff BiffRecs Xlsx Xlsb.

(** rels.py:15-19 [Relationship]. *)
Record rel := mkRel { r_id : str; r_type : str; r_target : str }.

(** [t.rsplit("/", 1)[-1]]: what follows the last slash. *)
Fixpoint last_segment_from (acc t : str) : str :=
  match t with
  | [] => rev acc
  | c :: r => if c =? 47 then last_segment_from [] r else last_segment_from (c :: acc) r
  end.
Definition last_segment (t : str) : str := last_segment_from [] t.

(** rels.py:21-41 [Relationship.scan_xml] on the parser's events. *)
Fixpoint scan_rels (es : list event) : res (list rel) :=
  match es with
  | [] => Ok []
  | EStart tag a :: r =>
    if str_eqb tag (s "Relationship") then
      i <- attr_req a (s "Id") ;; t <- attr_req a (s "Type") ;; g <- attr_req a (s "Target") ;;
      l <- scan_rels r ;; Ok (mkRel i (last_segment t) g :: l)
    else scan_rels r
  | _ :: r => scan_rels r
  end.

(** rels.py:12, 43-46 [dump_xml]: the text written (then UTF-8 encoded). *)
Definition RELS_NS : str := s "http://schemas.openxmlformats.org/package/2006/relationships".
Definition dump_rel (r : rel) : str :=
  s "<Relationship Id=""" ++ r_id r ++ s """ Type=""" ++ RELS_NS ++ s "/" ++ r_type r
  ++ s """ Target=""" ++ r_target r ++ s """/>".
(** rels.py:43-46: [str.encode] is strict UTF-8; a surrogate raises UnicodeEncodeError. *)
Definition dump_xml (r : rel) : res bytes := if scalars (dump_rel r) then Ok (utf8 (dump_rel r)) else Err UnicodeError.

(** xlsx.py:134-139: worksheet parts by relationship id. *)
Definition xlsx_files (rels : list rel) : list (str * str) :=
  fold_left (fun d r => if str_eqb (r_type r) (s "worksheet")
                        then dset str_eqb d (r_id r) (s "xl/" ++ r_target r) else d) rels [].
(** xlsx.py:141-151: sheet names by relationship id. *)
Fixpoint xlsx_names (es : list event) (d : list (str * str)) : res (list (str * str)) :=
  match es with
  | [] => Ok d
  | EStart tag a :: r =>
    if str_eqb tag (s "sheet") then
      n <- attr_req a (s "name") ;; i <- attr_req a (s "r:id") ;; xlsx_names r (dset str_eqb d i n)
    else xlsx_names r d
  | _ :: r => xlsx_names r d
  end.
(** xlsx.py:152: the dict comprehension. *)
Fixpoint xlsx_join (files names d : list (str * str)) : res (list (str * str)) :=
  match names with
  | [] => Ok d
  | (i, n) :: r =>
    match dget str_eqb files i with
    | Some f => xlsx_join files r (dset str_eqb d n f)
    | None => Err KeyError
    end
  end.
(** xlsx.py:128-152 [sheets]. *)
Definition xlsx_sheets (rels_es wb_es : list event) : res (list (str * str)) :=
  rels <- scan_rels rels_es ;; names <- xlsx_names wb_es [] ;; xlsx_join (xlsx_files rels) names [].

(** xlsb.py:113-120: one bundle record. *)
Definition xstr_value (x : xstr) : str := match x with Some t => t | None => [] end.
Fixpoint xlsb_sheets_from (rels : list rel) (rs : list record) (d : list (str * str)) : res (list (str * str)) :=
  match rs with
  | [] => Ok d
  | r :: rest =>
    b <- bundle_loadr r ;;
    match find (fun x => str_eqb (r_id x) (xstr_value (strRelID b))) rels with
    | None => Err StopIterationError
    | Some x => xlsb_sheets_from rels rest (dset str_eqb d (xstr_value (strName b)) (s "xl/" ++ r_target x))
    end
  end.
(** xlsb.py:101-121 [sheets]. *)
Definition xlsb_sheets (rels_es : list event) (part : bytes) : res (list (str * str)) :=
  rels <- scan_rels rels_es ;; xlsb_sheets_from rels (scan_part [412] part) [].

(** xlsx.py:269-280, xlsb.py:196-205: selecting the part. *)
Inductive sheet_arg := SIdx (i : Z) | SName (n : str).
Definition select_sheet (d : list (str * str)) (a : sheet_arg) : res str :=
  match a with
  | SIdx i =>
    if (0 <=? i) && (i <? zlen d) then
      match nth_error d (Z.to_nat i) with Some (_, p) => Ok p | None => Err StopIterationError end
    else Err IndexError
  | SName n => match dget str_eqb d n with Some p => Ok p | None => Err KeyError end
  end.
