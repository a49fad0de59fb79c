(** Model of the two workbook classes as objects with a state: rxls/reader/xlsb.py:62-178,
    207-228 and rxls/reader/xlsx.py:89-253, 269-287.  The state are the archive ([zf]), the
    cached properties and [null_shared].

    Simplifications: as in Workbook.v; [iter_worksheet] is run to its end before the next
    operation.  In the .xlsx reader [null_shared] is not part of the state: [is_sharedstr] is
    never set, so that its content is never looked at (Xlsx.v). *)
From Verif Require Import Py PyText Biff BiffRecs NumFmt Cell Xlsb Xlsx Sheets Workbook.
Set Implicit Arguments. Unset Strict Implicit.

(** [functools.cached_property]: the value is kept, an exception is not. *)
Definition cached {A} (c : option A) (r : res A) : option A * res A :=
  match c with
  | Some a => (c, Ok a)
  | None => match r with Ok a => (Some a, Ok a) | Err e => (None, Err e) end
  end.
(** [zf]: None, or an archive and whether it has been closed. *)
Definition zfile := option (archive * bool).
(** [if self.zf is None: raise RuntimeError]; [ZipFile.open] of a closed archive raises ValueError. *)
Definition reach (f : zfile) : res archive :=
  match f with None => Err RuntimeError | Some (z, true) => Err ValueError | Some (z, false) => Ok z end.
(** Operations.  [OpEnter z]: [__enter__] when the file holds [z]. *)
Inductive op := OpEnter (z : archive) | OpExit | OpSheets | OpShared | OpStyles | OpIter (w : wopts).

Section Objects.
  Context (expat : bytes -> list event * option exn).

  (** *** .xlsb *)
  Record bobj := mkBO { bo_zf : zfile; bo_sheets : option (list (str * str)); bo_shared : option (list str); bo_styles : option (list bytes); bo_nulls : list bytes }.
  Inductive bres := BUnit | BErr (e : exn) | BSheets (d : list (str * str)) | BShared (l : list str) | BStyles (l : list bytes) | BCells (t : trace).
  (** xlsb.py:66-86. *)
  Definition bobj_new : bobj := mkBO None None None None [].
  (** xlsb.py:101-121 outside a generator. *)
  Definition b_sheets_of (z : archive) : res (list (str * str)) :=
    rb <- zopen z (s "xl/_rels/workbook.bin.rels") ;; rels <- parse expat scan_rels rb ;;
    wb <- zopen z (s "xl/workbook.bin") ;; xlsb_sheets_from rels (scan_part [412] wb) [].
  Definition in_generator {A} (r : res A) : res A := match r with Err StopIterationError => Err RuntimeError | r => r end.
  (** xlsb.py:131-138: what has been added to [null_shared] when the table is complete or
      an exception has ended the loop. *)
  Fixpoint null_keys (nv : str -> bool) (i : Z) (rs : list record) : list bytes :=
    match rs with
    | [] => []
    | r :: rs => match sst_text (rec_data r) with
                 | Err _ => []
                 | Ok y => if nv y then match pack_I i with Ok k => k :: null_keys nv (i + 1) rs | Err _ => [] end
                           else null_keys nv (i + 1) rs
                 end
    end.
  Definition b_null_keys (nv : str -> bool) (z : archive) : list bytes :=
    match zopen z (s "xl/sharedStrings.bin") with Ok b => null_keys nv 0 (scan_part [19] b) | Err _ => [] end.
  Definition set_sheets (o : bobj) c := mkBO (bo_zf o) c (bo_shared o) (bo_styles o) (bo_nulls o).
  Definition set_styles (o : bobj) c := mkBO (bo_zf o) (bo_sheets o) (bo_shared o) c (bo_nulls o).
  Definition ret {A} (f : A -> bres) (r : res A) : bres := match r with Ok a => f a | Err e => BErr e end.
  (** One operation of an object made with the null predicate [nv]. *)
  Definition bdo (nv : str -> bool) (o : bobj) (p : op) : bobj * bres :=
    match p with
    | OpEnter z =>                                                   (* xlsb.py:91-95 *)
      (mkBO (Some (z, false)) (bo_sheets o) (bo_shared o) (bo_styles o) (bo_nulls o),
       if has_member z (s "xl/workbook.bin") then BUnit else BErr AssertionError)
    | OpExit =>                                                      (* xlsb.py:97-99 *)
      (mkBO (match bo_zf o with Some (z, _) => Some (z, true) | None => None end) (bo_sheets o) (bo_shared o) (bo_styles o) (bo_nulls o), BUnit)
    | OpSheets => let '(c, r) := cached (bo_sheets o) (z <- reach (bo_zf o) ;; b_sheets_of z) in (set_sheets o c, ret BSheets r)
    | OpShared =>                                                    (* xlsb.py:123-138 *)
      let '(c, r) := cached (bo_shared o) (z <- reach (bo_zf o) ;; p <- bbook_shared z nv ;; Ok (fst p)) in
      let added := match bo_shared o, reach (bo_zf o) with None, Ok z => b_null_keys nv z | _, _ => [] end in
      (mkBO (bo_zf o) (bo_sheets o) c (bo_styles o) (bo_nulls o ++ added), ret BShared r)
    | OpStyles => let '(c, r) := cached (bo_styles o) (z <- reach (bo_zf o) ;; bbook_styles z) in (set_styles o c, ret BStyles r)
    | OpIter w =>                                                    (* xlsb.py:180-303 *)
      match bo_zf o with
      | None => (o, BCells ([], Some RuntimeError))
      | Some _ =>
        let '(c, r) := cached (bo_sheets o) (in_generator (z <- reach (bo_zf o) ;; b_sheets_of z)) in
        let o := set_sheets o c in
        match d <- r ;; p <- select_sheet d (wo_sheet w) ;;
              if wo_skip w <? 0 then Err ValueError else if wo_take w <? 0 then Err ValueError else z <- reach (bo_zf o) ;; zopen z p with
        | Err e => (o, BCells ([], Some e))
        | Ok b =>
          let run st := xlsb_iter st nv (fun _ k => mem_str k (bo_nulls o)) (wo_skip w) (wo_take w) (wo_tne w) (wo_cols w) b in
          let '(c, st) := cached (bo_styles o) (z <- reach (bo_zf o) ;; bbook_styles z) in
          (* [self.styles] is evaluated iff its exception would be seen *)
          let used := match snd (run (Err Undefined)) with Some Undefined => true | _ => false end in
          (if used then set_styles o c else o, BCells (run st))
        end
      end
    end.
  Fixpoint bhistory (nv : str -> bool) (o : bobj) (l : list op) : bobj :=
    match l with [] => o | p :: l => bhistory nv (fst (bdo nv o p)) l end.

  (** *** .xlsx *)
  Record xobj := mkXO { xo_zf : zfile; xo_sheets : option (list (str * str)); xo_shared : option (list (option str)); xo_styles : option xstyles }.
  Inductive xres := XUnit | XErr (e : exn) | XSheets (d : list (str * str)) | XShared (l : list (option str)) | XStyles (l : xstyles) | XCells (t : trace).
  (** xlsx.py:92-114. *)
  Definition xobj_new : xobj := mkXO None None None None.
  Definition xret {A} (f : A -> xres) (r : res A) : xres := match r with Ok a => f a | Err e => XErr e end.
  Definition xdo (nv : str -> bool) (o : xobj) (p : op) : xobj * xres :=
    match p with
    | OpEnter z => (mkXO (Some (z, false)) (xo_sheets o) (xo_shared o) (xo_styles o),     (* xlsx.py:118-122 *)
                    if has_member z (s "xl/workbook.xml") then XUnit else XErr AssertionError)
    | OpExit => (mkXO (match xo_zf o with Some (z, _) => Some (z, true) | None => None end) (xo_sheets o) (xo_shared o) (xo_styles o), XUnit)
    | OpSheets => let '(c, r) := cached (xo_sheets o) (z <- reach (xo_zf o) ;; xbook_sheets expat z) in
                  (mkXO (xo_zf o) c (xo_shared o) (xo_styles o), xret XSheets r)
    | OpShared => let '(c, r) := cached (xo_shared o) (z <- reach (xo_zf o) ;; xbook_shared expat z nv) in
                  (mkXO (xo_zf o) (xo_sheets o) c (xo_styles o), xret XShared r)
    | OpStyles => let '(c, r) := cached (xo_styles o) (z <- reach (xo_zf o) ;; xbook_styles expat z) in
                  (mkXO (xo_zf o) (xo_sheets o) (xo_shared o) c, xret XStyles r)
    | OpIter w =>                                                    (* xlsx.py:255-460 *)
      match xo_zf o with
      | None => (o, XCells ([], Some RuntimeError))
      | Some _ =>
        let '(c, r) := cached (xo_sheets o) (z <- reach (xo_zf o) ;; xbook_sheets expat z) in
        let o := mkXO (xo_zf o) c (xo_shared o) (xo_styles o) in
        match d <- r ;; p <- select_sheet d (wo_sheet w) ;;
              if wo_skip w <? 0 then Err ValueError else if wo_take w <? 0 then Err ValueError else z <- reach (xo_zf o) ;; zopen z p with
        | Err e => (o, XCells ([], Some e))
        | Ok b =>
          let '(c, r) := cached (xo_styles o) (z <- reach (xo_zf o) ;; xbook_styles expat z) in
          (mkXO (xo_zf o) (xo_sheets o) (xo_shared o) c,
           match r with
           | Err e => XCells ([], Some e)
           | Ok st => let '(es, e) := expat b in
                      XCells (fst (xlsx_iter (style_get st) nv (wo_skip w) (wo_take w) (wo_tne w) (wo_cols w) es e), None)
           end)
        end
      end
    end.
  Fixpoint xhistory (nv : str -> bool) (o : xobj) (l : list op) : xobj :=
    match l with [] => o | p :: l => xhistory nv (fst (xdo nv o p)) l end.
End Objects.
