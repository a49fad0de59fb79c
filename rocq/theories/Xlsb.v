(** Model of rxls/reader/xlsb.py. *)
From Verif Require Import Py Biff BiffRecs Utf16 NumFmt Cell.

(** xlsb.py:37-55: the set holds the UTF-16 *encodings* of the error strings, i.e.
    [bytes] objects.  Membership is tested with [str] objects; in Python a [str] is
    never equal to a [bytes]. *)
Inductive pyobj := PStr (t : str) | PBytes (b : bytes).
Definition py_eqb (a b : pyobj) : bool :=
  match a, b with
  | PStr x, PStr y => str_eqb x y
  | PBytes x, PBytes y => str_eqb x y
  | _, _ => false
  end.
Definition py_in (x : pyobj) (l : list pyobj) : bool := existsb (py_eqb x) l.
Definition xlsb_error_strings : list pyobj :=
  flat_map (fun t => match encode16 t with Ok b => [PBytes b] | Err _ => [] end) ERROR_TEXTS.

(** xlsb.py:65-86 [XlsbWorkbook.__init__]: the null predicate. *)
Definition xlsb_null (nv : null_arg) (t : str) : bool :=
  match nv with
  | NNone => py_in (PStr t) xlsb_error_strings
  | NList l => py_in (PStr t) (xlsb_error_strings ++ map PStr l)
  | NPred p => py_in (PStr t) xlsb_error_strings || p t
  end.

(** Records delivered by [scan_biff(io, ids)] on a part with content [b] (the
    [None] case never happens, BiffNumba.scan_biff_total). *)
Definition scan_part (ids : list Z) (b : bytes) : list record :=
  match scan_biff (Some ids) b with Some rs => rs | None => [] end.

(** xlsb.py:134: one string item. *)
Definition sst_text (d : bytes) : res str :=
  n <- unpack_I (sub d 1 5) ;; decode16 (py_slice d (Some 5) (Some (5 + n * 2))).

(** xlsb.py:123-138 [shared]: the table, and the keys added to [null_shared]
    ([add] returns None, so [... or y] is [y]: the table keeps the text). *)
Fixpoint xlsb_shared_from (nv : str -> bool) (i : Z) (rs : list record)
  : res (list str * list bytes) :=
  match rs with
  | [] => Ok ([], [])
  | r :: rs' =>
    y <- sst_text (rec_data r) ;;
    k <- (if nv y then k <- pack_I i ;; Ok [k] else Ok []) ;;
    ' (t, n) <- xlsb_shared_from nv (i + 1) rs' ;;
    Ok (y :: t, k ++ n)
  end.
Definition xlsb_shared (nv : str -> bool) (part : bytes) : res (list str * list bytes) :=
  xlsb_shared_from nv 0 (scan_part [19] part).

(** xlsb.py:150-157: XF ids (3-byte keys) and their 2-byte format ids. *)
Fixpoint xlsb_xfs_from (i : Z) (l : list bytes) : res (list (bytes * bytes)) :=
  match l with
  | [] => Ok []
  | f :: r => k <- pack_H i ;; t <- xlsb_xfs_from (i + 1) r ;; Ok ((k ++ [0], f) :: t)
  end.
Definition xlsb_xf_fmts (rs : list record) : list bytes :=
  map (fun r => sub (rec_data r) 2 4)
      (filter (fun r => negb (str_eqb (sub (rec_data r) 0 2) [0xFF; 0xFF])) rs).
Definition xlsb_xfs (rs : list record) : res (list (bytes * bytes)) :=
  xlsb_xfs_from 0 (xlsb_xf_fmts rs).

(** xlsb.py:160-163: custom formats; a later record replaces an earlier one. *)
Fixpoint xlsb_fms_from (d : list (bytes * str)) (rs : list record) : res (list (bytes * str)) :=
  match rs with
  | [] => Ok d
  | r :: rs' =>
    t <- decode16 (py_slice (rec_data r) (Some 2) None) ;;
    xlsb_fms_from (dset str_eqb d (sub (rec_data r) 0 2) (first_section t)) rs'
  end.

(** xlsb.py:166-176: keys of the temporal XFs. *)
Definition xlsb_custom_keys (xfs : list (bytes * bytes)) (p : bytes * str) : list bytes :=
  let '(f_id, fmt) := p in
  let xf_ids := map fst (filter (fun x => str_eqb (snd x) f_id) xfs) in
  if str_eqb fmt (s "0") then xf_ids
  else if fmt_temporal fmt then xf_ids else [].
Fixpoint xlsb_builtin_keys (xfs : list (bytes * bytes)) : res (list bytes) :=
  match xfs with
  | [] => Ok []
  | (k, y) :: r =>
    match y with
    | [] => Err IndexError                                   (* y[0] *)
    | y0 :: _ =>
      t <- xlsb_builtin_keys r ;; Ok (if mem_Z y0 TEMPORAL_STYLES then k :: t else t)
    end
  end.
(** xlsb.py:140-178 [styles].  The set is the list of its elements. *)
Definition xlsb_styles (part : bytes) : res (list bytes) :=
  xfs <- xlsb_xfs (scan_part [47] part) ;;
  fms <- xlsb_fms_from [] (scan_part [44] part) ;;
  b <- xlsb_builtin_keys xfs ;;
  Ok (flat_map (xlsb_custom_keys xfs) fms ++ b).

Section Iter.
  (** [styles]: the temporal style keys, or the error of reading them (a cached property,
      first read when the first cell record is processed); [nv]: the null predicate; [ns n]: membership
      in [null_shared] at the moment when [n] cells have been yielded (the set is
      filled by whoever first reads the [shared] property). *)
  Context (styles : res (list bytes)) (nv : str -> bool) (ns : nat -> bytes -> bool).
  Context (skip_rows take_rows : Z) (tne : bool) (skip_cols : list Z).

  (** xlsb.py:252-301: one cell record in row [row] ([None] = skipped by [continue]). *)
  Definition xlsb_cell (n : nat) (row : Z) (r : record) : res (option cell) :=
    let d := rec_data r in
    col <- unpack_I (sub d 0 4) ;;
    if mem_Z col skip_cols then Ok None
    else
      st <- styles ;;
      let adv := if mem_str (sub d 4 7) st then REPR_TEMPORAL else 0 in
      let id := rec_id r in
      if (id =? 6) || (id =? 8) then
        n <- unpack_I (sub d 8 12) ;;
        t <- decode16 (py_slice d (Some 12) (Some (n * 2 + 12))) ;;
        if nv t then Ok None
        else Ok (Some (mkCell (row - skip_rows) col (Z.lor TYPE_STRING REPR_PREPARED) (VStr t)))
      else if (id =? 5) || (id =? 9) then
        Ok (Some (mkCell (row - skip_rows) col
          (Z.lor TYPE_NUMERIC (if adv =? 0 then REPR_PREPARED else adv)) (VBytes (sub d 8 16))))
      else if (id =? 4) || (id =? 10) then
        Ok (Some (mkCell (row - skip_rows) col (Z.lor TYPE_NUMERIC REPR_BOOLEAN) (VBytes (sub d 8 9))))
      else if id =? 7 then
        let v := sub d 8 12 in
        if ns n v then Ok None
        else Ok (Some (mkCell (row - skip_rows) col (Z.lor TYPE_STRING REPR_SHARED) (VBytes v)))
      else
        Ok (Some (mkCell (row - skip_rows) col
          (Z.lor (Z.lor TYPE_NUMERIC REPR_RKNUMBER) adv) (VBytes (sub d 8 12)))).

  (** xlsb.py:228-303: the record loop.  [take] is [take_rows + skip_rows]; [n] counts
      the cells yielded so far. *)
  Definition xlsb_take : Z := take_rows + skip_rows.
  Fixpoint xlsb_loop (rs : list record) (row : Z) (empty : bool) (n : nat) : trace :=
    match rs with
    | [] => ([], None)
    | r :: rs' =>
      if rec_id r =? 0 then
        let row := if negb empty || tne then row + 1 else row in
        if (0 <? xlsb_take) && (xlsb_take <? row) then ([], None)      (* break *)
        else
          let '(o, e) := xlsb_loop rs' row true n in
          (if skip_rows <=? row then OCall :: o else o, e)
      else if row <? skip_rows then xlsb_loop rs' row empty n
      else if rec_id r =? 402 then ([OCall], None)                     (* break *)
      else
        match xlsb_cell n row r with
        | Err e => ([], Some e)
        | Ok None => xlsb_loop rs' row empty n
        | Ok (Some c) =>
          let '(o, e) := xlsb_loop rs' row false (S n) in (OCell c :: o, e)
        end
    end.

  Definition xlsb_ids : list Z := [0; 2; 4; 5; 6; 7; 8; 9; 10; 402].
  (** xlsb.py:207-303 with an open sheet part.  Simplification: [row_callback] is
      assumed present and not raising; argument types are integers. *)
  Definition xlsb_iter (part : bytes) : trace :=
    if skip_rows <? 0 then ([], Some ValueError)
    else if take_rows <? 0 then ([], Some ValueError)
    else xlsb_loop (scan_part xlsb_ids part) (-1) false 0.
End Iter.
