(** Model of rxls/reader/xlsx.py.

    The XML parser (expat) is outside the model: its output is an event list, possibly
    cut short by a parse error. *)
From Verif Require Import Py PyText NumFmt Cell.

Inductive event :=
  | EStart (tag : str) (attrs : list (str * str))
  | EText (t : str)
  | EEnd (tag : str).
Definition attr (a : list (str * str)) (k : str) : option str := dget str_eqb a k.
Definition attr_req (a : list (str * str)) (k : str) : res str :=
  match attr a k with Some v => Ok v | None => Err KeyError end.

(** xlsx.py:66-73 [col_idx] on the encoded reference. *)
Fixpoint col_idx_rev (l : bytes) (a i : Z) : Z :=
  match l with
  | [] => a
  | x :: r => if 64 <? x then col_idx_rev r (a + (x - 64) * 26 ^ i) (i + 1) else col_idx_rev r a i
  end.
Definition col_idx (b : bytes) : Z := col_idx_rev (rev b) (-1) 0.

(** xlsx.py:92-116 [XlsxWorkbook.__init__]: the null predicate. *)
Definition xlsx_null (nv : null_arg) (t : str) : bool :=
  match nv with
  | NNone => mem_str t ERROR_TEXTS
  | NList l => mem_str t (ERROR_TEXTS ++ l)
  | NPred p => mem_str t ERROR_TEXTS || p t
  end.

(** xlsx.py:154-193 [shared]: the string builder's content (None = null entry) and the
    null index texts; [m] is [must_be], [ret] the builder content so far. *)
Fixpoint xlsx_shared_from (nv : str -> bool) (es : list event) (m : bool) (ret : list (option str))
  (nul : list str) : list (option str) * list str :=
  match es with
  | [] => (ret, nul)
  | EStart tag _ :: r =>
    xlsx_shared_from nv r (if str_eqb tag (s "si") then true else m) ret nul
  | EText t :: r =>
    let t := strip t in
    if m && negb (str_eqb t []) then
      if nv t then xlsx_shared_from nv r m ret nul
      else xlsx_shared_from nv r false (ret ++ [Some t]) nul
    else xlsx_shared_from nv r m ret nul
  | EEnd tag :: r =>
    if str_eqb tag (s "si") && m
    then xlsx_shared_from nv r false (ret ++ [None]) (nul ++ [dec (zlen (ret ++ [@None str]) - 1)])
    else xlsx_shared_from nv r m ret nul
  end.
Definition xlsx_shared (nv : str -> bool) (es : list event) : list (option str) * list str :=
  xlsx_shared_from nv es false [] [].

(** xlsx.py:204-225: the XF table (number format ids as texts, in order; the dict key of
    the i-th is [str(i)]) and the custom formats. *)
Fixpoint xlsx_scan_styles (es : list event) (xfs : list str) (fms : list (str * str))
  : res (list str * list (str * str)) :=
  match es with
  | [] => Ok (xfs, fms)
  | EStart tag a :: r =>
    if str_eqb tag (s "numFmt") then
      (* the right-hand side is evaluated before the subscript *)
      c <- attr_req a (s "formatCode") ;; i <- attr_req a (s "numFmtId") ;;
      xlsx_scan_styles r xfs (dset str_eqb fms i (first_section c))
    else if str_eqb tag (s "xf") && match attr a (s "xfId") with Some _ => true | None => false end then
      f <- attr_req a (s "numFmtId") ;; xlsx_scan_styles r (xfs ++ [f]) fms
    else xlsx_scan_styles r xfs fms
  | _ :: r => xlsx_scan_styles r xfs fms
  end.
Fixpoint keyed (i : Z) (l : list str) : list (str * str) :=
  match l with [] => [] | f :: r => (dec i, f) :: keyed (i + 1) r end.

(** xlsx.py:227-233: classification of one custom format. *)
Inductive fclass := FNumeric | FTemporal | FOther.
Definition fmt_class (fmt : str) : fclass :=
  if str_eqb fmt (s "0") || has_dot00 fmt then FNumeric
  else if fmt_temporal fmt then FTemporal else FOther.
Definition xf_ids (xfs : list (str * str)) (f_id : str) : list str :=
  map fst (filter (fun x => str_eqb (snd x) f_id) xfs).
Definition class_keys (w : fclass) (xfs : list (str * str)) (p : str * str) : list str :=
  match w, fmt_class (snd p) with
  | FNumeric, FNumeric => xf_ids xfs (fst p)
  | FTemporal, FTemporal => xf_ids xfs (fst p)
  | _, _ => []
  end.
(** xlsx.py:235-249: built-in formats ([int(y)] may raise). *)
Fixpoint builtin_keys (ids : list Z) (xfs : list (str * str)) : res (list str) :=
  match xfs with
  | [] => Ok []
  | (x, y) :: r =>
    n <- py_int y ;; t <- builtin_keys ids r ;; Ok (if mem_Z n ids then x :: t else t)
  end.
(** xlsx.py:195-253 [styles], as the lookup [styles.get(key)]: numeric entries overwrite
    temporal ones. *)
Record xstyles := mkStyles { st_temporal : list str; st_numeric : list str }.
Definition xlsx_styles_of (xl : list str) (fms : list (str * str)) : res xstyles :=
  let xfs := keyed 0 xl in
  t <- builtin_keys TEMPORAL_STYLES xfs ;;
  n <- builtin_keys NUMERIC_STYLES xfs ;;
  Ok (mkStyles (flat_map (class_keys FTemporal xfs) fms ++ t) (flat_map (class_keys FNumeric xfs) fms ++ n)).
Definition xlsx_styles (es : list event) : res xstyles :=
  ' (xl, fms) <- xlsx_scan_styles es [] [] ;; xlsx_styles_of xl fms.
Definition style_get (st : xstyles) (k : str) : option Z :=
  if mem_str k (st_numeric st) then Some TYPE_NUMERIC
  else if mem_str k (st_temporal st) then Some (Z.lor TYPE_NUMERIC REPR_TEMPORAL)
  else None.

(** ** The worker, xlsx.py:289-437 *)
Record wst := mkW {
  w_row : Z; w_empty : bool; w_take : Z;
  w_crow : Z; w_ctyp : Z; w_col : str; w_tag : option str }.

Section Worker.
  Context (styles : str -> option Z) (nv : str -> bool) (skip : Z) (tne : bool) (skip_cols : list Z).

  (** xlsx.py:324-347 [cell_sh]. *)
  Definition cell_sh (w : wst) (tag : str) (a : list (str * str)) : res wst :=
    match w_tag w with
    | Some _ => Ok (mkW (w_row w) (w_empty w) (w_take w) (w_crow w) (w_ctyp w) (w_col w) (Some tag))
    | None =>
      if str_eqb tag (s "c") && (skip <=? w_row w) then
        r <- attr_req a (s "r") ;;
        let typ :=
          if match attr a (s "t") with Some t => str_eqb t (s "s") | None => false end
          then Z.lor TYPE_STRING REPR_SHARED
          else match styles (match attr a (s "s") with Some k => k | None => s "0" end) with
               | Some ty => ty
               | None => Z.lor TYPE_STRING REPR_PREPARED
               end in
        Ok (mkW (w_row w) (w_empty w) (w_take w) (w_row w) typ r (Some tag))
      else Ok w
    end.

  (** xlsx.py:349-385 [cell_th]; [is_sharedstr] is always False, so every text goes
      through the null predicate. *)
  Definition cell_th (w : wst) (t : str) : wst * list out :=
    if w_row w <? skip then (w, [])
    else
      let txt := strip t in
      if match w_tag w with Some g => str_eqb g (s "v") | None => false end && negb (str_eqb txt []) then
        if nv txt then (w, [])
        else
          let c := col_idx (utf8 (w_col w)) in
          if mem_Z c skip_cols then (w, [])
          else (mkW (w_row w) false (w_take w) (w_crow w) (w_ctyp w) (w_col w) (w_tag w),
                [OCell (mkCell (w_crow w - skip) c (w_ctyp w) (VBytes (utf8 txt)))])
      else (w, []).

  (** xlsx.py:387-418 [cell_eh]: new state, outputs, stop? *)
  Definition cell_eh (w : wst) (tag : str) : wst * list out * bool :=
    if str_eqb tag (s "row") then
      let row := if negb (w_empty w) || tne then w_row w + 1 else w_row w in
      let take := if w_empty w && tne then w_take w + 2 else w_take w in
      (mkW row (w_empty w) take (w_crow w) (w_ctyp w) (w_col w) (w_tag w), [OCall],
       (0 <? take) && (take <? row))
    else if str_eqb tag (s "c") then
      (mkW (w_row w) (w_empty w) (w_take w) (w_crow w) 0 (w_col w) None, [], false)
    else (w, [], false).

  (** The parse loop; [fail] is the parser's error after the last event, if any.
      The exception component is the one that ends the thread (GeneratorExit is the
      normal way to stop). *)
  Fixpoint worker_loop (es : list event) (fail : option exn) (w : wst) : trace :=
    match es with
    | [] => ([], fail)
    | EStart tag a :: r =>
      match cell_sh w tag a with
      | Ok w => worker_loop r fail w
      | Err e => ([], Some e)
      end
    | EText t :: r =>
      let '(w, o) := cell_th w t in
      let '(o', e) := worker_loop r fail w in (o ++ o', e)
    | EEnd tag :: r =>
      let '(w, o, stop) := cell_eh w tag in
      if stop then (o, None)
      else let '(o', e) := worker_loop r fail w in (o ++ o', e)
    end.

  (** xlsx.py:303-322: initial state; the callback is called once before parsing. *)
  Definition worker (es : list event) (fail : option exn) (take : Z) : trace :=
    let '(o, e) := worker_loop es fail (mkW 0 true take 0 0 [] None) in (OCall :: o, e).
End Worker.

(** xlsx.py:255-460 [iter_worksheet] with an open part: arguments are checked, then the
    worker runs with [take_rows + skip_rows].  The trace is what the thread puts into the
    queue and the callbacks it makes; see Queue.v for the consumer.
    [if not skip_cols or c_col not in skip_cols]: None and the empty list are the same. *)
Definition xlsx_iter (styles : str -> option Z) (nv : str -> bool) (skip take : Z) (tne : bool)
  (skip_cols : list Z) (es : list event) (fail : option exn) : trace :=
  if skip <? 0 then ([], Some ValueError)
  else if take <? 0 then ([], Some ValueError)
  else worker styles nv skip tne skip_cols es fail (take + skip).
