(** Model of rxls/series.py [xl_series] and of the chunk constructors it calls
    (rxls/chunk/chunk.py:103-194, rxls/chunk/casts.py:455-549, 576-604). *)
From Verif Require Import Py PyText Cell Casts Chunk Utf8.
From Flocq Require Import IEEE754.Bits.
Set Implicit Arguments. Unset Strict Implicit.

(** Content of a string cell for [pa.array(data, large_string)]: bytes must be UTF-8. *)
Definition val_text (v : cval) : res str :=
  match v with
  | VStr t => Ok t
  | VBytes b => match decode8 b with Some t => Ok t | None => Err ArrowInvalid end
  end.
(** Content of a cell where numpy or [bytes.join] needs bytes.  A [str] is never met there by
    the .xlsx reader; [b"".join] rejects it. *)
Definition val_bytes (v : cval) : res bytes :=
  match v with VBytes b => Ok b | VStr _ => Err TypeError end.

(** Little-endian integers. *)
Definition le_int (b : bytes) : Z := fold_right (fun x a => x + 256 * a) 0 b.
(** [np.frombuffer(b, dtype)] for items of [k > 0] bytes. *)
Fixpoint groups (fuel k : nat) (b : bytes) : list bytes :=
  match fuel with
  | O => []
  | S f => match b with [] => [] | _ => firstn k b :: groups f k (skipn k b) end
  end.
Definition frombuffer (k : nat) (b : bytes) : res (list bytes) :=
  if Nat.eqb (Nat.modulo (List.length b) k) 0 then Ok (groups (List.length b) k b) else Err ValueError.
Definition join (data : list cval) : res bytes := l <- mapM val_bytes data ;; Ok (List.concat l).

Section Make.
  Context (o : oracle) (shared : list (option str)).

  (** chunk.py:121-142 [xlsx_strings].  [int] of the cell bytes as in [py_int]; numpy's
      conversion of other integers to uint32 is not modelled. *)
  Definition xlsx_strings (data : list cval) (is_shared : bool) : res chunk :=
    if is_shared then
      l <- mapM (fun v => b <- val_bytes v ;; i <- py_int b ;; if (0 <=? i) && (i <? 2 ^ 32) then Ok i else Err Undefined) data ;;
      Ok (mkC (DIdx l) (Z.lor TYPE_STRING REPR_SHARED) (zlen data) shared)
    else
      l <- mapM val_text data ;;
      Ok (mkC (DStr (map Some l)) (Z.lor TYPE_STRING REPR_PREPARED) (zlen data) []).
  (** chunk.py:103-119 [xlsx_numeric]: on ValueError the run becomes strings. *)
  Definition xlsx_numeric (data : list cval) (is_temporal : bool) : res chunk :=
    match mapM (fun v => b <- val_bytes v ;; match o_float o b with Some x => Ok x | None => Err ValueError end) data with
    | Ok l => Ok (mkC (DF l) (Z.lor TYPE_NUMERIC (if is_temporal then REPR_TEMPORAL else REPR_PREPARED)) (zlen data) [])
    | Err ValueError => xlsx_strings data false
    | Err e => Err e
    end.
  (** chunk.py:144-166 [xlsb_strings]; [pa.Array.from_buffers] validates the buffer size and
      ignores excess bytes. *)
  Definition xlsb_strings (data : list cval) (is_shared : bool) : res chunk :=
    if is_shared then
      b <- join data ;;
      if zlen b <? 4 * zlen data then Err ArrowInvalid
      else
        Ok (mkC (DIdx (map le_int (groups (List.length data) 4 b))) (Z.lor TYPE_STRING REPR_SHARED) (zlen data) shared)
    else
      l <- mapM val_text data ;;
      Ok (mkC (DStr (map Some l)) (Z.lor TYPE_STRING REPR_PREPARED) (zlen data) []).
  (** chunk.py:168-194 [xlsb_numeric]. *)
  Definition xlsb_numeric (data : list cval) (is_boolean is_temporal is_rk : bool) : res chunk :=
    b <- join data ;;
    d <- (if is_rk then g <- frombuffer 4 b ;; Ok (DRk (map le_int g))
          else if is_boolean then Ok (DF (map f8_of_Z b))
          else g <- frombuffer 8 b ;; Ok (DF (map (fun x => b64_of_bits (le_int x)) g))) ;;
    Ok (mkC d (Z.lor (Z.lor TYPE_NUMERIC (if is_temporal then REPR_TEMPORAL else 0))
                (Z.lor (if is_rk then REPR_RKNUMBER else 0)
                       (if is_temporal || is_rk then 0 else REPR_PREPARED))) (zlen data) []).
End Make.

(** series.py:32-70: fixed at construction. *)
Record sconf := mkSC { sc_shared : list (option str); sc_binary : bool; sc_conf : conf }.
(** The mutable fields. *)
Record series := mkSer { se_chunks : list chunk; se_chunk : list cval; se_xdtr : Z; se_srow : Z; se_erow : Z; se_choff : Z }.
Definition se_new : series := mkSer [] [] 0 (-1) (-1) 0.
(** series.py:72-73. *)
Definition se_len (x : series) : Z := se_erow x - se_srow x + 1.

Section Series.
  Context (o : oracle) (sc : sconf).
  (** series.py:77-101, the chunk made of the pending values. *)
  Definition make_chunk (xdtr : Z) (data : list cval) : res chunk :=
    if flag xdtr TYPE_STRING then
      (if sc_binary sc then xlsb_strings else xlsx_strings) (sc_shared sc) data (flag xdtr REPR_SHARED)
    else if sc_binary sc then
      xlsb_numeric data (flag xdtr REPR_BOOLEAN) (flag xdtr REPR_TEMPORAL) (flag xdtr REPR_RKNUMBER)
    else xlsx_numeric o (sc_shared sc) data (flag xdtr REPR_TEMPORAL).
  (** series.py:75-109 [__pull_chunk]; a failing constructor changes nothing. *)
  Definition pull (x : series) : res series :=
    c <- make_chunk (se_xdtr x) (se_chunk x) ;;
    Ok (mkSer (se_chunks x ++ (if se_choff x =? 0 then [] else [nulls (se_choff x)]) ++ [c]) []
              (se_xdtr x) (se_srow x) (se_erow x) 0).
  Definition pull_some (x : series) : res series := match se_chunk x with [] => Ok x | _ => pull x end.
  (** series.py:111-142 [add]; on an exception nothing has changed (the second pull only
      happens when the first did not). *)
  Definition add (x : series) (c : cell) : res series :=
    if c_row c <=? se_erow x then Ok x
    else
      x <- (if se_erow x + 1 <? c_row c then
              x <- pull_some x ;;
              Ok (mkSer (se_chunks x) (se_chunk x) 0 (se_srow x) (se_erow x) (c_row c - se_erow x - 1))
            else Ok x) ;;
      x <- (if c_xdt c =? se_xdtr x then Ok x
            else
              x <- pull_some x ;;
              Ok (mkSer (se_chunks x) (se_chunk x) (c_xdt c) (se_srow x) (se_erow x) (se_choff x))) ;;
      Ok (mkSer (se_chunks x) (se_chunk x ++ [c_val c]) (se_xdtr x)
                (if se_srow x <? 0 then c_row c else se_srow x) (c_row c) (se_choff x)).

  Definition with_chunks (x : series) (l : list chunk) : series :=
    mkSer l (se_chunk x) (se_xdtr x) (se_srow x) (se_erow x) (se_choff x).
  Definition null_array (t : dtype) (n : Z) : res array :=
    if n <? 0 then Err ValueError else Ok (mkA t (repeat None (Z.to_nat n))).
  (** series.py:176-198 [to_arrow]: new state and result. *)
  Definition to_arrow (x : series) (off len : Z) (idx : option (list bool)) : series * res array :=
    match pull_some x with
    | Err e => (x, Err e)
    | Ok x =>
      match se_chunks x with
      | [] => (x, null_array TNull len)
      | l => let '(l, r) := concatenate o (sc_conf sc) l off len idx in (with_chunks x l, r)
      end
    end.
  (** series.py:144-174 [to_utf8]: the same, cast to strings. *)
  Definition to_utf8 (x : series) (off len : Z) (idx : option (list bool)) : series * res array :=
    match pull_some x with
    | Err e => (x, Err e)
    | Ok x =>
      match se_chunks x with
      | [] => (x, null_array TUtf8 len)
      | l => let '(l, r) := concatenate o (sc_conf sc) l off len idx in
             (with_chunks x l, a <- r ;; if dtype_eqb (a_type a) TUtf8 then Ok a else unsafe_cast o a TUtf8)
      end
    end.
End Series.
