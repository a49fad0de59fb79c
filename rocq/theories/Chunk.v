(** Model of rxls/chunk/chunk.py and of the parts of rxls/chunk/arrow.py it uses.

    Chunk objects are mutable; [prepare] changes them in place, so every function that may
    prepare returns the new state of the object next to its result.  The conversions done by
    numpy and Arrow on single values are the fields of [oracle]; nothing is assumed about them. *)
From Verif Require Import Py PyText Cell Casts.
Set Implicit Arguments. Unset Strict Implicit.

(** Conversions of single values by the libraries. *)
Record oracle := mkO {
  o_float : bytes -> option f8;          (* [float(b)], None: ValueError *)
  o_parse : str -> option f8;            (* Arrow string -> double, None: ArrowInvalid *)
  o_show_f : f8 -> str;                  (* Arrow double -> string *)
  o_show_t : Z -> str;                   (* Arrow timestamp -> string *)
  o_show_i : Z -> str;                   (* Arrow int64 -> string *)
  o_strptime : str -> str -> option Z;   (* format, text -> milliseconds *)
  o_polars : bool;                       (* POLARS_AVAILABLE *)
  o_junk : Z;                            (* content of a null timestamp slot *)
  o_null_f : f8;                         (* content of a null double slot *)
  o_oob : f8 -> Z                        (* out of range double -> int64 *)
}.

(** Arrow arrays and types. *)
Inductive dtype := TUtf8 | TF8 | TI8 | TMs | TNull.
Inductive aval := AS (t : str) | AF (x : f8) | AI (n : Z) | AT (ms : Z).
Record array := mkA { a_type : dtype; a_vals : list (option aval) }.
Definition dtype_eqb (a b : dtype) : bool :=
  match a, b with
  | TUtf8, TUtf8 | TF8, TF8 | TI8, TI8 | TMs, TMs | TNull, TNull => true | _, _ => false
  end.

(** The dynamic type of [chunk.data]: an int (null chunk), a string array, a uint32 array of
    shared string indices, numpy arrays of RK numbers, of doubles, of timestamps. *)
Inductive cdata :=
  | DNull (n : Z) | DStr (l : list (option str)) | DIdx (l : list Z)
  | DRk (l : list Z) | DF (l : list f8) | DMs (l : list Z).
(** chunk.py:78-96. *)
Record chunk := mkC { k_data : cdata; k_type : Z; k_size : Z; k_sref : list (option str) }.

Definition flag (t f : Z) : bool := negb (Z.land t f =? 0).
Definition data_len (d : cdata) : Z :=
  match d with
  | DNull n => n | DStr l => zlen l | DIdx l => zlen l | DRk l => zlen l | DF l => zlen l | DMs l => zlen l
  end.

(** chunk.py:98-101 [nulls]. *)
Definition nulls (n : Z) : chunk := mkC (DNull n) 0 n [].

(** [array_take] without bounds check (arrow.py:114-121): reading past the end is undefined. *)
Fixpoint take_shared (sref : list (option str)) (l : list Z) : res (list (option str)) :=
  match l with
  | [] => Ok []
  | i :: r =>
    match (if i <? 0 then None else nth_error sref (Z.to_nat i)) with
    | Some v => t <- take_shared sref r ;; Ok (v :: t)
    | None => Err Undefined
    end
  end.

Section Chunk.
  Context (o : oracle).

  (** chunk.py:216-228 [prepare]: the new state of the object. *)
  Definition prepare (c : chunk) : res chunk :=
    if flag (k_type c) REPR_PREPARED then Ok c
    else if flag (k_type c) TYPE_STRING then
      match k_data c with
      | DIdx l => v <- take_shared (k_sref c) l ;;
                  Ok (mkC (DStr v) (Z.lor TYPE_STRING REPR_PREPARED) (k_size c) (k_sref c))
      | _ => Err TypeError
      end
    else
      d <- (if flag (k_type c) REPR_RKNUMBER
            then match k_data c with DRk l => Ok (DF (map rk_to_f8 l)) | _ => Err TypeError end
            else Ok (k_data c)) ;;
      d <- (if flag (k_type c) REPR_TEMPORAL
            then match d with DF l => Ok (DMs (map (f8_to_ms_win (o_oob o)) l)) | _ => Err TypeError end
            else Ok d) ;;
      Ok (mkC d (Z.lor (k_type c) REPR_PREPARED) (k_size c) (k_sref c)).

  (** [unsafe_cast] (arrow.py:73-75), the casts [arrow] asks for.  Others are not modelled
      (never requested for well-formed chunks): [Undefined]. *)
  Definition cast_val (from to : dtype) (v : aval) : res aval :=
    match v, to with
    | AS t, TF8 => match o_parse o t with Some x => Ok (AF x) | None => Err ArrowInvalid end
    | AF x, TUtf8 => Ok (AS (o_show_f o x))
    | AI n, TUtf8 => Ok (AS (o_show_i o n))
    | AT m, TUtf8 => Ok (AS (o_show_t o m))
    | AF x, TI8 => Ok (AI (f8_to_i64 (o_oob o) x))
    | AS t, TUtf8 => Ok (AS t)
    | _, _ => Err Undefined
    end.
  Definition cast_opt (from to : dtype) (v : option aval) : res (option aval) :=
    match v with None => Ok None | Some v => w <- cast_val from to v ;; Ok (Some w) end.
  Definition unsafe_cast (a : array) (to : dtype) : res array :=
    v <- mapM (cast_opt (a_type a) to) (a_vals a) ;; Ok (mkA to v).

  (** chunk.py:304-329 [arrow] with strict=True: the array and the new state of the object. *)
  Definition raw_array (c : chunk) : res array :=
    if flag (k_type c) TYPE_STRING then
      match k_data c with DStr l => Ok (mkA TUtf8 (map (option_map AS) l)) | _ => Err TypeError end
    else if flag (k_type c) REPR_TEMPORAL then
      match k_data c with DMs l => Ok (mkA TMs (map (fun m => Some (AT m)) l)) | _ => Err Undefined end
    else
      match k_data c with DF l => Ok (mkA TF8 (map (fun x => Some (AF x)) l)) | _ => Err Undefined end.
  Definition chunk_arrow (c : chunk) (dest : option dtype) : res array * chunk :=
    if k_type c =? 0 then
      match k_data c with
      | DNull n => (if n <? 0 then Err ValueError
                    else Ok (mkA (match dest with Some d => d | None => TNull end) (repeat None (Z.to_nat n))), c)
      | _ => (Err TypeError, c)
      end
    else
      match prepare c with
      | Err e => (Err e, c)
      | Ok c =>
        (a <- raw_array c ;;
         match dest with
         | Some d => if dtype_eqb d (a_type a) then Ok a else unsafe_cast a d
         | None => Ok a
         end, c)
      end.

  (** chunk.py:230-237 [as_numeric]: [_unsafe_array] reads the value buffer, nulls are lost. *)
  Definition as_numeric (c : chunk) : res chunk * chunk :=
    if (k_type c =? 0) || flag (k_type c) TYPE_NUMERIC then (Ok c, c)
    else
      let '(a, c) := chunk_arrow c (Some TF8) in
      (a <- a ;;
       Ok (mkC (DF (map (fun v => match v with Some (AF x) => x | _ => o_null_f o end) (a_vals a)))
               (Z.lor TYPE_NUMERIC REPR_PREPARED) 0 []), c).

  (** chunk.py:239-250 [as_temporal]; Arrow (or polars) rejects a uint32 array with an error
      that is not [ArrowInvalid]. *)
  Definition as_temporal (formats : option (list str)) (c : chunk) : res chunk :=
    if flag (k_type c) TYPE_NUMERIC then
      if flag (k_type c) REPR_TEMPORAL then Ok c
      else if flag (k_type c) REPR_PREPARED
      then Ok (mkC (k_data c) (Z.lor TYPE_NUMERIC REPR_TEMPORAL) 0 [])
      else Ok (mkC (k_data c) (Z.lor (k_type c) REPR_TEMPORAL) 0 [])
    else
      match k_data c with
      | DStr l =>
        v <- mf_strptime (o_strptime o) (o_junk o) (o_polars o) formats l ;;
        Ok (mkC (DMs v) (Z.lor (Z.lor TYPE_NUMERIC REPR_TEMPORAL) REPR_PREPARED) 0 [])
      | DIdx _ => Err ArrowNotImplemented
      | _ => Err TypeError
      end.

  (** *** Slicing *)
  (** A Python slice object. *)
  Record pslice := mkS { sl_start : option Z; sl_stop : option Z; sl_step : option Z }.
  (** [l[start:stop:step]] (CPython's PySlice_AdjustIndices); also numpy's and pyarrow's. *)
  Definition slice_start (n step : Z) (a : option Z) : Z :=
    match a with
    | None => if step <? 0 then n - 1 else 0
    | Some i => if i <? 0 then (if n + i <? 0 then (if step <? 0 then -1 else 0) else n + i)
                else if n <=? i then (if step <? 0 then n - 1 else n) else i
    end.
  Definition slice_stop (n step : Z) (b : option Z) : Z :=
    match b with
    | None => if step <? 0 then -1 else n
    | Some i => if i <? 0 then (if n + i <? 0 then (if step <? 0 then -1 else 0) else n + i)
                else if n <=? i then (if step <? 0 then n - 1 else n) else i
    end.
  Definition slice_len (a b step : Z) : Z :=
    if step <? 0 then (if b <? a then (a - b - 1) / (- step) + 1 else 0)
    else (if a <? b then (b - a - 1) / step + 1 else 0).
  Definition slice_indices (n : Z) (x : pslice) : res (list Z) :=
    let step := match sl_step x with None => 1 | Some k => k end in
    if step =? 0 then Err ValueError
    else
      let a := slice_start n step (sl_start x) in
      let b := slice_stop n step (sl_stop x) in
      Ok (map (fun k => a + Z.of_nat k * step) (seq 0 (Z.to_nat (slice_len a b step)))).
  Fixpoint pick {A} (l : list A) (is : list Z) : list A :=
    match is with
    | [] => []
    | i :: r => match nth_error l (Z.to_nat i) with Some x => x :: pick l r | None => pick l r end
    end.
  Definition slice_list {A} (l : list A) (x : pslice) : res (list A) :=
    is <- slice_indices (zlen l) x ;; Ok (pick l is).

  (** chunk.py:53-75 [null_slice] ([x or d] takes [d] for None and 0). *)
  Definition or_ (a : option Z) (d : Z) : Z := match a with None | Some 0 => d | Some k => k end.
  Definition null_slice (x : Z) (index : pslice) : Z :=
    if x =? 0 then 0
    else
      let start := or_ (sl_start index) 0 in
      let start := if start <? 0 then x + start else start in
      let stop := or_ (sl_stop index) x in
      let stop := if stop <? 0 then x + stop else stop in
      let step := or_ (sl_step index) 1 in
      let '(stop, start, step) := if step <? 0 then (start, stop, - step) else (stop, start, step) in
      if stop <=? start then 0
      else
        let itvl := stop - start in
        itvl / step + (if itvl mod step =? 0 then 0 else 1).

  (** [arr.filter(mask)] / [arr[mask]] for masks of the same length. *)
  Fixpoint mask_list {A} (l : list A) (m : list bool) : list A :=
    match l, m with
    | x :: l, b :: m => if b then x :: mask_list l m else mask_list l m
    | _, _ => []
    end.
  Definition true_count (m : list bool) : Z := zlen (filter (fun b => b) m).

  Inductive take_arg := IInt (i : Z) | ISlice (x : pslice) | IMask (m : list bool).
  Definition take_list {A} (mismatch : exn) (l : list A) (ix : take_arg) : res (list A) :=
    match ix with
    | IInt i => slice_list l (mkS (Some i) (Some (i + 1)) None)
    | ISlice x => slice_list l x
    | IMask m => if zlen m =? zlen l then Ok (mask_list l m) else Err mismatch
    end.
  (** chunk.py:252-298 [take]. *)
  Definition take_data (d : cdata) (ix : take_arg) : res cdata :=
    match d with
    | DStr l => v <- take_list ArrowInvalid l ix ;; Ok (DStr v)
    | DIdx l => v <- take_list ArrowInvalid l ix ;; Ok (DIdx v)
    | DRk l => v <- take_list IndexError l ix ;; Ok (DRk v)
    | DF l => v <- take_list IndexError l ix ;; Ok (DF v)
    | DMs l => v <- take_list IndexError l ix ;; Ok (DMs v)
    | DNull _ => Err TypeError
    end.
  Definition take_chunk (c : chunk) (ix : take_arg) : res chunk :=
    if k_type c =? 0 then
      n <- match ix with
           | IInt i => Ok (if i <? k_size c then 1 else 0)
           | ISlice x => Ok (null_slice (k_size c) x)
           | IMask m => if k_size c <? zlen m then Err ValueError else Ok (true_count m)
           end ;;
      Ok (mkC (DNull n) 0 n [])
    else
      d <- take_data (k_data c) ix ;;
      Ok (mkC d (k_type c) (data_len d) (k_sref c)).

  (** *** Windows *)
  (** An object in a list of chunks: [Some i] the object at place [i] of the column's own list,
      [None] a new object. *)
  Definition entry := (option nat * chunk)%type.
  Definition from (k : Z) : take_arg := ISlice (mkS (Some k) None None).
  Definition upto (k : Z) : take_arg := ISlice (mkS None (Some k) None).

  (** chunk.py:372-391, with a mask. *)
  Fixpoint over_mask (chunks : list entry) (offset idx_off cum : Z) (index : list bool)
    : res (list entry * Z) :=
    match chunks with
    | [] => Ok ([], cum)
    | (src, c) :: r =>
      if (0 <? offset) && (k_size c <=? offset) then over_mask r (offset - k_size c) idx_off cum index
      else
        c <- (if 0 <? offset then take_chunk c (from offset) else Ok c) ;;
        let offset := if 0 <? offset then 0 else offset in
        let c_idx := py_slice index (Some idx_off) (Some (idx_off + k_size c)) in
        let idx_off := idx_off + k_size c in
        if true_count c_idx =? 0 then over_mask r offset idx_off cum index
        else
          it <- take_chunk c (upto (zlen c_idx)) ;;
          it <- take_chunk it (IMask c_idx) ;;
          if k_size it =? 0 then over_mask r offset idx_off cum index
          else
            ' (l, cum) <- over_mask r offset idx_off (cum + k_size it) index ;;
            Ok ((None, it) :: l, cum)
    end.
  (** chunk.py:394-411, without a mask. *)
  Fixpoint over_len (chunks : list entry) (offset length cum : Z) : res (list entry * Z) :=
    match chunks with
    | [] => Ok ([], cum)
    | (src, c) :: r =>
      if (0 <? offset) && (k_size c <=? offset) then over_len r (offset - k_size c) length cum
      else
        ' (src, c) <- (if 0 <? offset then c <- take_chunk c (from offset) ;; Ok (None, c) else Ok (src, c)) ;;
        let offset := if 0 <? offset then 0 else offset in
        let cum := cum + k_size c in
        ' (src, c) <- (if negb (length =? 0) && (length <? cum)
                       then c <- take_chunk c (upto (k_size c + length - cum)) ;; Ok (None, c)
                       else Ok (src, c)) ;;
        let out := if k_size c =? 0 then [] else [(src, c)] in
        if length <=? cum then Ok (out, cum)
        else ' (l, cum) <- over_len r offset length cum ;; Ok (out ++ l, cum)
    end.
  (** chunk.py:331-416 [take_over]. *)
  Definition take_over (chunks : list entry) (offset length : Z) (index : option (list bool))
    : res (list entry) :=
    match index with
    | Some m =>
      if true_count m =? 0 then Ok []
      else
        ' (l, cum) <- over_mask chunks offset 0 0 m ;;
        Ok (if negb (true_count m =? 0) && (cum <? true_count m) then l ++ [(None, nulls (true_count m - cum))] else l)
    | None =>
      ' (l, cum) <- over_len chunks offset length 0 ;;
      Ok (if negb (length =? 0) && (cum <? length) then l ++ [(None, nulls (length - cum))] else l)
    end.

  (** *** Concatenation *)
  Inductive kind := KNull | KStr | KTemp | KNum.
  Definition kind_of (c : chunk) : kind :=
    if k_type c =? 0 then KNull
    else if flag (k_type c) TYPE_STRING then KStr
    else if flag (k_type c) REPR_TEMPORAL then KTemp else KNum.
  Definition kind_eqb (a b : kind) : bool :=
    match a, b with KNull, KNull | KStr, KStr | KTemp, KTemp | KNum, KNum => true | _, _ => false end.
  (** One place of the list [chunks] in [concatenate]: its kind at the start, where the object
      came from, the state of that object, and the object put in its place, if any. *)
  Record slot := mkSlot { sl_kind : kind; sl_src : option nat; sl_obj : chunk; sl_new : option chunk }.
  Definition cur (x : slot) : chunk := match sl_new x with Some c => c | None => sl_obj x end.
  Definition new_slot (e : entry) : slot := mkSlot (kind_of (snd e)) (fst e) (snd e) None.
  Definition put (x : slot) (c : chunk) : slot := mkSlot (sl_kind x) (sl_src x) (sl_obj x) (Some c).
  Definition set_cur (x : slot) (c : chunk) : slot :=
    match sl_new x with
    | Some _ => mkSlot (sl_kind x) (sl_src x) (sl_obj x) (Some c)
    | None => mkSlot (sl_kind x) (sl_src x) c None
    end.

  (** A pass over the slots; each step may report a flag, [stop]: leave the loop at the first
      flag.  An exception leaves the rest as it is. *)
  Fixpoint walk (stop : bool) (f : slot -> slot * res bool) (l : list slot) : list slot * res bool :=
    match l with
    | [] => ([], Ok false)
    | x :: r =>
      match f x with
      | (x, Err e) => (x :: r, Err e)
      | (x, Ok b) =>
        if b && stop then (x :: r, Ok true)
        else let '(r, b') := walk stop f r in (x :: r, c <- b' ;; Ok (b || c))
      end
    end.

  Record conf := mkConf {
    cf_datetime : bool; cf_numerics : bool; cf_formats : option (list str); cf_prec : Z }.
  Context (cf : conf).

  (** chunk.py:481-483. *)
  Definition step_nums (x : slot) : slot * res bool :=
    if kind_eqb (sl_kind x) KNum then
      match as_temporal None (cur x) with
      | Ok c => (put x c, Ok false)
      | Err e => (x, Err e)
      end
    else (x, Ok false).
  (** chunk.py:484-495. *)
  Definition step_utf8_temporal (x : slot) : slot * res bool :=
    if kind_eqb (sl_kind x) KStr then
      match as_temporal (cf_formats cf) (cur x) with
      | Ok c => (put x c, Ok false)
      | Err ArrowInvalid =>
        if cf_numerics cf then
          let '(n, obj) := as_numeric (cur x) in
          let x := set_cur x obj in
          match (n <- n ;; as_temporal None n) with
          | Ok c => (put x c, Ok false)
          | Err ArrowInvalid => (x, Ok true)
          | Err e => (x, Err e)
          end
        else (x, Ok true)
      | Err e => (x, Err e)
      end
    else (x, Ok false).
  (** chunk.py:499-505. *)
  Definition step_utf8_numeric (x : slot) : slot * res bool :=
    if kind_eqb (sl_kind x) KStr then
      let '(n, obj) := as_numeric (cur x) in
      let x := set_cur x obj in
      match n with
      | Ok c => (put x c, Ok false)
      | Err ArrowInvalid => (x, Ok true)
      | Err e => (x, Err e)
      end
    else (x, Ok false).
  (** chunk.py:518-529: flag = some value is not an integer. *)
  Definition step_integer (x : slot) : slot * res bool :=
    if k_type (cur x) =? 0 then (x, Ok false)
    else
      match prepare (cur x) with
      | Err e => (x, Err e)
      | Ok c =>
        let x := set_cur x c in
        match k_data c with
        | DF l => (x, Ok (negb (f8_is_i8 l (cf_prec cf))))
        | _ => (x, Err TypeError)
        end
      end.
  (** chunk.py:535-537: [x.arrow(dest_dtype=dtype) for x in chunks]. *)
  Fixpoint arrows (d : dtype) (l : list slot) : list slot * res (list (option aval)) :=
    match l with
    | [] => ([], Ok [])
    | x :: r =>
      let '(a, c) := chunk_arrow (cur x) (Some d) in
      let x := set_cur x c in
      match a with
      | Err e => (x :: r, Err e)
      | Ok a => let '(r, v) := arrows d r in (x :: r, v <- v ;; Ok (a_vals a ++ v))
      end
    end.

  Definition has (k : kind) (l : list slot) : bool := existsb (fun x => kind_eqb (sl_kind x) k) l.
  (** chunk.py:477-507: conflict resolution; flag = utf8_fallback. *)
  Definition resolve (l : list slot) : list slot * res bool :=
    if has KTemp l then
      if cf_datetime cf then
        match walk false step_nums l with
        | (l, Err e) => (l, Err e)
        | (l, Ok _) => walk false step_utf8_temporal l
        end
      else (l, Ok (has KNum l || has KStr l))
    else if has KNum l && has KStr l then
      if cf_numerics cf then walk true step_utf8_numeric l else (l, Ok true)
    else (l, Ok false).
  (** chunk.py:509-537. *)
  Definition finish (l : list slot) (fallback : bool) : list slot * res array :=
    let '(l, d) :=
      if fallback then (l, Ok TUtf8)
      else if has KTemp l then (l, Ok TMs)
      else if has KNum l then
        let '(l, b) := walk true step_integer l in (l, b <- b ;; Ok (if b then TF8 else TI8))
      else (l, Ok TUtf8) in
    match d with
    | Err e => (l, Err e)
    | Ok d =>
      match l with
      | [] => ([], Err ValueError)  (* pa.chunked_array([]) *)
      | _ => let '(l, v) := arrows d l in (l, v <- v ;; Ok (mkA d v))
      end
    end.
  Definition run (l : list slot) : list slot * res array :=
    match resolve l with
    | (l, Err e) => (l, Err e)
    | (l, Ok fallback) => finish l fallback
    end.

  Fixpoint set_nth {A} (n : nat) (x : A) (l : list A) : list A :=
    match l, n with
    | [], _ => []
    | _ :: r, O => x :: r
    | y :: r, S n => y :: set_nth n x r
    end.
  (** Objects of the column's list changed in place. *)
  Definition write_back (store : list chunk) (l : list slot) : list chunk :=
    fold_left (fun st x => match sl_src x with Some i => set_nth i (sl_obj x) st | None => st end) l store.
  Fixpoint number {A} (i : nat) (l : list A) : list (option nat * A) :=
    match l with [] => [] | x :: r => (Some i, x) :: number (S i) r end.
  Definition windowed (offset length : Z) (index : option (list bool)) : bool :=
    negb (offset =? 0) || negb (length =? 0) || match index with Some _ => true | None => false end.
  (** chunk.py:418-537 [concatenate] on the list object [store]: the new content of that list
      and the result.  Without a window the list itself is worked on. *)
  Definition concatenate (store : list chunk) (offset length : Z) (index : option (list bool))
    : list chunk * res array :=
    if windowed offset length index then
      match take_over (number 0 store) offset length index with
      | Err e => (store, Err e)
      | Ok es => let '(l, r) := run (map new_slot es) in (write_back store l, r)
      end
    else
      let '(l, r) := run (map new_slot (number 0 store)) in (map cur l, r).
End Chunk.
