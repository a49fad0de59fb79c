(** What a run of cells stands for, independently of how [chunk] stores it. *)
From Verif Require Import Py PyText Cell Casts Chunk.
Set Implicit Arguments. Unset Strict Implicit.

(** A cell value: nothing, text, a number, a point in time (milliseconds since 1970). *)
Inductive cellv := CNull | CText (t : str) | CNum (x : f8) | CTime (ms : Z).
Definition ctext (v : option str) : cellv := match v with Some t => CText t | None => CNull end.
Definition shared_at (sref : list (option str)) (i : Z) : cellv :=
  match (if i <? 0 then None else nth_error sref (Z.to_nat i)) with Some v => ctext v | None => CNull end.

Section Den.
  Context (o : oracle).
  Definition ms_of (x : f8) : Z := f8_to_ms_win (o_oob o) x.
  (** The values of a chunk, whatever its state of preparation. *)
  Definition den (c : chunk) : list cellv :=
    match k_data c with
    | DNull n => repeat CNull (Z.to_nat n)
    | DStr l => map ctext l
    | DIdx l => map (shared_at (k_sref c)) l
    | DRk l => map (fun v => if flag (k_type c) REPR_TEMPORAL then CTime (ms_of (rk_to_f8 v)) else CNum (rk_to_f8 v)) l
    | DF l => map (fun x => if flag (k_type c) REPR_TEMPORAL then CTime (ms_of x) else CNum x) l
    | DMs l => map CTime l
    end.
End Den.

(** The combinations of type flags and data that occur: data of the kind the flags announce,
    and shared string indices within the table. *)
Definition in_table (sref : list (option str)) (i : Z) : bool := (0 <=? i) && (i <? zlen sref).
Definition shape (c : chunk) : bool :=
  let t := k_type c in
  match k_data c with
  | DNull n => (t =? 0) && (0 <=? n)
  | DStr _ => t =? 0x18
  | DIdx l => (t =? 0x11) && forallb (in_table (k_sref c)) l
  | DRk _ => (t =? 0x21) || (t =? 0x25)
  | DF _ => (t =? 0x28) || (t =? 0x29) || (t =? 0x24)
  | DMs _ => (t =? 0x2C) || (t =? 0x2D)
  end.
(** Chunks as the column stores them: the size field is the number of values. *)
Definition stored (c : chunk) : bool := shape c && (k_size c =? data_len (k_data c)).

(** Rows [off .. off+len-1] of a column: null past the end. *)
Definition window {A} (null : A) (vals : list A) (off len : Z) : list A :=
  map (fun i => nth (Z.to_nat off + i) vals null) (seq 0 (Z.to_nat len)).
(** Elements whose mask bit is set. *)
Definition masked {A} (vals : list A) (m : list bool) : list A :=
  map fst (filter (fun p => snd p) (combine vals m)).

(** *** What a read delivers *)
(** A cell: kind of its run, whether the run still holds shared string indices, value. *)
Definition tag := (kind * bool * cellv)%type.
Definition tnull : tag := (KNull, false, CNull).
Definition t_kind (x : tag) : kind := fst (fst x).
Definition t_raw (x : tag) : bool := snd (fst x).
Definition t_val (x : tag) : cellv := snd x.

Section Deliver.
  Context (o : oracle) (cf : conf).
  (** The cells of a chunk, of a column. *)
  Definition cells_of (c : chunk) : list tag :=
    map (pair (kind_of c, match k_data c with DIdx _ => true | _ => false end)) (den o c).
  Definition cells (store : list chunk) : list tag := flat_map cells_of store.
  (** How a value appears in an array of a given type. *)
  Definition render (t : dtype) (v : cellv) : res (option aval) :=
    match v, t with
    | CNull, _ => Ok None
    | CText s, TUtf8 => Ok (Some (AS s))
    | CText s, TF8 => match o_parse o s with Some x => Ok (Some (AF x)) | None => Err ArrowInvalid end
    | CNum x, TF8 => Ok (Some (AF x))
    | CNum x, TI8 => Ok (Some (AI (f8_to_i64 (o_oob o) x)))
    | CNum x, TUtf8 => Ok (Some (AS (o_show_f o x)))
    | CTime m, TMs => Ok (Some (AT m))
    | CTime m, TUtf8 => Ok (Some (AS (o_show_t o m)))
    | _, _ => Err Undefined
    end.
  (** The time a text stands for: by the first format that gives a nonzero one; 0: none does. *)
  Definition formats : list str :=
    match cf_formats cf with None | Some [] => default_formats (o_polars o) | Some l => l end.
  Definition text_of (v : cellv) : option str := match v with CText t => Some t | _ => None end.
  Definition time_of (v : cellv) : Z :=
    fold_left (fun acc f => if acc =? 0 then strptime1 (o_strptime o) (o_junk o) f (text_of v) else acc) formats 0.
  (** The number a string cell stands for (a null string: whatever the buffer holds). *)
  Definition number_of (v : cellv) : option f8 :=
    match v with CText t => o_parse o t | _ => Some (o_null_f o) end.

  (** Values a cell may turn into when conflicts are resolved. *)
  Inductive converts : tag -> cellv -> Prop :=
  | cv_same x : converts x (t_val x)
  | cv_num_time r x : cf_datetime cf = true -> converts (KNum, r, CNum x) (CTime (ms_of o x))
  | cv_text_num r v x : cf_numerics cf = true -> number_of v = Some x -> converts (KStr, r, v) (CNum x)
  | cv_text_time r v : cf_datetime cf = true -> time_of v <> 0 -> converts (KStr, r, v) (CTime (time_of v))
  | cv_text_num_time r v x : cf_datetime cf = true -> cf_numerics cf = true -> number_of v = Some x ->
      converts (KStr, r, v) (CTime (ms_of o x)).
  Definition delivers (t : dtype) (x : tag) (a : option aval) : Prop :=
    exists v, converts x v /\ render t v = Ok a.

  Definition some_kind (k : kind) (l : list tag) : bool := existsb (fun x => kind_eqb (t_kind x) k) l.
  Definition some_raw (l : list tag) : bool := existsb t_raw l.
  (** All numbers of the window, those of texts included, are integers up to the precision. *)
  Definition num_of (x : tag) : option f8 :=
    match t_kind x, t_val x with
    | KNum, CNum x => Some x
    | KStr, v => number_of v
    | _, _ => None
    end.
  Definition integral (l : list tag) : bool :=
    forallb (fun x => match num_of x with Some x => feqb (ftrunc x) (np_round (cf_prec cf) x) | None => true end) l.
End Deliver.

(** The cells a read selects. *)
Definition selection (o : oracle) (store : list chunk) (off len : Z) (idx : option (list bool)) : list tag :=
  match idx with
  | Some m => masked (window tnull (cells o store) off (zlen m)) m
  | None => if (off =? 0) && (len =? 0) then cells o store else window tnull (cells o store) off len
  end.
(** A column: nonempty runs, at least one. *)
Definition column (store : list chunk) : bool :=
  negb (zlen store =? 0) && forallb (fun c => stored c && (0 <? k_size c)) store.
(** Reads covered by the claims: whole column, [len] rows, rows of a mask with a set bit. *)
Definition request (off len : Z) (idx : option (list bool)) : bool :=
  match idx with
  | Some m => (0 <=? off) && (0 <? true_count m)
  | None => (0 <=? off) && (0 <? len) || (off =? 0) && (len =? 0)
  end.
