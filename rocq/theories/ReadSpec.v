(** What a read of a column returns, in terms of its runs of cells. *)
From Verif Require Import Py PyText Cell Casts Chunk ChunkSpec.
Set Implicit Arguments. Unset Strict Implicit.

(** *** The runs a read selects *)
Fixpoint keep_rows {A} (row : nat) (l : list A) (chosen : nat -> bool) : list A :=
  match l with
  | [] => []
  | x :: r => if chosen row then x :: keep_rows (S row) r chosen else keep_rows (S row) r chosen
  end.
(** The chosen cells of each run, runs without one left out. *)
Fixpoint pieces {A} (row : nat) (runs : list (list A)) (chosen : nat -> bool) : list (list A) :=
  match runs with
  | [] => []
  | r :: rs =>
    let rest := pieces (row + List.length r) rs chosen in
    match keep_rows row r chosen with [] => rest | p => p :: rest end
  end.
(** The rows a read asks for: all, [len] of them from [off] on, or by a mask from [off] on. *)
Definition chosen (off len : Z) (idx : option (list bool)) (row : nat) : bool :=
  match idx with
  | Some m => (off <=? Z.of_nat row) && nth (row - Z.to_nat off) m false
  | None => (off =? 0) && (len =? 0) || (off <=? Z.of_nat row) && (Z.of_nat row <? off + len)
  end.
(** Rows past the end form one more run, of nulls. *)
Definition past_end (off len : Z) (idx : option (list bool)) : list tag :=
  repeat tnull (Z.to_nat (off + match idx with Some m => zlen m | None => len end)).
(** Asked for no row, or for a negative number of rows: the rest of the run that holds row
    [off], a negative number taking that many rows from its end. *)
Fixpoint rest_of_run {A} (row : nat) (runs : list (list A)) : list A :=
  match runs with
  | [] => []
  | r :: rs => if (row <? List.length r)%nat then skipn row r else rest_of_run (row - List.length r) rs
  end.
Definition some_run {A} (r : list A) : list (list A) := match r with [] => [] | _ => [r] end.
Definition odd_request (off len : Z) (idx : option (list bool)) : bool :=
  match idx with Some _ => false | None => (len <? 0) || (len =? 0) && negb (off =? 0) end.
(** Negative offsets count as 0. *)
Definition chosen_runs (runs : list (list tag)) (off len : Z) (idx : option (list bool)) : list (list tag) :=
  let from := Z.max 0 off in
  if odd_request off len idx then
    let r := rest_of_run (Z.to_nat from) runs in some_run (firstn (Z.to_nat (zlen r + len)) r)
  else pieces 0 (runs ++ [past_end from len idx]) (chosen from len idx).

(** *** The runs afterwards *)
(** A read looks up the shared strings of the runs it takes as a whole (rows [a .. b-1] of a
    column); one with a mask takes none as a whole.  A read of the whole column may change more,
    if it converts. *)
Definition covered (off len a b : Z) : bool :=
  let from := Z.max 0 off in
  if len =? 0 then (off =? 0) || (a =? from) else (from <=? a) && (b <=? from + len).
Definition looked_up (x : tag) : tag := (t_kind x, false, t_val x).
Fixpoint runs_after (row : Z) (runs : list (list tag)) (off len : Z) : list (list tag) :=
  match runs with
  | [] => []
  | r :: rs => (if covered off len row (row + zlen r) then map looked_up r else r) :: runs_after (row + zlen r) rs off len
  end.

(** *** What becomes of them *)
Section Expected.
  Context (o : oracle) (cf : conf).
  Definition is_str (r : list tag) : bool := some_kind KStr r.
  Definition has_number (x : tag) : bool := match number_of o (t_val x) with Some _ => true | None => false end.
  Definition number_in (x : tag) : cellv := match number_of o (t_val x) with Some y => CNum y | None => t_val x end.
  Definition as_time (v : cellv) : cellv := match v with CNum y => CTime (ms_of o y) | v => v end.
  (** A run among dates: numbers are dates, strings are dates if all of them match a format, or
      else if all of them are numbers. *)
  Definition dated (r : list tag) : bool := forallb (fun x => negb (time_of o cf (t_val x) =? 0)) r.
  Definition numeric (r : list tag) : bool := forallb has_number r.
  Definition datable (r : list tag) : bool := negb (is_str r) || dated r || cf_numerics cf && numeric r.
  Definition to_dates (r : list tag) : list cellv :=
    if is_str r then
      if dated r then map (fun x => CTime (time_of o cf (t_val x))) r
      else if cf_numerics cf && numeric r then map (fun x => as_time (number_in x)) r
      else map t_val r
    else map (fun x => as_time (t_val x)) r.
  (** Strings among numbers: converted run by run up to the first run that is no number. *)
  Fixpoint to_numbers (rs : list (list tag)) : list cellv :=
    match rs with
    | [] => []
    | r :: rest =>
      if is_str r then
        if numeric r then map number_in r ++ to_numbers rest else flat_map (map t_val) rs
      else map t_val r ++ to_numbers rest
    end.
  Definition number_type (rs : list (list tag)) : dtype := if integral o cf (List.concat rs) then TI8 else TF8.

  Definition expected_cells (rs : list (list tag)) : list cellv * dtype :=
    let l := List.concat rs in
    let plain := map t_val l in
    let T := some_kind KTemp l in let N := some_kind KNum l in let S := some_kind KStr l in
    if T then
      if cf_datetime cf then (flat_map to_dates rs, if forallb datable rs then TMs else TUtf8)
      else (plain, if N || S then TUtf8 else TMs)
    else if N then
      if S then
        if cf_numerics cf then
          (to_numbers rs, if forallb (fun r => negb (is_str r) || numeric r) rs then number_type rs else TUtf8)
        else (plain, TUtf8)
      else (plain, number_type rs)
    else (plain, TUtf8).
  Definition expected (rs : list (list tag)) : res array :=
    match rs with
    | [] => Err ValueError
    | _ =>
      let l := List.concat rs in
      if cf_datetime cf && some_kind KTemp l && some_raw l then Err ArrowNotImplemented
      else let '(vals, t) := expected_cells rs in vs <- mapM (render o t) vals ;; Ok (mkA t vs)
    end.
End Expected.
