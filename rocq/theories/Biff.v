(** Model of rxls/biff.py. *)
From Verif Require Import Py.

(** biff.py:29-45 [dump_sz].  [b1_st_p] .. [b4_st_p] are struct packers of 1..4
    unsigned bytes, each range-checked. *)
Definition dump_sz (i : Z) : res bytes :=
  if i <? 0x80 then pack_B i
  else if i <? 0x4000 then
    a <- pack_B (Z.lor (Z.land i 0x7F) 0x80) ;; b <- pack_B (Z.shiftr i 7) ;; Ok (a ++ b)
  else if i <? 0x200000 then
    a <- pack_B (Z.lor (Z.land i 0x7F) 0x80) ;;
    b <- pack_B (Z.lor (Z.land (Z.shiftr i 7) 0x7F) 0x80) ;;
    c <- pack_B (Z.shiftr i 14) ;; Ok (a ++ b ++ c)
  else
    a <- pack_B (Z.lor (Z.land i 0x7F) 0x80) ;;
    b <- pack_B (Z.lor (Z.land (Z.shiftr i 7) 0x7F) 0x80) ;;
    c <- pack_B (Z.lor (Z.land (Z.shiftr i 14) 0x7F) 0x80) ;;
    d <- pack_B (Z.shiftr i 21) ;; Ok (a ++ b ++ c ++ d).

(** biff.py:48-51 [record]. *)
Record record := mkRec { rec_id : Z; rec_data : bytes }.

(** biff.py:57-59 [record.rec_sz]. *)
Definition rec_sz (r : record) : Z := zlen (rec_data r).

(** biff.py:65-69 [record.__repr__]: the number printed first. *)
Definition repr_number (r : record) : Z :=
  let ix := rec_id r in
  if Z.land ix 0x80 =? 0 then ix
  else Z.lor (Z.land ix 0x7F) (Z.shiftr (Z.land ix 0x7F00) 1).

(** biff.py:71-81 [record.from_data] for an integer id (the [str] case is in
    BiffEnum.v). *)
Definition from_data (id : Z) (parts : list bytes) : record :=
  mkRec id (List.concat parts).

(** biff.py:83-102 [record.as_binary].  The inlined size prefix is the same
    expression as [dump_sz]. *)
Definition as_binary (r : record) : res bytes :=
  h <- (if Z.land (rec_id r) 0x80 =? 0 then pack_B (rec_id r) else pack_H (rec_id r)) ;;
  z <- dump_sz (rec_sz r) ;;
  Ok (h ++ z ++ rec_data r).

(** biff.py:104-107 [record.dump] of several records to one stream: the stream
    content afterwards. *)
Fixpoint dump_all (rs : list record) : res bytes :=
  match rs with
  | [] => Ok []
  | r :: rs' => b <- as_binary r ;; bs <- dump_all rs' ;; Ok (b ++ bs)
  end.

(** [io.read(1)[0]] on a stream whose unread content is [b]. *)
Definition read1 (b : bytes) : res (Z * bytes) :=
  match b with [] => Err IndexError | x :: r => Ok (x, r) end.

(** biff.py:217-220: record id. *)
Definition scan_id (b : bytes) : res (Z * bytes) :=
  ' (id, b) <- read1 b ;;
  if Z.land id 0x80 =? 0 then Ok (id, b)
  else ' (x, b) <- read1 b ;; Ok (Z.lor id (Z.shiftl x 8), b).

(** biff.py:222-229: record size. *)
Definition scan_sz (b : bytes) : res (Z * bytes) :=
  ' (sz, b) <- read1 b ;;
  if Z.land sz 0x80 =? 0 then Ok (sz, b)
  else
    ' (x, b) <- read1 b ;;
    let sz := Z.lor (Z.lxor sz 0x80) (Z.shiftl x 7) in
    if Z.land sz 0x4000 =? 0 then Ok (sz, b)
    else
      ' (x, b) <- read1 b ;;
      let sz := Z.lor (Z.lxor sz 0x4000) (Z.shiftl x 14) in
      if Z.land sz 0x200000 =? 0 then Ok (sz, b)
      else
        ' (x, b) <- read1 b ;;
        Ok (Z.lor (Z.lxor sz 0x200000) (Z.shiftl x 21), b).

(** biff.py:217-229: record id and size. *)
Definition scan_hdr (b : bytes) : res (Z * Z * bytes) :=
  ' (id, b) <- scan_id b ;; ' (sz, b) <- scan_sz b ;; Ok (id, sz, b).

(** biff.py:232: [not only or id in only]; [only] is [None] or a set of ids. *)
Definition wanted (only : option (list Z)) (id : Z) : bool :=
  match only with None => true | Some [] => true | Some l => mem_Z id l end.

(** biff.py:214-245 [scan_biff] (streaming implementation).  The generator is the
    list of yielded records; [None] means the fuel ran out (proved impossible).
    [io.read(n)] returns what is left when fewer than n bytes remain;
    [io.seek(n, SEEK_CUR)] may move past the end, after which reads are empty. *)
Fixpoint scan_fuel (fuel : nat) (only : option (list Z)) (b : bytes) : option (list record) :=
  match fuel with
  | O => None
  | S fuel =>
    match scan_hdr b with
    | Err _ => Some []                        (* except IndexError: pass *)
    | Ok (id, sz, b) =>
      if wanted only id then
        if sz =? 0 then
          match scan_fuel fuel only b with
          | None => None | Some rs => Some (mkRec id [] :: rs) end
        else
          let data := firstn (Z.to_nat sz) b in
          if zlen data =? sz then
            match scan_fuel fuel only (skipn (Z.to_nat sz) b) with
            | None => None | Some rs => Some (mkRec id data :: rs) end
          else Some []                        (* break *)
      else
        scan_fuel fuel only (skipn (Z.to_nat sz) b)
    end
  end.

Definition scan_biff (only : option (list Z)) (b : bytes) : option (list record) :=
  scan_fuel (S (List.length b)) only b.

(** ** The block-buffered implementation used when numba is installed. *)

(** numpy int16 wrap-around (biff.py:124,127; the declared yield type is int16). *)
Definition wrap16 (i : Z) : Z := (i + 2 ^ 15) mod 2 ^ 16 - 2 ^ 15.

(** biff.py:124-128. *)
Definition nb_id (b : bytes) : res (Z * bytes) :=
  ' (id, b) <- read1 b ;;
  if Z.land id 0x80 =? 0 then Ok (id, b)
  else ' (x, b) <- read1 b ;; Ok (wrap16 (Z.lor id (Z.shiftl x 8)), b).

(** biff.py:130-140. *)
Definition nb_sz (b : bytes) : res (Z * bytes) :=
  ' (sz, b) <- read1 b ;;
  if Z.land sz 0x80 =? 0 then Ok (sz, b)
  else
    ' (x, b) <- read1 b ;;
    let sz := Z.lor (Z.land sz 0x7F) (Z.shiftl x 7) in
    if Z.land sz 0x4000 =? 0 then Ok (sz, b)
    else
      ' (x, b) <- read1 b ;;
      let sz := Z.lor (Z.land sz 0x3FFF) (Z.shiftl x 14) in
      if Z.land sz 0x200000 =? 0 then Ok (sz, b)
      else
        ' (x, b) <- read1 b ;;
        Ok (Z.lor (Z.land sz 0x1FFFFF) (Z.shiftl x 21), b).

(** biff.py:124-140. *)
Definition nb_hdr (b : bytes) : res (Z * Z * bytes) :=
  ' (id, b) <- nb_id b ;; ' (sz, b) <- nb_sz b ;; Ok (id, sz, b).

(** biff.py:144-147: [only is None] or [id in only] (an empty set matches
    nothing here, unlike the streaming implementation). *)
Definition nb_wanted (only : option (list Z)) (id : Z) : bool :=
  match only with None => true | Some l => mem_Z id l end.

(** biff.py:114-153 [scan_chunk]: the yielded triples.  [rest] is
    [chunk[offset:]] at the top of the loop (offset = preoff there), [pre] is
    [preoff].  Simplification: reading past the end of [chunk] raises IndexError
    (Python semantics), caught by [except Exception]; compiled numba code without
    bounds checks may instead read adjacent memory.  [raise StopIteration] ends
    the generator. *)
Fixpoint scan_chunk_fuel (fuel : nat) (only : option (list Z)) (pre : Z) (rest : bytes)
  : option (list (Z * Z * bytes)) :=
  match fuel with
  | O => None
  | S fuel =>
    match nb_hdr rest with
    | Err _ => Some [(-1, pre, [])]
    | Ok (id, sz, b) =>
      if zlen b <? sz then Some [(-1, pre, [])]            (* offset + sz > ch_len *)
      else
        let rest' := skipn (Z.to_nat sz) b in
        let pre' := pre + (zlen rest - zlen rest') in
        match scan_chunk_fuel fuel only pre' rest' with
        | None => None
        | Some l =>
          if nb_wanted only id then Some ((id, sz, firstn (Z.to_nat sz) b) :: l) else Some l
        end
    end
  end.
Definition scan_chunk (only : option (list Z)) (chunk : bytes) :=
  scan_chunk_fuel (S (List.length chunk)) only 0 chunk.

(** biff.py:206-210: consume the triples of one [scan_chunk] run. *)
Fixpoint nb_consume (l : list (Z * Z * bytes)) (chunk : bytes) : list record * bytes :=
  match l with
  | [] => ([], chunk)
  | (i, o, d) :: r =>
    if i <? 0 then nb_consume r (skipn (Z.to_nat o) chunk)
    else let '(rs, c) := nb_consume r chunk in (mkRec i d :: rs, c)
  end.

(** biff.py:200-210 [scan_biff] (numba): [bsz] is the block size 2**16; the
    result [None] means the loop did not finish within [fuel] iterations. *)
Fixpoint nb_scan_loop (fuel : nat) (bsz : nat) (only : option (list Z)) (chunk rest : bytes)
  : option (list record) :=
  match fuel with
  | O => None
  | S fuel =>
    let chunk := chunk ++ firstn bsz rest in
    let rest := skipn bsz rest in
    match chunk with
    | [] => Some []
    | _ =>
      match scan_chunk only chunk with
      | None => None
      | Some l =>
        let '(rs, chunk') := nb_consume l chunk in
        match nb_scan_loop fuel bsz only chunk' rest with
        | None => None
        | Some rs' => Some (rs ++ rs')
        end
      end
    end
  end.
Definition nb_scan_biff (fuel : nat) (bsz : nat) (only : option (list Z)) (b : bytes) :=
  nb_scan_loop fuel bsz only [] b.
