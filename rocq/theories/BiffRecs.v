(** Model of rxls/biff_recs.py.  An [xstr] is its field [s : str | None]. *)
From Verif Require Import Py Utf16 Biff.

Definition xstr := option str.

(** biff_recs.py:32-34 [xstr.value]. *)
Definition xstr_value (x : xstr) : str := match x with Some t => t | None => [] end.

(** [io.read(n)] on a BytesIO whose unread content is [b]. *)
Definition read_n (n : Z) (b : bytes) : bytes * bytes :=
  (firstn (Z.to_nat n) b, skipn (Z.to_nat n) b).

(** biff_recs.py:36-41 [xstr.load]: result and unread rest. *)
Definition xstr_load (b : bytes) : res (xstr * bytes) :=
  let '(h, b) := read_n 4 b in
  sz <- unpack_I h ;;
  if sz =? 0xFFFFFFFF then Ok (None, b)
  else
    let '(d, b) := read_n (sz * 2) b in
    t <- decode16 d ;; Ok (Some t, b).

(** biff_recs.py:43-52 [xstr.dump]: the bytes written. *)
Definition xstr_dump (x : xstr) : res bytes :=
  match x with
  | None => Ok [0xFF; 0xFF; 0xFF; 0xFF]
  | Some [] => Ok [0; 0; 0; 0]
  | Some t => h <- pack_I (zlen t) ;; e <- encode16 t ;; Ok (h ++ e)
  end.

(** biff_recs.py:54-59 [xstr.from_binary]. *)
Definition xstr_from_binary (b : bytes) : res xstr :=
  sz <- unpack_I (py_slice b None (Some 4)) ;;
  if sz =? 0xFFFFFFFF then Ok None
  else t <- decode16 (py_slice b (Some 4) (Some (4 + sz * 2))) ;; Ok (Some t).

(** biff_recs.py:69-75 [BrtBundleSh]. *)
Record bundle_sh := mkBundle { hsState : Z; iTabID : Z; strRelID : xstr; strName : xstr }.

(** biff_recs.py:18-20 [u44_u] = struct "<II" unpack. *)
Definition unpack_II (b : bytes) : res (Z * Z) :=
  match b with
  | [b0; b1; b2; b3; b4; b5; b6; b7] =>
    a <- unpack_I [b0; b1; b2; b3] ;; c <- unpack_I [b4; b5; b6; b7] ;; Ok (a, c)
  | _ => Err StructError
  end.

(** biff_recs.py:77-80 [BrtBundleSh.loadr]. *)
Definition bundle_loadr (r : record) : res bundle_sh :=
  let io := py_slice (rec_data r) (Some 8) None in
  ' (st, tab) <- unpack_II (py_slice (rec_data r) None (Some 8)) ;;
  ' (rel, io) <- xstr_load io ;;
  ' (name, _) <- xstr_load io ;;
  Ok (mkBundle st tab rel name).
