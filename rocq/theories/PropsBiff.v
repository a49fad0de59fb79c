(** Properties C01-C07: BIFF12 record framing (rxls/biff.py, rxls/biff_enum.py).
    Records are [mkRec id data]; [dump_all rs] is the byte content after dumping the
    records one after another; [scan_biff only b] is the list of records the
    streaming scanner yields ([None] = does not terminate, never happens);
    [nb_scan_biff fuel bsz only b] is the block-buffered scanner after at most
    [fuel] reads of [bsz] bytes. *)
From Verif Require Import Py PyFacts Biff BiffSpec BiffProofs BiffNumba BiffAny BiffEnum BiffEnumProofs.
Set Implicit Arguments.
Unset Strict Implicit.

(** C01 *)
Theorem C01_biff_round_trip : forall rs, forallb rec_ok rs = true ->
  exists b, dump_all rs = Ok b /\ scan_biff None b = Some rs.
Proof. exact biff_round_trip. Qed.
Print Assumptions C01_biff_round_trip.

(** Framing does not depend on what follows. *)
Theorem C01_biff_resynchronises : forall rs b rest, forallb rec_ok rs = true -> dump_all rs = Ok b ->
  scan_biff None (b ++ rest) =
    match scan_biff None rest with None => None | Some l => Some (rs ++ l) end.
Proof. exact biff_resync. Qed.
Print Assumptions C01_biff_resynchronises.

(** Byte layout of one record: id bytes, size prefix, payload. *)
Theorem C01_record_layout : forall r b, rec_ok r = true -> as_binary r = Ok b ->
  exists z, b = id_bytes (rec_id r) ++ z ++ rec_data r
    /\ base128 z = zlen (rec_data r) /\ continued 0 z = true
    /\ List.length z = groups (zlen (rec_data r)).
Proof. exact as_binary_layout. Qed.
Print Assumptions C01_record_layout.

(** C02 *)
Theorem C02_biff_filtered_scan : forall rs i ids, forallb rec_ok rs = true ->
  exists b, dump_all rs = Ok b /\ scan_biff (Some (i :: ids)) b = Some (only_ids (i :: ids) rs).
Proof. exact biff_filtered. Qed.
Print Assumptions C02_biff_filtered_scan.

(** C03: no filter / a non-empty filter. *)
Theorem C03_biff_truncated : forall rs b k, forallb rec_ok rs = true -> dump_all rs = Ok b ->
  scan_biff None (firstn k b) = Some (fitting (Z.of_nat k) rs).
Proof. exact biff_truncated_all. Qed.
Print Assumptions C03_biff_truncated.

Theorem C03_biff_truncated_filtered : forall rs b k i ids,
  forallb rec_ok rs = true -> dump_all rs = Ok b ->
  scan_biff (Some (i :: ids)) (firstn k b) = Some (only_ids (i :: ids) (fitting (Z.of_nat k) rs)).
Proof. exact biff_truncated_filtered. Qed.
Print Assumptions C03_biff_truncated_filtered.

(** The scanner terminates without an exception on every byte string whatsoever. *)
Theorem C03_scan_total : forall only b, exists rs, scan_biff only b = Some rs.
Proof. exact scan_biff_total. Qed.
Print Assumptions C03_scan_total.

(** On any bytes whatsoever: they are, in one way, records standing one after another and a rest at
    whose beginning no record stands; the scanner yields exactly those records. *)
Theorem C03_arbitrary : forall b, bytes_ok b = true ->
  (exists rs b1 t, framed rs b1 /\ b = b1 ++ t /\ no_frame t)
  /\ forall rs b1 t, framed rs b1 -> b = b1 ++ t -> no_frame t ->
       scan_biff None b = Some rs /\ forall i ids, scan_biff (Some (i :: ids)) b = Some (only_ids (i :: ids) rs).
Proof. exact scanned_bytes. Qed.
Print Assumptions C03_arbitrary.
(* a size in two bytes where one would do, an unfinished header after it *)
Example C03_arbitrary_example :
  framed [mkRec 1 [7; 8]] [1; 130; 0; 7; 8] /\ no_frame [0x81; 0x01; 0x80]
  /\ scan_biff None [1; 130; 0; 7; 8; 0x81; 0x01; 0x80] = Some [mkRec 1 [7; 8]].
Proof.
  split; [|split].
  - rewrite <- (app_nil_r [1; 130; 0; 7; 8]). constructor; [|constructor].
    apply (@Frame (mkRec 1 [7; 8]) [130; 0]); try reflexivity. cbn. auto.
  - intros r b q F E. destruct (hdr_of_frame q F) as (H & _). rewrite <- E in H. discriminate H.
  - reflexivity.
Qed.

(** C04 *)
Theorem C04_size_prefix : forall i l, dump_sz i = Ok l ->
  base128 l = i /\ continued 0 l = true /\ List.length l = groups i /\ bytes_ok l = true
  /\ forall rest, scan_sz (l ++ rest) = Ok (i, rest).
Proof. exact size_prefix. Qed.
Print Assumptions C04_size_prefix.

Theorem C04_size_prefix_domain : forall i,
  (exists l, dump_sz i = Ok l) <-> 0 <= i < 2 ^ 29.
Proof. exact size_prefix_domain. Qed.
Print Assumptions C04_size_prefix_domain.

Theorem C04_size_prefix_error : forall i, i < 0 \/ 2 ^ 29 <= i -> dump_sz i = Err StructError.
Proof. exact dump_sz_err. Qed.
Print Assumptions C04_size_prefix_error.

(** C05, positive part: complete streams, ids below 0x8000, any block size and
    any non-empty filter. Missing: truncated streams, ids >= 0x8000, empty filter
    (all three are refuted below). *)
Theorem C05_scanners_agree_partial : forall rs b bsz i ids fuel,
  forallb nb_ok rs = true -> dump_all rs = Ok b -> (0 < bsz)%nat -> (List.length b + 2 <= fuel)%nat ->
  nb_scan_biff fuel bsz (Some (i :: ids)) b = scan_biff (Some (i :: ids)) b
  /\ nb_scan_biff fuel bsz None b = scan_biff None b.
Proof. exact scanners_agree. Qed.
Print Assumptions C05_scanners_agree_partial.

(** The block-buffered scanner never terminates on a stream cut inside a record. *)
Theorem C05_truncated_never_ends_refuted : forall rs b r br k bsz only,
  forallb nb_ok rs = true -> dump_all rs = Ok b ->
  rec_ok r = true -> as_binary r = Ok br -> (0 < k < List.length br)%nat -> (0 < bsz)%nat ->
  (forall fuel, nb_scan_biff fuel bsz only (b ++ firstn k br) = None)
  /\ exists l, scan_biff only (b ++ firstn k br) = Some l.
Proof. exact truncated_never_ends. Qed.
Print Assumptions C05_truncated_never_ends_refuted.

Theorem C05_high_ids_refuted : exists r b, rec_ok r = true /\ dump_all [r] = Ok b
  /\ scan_biff None b = Some [r]
  /\ forall bsz fuel, (List.length b <= bsz)%nat -> nb_scan_biff fuel bsz None b <> Some [r].
Proof. exact high_ids_refuted. Qed.
Print Assumptions C05_high_ids_refuted.

Theorem C05_empty_filter_refuted : exists r b, nb_ok r = true /\ dump_all [r] = Ok b
  /\ scan_biff (Some []) b = Some [r]
  /\ forall bsz fuel, (0 < bsz)%nat -> nb_scan_biff fuel bsz (Some []) b <> Some [r].
Proof. exact empty_filter_refuted. Qed.
Print Assumptions C05_empty_filter_refuted.

(** On any bytes whose records have ids below 2^15, with a filter other than the empty one: the
    two scanners yield the same when the bytes are records to the end, and the block-buffered one
    never ends otherwise. *)
Theorem C05_arbitrary_partial : forall rs b1 t bsz only, framed rs b1 -> bytes_ok t = true -> no_frame t ->
  forallb (fun r => rec_id r <? 2 ^ 15) rs = true -> (0 < bsz)%nat -> only <> Some [] ->
  (t = [] -> forall fuel, (List.length b1 + 2 <= fuel)%nat -> nb_scan_biff fuel bsz only b1 = scan_biff only b1 /\ exists l, scan_biff only b1 = Some l)
  /\ (t <> [] -> (forall fuel, nb_scan_biff fuel bsz only (b1 ++ t) = None) /\ exists l, scan_biff only (b1 ++ t) = Some l).
Proof. exact scanners_on_bytes. Qed.
Print Assumptions C05_arbitrary_partial.
Example C05_arbitrary_example :
  nb_scan_biff 7 2 None [1; 130; 0; 7; 8] = Some [mkRec 1 [7; 8]]
  /\ nb_scan_biff 100 2 None [1; 130; 0; 7; 8; 0x81; 0x01; 0x80] = None.
Proof. split; reflexivity. Qed.

(** C06 *)
Theorem C06_named_records : forall name id parts,
  In (name, id) biff_enum -> bytes_ok (List.concat parts) = true -> zlen (List.concat parts) < 2 ^ 29 ->
  exists r b, from_data_name name parts = Ok r /\ rec_id r = id /\ rec_data r = List.concat parts
    /\ rec_name r = name /\ dump_all [r] = Ok b /\ scan_biff None b = Some [r].
Proof. exact named_record_round_trip. Qed.
Print Assumptions C06_named_records.

(** Any other name is a KeyError, and nothing else is raised. *)
Theorem C06_unknown_name : forall name parts e,
  from_data_name name parts = Err e <-> e = KeyError /\ forall id, ~ In (name, id) biff_enum.
Proof.
  intros name parts e. split.
  - intro H. split; [|intros id I; destruct (@named_record name id parts I) as [R _]; congruence].
    unfold from_data_name in H. destruct (dget str_eqb biff_enum name); congruence.
  - intros [-> N]. unfold from_data_name. destruct (dget str_eqb biff_enum name) as [i|] eqn:G; [|reflexivity]. exfalso. apply (N i).
    revert G. generalize biff_enum. induction l as [|[k v] l IH]; cbn [dget]; [discriminate|]. destruct (str_eqb name k) eqn:E.
    + intros [= ->]. apply str_eqb_eq in E as ->. now left.
    + intro G. right. now apply IH.
Qed.
Print Assumptions C06_unknown_name.
Example C06_unknown_example : from_data_name (s "BrtNothing") [] = Err KeyError.
Proof. vm_compute. reflexivity. Qed.

Theorem C06_table_size : List.length biff_enum = 845%nat.
Proof. exact biff_enum_size. Qed.
Print Assumptions C06_table_size.

(** C07 *)
Theorem C07_repr_number : forall n d, 0 <= n < 2 ^ 14 -> repr_number (mkRec (disk_id n) d) = n.
Proof. exact repr_number_disk. Qed.
Print Assumptions C07_repr_number.

(** Examples: the hypotheses are satisfiable. *)
Example C01_example :
  let rs := [mkRec 0 [1; 2; 3]; mkRec 0x1AA []; mkRec 7 (repeat 255 200)] in
  forallb rec_ok rs = true /\ exists b, dump_all rs = Ok b /\ List.length b = 211%nat.
Proof. split; [reflexivity|]. eexists. split; reflexivity. Qed.
Example C02_example :
  let rs := [mkRec 0 [1; 2; 3]; mkRec 0x1AA []; mkRec 7 (repeat 255 200)] in
  only_ids [7; 0x1AA] rs = [mkRec 0x1AA []; mkRec 7 (repeat 255 200)].
Proof. reflexivity. Qed.
Example C03_example :
  fitting 8 [mkRec 0 [1; 2; 3]; mkRec 0x1AA []; mkRec 7 [5]] = [mkRec 0 [1; 2; 3]; mkRec 0x1AA []]
  /\ fitting 7 [mkRec 0 [1; 2; 3]; mkRec 0x1AA []; mkRec 7 [5]] = [mkRec 0 [1; 2; 3]].
Proof. split; reflexivity. Qed.
Example C04_example : dump_sz 300 = Ok [172; 2] /\ dump_sz (2 ^ 28) = Ok [128; 128; 128; 128].
Proof. split; reflexivity. Qed.
Example C05_example : forallb nb_ok [mkRec 0 [1; 2; 3]; mkRec 0x1AA []; mkRec 7 (repeat 255 200)] = true.
Proof. reflexivity. Qed.
Example C06_example : In (s "BrtBundleSh", 412) biff_enum.
Proof. apply nth_error_In with (n := 87%nat). vm_compute. reflexivity. Qed.
Example C07_example : disk_id 156 = 412 /\ repr_number (mkRec 412 []) = 156.
Proof. split; reflexivity. Qed.
