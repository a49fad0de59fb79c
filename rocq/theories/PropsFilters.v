(** C58 where texts are converted to numbers: the filters look at the converted values, so an
    empty cell can count as filled and a filled cell as empty. *)
From Coq Require Import Sorted.
From Verif Require Import Py PyFacts PyText Cell Casts Chunk ChunkSpec ReadSpec Series SeriesSpec PropsChunk PropsSeries Reader ReaderSpec ReaderSteps PropsReader PropsReader2 PropsTable.
From Flocq Require Import IEEE754.Binary IEEE754.Bits.
Set Implicit Arguments. Unset Strict Implicit.

(** Column a holds 1, then two shared strings; column b is filled. *)
Definition ex_column_a : list out :=
  [words 0 0 (s "a"); words 0 1 (s "b"); rk 1 0 1; shared 2 0 0; shared 3 0 1; rk 1 1 5; rk 2 1 6; rk 3 1 8].
Lemma ex_column_a_listing : listing (Cell.cells_of ex_column_a) [0; 1].
Proof.
  split; [repeat constructor|]. intro k. cbn [In]. split.
  - intros [<-|[<-|[]]]; eexists; split; [now left|reflexivity|now right; left|reflexivity].
  - intros (c & H & <-). cbn in H. repeat (destruct H as [<-|H]; [cbn; auto|]). destruct H.
Qed.
Definition ex_filter := with_filters (FInts [0]) SOr.

(** The second shared string is empty.  Its row is kept although the filter column is empty
    there, with a number made out of nothing; without conversion it is dropped. *)
Theorem C58_blank_kept_refuted : let l := Cell.cells_of ex_column_a in let sc m := mkSC [Some (s "7"); None] true m in
  sheet_ok (ro_o ex_ro) (sc mode_numeric) l = true /\ listing l [0; 1] /\ sizes_ok ex_filter /\
  rows_kept (ro_o ex_ro) (sc mode_numeric) SOr l [0] 1 3 = [0; 1]%nat /\
  show_table (read_trace ex_ro (sc mode_no) ex_filter (ex_column_a, None)) =
    Ok [(s "a", (34, None, [Some (inl (s "1")); Some (inl (s "7"))])); (s "b", (9, None, [Some (inr 5); Some (inr 6)]))] /\
  show_table (read_trace ex_ro (sc mode_numeric) ex_filter (ex_column_a, None)) =
    Ok [(s "a", (9, None, [Some (inr 1); Some (inr 7); Some (inr 0)])); (s "b", (9, None, [Some (inr 5); Some (inr 6); Some (inr 8)]))].
Proof.
  cbv zeta. split; [vm_compute; reflexivity|]. split; [exact ex_column_a_listing|]. split; [unfold sizes_ok; cbn; repeat split; try easy; intros n [= <-]; lia|].
  split; [vm_compute; reflexivity|]. split; vm_compute; reflexivity.
Qed.
Print Assumptions C58_blank_kept_refuted.

(** Arrow parses the text nan as a number. *)
Definition ex_o_nan : oracle :=
  mkO ex_float (fun t => if str_eqb t (s "nan") then Some (b64_of_bits 0x7FF8000000000000) else ex_parse_f t)
      (o_show_f ex_o2) (o_show_t ex_o2) (o_show_i ex_o2) (o_strptime ex_o2) (o_polars ex_o2) (o_junk ex_o2) (o_null_f ex_o2) (o_oob ex_o2).
Definition ex_ro_nan : roracle :=
  @mkRO ex_o_nan aval (fun t => Some (ex_contains t)) (fun t => Some (ex_contains t)) (fun a d => negb (u_id d =? 99)) (fun _ v => Some v).
Definition show_col_nan (c : tcol ex_ro_nan) : Z * list (option (str + Z)) :=
  match c with
  | Plain _ a => (type_id (a_type a), map (option_map show_aval) (a_vals a))
  | Cast d l => (u_id d, map (option_map show_aval) l)
  end.
Definition show_nan (r : res (table ex_ro_nan)) : res (list (str * (Z * list (option (str + Z))))) :=
  t <- r ;; Ok (map (fun p => (fst p, show_col_nan (snd p))) t).
(** A row with the text nan in the filter column and 8 beside it is lost; every filter cell is
    filled, and no cell of the sheet is a NaN. *)
Theorem C58_nan_dropped_refuted : let l := Cell.cells_of ex_column_a in let sc m := mkSC [Some (s "7"); Some (s "nan")] true m in
  sheet_ok (ro_o ex_ro_nan) (sc mode_numeric) l = true /\ listing l [0; 1] /\ sizes_ok ex_filter /\
  no_nan (ro_o ex_ro_nan) (sc mode_numeric) l /\
  rows_kept (ro_o ex_ro_nan) (sc mode_numeric) SOr l [0] 1 3 = [0; 1; 2]%nat /\
  show_nan (read_trace ex_ro_nan (sc mode_no) ex_filter (ex_column_a, None)) =
    Ok [(s "a", (34, [Some (inl (s "1")); Some (inl (s "7")); Some (inl (s "nan"))])); (s "b", (9, [Some (inr 5); Some (inr 6); Some (inr 8)]))] /\
  show_nan (read_trace ex_ro_nan (sc mode_numeric) ex_filter (ex_column_a, None)) =
    Ok [(s "a", (9, [Some (inr 1); Some (inr 7)])); (s "b", (9, [Some (inr 5); Some (inr 6)]))].
Proof.
  cbv zeta. split; [vm_compute; reflexivity|]. split; [exact ex_column_a_listing|]. split; [unfold sizes_ok; cbn; repeat split; try easy; intros n [= <-]; lia|].
  split.
  - set (o := ro_o ex_ro_nan). set (sc := mkSC _ _ _). intros c x Hc E.
    assert (F : forallb (fun c => match t_val (tag_of o sc c) with CNum x => negb (is_nan 53 1024 x) | _ => true end) (Cell.cells_of ex_column_a) = true) by (vm_compute; reflexivity).
    apply (proj1 (forallb_forall _ _) F) in Hc. rewrite E in Hc. now destruct (is_nan 53 1024 x).
  - split; [vm_compute; reflexivity|]. split; vm_compute; reflexivity.
Qed.
Print Assumptions C58_nan_dropped_refuted.
