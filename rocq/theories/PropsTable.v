(** Claims C90-C92: what reading a sheet returns or raises, without restriction on mode and
    options.  [expected_table] computes it from the cells (TableSpec.v). *)
From Coq Require Import Sorted ZifyBool ZifyNat.
From Verif Require Import Py PyFacts PyText Cell Casts Chunk ChunkSpec ReadSpec Utf8 Series SeriesSpec Reader ReaderSpec ReaderProofs ReaderSteps ReaderRead
  PropsChunk SeriesProofs PropsSeries PropsReader TableSpec TableProofs TableSteps TableRead TableFresh TableErrors.
Set Implicit Arguments. Unset Strict Implicit.

(** ** C90: a sheet read is a function of the cells *)
Theorem C90_complete ro sc op outs ks n : readable ro sc (Cell.cells_of outs) = true -> listing (Cell.cells_of outs) ks -> tallest (Cell.cells_of outs) ks n ->
  (forall h, r_header op = HInt h -> 0 <= h) -> (r_lookup op <> None -> r_size op <> 0) ->
  read_trace ro sc op (outs, None) = expected_table ro sc (Cell.cells_of outs) op ks n.
Proof. exact (@read_table ro sc op outs ks n). Qed.
Print Assumptions C90_complete.
(** Without a cell: ValueError.  If the iteration fails: its exception. *)
Theorem C90_empty ro sc op outs : Cell.cells_of outs = [] -> read_trace ro sc op (outs, None) = Err ValueError.
Proof.
  intro E. unfold read_trace. cbn [fst snd]. assert (C : collect ro sc [] outs = Ok []).
  { induction outs as [|[c|] outs IH]; [reflexivity|discriminate|exact (IH E)]. }
  now rewrite C.
Qed.
Print Assumptions C90_empty.
Theorem C90_failed ro sc op outs e : readable ro sc (Cell.cells_of outs) = true -> read_trace ro sc op (outs, Some e) = Err e.
Proof.
  intro S. assert (C0 : TC ro sc [] []) by (split; [reflexivity|easy]). unfold read_trace. cbn [fst snd]. destruct (collect_tc C0 S) as (d & -> & _). reflexivity.
Qed.
Print Assumptions C90_failed.

Definition ex_numeric := mkSC ex_table true mode_numeric.
Definition ex_temporal := mkSC ex_table true mode_temporal.
Definition shared (r c i : Z) : out := OCell (mkCell r c 0x11 (VBytes [i; 0; 0; 0])).
Definition serial (r c n : Z) : out := OCell (mkCell r c 0x25 (VBytes [4 * n + 2; 0; 0; 0])).
(** Column 0 has a header, a text that is a number, a gap and a number; column 2 starts lower. *)
Definition ex_mixed : list out :=
  [words 0 0 (s "a"); words 1 0 (s "007"); rk 3 0 5; words 1 2 (s "x"); OCall; rk 3 2 9; words 4 2 (s "7")].
Example C90_example :
  readable ex_ro ex_numeric (Cell.cells_of ex_mixed) = true /\ listing (Cell.cells_of ex_mixed) [0; 2] /\ tallest (Cell.cells_of ex_mixed) [0; 2] 4 /\
  show_table (read_trace ex_ro ex_numeric opts1 (ex_mixed, None)) =
    Ok [(s "a", (9, None, [Some (inr 7); None; Some (inr 5)])); (s "Unnamed", (34, None, [Some (inl (s "x")); None; Some (inl (s "9"))]))] /\
  show_table (expected_table ex_ro ex_numeric (Cell.cells_of ex_mixed) opts1 [0; 2] 4) =
    Ok [(s "a", (9, None, [Some (inr 7); None; Some (inr 5)])); (s "Unnamed", (34, None, [Some (inl (s "x")); None; Some (inl (s "9"))]))].
Proof.
  split; [vm_compute; reflexivity|]. split; [|split; [|split; vm_compute; reflexivity]].
  - split; [repeat constructor|]. intro k. cbn. split.
    + intros [<-|[<-|[]]]; eexists; split; [now left|reflexivity|now right; right; right; left|reflexivity].
    + intros (c & [<-|[<-|[<-|[<-|[<-|[<-|[]]]]]]] & <-); cbn; tauto.
  - split; [exists 0; split; [now left|reflexivity]|]. intros k [<-|[<-|[]]]; vm_compute; discriminate.
Qed.

(** ** C91: a sheet read has no memory *)
(** Full claim: without the two exceptions.  The lookup, the header and the filters read the
    columns before the final read does.  The result is as if each read were the first, if no
    dates are converted; *)
Theorem C91_partial ro sc op outs ks n : readable ro sc (Cell.cells_of outs) = true -> listing (Cell.cells_of outs) ks -> tallest (Cell.cells_of outs) ks n ->
  (forall h, r_header op = HInt h -> 0 <= h) -> (r_lookup op <> None -> r_size op <> 0) ->
  cf_datetime (sc_conf sc) = false ->
  read_trace ro sc op (outs, None) = fresh_table ro sc (Cell.cells_of outs) op ks n.
Proof.
  intros S Ls T Hh Hs D. rewrite (C90_complete S Ls T Hh Hs). destruct (table_fresh ro sc (Cell.cells_of outs) op ks n) as [[D' _]|E]; [congruence|exact E].
Qed.
Print Assumptions C91_partial.
(** and also otherwise, unless one of those reads would raise ArrowNotImplementedError. *)
Theorem C91_dates_partial ro sc op outs ks n : readable ro sc (Cell.cells_of outs) = true -> listing (Cell.cells_of outs) ks -> tallest (Cell.cells_of outs) ks n ->
  (forall h, r_header op = HInt h -> 0 <= h) -> (r_lookup op <> None -> r_size op <> 0) ->
  fresh_table ro sc (Cell.cells_of outs) op ks n <> Err ArrowNotImplemented ->
  read_trace ro sc op (outs, None) = fresh_table ro sc (Cell.cells_of outs) op ks n.
Proof.
  intros S Ls T Hh Hs D. rewrite (C90_complete S Ls T Hh Hs). destruct (table_fresh ro sc (Cell.cells_of outs) op ks n) as [[_ D']|E]; [congruence|exact E].
Qed.
Print Assumptions C91_dates_partial.
(** Two shared strings above a date: the lookup over two rows makes the read succeed. *)
Definition ex_memory : list out := [shared 0 0 0; shared 1 0 1; serial 2 0 9].
Definition opts_lookup : ropts := mkR (HInt 1) DTNone 0 (Some (LCol 0)) 2 FNone SOr.
Theorem C91_refuted :
  readable ex_ro ex_temporal (Cell.cells_of ex_memory) = true /\
  (exists tbl, show_table (read_trace ex_ro ex_temporal opts_lookup (ex_memory, None)) = Ok tbl) /\
  show_table (fresh_table ex_ro ex_temporal (Cell.cells_of ex_memory) opts_lookup [0] 3) = Err ArrowNotImplemented /\
  show_table (read_trace ex_ro ex_temporal opts1 (ex_memory, None)) = Err ArrowNotImplemented.
Proof. repeat (apply conj); [|eexists| |]; vm_compute; reflexivity. Qed.
Print Assumptions C91_refuted.

(** ** C92: exceptions of a sheet read *)
(** Every exception has one of the causes listed in [cause]; no other type is raised. *)
Theorem C92_raises ro sc op outs ks n e : readable ro sc (Cell.cells_of outs) = true -> listing (Cell.cells_of outs) ks -> tallest (Cell.cells_of outs) ks n ->
  (forall h, r_header op = HInt h -> 0 <= h) -> (r_lookup op <> None -> r_size op <> 0) ->
  read_trace ro sc op (outs, None) = Err e -> cause ro sc (Cell.cells_of outs) op ks n e.
Proof. intros S Ls T Hh Hs. rewrite (C90_complete S Ls T Hh Hs). now apply table_errors. Qed.
Print Assumptions C92_raises.
(** Hence the read returns in every mode without lookup, filters and types, if rows are left and
    no column mixes dates with shared strings. *)
Theorem C92_returns ro sc op outs ks n h : readable ro sc (Cell.cells_of outs) = true -> listing (Cell.cells_of outs) ks -> tallest (Cell.cells_of outs) ks n ->
  r_lookup op = None -> r_header op = HInt h -> r_filters op = FNone -> r_dtypes op = DTNone -> 0 <= h -> h + r_skip_after op < n ->
  (cf_datetime (sc_conf sc) = true -> forall k, In k ks -> some_kind KTemp (List.concat (sheet_runs ro sc (Cell.cells_of outs) k)) = true ->
    some_raw (List.concat (sheet_runs ro sc (Cell.cells_of outs) k)) = false) ->
  exists tbl, read_trace ro sc op (outs, None) = Ok tbl.
Proof.
  intros S Ls T L H F D Hh Hn M. destruct (read_trace ro sc op (outs, None)) as [tbl|e] eqn:R; [now exists tbl|exfalso].
  apply (C92_raises S Ls T) in R; [|congruence|congruence].
  assert (Nl : nothing_left ro sc (Cell.cells_of outs) op ks n -> False).
  { intros (top & h1 & height & names & h2 & A & B & Q). unfold top_row in A. rewrite L in A. injection A as <- <-. unfold heading in B. rewrite H in B.
    destruct (h =? 0) eqn:Z0; [injection B as <- _ _; lia|]. destruct (mapM _ ks); [|discriminate]. injection B as <- _ _. lia. }
  destruct e; cbn [cause] in R; try contradiction.
  - destruct R as (k & R & _). congruence.
  - destruct R as [R|[(g & R & _)|[R|[R|R]]]]; congruence || tauto.
  - destruct R as (_ & R). congruence.
  - destruct R as [(t & R & _)|R]; [congruence|tauto].
  - destruct R as (Dt & k & K & R1 & R2). rewrite (M Dt k K R1) in R2. discriminate.
  - destruct R as (t & R & _). rewrite F in R. easy.
Qed.
Print Assumptions C92_returns.
Example C92_example :
  show_table (read_trace ex_ro ex_numeric (mkR (HInt 1) DTNone 0 (Some (LCol 7)) 5 FNone SOr) (ex_mixed, None)) = Err KeyError /\
  show_table (read_trace ex_ro ex_numeric (mkR (HInt 1) DTNone 0 None 5 (FInts [0; 1]) SBad) (ex_mixed, None)) = Err TypeError /\
  show_table (read_trace ex_ro ex_numeric (mkR (HList [s "a"]) DTNone 0 None 5 FNone SOr) (ex_mixed, None)) = Err ValueError /\
  show_table (read_trace ex_ro ex_numeric (mkR (HInt 9) DTNone 0 None 5 FNone SOr) (ex_mixed, None)) = Err ValueError /\
  exists tbl, show_table (read_trace ex_ro ex_numeric opts1 (ex_mixed, None)) = Ok tbl.
Proof. repeat (apply conj); [| | | |eexists]; vm_compute; reflexivity. Qed.
