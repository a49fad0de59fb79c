(** C99: sheets that show the same cells give the same table.  C100: the same workbook saved as
    .xlsb and as .xlsx. *)
From Coq Require Import Sorted ZifyBool ZifyNat.
From Flocq Require Import IEEE754.Bits.
From Verif Require Import Py PyFacts PyText Biff BiffSpec BiffRecs Utf16 Utf16Spec NumFmt NumFmtSpec Cell Xlsb Xlsx XlsbSpec XlsbProofs XlsbParts PropsXlsb
  XlsxSpec XlsxProofs XlsxParts XlsxNorm PropsXlsx Sheets SheetsSpec SheetsProofs PropsSheets Casts Chunk ChunkSpec Utf8 Series SeriesSpec
  ReadSpec PropsChunk PropsSeries Reader ReaderSpec ReaderProofs ReaderSteps ReaderRead ReaderMore PropsReader Workbook WorkbookSpec WorkbookProofs PropsWorkbook PlacesSpec PlacesProofs
  PropsOptions TableSpec TableSteps TableErrors PropsTable PropsCauses SameSpec SameProofs RkProofs.
Set Implicit Arguments. Unset Strict Implicit.

(** ** C99 *)
(** Full claim: how a sheet stores its cells does not matter - sheets that show the same cells at
    the same places give the same table or error.  Proved for sheets without columns in which
    conversions are attempted, when the header leaves a row: *)
Theorem C99_unmixed_partial ro sc sc' op outs outs' ks n :
  let l := Cell.cells_of outs in let l' := Cell.cells_of outs' in let o := ro_o ro in
  sc_conf sc = sc_conf sc' -> sheet_ok o sc l = true -> sheet_ok o sc' l' = true -> readable ro sc l = true -> readable ro sc' l' = true ->
  (forall k, Forall2 (same_cell o sc sc') (content l k) (content l' k)) ->
  (forall t, r_lookup op = Some (LText t) -> order l = order l') ->
  (forall k, unmixed (sc_conf sc) (map (tag_of o sc) (content l k)) = true) ->
  listing l ks -> tallest l ks n -> (forall h, r_header op = HInt h -> 0 <= h) -> (r_lookup op <> None -> 0 < r_size op) -> ~ nothing_left ro sc l op ks n ->
  read_trace ro sc op (outs, None) = read_trace ro sc' op (outs', None).
Proof.
  intros l l' o Ecf S1 S2 R1 R2 Sm Eo U L T Hh Hs NL.
  rewrite (@C90_complete ro sc op outs ks n R1 L T Hh) by (intro X; specialize (Hs X); lia).
  rewrite (@C90_complete ro sc' op outs' ks n R2 (listing_same S1 S2 Sm L) (tallest_same Sm T) Hh) by (intro X; specialize (Hs X); lia).
  exact (table_same Ecf S1 S2 Sm U Hh Hs Eo NL).
Qed.
Print Assumptions C99_unmixed_partial.
(** ... and, conversions of numbers included, if also the same cells follow each other with equal
    types (a run of equally stored cells is converted as one). *)
Theorem C99_runs_partial ro sc sc' op outs outs' ks n :
  let l := Cell.cells_of outs in let l' := Cell.cells_of outs' in let o := ro_o ro in
  sc_conf sc = sc_conf sc' -> cf_datetime (sc_conf sc) = false -> sheet_ok o sc l = true -> sheet_ok o sc' l' = true -> readable ro sc l = true -> readable ro sc' l' = true ->
  (forall k, Forall2 (Forall2 (same_cell o sc sc')) (grouped (content l k)) (grouped (content l' k))) ->
  (forall t, r_lookup op = Some (LText t) -> order l = order l') ->
  listing l ks -> tallest l ks n -> (forall h, r_header op = HInt h -> 0 <= h) -> (r_lookup op <> None -> r_size op <> 0) ->
  read_trace ro sc op (outs, None) = read_trace ro sc' op (outs', None).
Proof.
  intros l l' o Ecf D S1 S2 R1 R2 Gr Eo L T Hh Hs. pose proof (groups_same Gr) as Sm.
  rewrite (@C90_complete ro sc op outs ks n R1 L T Hh Hs), (@C90_complete ro sc' op outs' ks n R2 (listing_same S1 S2 Sm L) (tallest_same Sm T) Hh Hs).
  exact (table_aligned Ecf D S1 S2 Gr ks n Eo).
Qed.
Print Assumptions C99_runs_partial.

(** Else not: with numbers recognised in texts, a text stored in the cell after a shared one is a
    run of its own and may be converted, here 007 to 7, ... *)
Definition ex_one : list out := [words 0 0 (s "007"); words 1 0 (s "a"); rk 2 0 5].
Definition ex_two : list out := [words 0 0 (s "007"); shared 1 0 0; rk 2 0 5].
Definition equal_sheets (o : oracle) (sc sc' : sconf) (l l' : list cell) : Prop :=
  sheet_ok o sc l = true /\ sheet_ok o sc' l' = true /\ order l = order l' /\ forall k, Forall2 (same_cell o sc sc') (content l k) (content l' k).
Lemma one_column o sc sc' l l' j : forallb (fun c => c_col c =? j) l = true -> forallb (fun c => c_col c =? j) l' = true ->
  Forall2 (same_cell o sc sc') (content l j) (content l' j) -> forall k, Forall2 (same_cell o sc sc') (content l k) (content l' k).
Proof.
  intros A B H k. destruct (Z.eq_dec k j) as [->|N]; [exact H|].
  assert (G : forall m, forallb (fun c => c_col c =? j) m = true -> content m k = []).
  { intros m Hm. unfold content. assert (E : column_cells m k = []); [|now rewrite E]. unfold column_cells. induction m as [|c m IH]; [reflexivity|]. cbn [forallb filter] in *.
    apply andb_prop in Hm. destruct Hm as [H1 H2]. replace (c_col c =? k) with false by lia. now apply IH. }
  rewrite (G l A), (G l' B). constructor.
Qed.
Theorem C99_mixed_refuted :
  equal_sheets ex_o2 ex_numeric ex_numeric (Cell.cells_of ex_one) (Cell.cells_of ex_two) /\
  show_table (read_trace ex_ro ex_numeric opts0 (ex_one, None)) = Ok [(s "Unnamed. 0", (34, None, [Some (inl (s "007")); Some (inl (s "a")); Some (inl (s "5"))]))] /\
  show_table (read_trace ex_ro ex_numeric opts0 (ex_two, None)) = Ok [(s "Unnamed. 0", (34, None, [Some (inl (s "7")); Some (inl (s "a")); Some (inl (s "5"))]))].
Proof.
  split; [|split; vm_compute; reflexivity]. split; [vm_compute; reflexivity|]. split; [vm_compute; reflexivity|]. split; [reflexivity|].
  apply (@one_column _ _ _ _ _ 0); [reflexivity|reflexivity|]. repeat constructor.
Qed.
Print Assumptions C99_mixed_refuted.
(** ... and where the header leaves no row the table holds the rest of a run.  (Two rows of
    header, two skipped: the longest column has only four rows, rows 2 to 5.) *)
Definition ex_low (last : out) : list out := [words 2 0 (s "a"); words 3 0 (s "b"); words 4 0 (s "c"); last].
Definition opts_low : ropts := mkR (HInt 2) DTNone 2 None 30 FNone SOr.
Theorem C99_nothing_left_refuted :
  let l := ex_low (words 5 0 (s "a")) in let l' := ex_low (shared 5 0 0) in
  equal_sheets ex_o2 ex_binary ex_binary (Cell.cells_of l) (Cell.cells_of l') /\
  show_table (read_trace ex_ro ex_binary opts_low (l, None)) = Ok [(s "Unnamed", (34, None, [Some (inl (s "c")); Some (inl (s "a"))]))] /\
  show_table (read_trace ex_ro ex_binary opts_low (l', None)) = Ok [(s "Unnamed", (34, None, [Some (inl (s "c"))]))].
Proof.
  cbv zeta. split; [|split; vm_compute; reflexivity]. split; [vm_compute; reflexivity|]. split; [vm_compute; reflexivity|]. split; [reflexivity|].
  apply (@one_column _ _ _ _ _ 0); [reflexivity|reflexivity|]. repeat constructor.
Qed.
Print Assumptions C99_nothing_left_refuted.
(** The first sheets meet the hypotheses of [C99_unmixed_partial] when numbers are not recognised. *)
Example C99_example :
  let l := Cell.cells_of ex_one in
  equal_sheets ex_o2 ex_binary ex_binary l (Cell.cells_of ex_two) /\ readable ex_ro ex_binary l = true /\ readable ex_ro ex_binary (Cell.cells_of ex_two) = true /\
  (forall k, unmixed (sc_conf ex_binary) (map (tag_of ex_o2 ex_binary) (content l k)) = true) /\ listing l [0] /\ tallest l [0] 3 /\
  ~ nothing_left ex_ro ex_binary l opts0 [0] 3 /\
  show_table (read_trace ex_ro ex_binary opts0 (ex_two, None)) = Ok [(s "Unnamed. 0", (34, None, [Some (inl (s "007")); Some (inl (s "a")); Some (inl (s "5"))]))].
Proof.
  cbv zeta. split.
  { split; [vm_compute; reflexivity|]. split; [vm_compute; reflexivity|]. split; [reflexivity|]. apply (@one_column _ _ _ _ _ 0); [reflexivity|reflexivity|]. repeat constructor. }
  split; [vm_compute; reflexivity|]. split; [vm_compute; reflexivity|]. split.
  { intro k. unfold unmixed. change (cf_datetime (sc_conf ex_binary)) with false. change (cf_numerics (sc_conf ex_binary)) with false. reflexivity. }
  split. { split; [repeat constructor|]. intro k. split; [intros [<-|[]]; eexists; split; [left; reflexivity|reflexivity]|]. intros (c & Hc & <-). cbn in Hc. destruct Hc as [<-|[<-|[<-|[]]]]; now left. }
  split. { split; [exists 0; split; [now left|reflexivity]|]. intros k [<-|[]]. vm_compute. discriminate. }
  split; [|vm_compute; reflexivity]. intros (top & h & height & names & h' & E1 & E2 & H). cbn in E1. injection E1 as <- <-. cbn in E2. injection E2 as <- _ _. cbn in H. lia.
Qed.
(** Two sheets with the same runs: the texts stored as shared strings or in the cell. *)
Example C99_runs_example :
  let l := [shared 0 0 2; shared 1 0 0; rk 2 0 5] in let l' := [words 0 0 (s "007"); words 1 0 (s "a"); rk 2 0 5] in
  (forall k, Forall2 (Forall2 (same_cell ex_o2 ex_numeric ex_numeric)) (grouped (content (Cell.cells_of l) k)) (grouped (content (Cell.cells_of l') k))) /\
  show_table (read_trace ex_ro ex_numeric opts0 (l, None)) = show_table (read_trace ex_ro ex_numeric opts0 (l', None)).
Proof.
  cbv zeta. split; [|vm_compute; reflexivity]. intro k. destruct (Z.eq_dec k 0) as [->|N]; [repeat constructor|].
  unfold content.
  assert (E1 : column_cells (Cell.cells_of [shared 0 0 2; shared 1 0 0; rk 2 0 5]) k = []) by (unfold column_cells; cbn -[Z.eqb]; now replace (0 =? k) with false by lia).
  assert (E2 : column_cells (Cell.cells_of [words 0 0 (s "007"); words 1 0 (s "a"); rk 2 0 5]) k = []) by (unfold column_cells; cbn -[Z.eqb]; now replace (0 =? k) with false by lia).
  rewrite E1, E2. constructor.
Qed.

(** ** C100 *)
(** Full claim: a workbook saved as .xlsb and as .xlsx gives the same table or error under the same
    options.  Proved for files whose delivered rows show the same values (see C61 for where the
    delivered rows differ), under the conditions of C99. *)
Section Formats.
  Context (A B : Type) (f : Z -> A -> list cell) (g : Z -> B -> list cell) (ro : roracle) (sc sc' : sconf) (rows : list A) (rows' : list B) (P P' : Z -> Z -> tag) (ks : list Z) (n : Z).
  Local Notation o := (ro_o ro).
  Local Notation l := (laid f rows).
  Local Notation l' := (laid g rows').
  Context (Hf : forall i x c, In c (f i x) -> c_row c = i) (Hg : forall i x c, In c (g i x) -> c_row c = i)
    (S1 : sheet_ok o sc l = true) (S2 : sheet_ok o sc' l' = true)
    (HP : forall r k, 0 <= r -> at_row o sc (content l k) r = P r k) (HP' : forall r k, 0 <= r -> at_row o sc' (content l' k) r = P' r k)
    (Sm : same_places P P').
  Lemma places_same k : Forall2 (same_cell o sc sc') (content l k) (content l' k).
  Proof.
    apply (@content_places o sc sc' _ _ (-1)); [apply content_increasing|apply content_increasing|exact (content_good S1 k)|exact (content_good S2 k)|].
    intros r Hr. rewrite HP, HP' by lia. specialize (Sm k (r := r) ltac:(lia)). unfold looked_up. now injection Sm as -> ->.
  Qed.
  Lemma content_in_rows k c : In c (content l k) -> 0 <= c_row c < zlen rows /\ tag_of o sc c = P (c_row c) k.
  Proof.
    intro H. pose proof (content_cell H) as [H1 H2]. destruct (laid_in_row Hf H1) as (_ & _ & _ & Hr). split; [exact Hr|]. rewrite <- HP by lia. unfold at_row.
    pose proof (content_increasing l k) as I. assert (E : find (fun d => c_row d =? c_row c) (content l k) = Some c); [|now rewrite E].
    clear -H I. revert H I. generalize (-1). induction (content l k) as [|d m IH]; intros z H I; [easy|]. cbn [increasing] in I. apply andb_prop in I. destruct I as [_ I]. cbn [find].
    destruct H as [->|H]; [now rewrite Z.eqb_refl|]. pose proof (increasing_all I H). replace (c_row d =? c_row c) with false by lia. exact (IH _ H I).
  Qed.
  Lemma places_unmixed cf : unmixed_places cf P (zlen rows) -> forall k, unmixed cf (map (tag_of o sc) (content l k)) = true.
  Proof.
    intros U k. apply (unmixed_some (w := map (fun i => P (Z.of_nat i) k) (seq 0 (Z.to_nat (zlen rows))))); [|apply U]. intros x Hx. left. apply in_map_iff in Hx. destruct Hx as (c & <- & Hc).
    destruct (content_in_rows Hc) as [R ->]. apply in_map_iff. exists (Z.to_nat (c_row c)). split; [f_equal; lia|]. apply in_seq. lia.
  Qed.
End Formats.
Lemma binary_readable ro sc l : sc_binary sc = true -> sheet_ok (ro_o ro) sc l = true -> readable ro sc l = true.
Proof. intros B S. unfold readable, legible, textual. rewrite B. exact S. Qed.
Lemma written_readable ro sc l : sheet_ok (ro_o ro) sc l = true -> (forall c, In c l -> exists t, scalars t = true /\ c_val c = VBytes (utf8 t)) -> readable ro sc l = true.
Proof.
  intros S W. unfold readable. apply forallb_forall. intros c Hc. unfold sheet_ok in S. rewrite forallb_forall in S. specialize (S c Hc). destruct (W c Hc) as (t & Ht & Ev).
  unfold legible, written. rewrite Ev, (decode8_utf8 Ht). destruct (textual sc c); [lia|exact S].
Qed.
Theorem C100_formats_partial expat expat' ro z z' w w' op (* .xlsb *) sl yl rows tm (* .xlsx *) sl' yl' rows' num' tm' ks :
  let nv := xlsb_null (wo_nulls w) in let texts := sitem_texts sl in
  let rs := b_delivered texts nv (wo_cols w) (wo_tne w) (wo_skip w) (wo_take w) rows in
  let P := b_at (ro_o ro) (b_time yl tm) (cell_xfs yl) texts nv (wo_cols w) rs in
  let nv' := xlsx_null (wo_nulls w') in let tab := shared_table nv' sl' in
  let rs' := x_delivered nv' (wo_cols w') (wo_tne w') (wo_skip w') (wo_take w') rows' in
  let P' := x_at (ro_o ro) (x_class yl' num' tm') (z_xfs yl') tab nv' (wo_cols w') rs' in
  xlsb_file expat z (wo_sheet w) sl yl rows -> forallb (fun f => f <? 256) (cell_xfs yl) = true ->
  (forall i c, In (i, c) (custom_fmts yl) -> code_class c (tm c) /\ safe_length (n_units c) = true) ->
  0 <= wo_skip w -> 0 <= wo_take w -> starts_well texts nv (wo_cols w) (if wo_tne w then rows_from (wo_skip w) (wo_take w) rows else rows) ->
  xlsx_file expat' z' (wo_sheet w') sl' yl' rows' ->
  (forall i c, In (i, c) (z_fmts yl') -> code_class c (tm' c)
     /\ exists fs rest, existsb (Z.eqb ch_semi) fs = false /\ (c = fs \/ c = fs ++ ch_semi :: rest)
        /\ (num' c = true <-> fs = s "0" \/ exists a b, fs = a ++ s ".00" ++ b)) ->
  x_readable (ro_o ro) (x_class yl' num' tm') (z_xfs yl') tab nv' (wo_cols w') rs' -> 0 <= wo_skip w' -> 0 <= wo_take w' ->
  wo_conf w = wo_conf w' -> same_places P P' -> unmixed_places (wo_conf w) P (zlen rs) ->
  has_columns P (zlen rs) ks -> (forall t, longest P (zlen rs) ks t -> first_data op < t) ->
  (forall h, r_header op = HInt h -> 0 <= h) -> (r_lookup op <> None -> 0 < r_size op) ->
  (forall t, r_lookup op = Some (LText t) -> b_sorted rows /\ x_sorted rows') ->
  read_book expat ro z w op = read_book expat' ro z' w' op.
Proof.
  intros nv texts rs P nv' tab rs' P' F Ids Codes Sk Tk Sw F' Codes' Rd' Sk' Tk' Ecf Sm U K Left Hh Hs Srt.
  destruct (@b_window expat ro z w sl yl rows tm F Ids Codes Sk Tk Sw) as (f & outs & Hf & El & S1 & HP & So & Rb).
  destruct (@x_window expat' ro z' w' sl' yl' rows' num' tm' F' Codes' Rd' Sk' Tk') as (g & outs' & Hg & El' & S2 & HP' & So' & Tx & Rx).
  fold nv texts rs in El, S1, HP, Rb. fold nv' tab rs' in El', S2, HP', Tx, Rx. fold P in HP. fold P' in HP'.
  rewrite Rb, Rx. clear Rb Rx. set (sc := mkSC (map Some texts) true (wo_conf w)) in *. set (sc' := mkSC tab false (wo_conf w')) in *.
  pose proof (@places_same _ _ f g ro sc sc' rs rs' P P' Hf Hg S1 S2 HP HP' Sm) as Same.
  pose proof (@p_listing _ f Hf ro sc rs P ks S1 HP K) as L. pose proof (listing_same S1 S2 Same L) as L'.
  assert (Em : ks = [] -> laid f rs = [] /\ laid g rs' = []).
  { intros ->. split.
    - destruct (laid f rs) as [|c m] eqn:E; [reflexivity|]. exfalso. apply (proj2 (proj2 L (c_col c))). exists c. split; [now left|reflexivity].
    - destruct (laid g rs') as [|c m] eqn:E; [reflexivity|]. exfalso. apply (proj2 (proj2 L' (c_col c))). exists c. split; [now left|reflexivity]. }
  assert (Ne : ks <> [] -> laid f rs <> [] /\ laid g rs' <> []).
  { intro N. destruct ks as [|k q]; [congruence|]. destruct (proj1 (proj2 L k) (or_introl eq_refl)) as (c & Hc & _). destruct (proj1 (proj2 L' k) (or_introl eq_refl)) as (d & Hd & _).
    split; intro E; [rewrite E in Hc|rewrite E in Hd]; easy. }
  destruct ks as [|k0 q].
  { destruct (Em eq_refl) as [E E']. rewrite E, E'. rewrite !C90_empty; congruence. }
  destruct (Ne ltac:(discriminate)) as [N N']. destruct (tallest_exists (laid f rs) (ks := k0 :: q) ltac:(discriminate)) as (n & T).
  assert (Lf : first_data op < n) by (apply Left; exact (@p_longest _ f Hf ro sc rs P (k0 :: q) S1 HP K n T)).
  assert (Um : forall k, unmixed (sc_conf sc) (map (tag_of (ro_o ro) sc) (content (laid f rs) k)) = true) by (eapply places_unmixed; eassumption).
  assert (R1 : readable ro sc (laid f rs) = true) by (apply binary_readable; [reflexivity|exact S1]).
  assert (R2 : readable ro sc' (laid g rs') = true) by (apply written_readable; [exact S2|exact Tx]).
  assert (Eo : forall t, r_lookup op = Some (LText t) -> order (laid f rs) = order (laid g rs')).
  { intros t E. destruct (Srt t E) as [A B]. apply (order_same S1 S2 Same).
    - apply (laid_sorted Hf). intros i x Hx. apply So. apply A. now apply b_delivered_in in Hx.
    - apply (laid_sorted Hg). intros i x Hx. apply So'; [exact Hx|]. apply B. now apply x_delivered_in in Hx. }
  assert (NL : ~ nothing_left ro sc (laid f rs) op (k0 :: q) n).
  { intros (top & h & height & names & h' & E1 & E2 & Hn). pose proof (top_bound S1 Same Um Hh Hs E1) as B1. pose proof (heading_height Same Um Hh E2) as B2. unfold first_data in Lf.
    rewrite <- B2 in Lf. destruct (r_lookup op); lia. }
  transitivity (read_trace ro sc op (outs, None)); [destruct (laid f rs); congruence|]. transitivity (read_trace ro sc' op (outs', None)); [|destruct (laid g rs'); congruence].
  rewrite <- El in S1, Same, L, T, Um, NL, R1, Eo. rewrite <- El' in S2, Same, R2, Eo.
  exact (@C99_unmixed_partial ro sc sc' op outs outs' (k0 :: q) n Ecf S1 S2 R1 R2 Same Eo Um L T Hh Hs NL).
Qed.
Print Assumptions C100_formats_partial.
(** The sheet of [exx_rows] as .xlsb (see [exb_rows]); both files give one table. *)
Definition exc_rows : list brow :=
  [row_of 0 [bc 0 (BShared 0); bc 2 (BStr false (s "age"))]; row_of 1 [bc 0 (BStr false (s "x")); bc 2 (bk 1)]; row_of 2 [];
   row_of 3 [bc 0 (BShared 1); bc 2 (BRk [222; 172; 2; 0])]].
Lemma exc_file : xlsb_file exb_expat (exb_files exc_rows exb_sl) (SName (s "Data")) exb_sl exb_yl exc_rows.
Proof.
  constructor.
  - intros b H. in_cases; discriminate.
  - exists (s "xl/worksheets/sheet1.bin"), [(s "Data", s "xl/worksheets/sheet1.bin")], [mkRec 129 []], [], [mkRec 130 []], (dumped (sheet_records [mkRec 129 []] exc_rows [] [mkRec 130 []])).
    split; [apply exb_book|]. split; [now left|]. split; [reflexivity|]. repeat split; vm_compute; reflexivity.
  - eexists. split; [reflexivity|]. repeat split; vm_compute; try reflexivity. discriminate.
  - eexists. split; [reflexivity|]. repeat split; vm_compute; try reflexivity. discriminate.
  - intros r c Hr Hc. in_cases; (split; [exists 1%nat, 0; now split|]); cbn; intros i E; inversion E; subst; vm_compute; reflexivity.
Qed.
Lemma same_bits x y : bits_of_b64 x = bits_of_b64 y -> x = y.
Proof. intro H. rewrite <- (bits_inv x), <- (bits_inv y). now rewrite H. Qed.
Example C100_example :
  let w := win 0 0 true in let nv := xlsb_null NNone in let texts := sitem_texts exb_sl in
  let P := b_at ex_o2 (b_time exb_yl (fun _ => true)) (cell_xfs exb_yl) texts nv [] exc_rows in
  let nv' := xlsx_null NNone in let tab := shared_table nv' exx_sl in
  let P' := x_at ex_o2 (x_class exx_yl (str_eqb (s "0.00")) (fun _ => false)) (z_xfs exx_yl) tab nv' [] exx_rows in
  b_delivered texts nv [] true 0 0 exc_rows = exc_rows /\ x_delivered nv' [] true 0 0 exx_rows = exx_rows /\ starts_well texts nv [] exc_rows /\
  same_places P P' /\ unmixed_places plain_conf P 4 /\ has_columns P 4 [0; 2] /\ (forall t, longest P 4 [0; 2] t -> first_data opts1 < t) /\
  show_table (read_book exb_expat ex_ro (exb_files exc_rows exb_sl) w opts1) = show_table (read_book (exx_expat exx_rows) ex_ro exx_files w opts1) /\
  show_table (read_book exb_expat ex_ro (exb_files exc_rows exb_sl) w opts1) =
    Ok [(s "name", (34, None, [Some (inl (s "x")); None; Some (inl (s "z"))])); (s "age", (9, None, [Some (inr 1); None; Some (inr 43831)]))].
Proof.
  cbv zeta. split; [reflexivity|]. split; [reflexivity|]. split; [reflexivity|].
  set (P := b_at _ _ _ _ _ _ _). set (P' := x_at _ _ _ _ _ _ _).
  assert (Out : forall r k, 4 <= r -> P r k = tnull /\ P' r k = tnull).
  { intros r k Hr. unfold P, P', b_at, x_at. rewrite (proj2 (nth_error_None exc_rows (Z.to_nat r))) by (cbn; lia). rewrite (proj2 (nth_error_None exx_rows (Z.to_nat r))) by (cbn; lia). easy. }
  assert (Else : forall r k, k <> 0 -> k <> 2 -> 0 <= r -> P r k = tnull /\ P' r k = tnull).
  { intros r k K0 K2 Hr. destruct (Z_le_dec 4 r) as [L|L]; [now apply Out|]. unfold P, P', b_at, x_at. assert (D : r = 0 \/ r = 1 \/ r = 2 \/ r = 3) by lia.
    destruct D as [-> | [-> | [-> | ->]]]; [change (Z.to_nat 0) with 0%nat|change (Z.to_nat 1) with 1%nat|change (Z.to_nat 2) with 2%nat|change (Z.to_nat 3) with 3%nat];
      cbn [exc_rows exx_rows nth_error]; try easy; cbn [row_cells row_of item_cells xrow_cells snd map flat_map app find bc b_col xc x_col];
      replace (0 =? k) with false by lia; replace (2 =? k) with false by lia; easy. }
  split.
  { intros r k Hr. destruct (Z.eq_dec k 0) as [->|K0]; [|destruct (Z.eq_dec k 2) as [->|K2]; [|destruct (@Else r k K0 K2 Hr) as [-> ->]; reflexivity]];
      (destruct (Z_le_dec 4 r) as [L|L]; [destruct (Out r 0 L) as [E1 E1']; destruct (Out r 2 L) as [E2 E2']; rewrite ?E1, ?E1', ?E2, ?E2'; reflexivity|]); assert (D : r = 0 \/ r = 1 \/ r = 2 \/ r = 3) by lia;
      destruct D as [-> | [-> | [-> | ->]]]; lazymatch goal with |- context [P 1 2] => idtac | |- context [P 3 2] => idtac | _ => vm_compute; reflexivity end.
    - assert (E : rk_to_f8 6 = f8_of_Z 1) by (apply same_bits; vm_compute; reflexivity).
      transitivity (KNum, CNum (rk_to_f8 6)); [reflexivity|]. rewrite E. reflexivity.
    - assert (E : rk_to_f8 175326 = f8_of_Z 43831) by (apply same_bits; vm_compute; reflexivity). transitivity (KNum, CNum (rk_to_f8 175326)); [reflexivity|]. rewrite E. reflexivity. }
  split; [intro k; reflexivity|]. split.
  { split; [repeat constructor|]. intro k. split.
    - intros [<-|[<-|[]]]; exists 0; (split; [lia|apply not_null; vm_compute; reflexivity]).
    - intros (r & Hr & N). destruct (Z.eq_dec k 0) as [->|K0]; [now left|]. destruct (Z.eq_dec k 2) as [->|K2]; [now right; left|]. exfalso. apply N. now apply Else. }
  split.
  { intros t [_ H]. enough (3 - 0 + 1 <= t) by (cbn; lia). apply (H 0); [now left| |].
    - split; [lia|]. split; [apply not_null; vm_compute; reflexivity|]. intros r Hr. lia.
    - split; [lia|]. split; [apply not_null; vm_compute; reflexivity|]. intros r Hr. lia. }
  split; vm_compute; reflexivity.
Qed.
