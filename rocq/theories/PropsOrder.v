(** Claims C77-C79: what the table does not depend on. *)
From Coq Require Import Sorted.
From Verif Require Import Py PyFacts PyText Biff BiffSpec BiffRecs Utf16 Utf16Spec NumFmt NumFmtSpec Cell Xlsb Xlsx XlsbSpec XlsbProofs XlsbParts PropsXlsb
  XlsxSpec XlsxProofs XlsxParts XlsxNorm PropsXlsx Sheets SheetsSpec SheetsProofs PropsSheets Casts Chunk ChunkSpec Utf8 Series SeriesSpec
  Reader ReaderSpec ReaderProofs ReaderSteps ReaderRead ReaderMore PropsReader Workbook WorkbookSpec WorkbookProofs PropsWorkbook PlacesSpec PlacesProofs PropsOptions ReaderOrder.
From Coq Require Import ZifyBool ZifyNat.
Set Implicit Arguments. Unset Strict Implicit.

(** ** C77: the order of cells of different columns *)
(** The cells of every column are the same, in the same order ([same_cells]); for a text
    lookup the columns also appear in the same order. *)
Theorem C77_cell_order ro sc op outs outs' tbl :
  (forall k, filter (fun c => c_col c =? k) (Cell.cells_of outs) = filter (fun c => c_col c =? k) (Cell.cells_of outs')) ->
  (forall t, r_lookup op = Some (LText t) -> order (Cell.cells_of outs) = order (Cell.cells_of outs')) ->
  read_trace ro sc op (outs, None) = Ok tbl -> read_trace ro sc op (outs', None) = Ok tbl.
Proof.
  intros S L R. unfold read_trace in *. cbn [fst snd] in *. destruct (collect ro sc [] outs) as [d|] eqn:E; [|discriminate]. cbn [bind] in R.
  destruct (@collect_same ro sc outs outs' d S E) as (d' & E' & H). rewrite E'. cbn [bind]. rewrite <- R. symmetry. apply sim_read; [|exact H].
  intros t Lt. rewrite (@collect_keys ro sc outs [] [] d eq_refl E), (@collect_keys ro sc outs' [] [] d' eq_refl E'). exact (L t Lt).
Qed.
Print Assumptions C77_cell_order.
(** Two rows of two columns: row by row, and column by column. *)
Definition order_cells (l : list (Z * Z * str)) : list out := map (fun p => words (fst (fst p)) (snd (fst p)) (snd p)) l.
Definition by_rows : list out := order_cells [(0, 0, s "a"); (0, 2, s "b"); (1, 0, s "c"); (1, 2, s "d")].
Definition by_columns : list out := order_cells [(0, 0, s "a"); (1, 0, s "c"); (0, 2, s "b"); (1, 2, s "d")].
Definition by_last_column : list out := order_cells [(0, 2, s "b"); (1, 2, s "d"); (0, 0, s "a"); (1, 0, s "c")].
Example C77_example :
  (forall k, filter (fun c => c_col c =? k) (Cell.cells_of by_rows) = filter (fun c => c_col c =? k) (Cell.cells_of by_last_column)) /\
  order (Cell.cells_of by_rows) = order (Cell.cells_of by_columns) /\
  show_table (read_trace ex_ro (mkSC [] true plain_conf) opts1 (by_last_column, None)) =
    Ok [(s "a", (34, None, [Some (inl (s "c"))])); (s "b", (34, None, [Some (inl (s "d"))]))].
Proof.
  split.
  - intro k. unfold by_rows, by_last_column, order_cells, words. cbn [map Cell.cells_of flat_map app filter fst snd c_col].
    destruct (0 =? k) eqn:E0; destruct (2 =? k) eqn:E2; try reflexivity. lia.
  - split; vm_compute; reflexivity.
Qed.

(** ** C78: the members of the archive that matter *)
(** Two archives hold the same under a name: the same first member, or none. *)
Definition agree (z z' : archive) (n : str) : Prop := find (fun p => str_eqb n (fst p)) z = find (fun p => str_eqb n (fst p)) z'.
Lemma agree_open z z' n : agree z z' n -> zopen z n = zopen z' n.
Proof.
  assert (G : forall a : archive, dget str_eqb a n = option_map snd (find (fun p => str_eqb n (fst p)) a)).
  { induction a as [|[m c] a IH]; [reflexivity|]. cbn [dget find fst]. now destruct (str_eqb n m). }
  intro H. unfold zopen. now rewrite !G, H.
Qed.
Lemma agree_member z z' n b : agree z z' n -> member z n b -> member z' n b.
Proof. unfold agree, member. congruence. Qed.

Theorem C78_xlsb_other_members expat ro z z' d w op path :
  xlsb_book expat z d -> asked d (wo_sheet w) path -> absent z (s "xl/workbook.xml") -> absent z' (s "xl/workbook.xml") ->
  (forall n, In n [s "xl/_rels/workbook.bin.rels"; s "xl/workbook.bin"; s "xl/sharedStrings.bin"; s "xl/styles.bin"; path] -> agree z z' n) ->
  read_book expat ro z w op = read_book expat ro z' w op.
Proof.
  intros B A K K' Ag. assert (B' : xlsb_book expat z' d).
  { destruct B as (rl & bl & wb & (rb & Hrb & Erb) & Hrl & Hwb & R). exists rl, bl, wb. split; [|split; [exact Hrl|split; [|exact R]]].
    - exists rb. split; [|exact Erb]. refine (agree_member _ Hrb). apply Ag. now left.
    - refine (agree_member _ Hwb). apply Ag. right. now left. }
  destruct (bbook_dir B) as [E N]. destruct (bbook_dir B') as [E' _]. pose proof (asked_select N A) as S.
  assert (P : zopen z path = zopen z' path) by (apply agree_open, Ag; do 4 right; now left).
  assert (Sh : zopen z (s "xl/sharedStrings.bin") = zopen z' (s "xl/sharedStrings.bin")) by (apply agree_open, Ag; do 2 right; now left).
  assert (St : zopen z (s "xl/styles.bin") = zopen z' (s "xl/styles.bin")) by (apply agree_open, Ag; do 3 right; now left).
  unfold read_book. rewrite (absent_has K), (absent_has K'), (xlsb_book_kind B), (xlsb_book_kind B').
  assert (H1 : forall nv, bbook_shared z nv = bbook_shared z' nv) by (intro nv; unfold bbook_shared; now rewrite Sh).
  assert (H2 : bbook_iter expat z w = bbook_iter expat z' w).
  { unfold bbook_iter, bbook_styles. rewrite E, E', H1, St. cbn [bind]. rewrite S. cbn [bind]. now rewrite P. }
  now rewrite H1, H2.
Qed.
Print Assumptions C78_xlsb_other_members.

Theorem C78_xlsx_other_members expat ro z z' d w op path :
  xlsx_book expat z d -> asked d (wo_sheet w) path ->
  (forall n, In n [s "xl/_rels/workbook.xml.rels"; s "xl/workbook.xml"; s "xl/sharedStrings.xml"; s "xl/styles.xml"; path] -> agree z z' n) ->
  read_book expat ro z w op = read_book expat ro z' w op.
Proof.
  intros B A Ag. assert (B' : xlsx_book expat z' d).
  { destruct B as (rl & wl & (rb & Hrb & Erb) & Hrl & (wb & Hwb & Ewb) & R). exists rl, wl. split; [|split; [exact Hrl|split; [|exact R]]].
    - exists rb. split; [|exact Erb]. refine (agree_member _ Hrb). apply Ag. now left.
    - exists wb. split; [|exact Ewb]. refine (agree_member _ Hwb). apply Ag. right. now left. }
  destruct (xbook_dir B) as [E N]. destruct (xbook_dir B') as [E' _]. pose proof (asked_select N A) as S.
  assert (P : zopen z path = zopen z' path) by (apply agree_open, Ag; do 4 right; now left).
  assert (Sh : zopen z (s "xl/sharedStrings.xml") = zopen z' (s "xl/sharedStrings.xml")) by (apply agree_open, Ag; do 2 right; now left).
  assert (St : zopen z (s "xl/styles.xml") = zopen z' (s "xl/styles.xml")) by (apply agree_open, Ag; do 3 right; now left).
  unfold read_book. rewrite (xlsx_book_kind B), (xlsx_book_kind B').
  assert (H1 : forall nv, xbook_shared expat z nv = xbook_shared expat z' nv) by (intro nv; unfold xbook_shared; now rewrite Sh).
  assert (H2 : xbook_iter expat z w = xbook_iter expat z' w).
  { unfold xbook_iter, xbook_styles. rewrite E, E', St. cbn [bind]. rewrite S. cbn [bind]. now rewrite P. }
  now rewrite H1, H2.
Qed.
Print Assumptions C78_xlsx_other_members.

(** A chart and another sheet are added, the parts come in another order. *)
Definition exb_more : archive := (s "xl/charts/chart1.xml", [7; 7]) :: (s "xl/worksheets/sheet2.bin", []) :: rev (exb_files exb_rows exb_sl).
Example C78_example : absent exb_more (s "xl/workbook.xml") /\
  (forall n, In n [s "xl/_rels/workbook.bin.rels"; s "xl/workbook.bin"; s "xl/sharedStrings.bin"; s "xl/styles.bin"; s "xl/worksheets/sheet1.bin"] ->
     agree (exb_files exb_rows exb_sl) exb_more n) /\
  xlsb_book exb_expat (exb_files exb_rows exb_sl) [(s "Data", s "xl/worksheets/sheet1.bin")] /\
  show_table (read_book exb_expat ex_ro exb_more (ex_w true) opts1) =
    Ok [(s "name", (34, None, [Some (inl (s "x")); None; Some (inl (s "z"))])); (s "age", (9, None, [Some (inr 7); None; Some (inr 9)]))].
Proof.
  split; [intros b H; in_cases; discriminate|]. split; [intros n H; in_cases; reflexivity|]. split; [apply exb_book|]. vm_compute. reflexivity.
Qed.
Definition exx_more : archive := (s "xl/charts/chart1.xml", [7; 7]) :: rev exx_files.
Example C78_xlsx_example :
  (forall n, In n [s "xl/_rels/workbook.xml.rels"; s "xl/workbook.xml"; s "xl/sharedStrings.xml"; s "xl/styles.xml"; s "xl/worksheets/sheet1.xml"] ->
     agree exx_files exx_more n) /\
  xlsx_book (exx_expat exx_rows) exx_files [(s "Data", s "xl/worksheets/sheet1.xml")].
Proof. split; [intros n H; in_cases; reflexivity|now apply exx_book]. Qed.
