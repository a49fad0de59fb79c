(** Claims C64, C69, C70 and C72-C76: missing parts and sheets, declared row numbers, documented
    defaults. *)
From Coq Require Import Sorted.
From Verif Require Import Py PyFacts PyText Biff BiffSpec BiffRecs Utf16 Utf16Spec Utf16Proofs NumFmt NumFmtSpec Cell Xlsb Xlsx XlsbSpec XlsbProofs XlsbParts PropsXlsb
  XlsxSpec XlsxProofs XlsxParts XlsxNorm PropsXlsx Sheets SheetsSpec SheetsProofs PropsSheets Casts Chunk ChunkSpec Utf8 Series SeriesSpec
  Reader ReaderSpec ReaderProofs ReaderSteps ReaderRead ReaderMore PropsReader PropsReader2 Workbook WorkbookSpec WorkbookProofs PropsWorkbook.
From Coq Require Import ZifyBool ZifyNat.
Set Implicit Arguments. Unset Strict Implicit.

(** ** C69: a workbook without a shared strings part *)
(** The part is optional (ECMA-376 part 1, 12.3.15: at most one).  Without it every sheet that
    has a cell raises KeyError. *)
Lemma first_cell temporal nv nul cols (rows : list brow) p i : (exists r c, In r rows /\ In c (row_cells r) /\ expected temporal nv nul cols 0 c <> []) ->
  flat_map (fun q => expected_row temporal nv nul cols (fst q) (snd q)) (count_before p i rows) <> [].
Proof.
  intros (r & c & Hr & Hc & N) E. assert (forall i, expected temporal nv nul cols i c <> []).
  { intro j. revert N. unfold expected. destruct (existsb _ cols); [easy|]. destruct (b_val c); try discriminate; [destruct (nv t)|destruct (nul i0)]; easy || discriminate. }
  clear N. revert i E. induction rows as [|x rows IH]; [easy|]. intros i E. cbn [count_before flat_map fst snd] in E. apply app_eq_nil in E as [E1 E2].
  destruct Hr as [->|Hr]; [|exact (IH Hr _ E2)]. unfold expected_row in E1. induction (row_cells r) as [|d l IHl]; [easy|]. cbn [flat_map] in E1. apply app_eq_nil in E1 as [E1 E3].
  destruct Hc as [->|Hc]; [now apply (H i)|now apply IHl].
Qed.
Theorem C69_xlsb_refuted expat ro z w yl st rows path op :
  absent z (s "xl/workbook.xml") -> xlsb_sheet expat z (wo_sheet w) rows path ->
  member z (s "xl/styles.bin") st -> is_styles yl st -> zlen (cell_xfs yl) <= 2 ^ 16 -> forallb (fun p => short_code (snd p)) (custom_fmts yl) = true ->
  wo_skip w = 0 -> wo_take w = 0 ->
  (exists r c, In r rows /\ In c (row_cells r) /\ b_shown [] (xlsb_null (wo_nulls w)) (wo_cols w) c = true) ->
  absent z (s "xl/sharedStrings.bin") ->
  read_book expat ro z w op = Err KeyError.
Proof.
  intros Hx Sh Hst Ys Yn Yc Sk Tk (r & c & Hr & Hc & Hs) Ab. unfold read_book. rewrite (absent_has Hx). destruct Sh as (d & pre & e & post & part & B & A & M & P).
  rewrite (xlsb_book_kind B). destruct (bbook_dir B) as [Hd Nd]. unfold bbook_iter. cbv zeta.
  assert (E : forall nv, bbook_shared z nv = Err KeyError) by (intro nv; unfold bbook_shared; now rewrite (absent_open Ab)).
  rewrite Hd, !E. cbn [bind]. rewrite (asked_select Nd A), Sk, Tk. cbn [bind Z.ltb Z.compare]. rewrite (member_open M).
  destruct (@C14_styles_exact_behaviour yl st Ys Yn Yc) as (sty & Esty & _). unfold bbook_styles. rewrite (member_open Hst). cbn [bind]. rewrite Esty.
  set (nv := xlsb_null (wo_nulls w)) in *.
  pose proof (@iter_first (Ok sty) nv 0 0 (wo_tne w) (wo_cols w) (filled_after_first (fun _ : str => false)) (fun _ _ => false) part eq_refl) as I.
  destruct (@xlsb_all_rows sty nv (fun _ => false) pre rows e post part (wo_tne w) (wo_cols w) P) as [_ G]. cbv beta in I. rewrite G in I. clear G.
  match type of I with _ = hd_error ?x => assert (Ne : x <> []) end.
  { apply first_cell. exists r, c. split; [exact Hr|]. split; [exact Hc|]. unfold b_shown in Hs. apply andb_prop in Hs as [H1 H2]. unfold expected.
    destruct (existsb (Z.eqb (b_col c)) (wo_cols w)); [discriminate|]. unfold b_null in H2. destruct (b_val c); try discriminate. now destruct (nv t). }
  unfold read_cells. destruct (Cell.cells_of _) as [|c0 cs] eqn:Ec; [|reflexivity]. exfalso. cbn [hd_error] in I.
  destruct (flat_map _ _) in I, Ne; [now apply Ne|discriminate].
Qed.
Print Assumptions C69_xlsb_refuted.
Theorem C69_xlsx_refuted expat ro z w yl r rows path op :
  xlsx_sheet expat z (wo_sheet w) (r :: rows) path ->
  xml_member expat z (s "xl/styles.xml") (flat_map ystyle_events yl) -> forallb ystyle_ok yl = true ->
  wo_skip w = 0 -> wo_take w = 0 -> x_row_shown (xlsx_null (wo_nulls w)) (wo_cols w) r = true ->
  absent z (s "xl/sharedStrings.xml") ->
  read_book expat ro z w op = Err KeyError.
Proof.
  intros Sh (b & Hb & Eb) Yo Sk Tk Sr Ab. unfold read_book. destruct Sh as (d & es & B & A & (p & Hp & Ep) & S).
  rewrite (xlsx_book_kind B). destruct (xbook_dir B) as [Hd Nd]. unfold xbook_iter, xbook_shared. rewrite (absent_open Ab), Hd. cbn [bind].
  rewrite (asked_select Nd A), Sk, Tk. cbn [bind Z.ltb Z.compare]. rewrite (member_open Hp). cbn [bind]. unfold xbook_styles. rewrite (member_open Hb). cbn [bind].
  rewrite (parse_ok _ Eb). destruct (@C29_styles_exact yl Yo) as (st & Est & _). unfold xlsx_styles in Est. rewrite Est. cbn [bind]. rewrite Ep.
  unfold read_cells. cbn [fst]. set (nv := xlsx_null (wo_nulls w)) in *. destruct (Cell.cells_of _) as [|c0 cs] eqn:Ec; [|reflexivity]. exfalso.
  rewrite <- (xrow_nonempty_shown nv (wo_cols w) (style_get st)) in Sr. destruct (wo_tne w).
  - rewrite (@C23_xlsx_cells_partial (style_get st) nv r rows es (wo_cols w) None S Sr) in Ec. cbn [enum_from flat_map fst snd] in Ec. apply app_eq_nil in Ec as [Ec _].
    unfold xrow_nonempty in Sr. now rewrite Ec in Sr.
  - rewrite (@C24_xlsx_exact_collapsed_rows (style_get st) nv (r :: rows) es (wo_cols w) None S) in Ec. cbv zeta in Ec. cbn [leading] in Ec. rewrite Sr in Ec.
    cbn in Ec. apply app_eq_nil in Ec as [Ec _]. unfold xrow_nonempty, xexpected_row, xrow_cells in Sr. now rewrite Ec in Sr.
Qed.
Print Assumptions C69_xlsx_refuted.
(** The example files with that part deleted, and with a sheet that needs none of it. *)
Definition without (n : str) (z : archive) : archive := filter (fun p => negb (str_eqb n (fst p))) z.
Definition exb_own : list brow := [row_of 0 [bc 0 (BStr false (s "a"))]; row_of 1 [bc 0 (bk 7)]].
Definition exx_own : list xrow := [map PC [xc 0 (s "1") (Some (s "str")) None (s "a")]; map PC [xc 0 (s "2") None (Some (s "1")) (s "1")]].
Example C69_example :
  show_table (read_book exb_expat ex_ro (exb_files exb_own []) (ex_w false) opts1) = Ok [(s "a", (9, None, [Some (inr 7)]))] /\
  show_table (read_book exb_expat ex_ro (without (s "xl/sharedStrings.bin") (exb_files exb_own [])) (ex_w false) opts1) = Err KeyError /\
  show_table (read_book (exx_expat exx_own) ex_ro exx_files (ex_w false) opts1) = Ok [(s "a", (9, None, [Some (inr 1)]))] /\
  show_table (read_book (exx_expat exx_own) ex_ro (without (s "xl/sharedStrings.xml") exx_files) (ex_w false) opts1) = Err KeyError.
Proof. split; [vm_compute; reflexivity|]. split; [vm_compute; reflexivity|]. split; vm_compute; reflexivity. Qed.
Example C69_example_hyps :
  let z := without (s "xl/sharedStrings.bin") (exb_files exb_own []) in
  absent z (s "xl/workbook.xml") /\ absent z (s "xl/sharedStrings.bin") /\
  xlsb_sheet exb_expat z (SName (s "Data")) exb_own (s "xl/worksheets/sheet1.bin").
Proof.
  cbv zeta. split; [intros b H; vm_compute in H; repeat (destruct H as [H|H]; [inversion H|]); easy|].
  split; [intros b H; vm_compute in H; repeat (destruct H as [H|H]; [inversion H|]); easy|].
  exists [(s "Data", s "xl/worksheets/sheet1.bin")], [mkRec 129 []], [], [mkRec 130 []], (dumped (sheet_records [mkRec 129 []] exb_own [] [mkRec 130 []])). split.
  - exists exb_rl, exb_bl, (dumped (map bitem_record exb_bl)). split; [exists [1]; split; reflexivity|]. repeat (split; [reflexivity|]).
    split; [repeat constructor; easy|]. split; [|reflexivity]. intros n i [E|[]]. now inversion E.
  - split; [now left|]. split; [reflexivity|]. repeat split; vm_compute; reflexivity.
Qed.

(** ** C70: what is not there is reported *)
Theorem C70_no_workbook expat ro z w op : absent z (s "xl/workbook.xml") -> absent z (s "xl/workbook.bin") ->
  read_book expat ro z w op = Err AssertionError.
Proof. intros H1 H2. unfold read_book. now rewrite (absent_has H1), (absent_has H2). Qed.
Print Assumptions C70_no_workbook.
(** The sheets of the file, whatever its format. *)
Definition sheets_of (expat : bytes -> list event * option exn) (z : archive) (d : list (str * str)) : Prop :=
  xlsx_book expat z d \/ (absent z (s "xl/workbook.xml") /\ xlsb_book expat z d).
Lemma start_error expat ro z w op d e : sheets_of expat z d ->
  (p <- select_sheet d (wo_sheet w) ;; if wo_skip w <? 0 then Err ValueError else if wo_take w <? 0 then Err ValueError else Ok p) = Err e ->
  read_book expat ro z w op = Err e.
Proof.
  intros S H. unfold read_book. destruct S as [B|[Ab B]].
  - rewrite (xlsx_book_kind B). unfold xbook_iter. destruct (xbook_dir B) as [-> _]. cbn [bind].
    destruct (select_sheet d (wo_sheet w)) as [p|e0]; cbn [bind] in *; [|inversion H; reflexivity].
    destruct (wo_skip w <? 0); [inversion H; reflexivity|]. destruct (wo_take w <? 0); [inversion H; reflexivity|discriminate].
  - rewrite (absent_has Ab), (xlsb_book_kind B). unfold bbook_iter. cbv zeta. destruct (bbook_dir B) as [-> _]. cbn [bind].
    destruct (select_sheet d (wo_sheet w)) as [p|e0]; cbn [bind] in *; [|inversion H; reflexivity].
    destruct (wo_skip w <? 0); [inversion H; reflexivity|]. destruct (wo_take w <? 0); [inversion H; reflexivity|discriminate].
Qed.
Theorem C70_no_sheet expat ro z w op d : sheets_of expat z d ->
  (forall i, wo_sheet w = SIdx i -> ~ 0 <= i < zlen d -> read_book expat ro z w op = Err IndexError) /\
  (forall n, wo_sheet w = SName n -> ~ In n (map fst d) -> read_book expat ro z w op = Err KeyError).
Proof.
  intro S. split; intros x Hx Hn; apply (start_error ro op S); rewrite Hx; cbn [select_sheet].
  - now replace ((0 <=? x) && (x <? zlen d)) with false by lia.
  - destruct (dget str_eqb d x) as [p|] eqn:E; [|reflexivity]. exfalso. apply Hn. clear -E. induction d as [|[n q] d IH]; [discriminate|]. cbn in *.
    destruct (str_eqb x n) eqn:F; [left; symmetry; now apply str_eqb_eq|right; now apply IH].
Qed.
Print Assumptions C70_no_sheet.
(** Negative row counts, for a sheet that exists. *)
Theorem C70_negative expat ro z w op d path : sheets_of expat z d -> asked d (wo_sheet w) path ->
  wo_skip w < 0 \/ wo_take w < 0 -> read_book expat ro z w op = Err ValueError.
Proof.
  intros S A H. apply (start_error ro op S). assert (N : NoDup (map fst d)) by (destruct S as [B|[_ B]]; [apply (xbook_dir B)|apply (bbook_dir B)]).
  rewrite (asked_select N A). cbn [bind]. destruct (wo_skip w <? 0) eqn:E; [reflexivity|]. now replace (wo_take w <? 0) with true by lia.
Qed.
Print Assumptions C70_negative.
Example C70_example : let w a := mkWO a 0 0 true [] NNone plain_conf true in
  sheets_of exb_expat (exb_files exb_rows exb_sl) [(s "Data", s "xl/worksheets/sheet1.bin")] /\
  show_table (read_book exb_expat ex_ro (exb_files exb_rows exb_sl) (w (SIdx 1)) opts1) = Err IndexError /\
  show_table (read_book exb_expat ex_ro (exb_files exb_rows exb_sl) (w (SIdx (-1))) opts1) = Err IndexError /\
  show_table (read_book exb_expat ex_ro (exb_files exb_rows exb_sl) (w (SName (s "data"))) opts1) = Err KeyError /\
  show_table (read_book exb_expat ex_ro [] (w (SIdx 0)) opts1) = Err AssertionError.
Proof.
  cbv zeta. split; [right; split; [exact (bf_kind (exb_file true))|apply exb_book]|].
  split; [vm_compute; reflexivity|]. split; [vm_compute; reflexivity|]. split; vm_compute; reflexivity.
Qed.


(** ** C64 for files: one bad entry of the sheet list hides all sheets *)
(** .xlsx: a sheet that is no worksheet, for every sheet asked for. *)
Theorem C64_file_refuted expat ro z w op rl wl n i :
  xml_member expat z (s "xl/_rels/workbook.xml.rels") (flat_map ritem_events rl) -> xml_member expat z (s "xl/workbook.xml") (flat_map witem_events wl) ->
  forallb ritem_ok rl = true -> forallb witem_ok wl = true -> NoDup (map fst (rel_list rl)) -> NoDup (map snd (sheet_list wl)) ->
  In (n, i) (sheet_list wl) -> (forall t, rel_of (rel_list rl) i <> Some (s "worksheet", t)) ->
  read_book expat ro z w op = Err KeyError.
Proof.
  intros (rb & Hrb & Erb) (wb & Hwb & Ewb) Hrl Hwl N1 N2 Hin Hr. unfold read_book. rewrite (member_has Hwb). unfold xbook_iter.
  assert (D : xbook_sheets expat z = Err KeyError).
  { unfold xbook_sheets. rewrite (member_open Hrb). cbn [bind]. rewrite (parse_ok _ Erb). rewrite scan_rels_ok by exact Hrl. cbn [bind].
    rewrite (member_open Hwb). cbn [bind]. rewrite (parse_ok _ Ewb).
    pose proof (@C64_other_sheet_refuted rl wl n i Hrl Hwl N1 N2 Hin Hr) as C. unfold xlsx_sheets in C. rewrite scan_rels_ok in C by exact Hrl. cbn [bind] in C. exact C. }
  now rewrite D.
Qed.
Print Assumptions C64_file_refuted.
(** .xlsb: a sheet without relationship. *)
Lemma sheets_from_missing rels l n i : forallb bitem_ok l = true -> In (n, i) (bsheet_list l) -> rel_of rels i = None -> forall d,
  xlsb_sheets_from (map to_rel rels) (flat_map (fun x => match x with BI _ _ _ _ _ => [bitem_record x] | BX _ => [] end) l) d = Err StopIterationError.
Proof.
  intros H Hin Hr. induction l as [|x l IH]; intro d; [easy|]. cbn [forallb] in H. apply andb_prop in H as [Hx H]. cbn [flat_map].
  destruct x as [st tab j m tl|r]; [|now apply IH]. cbn [app xlsb_sheets_from bitem_record bitem_ok] in *.
  apply andb_prop in Hx as [Hx W2]. apply andb_prop in Hx as [Hx W1].
  rewrite bundle_loadr_ok by (try assumption; lia). cbn [bind strRelID strName xstr_value]. rewrite find_rel.
  unfold bsheet_list in Hin. cbn [flat_map app] in Hin. fold (bsheet_list l) in Hin. destruct Hin as [Hin|Hin].
  - assert (j = i) by congruence. subst j. now rewrite Hr.
  - destruct (rel_of rels j) as [[g t]|]; [now apply IH|reflexivity].
Qed.
Theorem C64_xlsb_missing_refuted expat ro z w op rl bl wb n i : absent z (s "xl/workbook.xml") ->
  xml_member expat z (s "xl/_rels/workbook.bin.rels") (flat_map ritem_events rl) -> forallb ritem_ok rl = true ->
  member z (s "xl/workbook.bin") wb -> dump_all (map bitem_record bl) = Ok wb -> forallb bitem_ok bl = true -> forallb rec_ok (map bitem_record bl) = true ->
  In (n, i) (bsheet_list bl) -> rel_of (rel_list rl) i = None ->
  read_book expat ro z w op = Err RuntimeError.
Proof.
  intros Ab (rb & Hrb & Erb) Hrl Hwb Dwb Hbl Rbl Hin Hr. unfold read_book. rewrite (absent_has Ab), (member_has Hwb). unfold bbook_iter. cbv zeta.
  assert (D : bbook_sheets expat z = Err RuntimeError).
  { unfold bbook_sheets. rewrite (member_open Hrb). cbn [bind]. rewrite (parse_ok _ Erb). rewrite scan_rels_ok by exact Hrl. cbn [bind]. rewrite (member_open Hwb). cbn [bind].
    rewrite (scan_part_dump 412 [] Rbl Dwb), filter_bundles by exact Hbl. now rewrite (sheets_from_missing Hbl Hin Hr). }
  now rewrite D.
Qed.
Print Assumptions C64_xlsb_missing_refuted.
(** Two sheets, the second refers to nothing; and the same for .xlsx with a chart sheet. *)
Definition ex_dangling : archive :=
  [(s "xl/_rels/workbook.bin.rels", [1]); (s "xl/workbook.bin", dumped (map bitem_record (exb_bl ++ [BI 0 2 (s "rId9") (s "Gone") []])))] ++ skipn 2 (exb_files exb_rows exb_sl).
Definition ex_charts : archive := [(s "xl/_rels/workbook.xml.rels", [1]); (s "xl/workbook.xml", [2])].
Definition ex_charts_expat := ex_expat [(1, flat_map ritem_events ex_chart_rl); (2, flat_map witem_events [WI (s "Data") (s "rId1") []; WI (s "Chart") (s "rId2") []])].
Example C64_file_example :
  read_book exb_expat ex_ro ex_dangling (ex_w true) opts1 = Err RuntimeError /\
  show_table (read_book exb_expat ex_ro ex_dangling (ex_w true) opts1) <> show_table (read_book exb_expat ex_ro (exb_files exb_rows exb_sl) (ex_w true) opts1) /\
  read_book ex_charts_expat ex_ro ex_charts (ex_w true) opts1 = Err KeyError.
Proof.
  assert (A : read_book exb_expat ex_ro ex_dangling (ex_w true) opts1 = Err RuntimeError).
  { eapply (@C64_xlsb_missing_refuted exb_expat ex_ro ex_dangling (ex_w true) opts1 exb_rl (exb_bl ++ [BI 0 2 (s "rId9") (s "Gone") []]) _ (s "Gone") (s "rId9")).
    - intros b H. in_cases; discriminate.
    - exists [1]. split; reflexivity.
    - reflexivity.
    - reflexivity.
    - reflexivity.
    - reflexivity.
    - reflexivity.
    - cbn. now right; left.
    - reflexivity. }
  split; [exact A|]. split; [rewrite A; vm_compute; discriminate|].
  eapply (@C64_file_refuted ex_charts_expat ex_ro ex_charts (ex_w true) opts1 ex_chart_rl [WI (s "Data") (s "rId1") []; WI (s "Chart") (s "rId2") []] (s "Chart") (s "rId2")).
  - exists [1]. split; reflexivity.
  - exists [2]. split; reflexivity.
  - reflexivity.
  - reflexivity.
  - repeat constructor; cbn; intuition discriminate.
  - repeat constructor; cbn; intuition discriminate.
  - cbn. now right; left.
  - intros t. vm_compute. discriminate.
Qed.
(** ** C72: rows are where the file says they are *)
Lemma table_shows_ext ro cf P Q n ks h off (tbl : table ro) : (forall r k, 0 <= r -> P r k = Q r k) -> 0 <= off ->
  table_shows cf P n ks h off tbl -> table_shows cf Q n ks h off tbl.
Proof.
  intros E Ho (L & N & C). assert (B : forall k a b, 0 <= a -> below P k a b = below Q k a b) by (intros; unfold below; apply map_ext; intro i; apply E; lia).
  split; [exact L|]. split.
  - unfold named in *. destruct (h =? 0); [exact N|]. destruct N as (bs & E1 & F). exists bs. split; [exact E1|]. clear -F B. induction F as [|k b ks bs (a & H & Ha) F IH]; constructor; [|exact IH].
    exists a. rewrite <- B by lia. now split.
  - intros i k Hk. destruct (C i k Hk) as (name & a & H1 & H2). exists name, a. rewrite <- B by lia. now split.
Qed.
Lemma columns_ext P Q n ks : (forall r k, 0 <= r -> P r k = Q r k) -> columns_of Q n ks -> columns_of P n ks.
Proof.
  intros E (S & H). split; [exact S|]. intro k. rewrite H. split; intros (r & Hr & N); exists r; (split; [exact Hr|]); [rewrite E by lia|rewrite <- E by lia]; exact N.
Qed.
Lemma reaches_ext P Q n : (forall r k, 0 <= r -> P r k = Q r k) -> 0 < n -> reaches Q n -> reaches P n.
Proof. intros E Hn (k & H0 & H1). exists k. rewrite !E by lia. now split. Qed.

(** The row number in the header record of a row; the cell at row [r], column [k] by these numbers. *)
Definition b_declared (x : brow) : Z := le_value (firstn 4 (fst x)).
Definition b_placed (o : oracle) (tm : Z -> bool) (xfs : list Z) (texts : list str) (nv : str -> bool) (cols : list Z) (rows : list brow) (r k : Z) : tag :=
  match find (fun x => b_declared x =? r) rows with
  | None => tnull
  | Some x => match find (fun c => (b_col c =? k) && b_shown texts nv cols c) (row_cells x) with Some c => b_tag o tm xfs texts c | None => tnull end
  end.
Lemma declared_find (rows : list brow) : forall j r, (forall i x, nth_error rows i = Some x -> b_declared x = Z.of_nat i + j) -> j <= r ->
  find (fun x => b_declared x =? r) rows = nth_error rows (Z.to_nat (r - j)).
Proof.
  induction rows as [|x rows IH]; intros j r H Hr; [now destruct (Z.to_nat (r - j))|]. cbn [find]. rewrite (H 0%nat x eq_refl). cbn [Z.of_nat]. destruct (Z.eq_dec j r) as [->|N].
  - rewrite Z.eqb_refl, Z.sub_diag. reflexivity.
  - replace (0 + j =? r) with false by lia. rewrite (IH (j + 1) r); [|intros i y E; rewrite (H (S i) y E); lia|lia].
    replace (Z.to_nat (r - j)) with (S (Z.to_nat (r - (j + 1)))) by lia. reflexivity.
Qed.
Lemma b_rows_all texts nv cols rows : b_rows texts nv cols true rows = rows.
Proof. unfold b_rows. induction rows as [|x l IH]; [reflexivity|]. cbn [filter orb]. f_equal. exact IH. Qed.
(** Full claim: for every increasing numbering, with null rows in the gaps.  Proved when the
    rows are numbered 0, 1, 2, ... and empty rows are kept. *)
Theorem C72_xlsb_partial expat ro z w sl yl rows (tm : str -> bool) ks op h :
  let nv := xlsb_null (wo_nulls w) in let texts := sitem_texts sl in
  let P := b_placed (ro_o ro) (b_time yl tm) (cell_xfs yl) texts nv (wo_cols w) rows in let n := zlen rows in
  xlsb_file expat z (wo_sheet w) sl yl rows ->
  forallb (fun f => f <? 256) (cell_xfs yl) = true ->
  (forall i c, In (i, c) (custom_fmts yl) -> code_class c (tm c) /\ safe_length (n_units c) = true) ->
  wo_skip w = 0 -> wo_take w = 0 -> wo_tne w = true -> starts_well texts nv (wo_cols w) rows ->
  (forall i x, nth_error rows i = Some x -> b_declared x = Z.of_nat i) ->
  columns_of P n ks -> reaches P n ->
  plain op -> r_header op = HInt h -> 0 <= h -> 0 <= r_skip_after op -> h + r_skip_after op < n ->
  cf_datetime (wo_conf w) = false ->
  exists tbl, read_book expat ro z w op = Ok tbl /\ table_shows (wo_conf w) P n ks h (h + r_skip_after op) tbl.
Proof.
  intros nv texts P n F Ids Codes Sk Tk Tn Sw D K Re Pl Hh Hh0 Hs Hn Hd.
  assert (Er : b_rows texts nv (wo_cols w) (wo_tne w) rows = rows).
  { rewrite Tn. apply b_rows_all. }
  assert (E : forall r k, 0 <= r -> b_at (ro_o ro) (b_time yl tm) (cell_xfs yl) texts nv (wo_cols w) rows r k = P r k).
  { intros r k Hr. unfold P, b_placed, b_at. rewrite (@declared_find rows 0 r) by (intros; rewrite ?(D _ _ H); lia). now rewrite Z.sub_0_r. }
  pose proof (@C71_xlsb_partial expat ro z w sl yl rows tm ks op h) as C. cbv zeta in C. fold texts nv in C. rewrite Er in C.
  destruct C as (tbl & R & T); try assumption; [now apply (columns_ext E)|apply (reaches_ext E); [unfold n in Hn; lia|exact Re]|].
  exists tbl. split; [exact R|]. apply (table_shows_ext E); [lia|exact T].
Qed.
Print Assumptions C72_xlsb_partial.
(** Whatever the declared numbers, a column has as many rows as there are row records. *)
Lemma same_length A B (R : A -> B -> Prop) l m : Forall2 R l m -> List.length l = List.length m.
Proof. intro F. induction F; cbn; congruence. Qed.
Lemma shows_length o cf P k off n a : off <= n -> shows o cf (below P k off n) a -> zlen (a_vals a) = n - off.
Proof. intros H [F _]. apply same_length in F. unfold below in F. rewrite map_length, seq_length in F. unfold zlen. lia. Qed.
Theorem C72_xlsb_refuted expat ro z w sl yl rows (tm : str -> bool) ks op h last :
  let nv := xlsb_null (wo_nulls w) in let texts := sitem_texts sl in
  let P := b_at (ro_o ro) (b_time yl tm) (cell_xfs yl) texts nv (wo_cols w) rows in let n := zlen rows in
  xlsb_file expat z (wo_sheet w) sl yl rows ->
  forallb (fun f => f <? 256) (cell_xfs yl) = true ->
  (forall i c, In (i, c) (custom_fmts yl) -> code_class c (tm c) /\ safe_length (n_units c) = true) ->
  wo_skip w = 0 -> wo_take w = 0 -> wo_tne w = true -> starts_well texts nv (wo_cols w) rows ->
  columns_of P n ks -> reaches P n ->
  plain op -> r_header op = HInt h -> 0 <= h -> 0 <= r_skip_after op -> h + r_skip_after op < n ->
  cf_datetime (wo_conf w) = false ->
  nth_error rows (Z.to_nat (n - 1)) = Some last -> b_declared last <> n - 1 ->
  exists tbl, read_book expat ro z w op = Ok tbl /\ tbl <> [] /\
    forall name c, In (name, c) tbl -> col_len c <> b_declared last + 1 - (h + r_skip_after op).
Proof.
  intros nv texts P n F Ids Codes Sk Tk Tn Sw K Re Pl Hh Hh0 Hs Hn Hd Hl Dl.
  assert (Er : b_rows texts nv (wo_cols w) (wo_tne w) rows = rows).
  { rewrite Tn. apply b_rows_all. }
  pose proof (@C71_xlsb_partial expat ro z w sl yl rows tm ks op h) as C. cbv zeta in C. fold texts nv in C. rewrite Er in C.
  destruct C as (tbl & R & L & _ & T); try assumption. exists tbl. split; [exact R|]. split.
  - intros ->. destruct ks; [|discriminate]. destruct Re as (k & H0 & _). apply (proj2 K k). exists 0. split; [unfold n in Hn; lia|exact H0].
  - intros name c Hc. apply In_nth_error in Hc as (i & Hi). destruct (nth_error ks i) as [k|] eqn:E.
    + destruct (T i k E) as (nm & a & H1 & H2). rewrite Hi in H1. inversion H1; subst. cbn [col_len]. rewrite (shows_length (n := n) (off := h + r_skip_after op) ltac:(lia) H2). lia.
    + exfalso. apply nth_error_None in E. assert (i < List.length tbl)%nat by (apply nth_error_Some; congruence). lia.
Qed.
Print Assumptions C72_xlsb_refuted.
(** Rows 1 and 6 of a sheet: the empty rows between are not in the table even when they are asked for. *)
Definition exb_gap : list brow := [row_of 0 [bc 0 (bk 1)]; row_of 5 [bc 0 (bk 6)]].
Example C72_xlsb_example :
  map b_declared exb_gap = [0; 5] /\
  show_table (read_book exb_expat ex_ro (exb_files exb_gap []) (ex_w true) opts0) = Ok [(s "Unnamed. 0", (9, None, [Some (inr 1); Some (inr 6)]))] /\
  map b_declared exb_rows = [0; 1; 2; 3].
Proof. split; [reflexivity|]. split; [vm_compute; reflexivity|reflexivity]. Qed.

(** .xlsx: the row number of a cell is in its reference. *)
Definition x_placed (o : oracle) (kind : Z -> option xkind) (xfs : list Z) (table : list (option str)) (nv : str -> bool) (cols : list Z) (rows : list xrow) (r k : Z) : tag :=
  match find (fun c => str_eqb (x_digits c) (dec (r + 1)) && ((x_col c =? k) && x_shown nv cols c)) (flat_map xrow_cells rows) with
  | Some c => match x_tag o kind xfs table nv c with Some t => t | None => tnull end
  | None => tnull
  end.
Lemma find_app A (p : A -> bool) l m : find p (l ++ m) = match find p l with Some x => Some x | None => find p m end.
Proof. induction l as [|x l IH]; [reflexivity|]. cbn. now destruct (p x). Qed.
Lemma find_all A (p q : A -> bool) l : (forall x, In x l -> p x = true) -> find (fun x => p x && q x) l = find q l.
Proof. intro H. induction l as [|x l IH]; [reflexivity|]. cbn. rewrite (H x) by now left. cbn. rewrite IH by (intros; apply H; now right). reflexivity. Qed.
Lemma find_never A (p : A -> bool) l : (forall x, In x l -> p x = false) -> find p l = None.
Proof. intro H. induction l as [|x l IH]; [reflexivity|]. cbn. rewrite (H x) by now left. apply IH. intros; apply H; now right. Qed.
Lemma placed_find (q : xcell -> bool) (rows : list xrow) : forall j r,
  (forall i x c, nth_error rows i = Some x -> In c (xrow_cells x) -> x_digits c = dec (Z.of_nat i + j + 1)) -> 0 <= j <= r ->
  find (fun c => str_eqb (x_digits c) (dec (r + 1)) && q c) (flat_map xrow_cells rows) =
  match nth_error rows (Z.to_nat (r - j)) with Some x => find q (xrow_cells x) | None => None end.
Proof.
  induction rows as [|x rows IH]; intros j r H Hr; [now destruct (Z.to_nat (r - j))|]. cbn [flat_map]. rewrite find_app. destruct (Z.eq_dec j r) as [->|N].
  - rewrite Z.sub_diag. cbn [Z.to_nat nth_error]. rewrite find_all by (intros c Hc; rewrite (H 0%nat x c eq_refl Hc); apply str_eqb_refl).
    destruct (find q (xrow_cells x)); [reflexivity|]. apply find_never. intros c Hc. apply in_flat_map in Hc as (y & Hy & Hc). apply In_nth_error in Hy as (i & Hi).
    rewrite (H (S i) y c Hi Hc). destruct (str_eqb _ _) eqn:E; [|reflexivity]. apply str_eqb_eq in E. apply dec_inj in E; lia.
  - rewrite find_never.
    + rewrite (IH (j + 1) r); [|intros i y c E Hc; rewrite (H (S i) y c E Hc); f_equal; lia|lia].
      replace (Z.to_nat (r - j)) with (S (Z.to_nat (r - (j + 1)))) by lia. reflexivity.
    + intros c Hc. rewrite (H 0%nat x c eq_refl Hc). destruct (str_eqb _ _) eqn:E; [|reflexivity]. apply str_eqb_eq in E. apply dec_inj in E; lia.
Qed.
Theorem C72_xlsx_partial expat ro z w sl yl rows (num tm : str -> bool) ks op h :
  let nv := xlsx_null (wo_nulls w) in let tab := shared_table nv sl in
  let P := x_placed (ro_o ro) (x_class yl num tm) (z_xfs yl) tab nv (wo_cols w) rows in let n := zlen rows in
  xlsx_file expat z (wo_sheet w) sl yl rows ->
  (forall i c, In (i, c) (z_fmts yl) -> code_class c (tm c)
     /\ exists fs rest, existsb (Z.eqb ch_semi) fs = false /\ (c = fs \/ c = fs ++ ch_semi :: rest)
        /\ (num c = true <-> fs = s "0" \/ exists a b, fs = a ++ s ".00" ++ b)) ->
  x_readable (ro_o ro) (x_class yl num tm) (z_xfs yl) tab nv (wo_cols w) rows ->
  wo_skip w = 0 -> wo_take w = 0 -> wo_tne w = true -> match rows with [] => True | r :: _ => x_row_shown nv (wo_cols w) r = true end ->
  (forall i x c, nth_error rows i = Some x -> In c (xrow_cells x) -> x_digits c = dec (Z.of_nat i + 1)) ->
  columns_of P n ks -> reaches P n ->
  plain op -> r_header op = HInt h -> 0 <= h -> 0 <= r_skip_after op -> h + r_skip_after op < n ->
  cf_datetime (wo_conf w) = false ->
  exists tbl, read_book expat ro z w op = Ok tbl /\ table_shows (wo_conf w) P n ks h (h + r_skip_after op) tbl.
Proof.
  intros nv tab P n F Codes Rd Sk Tk Tn Fr D K Re Pl Hh Hh0 Hs Hn Hd.
  assert (Er : x_rows nv (wo_cols w) (wo_tne w) rows = rows) by now rewrite Tn.
  assert (E : forall r k, 0 <= r -> x_at (ro_o ro) (x_class yl num tm) (z_xfs yl) tab nv (wo_cols w) rows r k = P r k).
  { intros r k Hr. unfold P, x_placed, x_at. rewrite (@placed_find _ rows 0 r); [rewrite Z.sub_0_r; now destruct (nth_error rows (Z.to_nat r))| |lia].
    intros i x c Hi Hc. rewrite (D i x c Hi Hc). f_equal. lia. }
  pose proof (@C71_xlsx_partial expat ro z w sl yl rows num tm ks op h) as C. cbv zeta in C. fold nv in C. fold tab in C. rewrite Er in C.
  destruct C as (tbl & R & T); try assumption; [now intros _|now apply (columns_ext E)|apply (reaches_ext E); [unfold n in Hn; lia|exact Re]|].
  exists tbl. split; [exact R|]. apply (table_shows_ext E); [lia|exact T].
Qed.
Print Assumptions C72_xlsx_partial.
Theorem C72_xlsx_refuted expat ro z w sl yl rows (num tm : str -> bool) ks op h last c m :
  let nv := xlsx_null (wo_nulls w) in let tab := shared_table nv sl in
  let P := x_at (ro_o ro) (x_class yl num tm) (z_xfs yl) tab nv (wo_cols w) rows in let n := zlen rows in
  xlsx_file expat z (wo_sheet w) sl yl rows ->
  (forall i c, In (i, c) (z_fmts yl) -> code_class c (tm c)
     /\ exists fs rest, existsb (Z.eqb ch_semi) fs = false /\ (c = fs \/ c = fs ++ ch_semi :: rest)
        /\ (num c = true <-> fs = s "0" \/ exists a b, fs = a ++ s ".00" ++ b)) ->
  x_readable (ro_o ro) (x_class yl num tm) (z_xfs yl) tab nv (wo_cols w) rows ->
  wo_skip w = 0 -> wo_take w = 0 -> wo_tne w = true -> match rows with [] => True | r :: _ => x_row_shown nv (wo_cols w) r = true end ->
  columns_of P n ks -> reaches P n ->
  plain op -> r_header op = HInt h -> 0 <= h -> 0 <= r_skip_after op -> h + r_skip_after op < n ->
  cf_datetime (wo_conf w) = false ->
  nth_error rows (Z.to_nat (n - 1)) = Some last -> In c (xrow_cells last) -> x_digits c = dec m -> m <> n ->
  exists tbl, read_book expat ro z w op = Ok tbl /\ tbl <> [] /\
    forall name c, In (name, c) tbl -> col_len c <> m - (h + r_skip_after op).
Proof.
  intros nv tab P n F Codes Rd Sk Tk Tn Fr K Re Pl Hh Hh0 Hs Hn Hd Hl Hc Dl Hm.
  assert (Er : x_rows nv (wo_cols w) (wo_tne w) rows = rows) by now rewrite Tn.
  pose proof (@C71_xlsx_partial expat ro z w sl yl rows num tm ks op h) as C. cbv zeta in C. fold nv in C. fold tab in C. rewrite Er in C.
  destruct C as (tbl & R & L & _ & T); try assumption; [now intros _|]. exists tbl. split; [exact R|]. split.
  - intros ->. destruct ks; [|discriminate]. destruct Re as (k & H0 & _). apply (proj2 K k). exists 0. split; [unfold n in Hn; lia|exact H0].
  - intros name c0 Hc0. apply In_nth_error in Hc0 as (i & Hi). destruct (nth_error ks i) as [k|] eqn:E.
    + destruct (T i k E) as (nm & a & H1 & H2). rewrite Hi in H1. inversion H1; subst. cbn [col_len]. rewrite (shows_length (n := n) (off := h + r_skip_after op) ltac:(lia) H2). lia.
    + exfalso. apply nth_error_None in E. assert (i < List.length tbl)%nat by (apply nth_error_Some; congruence). lia.
Qed.
Print Assumptions C72_xlsx_refuted.
Definition exx_gap : list xrow := [map PC [xc 0 (s "1") None (Some (s "1")) (s "1")]; map PC [xc 0 (s "6") None (Some (s "1")) (s "1")]].
Example C72_xlsx_example :
  map (fun c => x_ref c) (flat_map xrow_cells exx_gap) = [s "A1"; s "A6"] /\
  show_table (read_book (exx_expat exx_gap) ex_ro exx_files (ex_w true) opts0) = Ok [(s "Unnamed. 0", (9, None, [Some (inr 1); Some (inr 1)]))] /\
  (forall i x c, nth_error exx_rows i = Some x -> In c (xrow_cells x) -> x_digits c = dec (Z.of_nat i + 1)).
Proof.
  split; [reflexivity|]. split; [vm_compute; reflexivity|]. intros i x c Hi Hc.
  destruct i as [|[|[|[|i]]]]; cbn in Hi; inversion Hi; subst; in_cases; try reflexivity. now destruct i.
Qed.

(** ** C73: utf8_type_infers *)
(** The argument has no effect: a column of texts stays a column of texts. *)
Definition with_infers (b : bool) (w : wopts) : wopts := mkWO (wo_sheet w) (wo_skip w) (wo_take w) (wo_tne w) (wo_cols w) (wo_nulls w) (wo_conf w) b.
Theorem C73_refuted expat ro z w op b : read_book expat ro z (with_infers b w) op = read_book expat ro z w op.
Proof. reflexivity. Qed.
Print Assumptions C73_refuted.
Definition exb_digits : list brow := [row_of 0 [bc 0 (BStr false (s "1"))]; row_of 1 [bc 0 (BStr false (s "1"))]].
Example C73_example :
  wo_infers (ex_w true) = true /\ o_float (ro_o ex_ro) (utf8 (s "1")) = Some (f8_of_Z 1) /\
  show_table (read_book exb_expat ex_ro (exb_files exb_digits []) (ex_w true) opts0) = Ok [(s "Unnamed. 0", (34, None, [Some (inl (s "1")); Some (inl (s "1"))]))].
Proof. split; [reflexivity|]. split; [reflexivity|]. vm_compute. reflexivity. Qed.

(** ** C74: several row filters *)
(** README: with a list of filters and no strategy, only rows non-null in all these columns are
    kept.  The default strategy is [or] (rxls/reader/common.py:120): a row filled in one of
    two chosen columns stays. *)
Definition default_strategy : strategy := SOr.
Theorem C74_refuted ro sc op outs ks tbl a b : let l := Cell.cells_of outs in let o := ro_o ro in
  sheet_ok o sc l = true -> listing l ks -> sizes_ok op ->
  cf_datetime (sc_conf sc) = false -> cf_numerics (sc_conf sc) = false -> no_nan o sc l ->
  r_strategy op = default_strategy -> read_trace ro sc op (outs, None) = Ok tbl ->
  chosen_columns ro (r_filters op) (map fst tbl) ks = [a; b] ->
  exists tall first height kept, tallest l ks tall /\ located ro sc op l first /\ titled ro sc op l ks first height (map fst tbl) /\
    let off := height + first + r_skip_after op in
    (forall i, In i kept <-> Z.of_nat i < tall - off /\ (filled_at o sc l a (off + Z.of_nat i) = true \/ filled_at o sc l b (off + Z.of_nat i) = true)) /\
    (off < tall -> forall i k, nth_error ks i = Some k ->
      exists name c v, nth_error tbl i = Some (name, c) /\ converted (type_wanted (r_dtypes op) i name) v c /\
        Forall2 (fun r x => render o (a_type v) (t_val (at_row o sc (content l k) (off + Z.of_nat r))) = Ok x) kept (a_vals v)).
Proof.
  intros l o S Ls Sz D N Nn Hs R Hc. destruct (C58_partial S Ls Sz D N Nn R) as (tall & first & h & T & L & Ti & C).
  exists tall, first, h, (rows_kept o sc SOr l [a; b] (h + first + r_skip_after op) (tall - (h + first + r_skip_after op))).
  split; [exact T|]. split; [exact L|]. split; [exact Ti|]. cbv zeta in *. rewrite Hs, Hc in C. unfold default_strategy in C. split.
  - intro i. unfold rows_kept. rewrite filter_In, in_seq. cbn [map keep existsb]. rewrite !orb_true_iff. split; [intros [H1 H2]; split; [lia|intuition discriminate]|intros [H1 H2]; split; [lia|tauto]].
  - intros H. apply C. lia.
Qed.
Print Assumptions C74_refuted.
(** Rows (a, b): (1, -), (-, 2), (3, 4), (-, -); the last is filled in column c only. *)
Example C74_example :
  show_table (read_trace ex_ro PropsSeries.ex_binary (with_filters (FTexts [s "a"; s "b"]) default_strategy) (ex_gaps, None)) =
    Ok [(s "a", (9, None, [Some (inr 1); None; Some (inr 3)])); (s "b", (9, None, [None; Some (inr 2); Some (inr 4)])); (s "c", (34, None, [None; None; None]))].
Proof. vm_compute. reflexivity. Qed.

(** ** C75: names without a header *)
(** README: [Unnamed: 0], [Unnamed: 1], ...; the code writes a full stop. *)
Theorem C75_refuted ro sc op outs ks tbl i : sheet_ok (ro_o ro) sc (Cell.cells_of outs) = true -> listing (Cell.cells_of outs) ks -> sizes_ok op ->
  read_trace ro sc op (outs, None) = Ok tbl -> r_header op = HInt 0 -> (i < List.length ks)%nat ->
  nth_error (map fst tbl) i = Some (s "Unnamed. " ++ dec (Z.of_nat i)) /\ nth_error (map fst tbl) i <> Some (s "Unnamed: " ++ dec (Z.of_nat i)).
Proof.
  intros S Ls Sz R Hh Hi. destruct (C52_content S Ls Sz R) as (tall & first & h & idx & _ & _ & Ti & _). unfold titled in Ti. rewrite Hh in Ti. destruct Ti as [_ Ti]. cbn in Ti.
  assert (E : nth_error (map fst tbl) i = Some (s "Unnamed. " ++ dec (Z.of_nat i))).
  { rewrite Ti. rewrite nth_error_map. rewrite (nth_error_nth' _ 0%nat) by (rewrite seq_length; lia). now rewrite seq_nth by lia. }
  split; [exact E|]. rewrite E. intro X. inversion X.
Qed.
Print Assumptions C75_refuted.
Example C75_example : option_map (map fst) (match read_trace ex_ro PropsSeries.ex_binary opts0 (ex_sheet, None) with Ok tbl => Some tbl | Err _ => None end) = Some [s "Unnamed. 0"; s "Unnamed. 1"].
Proof. vm_compute. reflexivity. Qed.

(** ** C76: given names *)
(** A list of names must have one name per column: otherwise ValueError, and with the right
    number the names are exactly those. *)
Theorem C76_mismatch ro sc op outs ks given : sheet_ok (ro_o ro) sc (Cell.cells_of outs) = true -> listing (Cell.cells_of outs) ks ->
  r_lookup op = None -> r_header op = HList given -> List.length given <> List.length ks ->
  read_trace ro sc op (outs, None) = Err ValueError.
Proof.
  intros S Ls Lk Hh Hn. unfold read_trace. cbn [fst snd]. destruct (@collect_inv ro sc outs [] [] (cinv_nil ro sc) S) as (d & -> & C). cbn [bind app] in *.
  unfold read_columns, max_len. destruct (map _ d) eqn:E; cbn [bind]; [reflexivity|]. unfold locate, name_columns. rewrite Lk, Hh. cbn [bind].
  destruct (Nat.eqb (List.length given) (List.length d)) eqn:Q; [|reflexivity]. exfalso. apply Nat.eqb_eq in Q. apply Hn. rewrite Q.
  rewrite <- (listing_order Ls), sorted_length, <- (proj1 C). unfold keys. now rewrite map_length.
Qed.
Print Assumptions C76_mismatch.
Theorem C76_names ro sc op outs ks tbl given : sheet_ok (ro_o ro) sc (Cell.cells_of outs) = true -> listing (Cell.cells_of outs) ks -> sizes_ok op ->
  r_header op = HList given -> read_trace ro sc op (outs, None) = Ok tbl -> map fst tbl = given /\ List.length given = List.length ks.
Proof.
  intros S Ls Sz Hh R. destruct (C52_content S Ls Sz R) as (tall & first & h & idx & _ & _ & Ti & _). unfold titled in Ti. rewrite Hh in Ti. tauto.
Qed.
Print Assumptions C76_names.
Example C76_example :
  show_table (read_trace ex_ro PropsSeries.ex_binary (mkR (HList [s "p"]) DTNone 0 None 30 FNone SOr) (ex_sheet, None)) = Err ValueError /\
  option_map (map fst) (match read_trace ex_ro PropsSeries.ex_binary (mkR (HList [s "p"; s "q"]) DTNone 0 None 30 FNone SOr) (ex_sheet, None) with Ok tbl => Some tbl | Err _ => None end) = Some [s "p"; s "q"].
Proof. split; vm_compute; reflexivity. Qed.
