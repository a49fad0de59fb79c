(** Claim C71, continued: the table of a well-formed file under any row window, header,
    lookup, row filter and type option. *)
From Coq Require Import Sorted.
From Verif Require Import Py PyFacts PyText Biff BiffSpec BiffRecs Utf16 Utf16Spec NumFmt NumFmtSpec Cell Xlsb Xlsx XlsbSpec XlsbProofs XlsbParts PropsXlsb
  XlsxSpec XlsxProofs XlsxParts XlsxNorm PropsXlsx Sheets SheetsSpec SheetsProofs PropsSheets Casts Chunk ChunkSpec Utf8 Series SeriesSpec
  Reader ReaderSpec ReaderProofs ReaderSteps ReaderRead ReaderMore PropsReader Workbook WorkbookSpec WorkbookProofs PropsWorkbook PlacesSpec PlacesProofs.
From Coq Require Import ZifyBool ZifyNat.
Set Implicit Arguments. Unset Strict Implicit.

(** A sheet without cells gives no table. *)
Lemma no_table ro sc op outs tbl : sizes_ok op -> Cell.cells_of outs = [] -> read_trace ro sc op (outs, None) = Ok tbl -> False.
Proof.
  intros Sz E R. assert (L : listing (Cell.cells_of outs) []).
  { rewrite E. split; [constructor|]. intro k. split; [easy|]. intros (c & [] & _). }
  assert (S : sheet_ok (ro_o ro) sc (Cell.cells_of outs) = true) by now rewrite E.
  destruct (C52_content S L Sz R) as (tall & _ & _ & _ & [(k & [] & _) _] & _).
Qed.
Lemma sorted_flat A (g : A -> Z) (h : A -> list cell) l : (forall x c, In c (h x) -> c_col c = g x) ->
  (forall x, (List.length (h x) <= 1)%nat) -> StronglySorted Z.le (map g l) -> StronglySorted Z.le (map c_col (flat_map h l)).
Proof.
  intros H1 H2 S. induction l as [|x l IH]; [constructor|]. cbn [map flat_map] in *. inversion S as [|? ? S' Fa]; subst. specialize (H2 x). specialize (IH S').
  assert (B : forall c, In c (flat_map h l) -> g x <= c_col c).
  { intros c Hc. apply in_flat_map in Hc as (y & Hy & Hc). rewrite (H1 y c Hc). rewrite Forall_forall in Fa. apply Fa. now apply in_map. }
  destruct (h x) as [|c [|? ?]] eqn:E; cbn in H2; [exact IH| |lia]. cbn. constructor; [exact IH|].
  rewrite Forall_forall. intros k Hk. apply in_map_iff in Hk as (d & <- & Hd). rewrite (H1 x c) by (rewrite E; now left). now apply B.
Qed.

Section BOptions.
  Context (expat : bytes -> list event * option exn) (ro : roracle) (z : archive) (w : wopts) (sl : list sitem) (yl : list yitem) (rows : list brow) (tm : str -> bool).
  Local Notation nv := (xlsb_null (wo_nulls w)).
  Local Notation texts := (sitem_texts sl).
  Local Notation cols := (wo_cols w).
  Local Notation rs := (b_delivered texts nv cols (wo_tne w) (wo_skip w) (wo_take w) rows).
  Local Notation P := (b_at (ro_o ro) (b_time yl tm) (cell_xfs yl) texts nv cols rs).
  Local Notation sc := (mkSC (map Some texts) true (wo_conf w)).
  Context (F : xlsb_file expat z (wo_sheet w) sl yl rows) (Ids : forallb (fun f => f <? 256) (cell_xfs yl) = true)
    (Codes : forall i c, In (i, c) (custom_fmts yl) -> code_class c (tm c) /\ safe_length (n_units c) = true)
    (Sk : 0 <= wo_skip w) (Tk : 0 <= wo_take w) (Sw : starts_well texts nv cols (if wo_tne w then rows_from (wo_skip w) (wo_take w) rows else rows)).
  Lemma b_delivered_in x : In x rs -> In x rows.
  Proof.
    clear. unfold b_delivered. destruct (wo_tne w); [apply rows_from_in|]. destruct (0 <? wo_skip w); [easy|]. intro H. apply rows_from_in in H. now apply filter_In in H.
  Qed.
  Lemma b_window : exists (f : Z -> brow -> list cell) outs, (forall i x c, In c (f i x) -> c_row c = i) /\ Cell.cells_of outs = laid f rs /\
    sheet_ok (ro_o ro) sc (laid f rs) = true /\ (forall r k, 0 <= r -> at_row (ro_o ro) sc (content (laid f rs) k) r = P r k) /\
    (forall i x, StronglySorted Z.le (map b_col (row_cells x)) -> StronglySorted Z.le (map c_col (f i x))) /\
    forall op, read_book expat ro z w op = match laid f rs with [] => read_trace ro (mkSC [] true (wo_conf w)) op (outs, None) | _ => read_trace ro sc op (outs, None) end.
  Proof.
    assert (St : exists st, bbook_styles z = Ok st /\ forall k f, nth_error (cell_xfs yl) k = Some f -> mem_str (le2 (Z.of_nat k) ++ [0]) st = b_time yl tm f).
    { destruct F as [_ _ _ (st & Hm & Hs & Hn) _]. unfold bbook_styles. rewrite (member_open Hm). cbn [bind]. exact (@C14_styles_partial yl st tm Hs Hn Ids Codes). }
    destruct St as (st & Est & Hst). destruct (bbook_iter_rows F Est Sk Tk Sw) as (outs & Ei & El).
    set (f := expected_row (fun k => mem_str k st) nv (null_entry nv texts) cols) in *. exists f, outs.
    assert (R : forall x c, In x rs -> In c (row_cells x) -> refs_ok (cell_xfs yl) texts c).
    { intros x c Hx Hc. apply b_delivered_in in Hx. split; [exact (bfile_cells_ok F Hx Hc)|]. destruct F as [_ _ _ _ Rf]. exact (Rf x c Hx Hc). }
    split. { intros i x c Hc. unfold f, expected_row in Hc. apply in_flat_map in Hc as (b & _ & Hc). rewrite expected_shown in Hc.
      destruct (b_shown texts nv cols b); [destruct Hc as [<-|[]]; unfold b_cell; now destruct (b_val b)|easy]. }
    split; [exact El|]. split; [apply (@b_laid_ok (ro_o ro) (b_time yl tm) (cell_xfs yl) texts nv cols (wo_conf w) (fun k => mem_str k st) Hst rs R)|].
    split; [intros r k Hr; apply (@b_laid_at (ro_o ro) (b_time yl tm) (cell_xfs yl) texts nv cols (wo_conf w) (fun k => mem_str k st) Hst rs r k Hr R)|].
    split.
    { intros i x Srt. unfold f, expected_row. apply sorted_flat with (g := b_col); [| |exact Srt].
      - intros b c Hc. rewrite expected_shown in Hc. destruct (b_shown texts nv cols b); [destruct Hc as [<-|[]]; unfold b_cell; now destruct (b_val b)|easy].
      - intro b. rewrite expected_shown. destruct (b_shown texts nv cols b); cbn; lia. }
    intro op. unfold read_book. destruct F as [Hk (path & d & pre & e & post & part & B & _) _ _ _]. rewrite (absent_has Hk), (xlsb_book_kind B).
    rewrite Ei, (bbook_shared_ok F). cbn [bind fst]. unfold read_cells. cbn [fst]. rewrite El. destruct (laid f rs); reflexivity.
  Qed.
End BOptions.

Section XOptions.
  Context (expat : bytes -> list event * option exn) (ro : roracle) (z : archive) (w : wopts) (sl : list xsi) (yl : list ystyle) (rows : list xrow) (num tm : str -> bool).
  Local Notation nv := (xlsx_null (wo_nulls w)).
  Local Notation tab := (shared_table nv sl).
  Local Notation cols := (wo_cols w).
  Local Notation rs := (x_delivered nv cols (wo_tne w) (wo_skip w) (wo_take w) rows).
  Local Notation P := (x_at (ro_o ro) (x_class yl num tm) (z_xfs yl) tab nv cols rs).
  Local Notation sc := (mkSC tab false (wo_conf w)).
  Context (F : xlsx_file expat z (wo_sheet w) sl yl rows)
    (Codes : forall i c, In (i, c) (z_fmts yl) -> code_class c (tm c)
       /\ exists fs rest, existsb (Z.eqb ch_semi) fs = false /\ (c = fs \/ c = fs ++ ch_semi :: rest)
          /\ (num c = true <-> fs = s "0" \/ exists a b, fs = a ++ s ".00" ++ b))
    (Rd : x_readable (ro_o ro) (x_class yl num tm) (z_xfs yl) tab nv cols rs)
    (Sk : 0 <= wo_skip w) (Tk : 0 <= wo_take w).
  Lemma x_delivered_in x : In x rs -> In x rows.
  Proof.
    clear. unfold x_delivered. destruct (wo_tne w); [apply rows_from_in|]. destruct (0 <? wo_skip w); [easy|]. intro H. apply rows_from_in in H. unfold x_rows in H.
    rewrite <- (firstn_skipn (Z.to_nat (leading (x_row_shown nv cols) rows)) rows). apply in_or_app. now right.
  Qed.
  Lemma x_window : exists (f : Z -> xrow -> list cell) outs, (forall i x c, In c (f i x) -> c_row c = i) /\ Cell.cells_of outs = laid f rs /\
    sheet_ok (ro_o ro) sc (laid f rs) = true /\ (forall r k, 0 <= r -> at_row (ro_o ro) sc (content (laid f rs) k) r = P r k) /\
    (forall i x, In x rs -> StronglySorted Z.le (map x_col (xrow_cells x)) -> StronglySorted Z.le (map c_col (f i x))) /\
    (forall c, In c (laid f rs) -> exists t, scalars t = true /\ c_val c = VBytes (utf8 t)) /\
    forall op, read_book expat ro z w op = match laid f rs with [] => read_trace ro (mkSC [] false (wo_conf w)) op (outs, None) | _ => read_trace ro sc op (outs, None) end.
  Proof.
    assert (St : exists st, xbook_styles expat z = Ok st /\ forall k f, nth_error (z_xfs yl) k = Some f -> style_get st (dec (Z.of_nat k)) = kind_code (x_class yl num tm f)).
    { rewrite (xbook_styles_ok F). destruct F as [_ _ (_ & Hy)]. destruct (@C29_styles yl num tm Hy Codes) as (st & E & H). exists st. split; [exact E|].
      intros k f Hk. rewrite (H k f Hk). unfold x_class. cbv zeta. destruct (_ || _); [reflexivity|]. now destruct (_ || _). }
    destruct St as (st & Est & Hst). destruct (xbook_iter_rows F Est Sk Tk) as (outs & Ei & El).
    set (f := xexpected_row (style_get st) nv cols) in *. exists f, outs.
    split; [intros i x c Hc; apply in_flat_map in Hc as (b & _ & Hc); now apply xexpected_col in Hc|].
    split; [exact El|]. split; [apply (@x_laid_ok (ro_o ro) (x_class yl num tm) (z_xfs yl) tab nv cols (wo_conf w) (style_get st) Hst rs Rd)|].
    split; [intros r k Hr; apply (@x_laid_at (ro_o ro) (x_class yl num tm) (z_xfs yl) tab nv cols (wo_conf w) (style_get st) Hst rs r k Hr Rd)|].
    split.
    { intros i x Hx Srt. assert (G : forall l, (forall c, In c l -> In c (xrow_cells x)) -> StronglySorted Z.le (map x_col l) -> StronglySorted Z.le (map c_col (flat_map (xexpected (style_get st) nv cols i) l))).
      { clear Srt. intros l Sub S. induction l as [|c l IH]; [constructor|]. cbn [map flat_map] in *. inversion S as [|? ? S' Fa]; subst. specialize (IH (fun d Hd => Sub d (or_intror Hd)) S').
        assert (B : forall d, In d (flat_map (xexpected (style_get st) nv cols i) l) -> x_col c <= c_col d).
        { intros d Hd. apply in_flat_map in Hd as (y & Hy & Hd). apply xexpected_col in Hd as [-> _]. rewrite Forall_forall in Fa. apply Fa. now apply in_map. }
        assert (C : forall d, In d (xexpected (style_get st) nv cols i c) -> c_col d = x_col c) by (intros d Hd; now apply xexpected_col in Hd).
        revert C. generalize (xexpected (style_get st) nv cols i c). intros m C. induction m as [|d m IHm]; [exact IH|]. cbn. constructor; [apply IHm; intros; apply C; now right|].
        rewrite Forall_forall. intros k Hk. apply in_map_iff in Hk as (e & <- & He). rewrite (C d) by now left. apply in_app_iff in He. destruct He as [He|He]; [rewrite (C e) by (now right); lia|now apply B]. }
      apply G; [easy|exact Srt]. }
    split; [intros c Hc; apply (@x_laid_text (ro_o ro) (x_class yl num tm) (z_xfs yl) tab nv cols (style_get st) rs c Rd Hc)|].
    intro op. unfold read_book. destruct (xf_sheet F) as (path & d & es & B & _). rewrite (xlsx_book_kind B).
    rewrite Ei, (xbook_shared_ok F), shared_table_ok by apply F. cbn [bind fst]. unfold read_cells. cbn [fst]. rewrite El. destruct (laid f rs); reflexivity.
  Qed.
End XOptions.

(** Full claim: as for [C71_xlsb_partial].  Proved here, without restriction on the row window,
    the header, the lookup, the row filter, the types asked for, the conversion mode and the
    shape of the sheet: whatever table is returned is the one of the delivered rows. *)
Theorem C71_xlsb_options_partial expat ro z w sl yl rows (tm : str -> bool) ks op tbl :
  let nv := xlsb_null (wo_nulls w) in let texts := sitem_texts sl in
  let rs := b_delivered texts nv (wo_cols w) (wo_tne w) (wo_skip w) (wo_take w) rows in
  let P := b_at (ro_o ro) (b_time yl tm) (cell_xfs yl) texts nv (wo_cols w) rs in
  xlsb_file expat z (wo_sheet w) sl yl rows ->
  forallb (fun f => f <? 256) (cell_xfs yl) = true ->
  (forall i c, In (i, c) (custom_fmts yl) -> code_class c (tm c) /\ safe_length (n_units c) = true) ->
  0 <= wo_skip w -> 0 <= wo_take w ->
  starts_well texts nv (wo_cols w) (if wo_tne w then rows_from (wo_skip w) (wo_take w) rows else rows) ->
  has_columns P (zlen rs) ks -> sizes_ok op -> (forall t, r_lookup op = Some (LText t) -> b_sorted rows) ->
  read_book expat ro z w op = Ok tbl -> table_of (wo_conf w) P (zlen rs) op ks tbl.
Proof.
  intros nv texts rs P F Ids Codes Sk Tk Sw K Sz Srt R. destruct (@b_window expat ro z w sl yl rows tm F Ids Codes Sk Tk Sw) as (f & outs & Hf & El & S & HP & So & Rb).
  rewrite Rb in R. destruct (laid f _) eqn:E in R; [exfalso; exact (no_table Sz (eq_trans El E) R)|].
  apply (@p_table _ f Hf ro (mkSC (map Some texts) true (wo_conf w)) rs P ks S HP K op outs tbl El Sz); [|exact R].
  intros t Lt i x Hx. apply So, (Srt t Lt). now apply b_delivered_in in Hx.
Qed.
Print Assumptions C71_xlsb_options_partial.
Theorem C71_xlsx_options_partial expat ro z w sl yl rows (num tm : str -> bool) ks op tbl :
  let nv := xlsx_null (wo_nulls w) in let tab := shared_table nv sl in
  let rs := x_delivered nv (wo_cols w) (wo_tne w) (wo_skip w) (wo_take w) rows in
  let P := x_at (ro_o ro) (x_class yl num tm) (z_xfs yl) tab nv (wo_cols w) rs in
  xlsx_file expat z (wo_sheet w) sl yl rows ->
  (forall i c, In (i, c) (z_fmts yl) -> code_class c (tm c)
     /\ exists fs rest, existsb (Z.eqb ch_semi) fs = false /\ (c = fs \/ c = fs ++ ch_semi :: rest)
        /\ (num c = true <-> fs = s "0" \/ exists a b, fs = a ++ s ".00" ++ b)) ->
  x_readable (ro_o ro) (x_class yl num tm) (z_xfs yl) tab nv (wo_cols w) rs ->
  0 <= wo_skip w -> 0 <= wo_take w ->
  has_columns P (zlen rs) ks -> sizes_ok op -> (forall t, r_lookup op = Some (LText t) -> x_sorted rows) ->
  read_book expat ro z w op = Ok tbl -> table_of (wo_conf w) P (zlen rs) op ks tbl.
Proof.
  intros nv tab rs P F Codes Rd Sk Tk K Sz Srt R. destruct (@x_window expat ro z w sl yl rows num tm F Codes Rd Sk Tk) as (f & outs & Hf & El & S & HP & So & _ & Rb).
  rewrite Rb in R. destruct (laid f _) eqn:E in R; [exfalso; exact (no_table Sz (eq_trans El E) R)|].
  apply (@p_table _ f Hf ro (mkSC tab false (wo_conf w)) rs P ks S HP K op outs tbl El Sz); [|exact R].
  intros t Lt i x Hx. apply So; [exact Hx|]. apply (Srt t Lt). now apply x_delivered_in in Hx.
Qed.
Print Assumptions C71_xlsx_options_partial.

(** Plain options: on any window a table is returned. *)
Theorem C71_xlsb_window_partial expat ro z w sl yl rows (tm : str -> bool) ks op h :
  let nv := xlsb_null (wo_nulls w) in let texts := sitem_texts sl in
  let rs := b_delivered texts nv (wo_cols w) (wo_tne w) (wo_skip w) (wo_take w) rows in
  let P := b_at (ro_o ro) (b_time yl tm) (cell_xfs yl) texts nv (wo_cols w) rs in
  xlsb_file expat z (wo_sheet w) sl yl rows ->
  forallb (fun f => f <? 256) (cell_xfs yl) = true ->
  (forall i c, In (i, c) (custom_fmts yl) -> code_class c (tm c) /\ safe_length (n_units c) = true) ->
  0 <= wo_skip w -> 0 <= wo_take w ->
  starts_well texts nv (wo_cols w) (if wo_tne w then rows_from (wo_skip w) (wo_take w) rows else rows) ->
  columns_of P (zlen rs) ks -> reaches P (zlen rs) ->
  plain op -> r_header op = HInt h -> 0 <= h -> 0 <= r_skip_after op -> h + r_skip_after op < zlen rs ->
  cf_datetime (wo_conf w) = false ->
  exists tbl, read_book expat ro z w op = Ok tbl /\ table_shows (wo_conf w) P (zlen rs) ks h (h + r_skip_after op) tbl.
Proof.
  intros nv texts rs P F Ids Codes Sk Tk Sw K Re Pl Hh Hh0 Hs Hn Hd. destruct (@b_window expat ro z w sl yl rows tm F Ids Codes Sk Tk Sw) as (f & outs & Hf & El & S & HP & _ & Rb).
  destruct (@places_table _ f Hf ro _ rs P ks S HP K op outs h El Re Pl Hh Hh0 Hs Hn Hd) as (tbl & Ht & T). exists tbl. split; [|exact T].
  rewrite Rb. destruct Re as (k & H0 & _). destruct (@filled_place _ f ro _ rs P HP 0 k (Z.le_refl 0) H0) as (c & Hc & _).
  apply content_cell in Hc. fold texts nv rs. destruct (laid f rs); [easy|exact Ht].
Qed.
Print Assumptions C71_xlsb_window_partial.
Theorem C71_xlsx_window_partial expat ro z w sl yl rows (num tm : str -> bool) ks op h :
  let nv := xlsx_null (wo_nulls w) in let tab := shared_table nv sl in
  let rs := x_delivered nv (wo_cols w) (wo_tne w) (wo_skip w) (wo_take w) rows in
  let P := x_at (ro_o ro) (x_class yl num tm) (z_xfs yl) tab nv (wo_cols w) rs in
  xlsx_file expat z (wo_sheet w) sl yl rows ->
  (forall i c, In (i, c) (z_fmts yl) -> code_class c (tm c)
     /\ exists fs rest, existsb (Z.eqb ch_semi) fs = false /\ (c = fs \/ c = fs ++ ch_semi :: rest)
        /\ (num c = true <-> fs = s "0" \/ exists a b, fs = a ++ s ".00" ++ b)) ->
  x_readable (ro_o ro) (x_class yl num tm) (z_xfs yl) tab nv (wo_cols w) rs ->
  0 <= wo_skip w -> 0 <= wo_take w ->
  columns_of P (zlen rs) ks -> reaches P (zlen rs) ->
  plain op -> r_header op = HInt h -> 0 <= h -> 0 <= r_skip_after op -> h + r_skip_after op < zlen rs ->
  cf_datetime (wo_conf w) = false ->
  exists tbl, read_book expat ro z w op = Ok tbl /\ table_shows (wo_conf w) P (zlen rs) ks h (h + r_skip_after op) tbl.
Proof.
  intros nv tab rs P F Codes Rd Sk Tk K Re Pl Hh Hh0 Hs Hn Hd. destruct (@x_window expat ro z w sl yl rows num tm F Codes Rd Sk Tk) as (f & outs & Hf & El & S & HP & _ & _ & Rb).
  destruct (@places_table _ f Hf ro _ rs P ks S HP K op outs h El Re Pl Hh Hh0 Hs Hn Hd) as (tbl & Ht & T). exists tbl. split; [|exact T].
  rewrite Rb. destruct Re as (k & H0 & _). destruct (@filled_place _ f ro _ rs P HP 0 k (Z.le_refl 0) H0) as (c & Hc & _).
  apply content_cell in Hc. fold nv tab rs. destruct (laid f rs); [easy|exact Ht].
Qed.
Print Assumptions C71_xlsx_window_partial.

(** ** Examples *)
Definition win (skip take : Z) (tne : bool) : wopts := mkWO (SName (s "Data")) skip take tne [] NNone plain_conf true.
(** The header is searched for by its text, rows without an "age" are left out. *)
Definition opts_find : ropts := mkR (HInt 1) DTNone 0 (Some (LText (s "name"))) 4 (FTexts [s "age"]) SOr.
Example C71_xlsb_options_example :
  show_table (read_book exb_expat ex_ro (exb_files exb_rows exb_sl) (win 0 0 true) opts_find) =
    Ok [(s "name", (34, None, [Some (inl (s "x")); Some (inl (s "z"))])); (s "age", (9, None, [Some (inr 7); Some (inr 9)]))] /\
  show_table (read_book exb_expat ex_ro (exb_files exb_rows exb_sl) (win 1 2 true) opts0) =
    Ok [(s "Unnamed. 0", (34, None, [Some (inl (s "x")); None; Some (inl (s "z"))])); (s "Unnamed. 1", (9, None, [Some (inr 7); None; Some (inr 9)]))] /\
  show_table (read_book exb_expat ex_ro (exb_files exb_rows exb_sl) (win 0 1 true) opts1) =
    Ok [(s "name", (34, None, [Some (inl (s "x"))])); (s "age", (9, None, [Some (inr 7)]))] /\
  show_table (read_book (exx_expat exx_rows) ex_ro exx_files (win 0 0 true) opts_find) =
    Ok [(s "name", (34, None, [Some (inl (s "x")); Some (inl (s "z"))])); (s "age", (9, None, [Some (inr 1); Some (inr 43831)]))] /\
  show_table (read_book (exx_expat exx_rows) ex_ro exx_files (win 1 0 true) opts0) =
    Ok [(s "Unnamed. 0", (34, None, [Some (inl (s "x")); None; Some (inl (s "z"))])); (s "Unnamed. 1", (9, None, [Some (inr 1); None; Some (inr 43831)]))].
Proof. split; [|split; [|split; [|split]]]; vm_compute; reflexivity. Qed.
(** The hypotheses: the whole sheet ([C71_xlsb_example_hyps], [C71_xlsx_example_hyps]) and a window. *)
Lemma not_null t : match fst (fst t) with KNull => false | _ => true end = true -> t <> tnull.
Proof. intros H ->. discriminate. Qed.
Example C71_options_example_hyps : b_sorted exb_rows /\ x_sorted exx_rows /\ sizes_ok opts_find /\
  let rs := b_delivered (sitem_texts exb_sl) (xlsb_null NNone) [] true 1 2 exb_rows in
  let P := b_at PropsSeries.ex_o2 (b_time exb_yl (fun _ => true)) (cell_xfs exb_yl) (sitem_texts exb_sl) (xlsb_null NNone) [] rs in
  starts_well (sitem_texts exb_sl) (xlsb_null NNone) [] (rows_from 1 2 exb_rows) /\ has_columns P (zlen rs) [0; 2] /\ reaches P (zlen rs) /\ zlen rs = 3.
Proof.
  split; [intros r H; in_cases; repeat constructor; cbn; lia|]. split; [intros r H; in_cases; repeat constructor; cbn; lia|].
  split; [split; [cbn; lia|split; [intros m E; inversion E; lia|cbn; lia]]|].
  cbv zeta. split; [reflexivity|]. split.
  { split; [repeat constructor|]. intro k. split.
    - intros [<-|[<-|[]]]; exists 0; (split; [vm_compute; split; [discriminate|reflexivity]|apply not_null; vm_compute; reflexivity]).
    - intros (r & Hr & N). assert (D : r = 0 \/ r = 1 \/ r = 2) by (change (0 <= r < 3) in Hr; lia). clear Hr. destruct (Z.eq_dec k 0) as [->|K0]; [now left|]. destruct (Z.eq_dec k 2) as [->|K2]; [now right; left|].
      exfalso. apply N. unfold b_at. change (b_delivered _ _ _ true 1 2 exb_rows) with (skipn 1 exb_rows). cbn [skipn exb_rows].
      destruct D as [D|[D|D]]; subst r; [change (Z.to_nat 0) with 0%nat|change (Z.to_nat 1) with 1%nat|change (Z.to_nat 2) with 2%nat]; cbn [nth_error];
        try reflexivity; cbn [row_cells row_of item_cells snd map flat_map app find bc b_col];
        replace (0 =? k) with false by lia; replace (2 =? k) with false by lia; reflexivity. }
  split; [exists 0; split; apply not_null; vm_compute; reflexivity|reflexivity].
Qed.
