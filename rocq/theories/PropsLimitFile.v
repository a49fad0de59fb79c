(** C109 for whole files. *)
From Verif Require Import Py PyFacts PyText Biff BiffSpec BiffProofs BiffAny BiffRecs Utf16 Cell Xlsb Xlsx XlsbSpec Sheets SheetsSpec XlsxSpec RobustSpec Reader Workbook XlsbParts PropsReader PropsWorkbook PropsLimit.
From Coq Require Import ZifyBool.
Set Implicit Arguments. Unset Strict Implicit.

(** Two archives with the same members, and the same contents except for [p]. *)
Definition but_for (p : str) (z z' : archive) : Prop := map fst z = map fst z' /\ forall q, q <> p -> zopen z q = zopen z' q.
Definition own_part (p : str) : Prop :=
  ~ In p (map s ["xl/_rels/workbook.bin.rels"; "xl/workbook.bin"; "xl/sharedStrings.bin"; "xl/styles.bin"; "xl/_rels/workbook.xml.rels"; "xl/workbook.xml"; "xl/sharedStrings.xml"; "xl/styles.xml"]%string).

Lemma but_others p z z' : but_for p z z' -> own_part p -> forall q,
  In q (map s ["xl/_rels/workbook.bin.rels"; "xl/workbook.bin"; "xl/sharedStrings.bin"; "xl/styles.bin"; "xl/_rels/workbook.xml.rels"; "xl/workbook.xml"; "xl/sharedStrings.xml"; "xl/styles.xml"]%string) ->
  zopen z q = zopen z' q.
Proof. intros [_ B] O q Q. apply B. intros ->. now apply O. Qed.

(** The keys of null strings, as the table of the file gives them. *)
Definition nulls_in (z : archive) (w : wopts) : bytes -> bool :=
  match bbook_shared z (xlsb_null (wo_nulls w)) with Ok (_, keys) => fun k => mem_str k keys | Err _ => fun _ => false end.
(** The sheet part of the second file is that of the first up to the first row mark behind the
    limit; from there on it is any bytes. *)
Theorem C109_xlsb_file expat ro z z' w op p d rs b r m c t t' :
  but_for p z z' -> own_part p -> has_member z (s "xl/workbook.xml") = false ->
  bbook_sheets expat z = Ok d -> select_sheet d (wo_sheet w) = Ok p ->
  zopen z p = Ok (b ++ m ++ t) -> zopen z' p = Ok (b ++ m ++ t') -> framed rs b -> frame r m -> rec_id r = 0 -> bytes_ok t = true -> bytes_ok t' = true ->
  0 <= wo_skip w -> 0 <= wo_take w -> 0 < wo_take w + wo_skip w ->
  In c (Cell.cells_of (fst (xlsb_iter (bbook_styles z) (xlsb_null (wo_nulls w)) (filled_after_first (nulls_in z w)) (wo_skip w) (wo_take w) (wo_tne w) (wo_cols w) b))) -> wo_take w <= c_row c ->
  read_book expat ro z w op = read_book expat ro z' w op.
Proof.
  intros B O Nx Ed Es Ez Ez' F M R T T' K0 T0 X Hc L. pose proof (but_others B O) as Q. destruct B as [Bm B].
  assert (S : bbook_sheets expat z = bbook_sheets expat z') by (unfold bbook_sheets; rewrite !Q by (cbn; tauto); reflexivity).
  assert (Y : bbook_styles z = bbook_styles z') by (unfold bbook_styles; rewrite Q by (cbn; tauto); reflexivity).
  assert (H : forall nv, bbook_shared z nv = bbook_shared z' nv) by (intro nv; unfold bbook_shared; rewrite Q by (cbn; tauto); reflexivity).
  assert (I : bbook_iter expat z w = bbook_iter expat z' w).
  { unfold bbook_iter. rewrite <- S, <- H, <- Y, Ed. cbn [bind]. rewrite Es. cbn [bind]. replace (wo_skip w <? 0) with false by lia. replace (wo_take w <? 0) with false by lia. rewrite Ez, Ez'.
    etransitivity; [exact (@C109_xlsb _ _ _ _ _ _ _ rs b r m c t F M R T K0 T0 X Hc L)|]. symmetry. exact (@C109_xlsb _ _ _ _ _ _ _ rs b r m c t' F M R T' K0 T0 X Hc L). }
  unfold read_book, has_member in *. rewrite <- Bm, Nx, I, H. reflexivity.
Qed.
Print Assumptions C109_xlsb_file.

(** The events of the two sheet parts agree up to the end of a row behind the limit. *)
Theorem C109_xlsx_file expat ro z z' w op p d b b' st es g c t t' f f' :
  but_for p z z' -> own_part p -> has_member z (s "xl/workbook.xml") = true ->
  xbook_sheets expat z = Ok d -> select_sheet d (wo_sheet w) = Ok p -> xbook_styles expat z = Ok st ->
  zopen z p = Ok b -> zopen z' p = Ok b' -> expat b = (es ++ EEnd (s "row") :: t, f) -> expat b' = (es ++ EEnd (s "row") :: t', f') ->
  0 <= wo_skip w -> 0 <= wo_take w -> 0 < wo_take w + wo_skip w ->
  let o := fst (xlsx_iter (style_get st) (xlsx_null (wo_nulls w)) (wo_skip w) (wo_take w) (wo_tne w) (wo_cols w) es g) in
  In c (Cell.cells_of o) -> wo_take w + (if wo_tne w then 2 * (calls_before o - 1) else 0) <= c_row c ->
  read_book expat ro z w op = read_book expat ro z' w op.
Proof.
  intros B O Nx Ed Es Ey Ez Ez' Ee Ee' K0 T0 X o Hc L. pose proof (but_others B O) as Q. destruct B as [Bm B].
  assert (S : xbook_sheets expat z = xbook_sheets expat z') by (unfold xbook_sheets; rewrite !Q by (cbn; tauto); reflexivity).
  assert (Y : xbook_styles expat z = xbook_styles expat z') by (unfold xbook_styles; rewrite Q by (cbn; tauto); reflexivity).
  assert (H : forall nv, xbook_shared expat z nv = xbook_shared expat z' nv) by (intro nv; unfold xbook_shared; rewrite Q by (cbn; tauto); reflexivity).
  assert (I : xbook_iter expat z w = xbook_iter expat z' w).
  { unfold xbook_iter. rewrite <- S, <- Y, Ed. cbn [bind]. rewrite Es. cbn [bind]. replace (wo_skip w <? 0) with false by lia. replace (wo_take w <? 0) with false by lia. rewrite Ez, Ez', Ey. cbn [bind].
    rewrite Ee, Ee'. f_equal. f_equal. exact (@C109_xlsx _ _ _ _ _ _ es g c t t' f f' K0 T0 X Hc L). }
  unfold read_book, has_member in *. rewrite <- Bm, Nx, I, H. reflexivity.
Qed.
Print Assumptions C109_xlsx_file.
(** Two rows are asked for; behind the third row mark one file goes on with another row, the other
    with bytes that are no record. *)
Definition limit_w : wopts := mkWO (SName (s "Data")) 0 1 false [] NNone plain_conf true.
Definition limit_files (t : bytes) : archive :=
  [(s "xl/_rels/workbook.bin.rels", [1]); (s "xl/workbook.bin", dumped (map bitem_record exb_bl));
   (s "xl/worksheets/sheet1.bin", [0; 0; 2; 12; 0; 0; 0; 0; 0; 0; 0; 0; 22; 0; 0; 0; 0; 0; 2; 12; 0; 0; 0; 0; 0; 0; 0; 0; 26; 0; 0; 0] ++ [0; 0] ++ t);
   (s "xl/styles.bin", dumped (map yitem_record exb_yl)); (s "xl/sharedStrings.bin", dumped (map sitem_record exb_sl))].
Example C109_xlsb_file_example : let z := limit_files [2; 12; 0; 0; 0; 0; 0; 0; 0; 0; 30; 0; 0; 0] in let z' := limit_files [2; 12; 7; 255] in
  but_for (s "xl/worksheets/sheet1.bin") z z' /\ own_part (s "xl/worksheets/sheet1.bin") /\
  bbook_sheets exb_expat z = Ok [(s "Data", s "xl/worksheets/sheet1.bin")] /\
  show_table (read_book exb_expat ex_ro z limit_w opts0) = Ok [(s "Unnamed. 0", (18, None, [Some (inr (-2208643200000)); Some (inr (-2208556800000))]))] /\
  show_table (read_book exb_expat ex_ro z' limit_w opts0) = Ok [(s "Unnamed. 0", (18, None, [Some (inr (-2208643200000)); Some (inr (-2208556800000))]))].
Proof.
  cbv zeta. split; [split; [reflexivity|]|].
  - intros q N. unfold limit_files, zopen. cbn [dget fst snd]. destruct (str_eqb q (s "xl/worksheets/sheet1.bin")) eqn:E; [apply str_eqb_eq in E; congruence|].
    destruct (str_eqb (s "xl/worksheets/sheet1.bin") q) eqn:E2; [apply str_eqb_eq in E2; congruence|]. reflexivity.
  - split; [intro H; repeat (destruct H as [H|H]; [discriminate H|]); exact H|]. split; [vm_compute; reflexivity|]. split; vm_compute; reflexivity.
Qed.
(** The second row is the last one asked for; then one sheet goes on and the other is cut off. *)
Definition limit_expat := ex_expat
  [(1, flat_map ritem_events exx_rl); (2, flat_map witem_events exx_wl); (3, xrow_of "A1" "5" ++ xrow_of "A2" "6" ++ xrow_of "A3" "7"); (4, flat_map ystyle_events exx_yl); (5, flat_map xsi_events exx_sl);
   (6, xrow_of "A1" "5" ++ xrow_of "A2" "6")].
Definition limit_xfiles (p : Z) : archive :=
  [(s "xl/_rels/workbook.xml.rels", [1]); (s "xl/workbook.xml", [2]); (s "xl/worksheets/sheet1.xml", [p]); (s "xl/styles.xml", [4]); (s "xl/sharedStrings.xml", [5])].
Example C109_xlsx_file_example : let z := limit_xfiles 3 in let z' := limit_xfiles 6 in
  but_for (s "xl/worksheets/sheet1.xml") z z' /\ own_part (s "xl/worksheets/sheet1.xml") /\
  xbook_sheets limit_expat z = Ok [(s "Data", s "xl/worksheets/sheet1.xml")] /\
  show_table (read_book limit_expat ex_ro z limit_w opts0) = Ok [(s "Unnamed. 0", (34, None, [Some (inl (s "5")); Some (inl (s "6"))]))] /\
  show_table (read_book limit_expat ex_ro z' limit_w opts0) = Ok [(s "Unnamed. 0", (34, None, [Some (inl (s "5")); Some (inl (s "6"))]))].
Proof.
  cbv zeta. split; [split; [reflexivity|]|].
  - intros q N. unfold limit_xfiles, zopen. cbn [dget fst snd]. destruct (str_eqb q (s "xl/worksheets/sheet1.xml")) eqn:E; [apply str_eqb_eq in E; congruence|].
    destruct (str_eqb (s "xl/worksheets/sheet1.xml") q) eqn:E2; [apply str_eqb_eq in E2; congruence|]. reflexivity.
  - split; [intro H; repeat (destruct H as [H|H]; [discriminate H|]); exact H|]. split; [vm_compute; reflexivity|]. split; vm_compute; reflexivity.
Qed.
