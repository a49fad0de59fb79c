(** Claim C93: damaged files. *)
From Verif Require Import Py PyFacts PyText Biff BiffSpec BiffProofs BiffRecs Utf16 Utf16Spec NumFmt NumFmtSpec Cell Xlsb Xlsx XlsbSpec XlsbProofs XlsbParts PropsBiff PropsXlsb
  XlsxSpec XlsxProofs XlsxParts XlsxNorm PropsXlsx Sheets SheetsSpec SheetsProofs PropsSheets Casts Chunk ChunkSpec Utf8 Series SeriesSpec
  Reader ReaderSpec ReaderProofs ReaderSteps ReaderRead ReaderMore PropsReader Workbook WorkbookSpec WorkbookProofs PropsWorkbook.
From Coq Require Import ZifyBool ZifyNat.
Set Implicit Arguments. Unset Strict Implicit.

(** The archive with other content in the members of one name. *)
Definition replaced (z : archive) (n : str) (b : bytes) : archive := map (fun p => if str_eqb n (fst p) then (fst p, b) else p) z.

Lemma no_cells ro sc op t : Cell.cells_of (fst t) = [] -> exists e, read_trace ro sc op t = Err e.
Proof.
  intro H. destruct t as [outs e]. unfold read_trace. cbn [fst snd] in *.
  assert (C : collect ro sc [] outs = Ok []). { induction outs as [|[c|] outs IH]; [reflexivity|discriminate|exact (IH H)]. }
  rewrite C. cbn [bind]. destruct e as [e|]; [now exists e|]. eexists. reflexivity.
Qed.
Lemma read_cells_failed ro binary sh w op t e : sh = Err e -> exists e', @read_cells ro binary sh w op t = Err e'.
Proof. intros ->. unfold read_cells. destruct (Cell.cells_of (fst t)) eqn:E; [now apply no_cells|]. eexists. reflexivity. Qed.
Lemma read_cells_started ro binary sh w op e : exists e', @read_cells ro binary sh w op ([], Some e) = Err e'.
Proof. eexists. reflexivity. Qed.
Lemma parse_failed A (expat : bytes -> list event * option exn) (f : list event -> res A) b es e : expat b = (es, Some e) ->
  exists e', parse expat f b = Err e' /\ (e' = e \/ f es = Err e').
Proof. intro H. unfold parse. rewrite H. destruct (f es) as [a|e'] eqn:E; cbn [bind]; [exists e|exists e']; split; auto. Qed.

(** ** C93 *)
(** .xlsx: with an ill-formed relationships, workbook, styles or shared strings part no table
    is returned. *)
Theorem C93_xlsx_parts expat ro z w op n b es e wb :
  In n [s "xl/_rels/workbook.xml.rels"; s "xl/workbook.xml"; s "xl/styles.xml"; s "xl/sharedStrings.xml"] ->
  member z (s "xl/workbook.xml") wb -> member z n b -> expat b = (es, Some e) ->
  exists e', read_book expat ro z w op = Err e'.
Proof.
  intros Hn Hw Hm He. unfold read_book. rewrite (member_has Hw). destruct Hn as [<-|[<-|[<-|[<-|[]]]]].
  - unfold xbook_iter, xbook_sheets. rewrite (member_open Hm). cbn [bind]. destruct (parse_failed scan_rels He) as (x & -> & _). apply read_cells_started.
  - unfold xbook_iter, xbook_sheets. destruct (zopen z (s "xl/_rels/workbook.xml.rels")) as [rb|]; cbn [bind]; [|apply read_cells_started].
    destruct (parse expat scan_rels rb) as [rels|]; cbn [bind]; [|apply read_cells_started]. rewrite (member_open Hm). cbn [bind].
    destruct (parse_failed (fun es => xlsx_names es []) He) as (x & -> & _). apply read_cells_started.
  - unfold xbook_iter. destruct (xbook_sheets expat z) as [d|]; cbn [bind]; [|apply read_cells_started]. destruct (select_sheet d (wo_sheet w)) as [p|]; cbn [bind]; [|apply read_cells_started].
    destruct (wo_skip w <? 0); [apply read_cells_started|]. destruct (wo_take w <? 0); [apply read_cells_started|]. destruct (zopen z p) as [c|]; cbn [bind]; [|apply read_cells_started].
    unfold xbook_styles. rewrite (member_open Hm). cbn [bind]. destruct (parse_failed (fun es => xlsx_scan_styles es [] []) He) as (x & -> & _). apply read_cells_started.
  - eapply read_cells_failed. unfold xbook_shared. rewrite (member_open Hm). cbn [bind]. unfold parse. rewrite He. reflexivity.
Qed.
Print Assumptions C93_xlsx_parts.
(** The relationships part of both formats; what precedes the damage being legible, the
    parser's own error is raised. *)
Theorem C93_relations expat ro z w op b rl e :
  (exists wb, member z (s "xl/workbook.xml") wb /\ member z (s "xl/_rels/workbook.xml.rels") b) \/
  (exists wb, absent z (s "xl/workbook.xml") /\ member z (s "xl/workbook.bin") wb /\ member z (s "xl/_rels/workbook.bin.rels") b) ->
  forallb ritem_ok rl = true -> expat b = (flat_map ritem_events rl, Some e) ->
  read_book expat ro z w op = Err e.
Proof.
  intros H Hr He. assert (P : parse expat scan_rels b = Err e) by (unfold parse; rewrite He, scan_rels_ok by exact Hr; reflexivity).
  unfold read_book. destruct H as [(wb & Hw & Hm)|(wb & Ab & Hw & Hm)].
  - rewrite (member_has Hw). unfold xbook_iter, xbook_sheets. rewrite (member_open Hm). cbn [bind]. rewrite P. reflexivity.
  - rewrite (absent_has Ab), (member_has Hw). unfold bbook_iter, bbook_sheets. cbv zeta. rewrite (member_open Hm). cbn [bind]. rewrite P. reflexivity.
Qed.
Print Assumptions C93_relations.

Lemma replaced_open z n b m : zopen (replaced z n b) m = match zopen z m with Ok c => Ok (if str_eqb n m then b else c) | Err e => Err e end.
Proof.
  unfold zopen, replaced. induction z as [|[k c] z IH]; [reflexivity|]. cbn [map dget fst]. destruct (str_eqb n k) eqn:E; cbn [dget fst].
  - apply str_eqb_eq in E. subst k. destruct (str_eqb m n) eqn:F.
    + apply str_eqb_eq in F. subst m. now rewrite str_eqb_refl.
    + exact IH.
  - destruct (str_eqb m k) eqn:F; [|exact IH]. apply str_eqb_eq in F. subst k. now rewrite E.
Qed.
Lemma replaced_has z n b m : has_member (replaced z n b) m = has_member z m.
Proof. unfold has_member, replaced. rewrite map_map. f_equal. apply map_ext. intros [k c]. cbn. now destruct (str_eqb n k). Qed.

(** The sheet part itself: an .xlsx sheet that breaks off is read like one that ends there. *)
Theorem C93_xlsx_sheet_refuted expat ro z w op path b b' es e :
  ~ In path [s "xl/_rels/workbook.xml.rels"; s "xl/workbook.xml"; s "xl/styles.xml"; s "xl/sharedStrings.xml"] ->
  has_member z (s "xl/workbook.xml") = true ->
  expat b = (es, Some e) -> expat b' = (es, None) ->
  read_book expat ro (replaced z path b) w op = read_book expat ro (replaced z path b') w op.
Proof.
  intros Hp Hx Eb Eb'. unfold read_book. rewrite !replaced_has, Hx.
  assert (Op : forall n, In n [s "xl/_rels/workbook.xml.rels"; s "xl/workbook.xml"; s "xl/styles.xml"; s "xl/sharedStrings.xml"] -> zopen (replaced z path b) n = zopen (replaced z path b') n).
  { intros n Hn. rewrite !replaced_open. destruct (str_eqb path n) eqn:E; [apply str_eqb_eq in E; subst; contradiction|reflexivity]. }
  assert (S : xbook_shared expat (replaced z path b) (xlsx_null (wo_nulls w)) = xbook_shared expat (replaced z path b') (xlsx_null (wo_nulls w))).
  { unfold xbook_shared. rewrite Op by (do 3 right; now left). reflexivity. }
  assert (I : xbook_iter expat (replaced z path b) w = xbook_iter expat (replaced z path b') w).
  { unfold xbook_iter. assert (D : xbook_sheets expat (replaced z path b) = xbook_sheets expat (replaced z path b')).
    { unfold xbook_sheets. rewrite !(Op (s "xl/_rels/workbook.xml.rels")), !(Op (s "xl/workbook.xml")) by (cbn; auto). reflexivity. }
    rewrite D. destruct (xbook_sheets expat (replaced z path b')) as [d|]; cbn [bind]; [|reflexivity]. destruct (select_sheet d (wo_sheet w)) as [p|]; cbn [bind]; [|reflexivity].
    destruct (wo_skip w <? 0) eqn:Sk; [reflexivity|]. destruct (wo_take w <? 0) eqn:Tk; [reflexivity|]. rewrite !replaced_open. destruct (zopen z p) as [c|]; cbn [bind]; [|reflexivity].
    assert (St : xbook_styles expat (replaced z path b) = xbook_styles expat (replaced z path b')) by (unfold xbook_styles; rewrite Op by (do 2 right; now left); reflexivity).
    rewrite St. destruct (xbook_styles expat (replaced z path b')) as [st|]; cbn [bind]; [|reflexivity]. destruct (str_eqb path p); [|reflexivity]. rewrite Eb, Eb'.
    unfold xlsx_iter. rewrite Sk, Tk. unfold worker.
    assert (G : forall es w0, fst (worker_loop (style_get st) (xlsx_null (wo_nulls w)) (wo_skip w) (wo_tne w) (wo_cols w) es (Some e) w0)
              = fst (worker_loop (style_get st) (xlsx_null (wo_nulls w)) (wo_skip w) (wo_tne w) (wo_cols w) es None w0)).
    { clear. induction es as [|[t a|t|t] es IH]; intro v; cbn [worker_loop].
      - reflexivity.
      - destruct (cell_sh _ _ v t a); [apply IH|reflexivity].
      - destruct (cell_th _ _ _ v t) as [v' o]. specialize (IH v'). destruct (worker_loop _ _ _ _ _ es (Some e) v'), (worker_loop _ _ _ _ _ es None v'). cbn [fst] in *. now rewrite IH.
      - destruct (cell_eh _ v t) as [[v' o] []]; [reflexivity|]. specialize (IH v'). destruct (worker_loop _ _ _ _ _ es (Some e) v'), (worker_loop _ _ _ _ _ es None v'). cbn [fst] in *. now rewrite IH. }
    specialize (G es (mkW 0 true (wo_take w + wo_skip w) 0 0 [] None)).
    destruct (worker_loop _ _ _ _ _ es (Some e) _), (worker_loop _ _ _ _ _ es None _). cbn [fst] in *. now rewrite G. }
  now rewrite S, I.
Qed.
Print Assumptions C93_xlsx_sheet_refuted.

(** .xlsb: any binary part that breaks off, at any byte, is read like the complete part made
    of the records before the break. *)
Lemma scan_cut rs b k : forallb rec_ok rs = true -> dump_all rs = Ok b -> exists b', dump_all (fitting (Z.of_nat k) rs) = Ok b' /\
  forall i ids, scan_part (i :: ids) (firstn k b) = scan_part (i :: ids) b'.
Proof.
  intros Hr Hd. assert (F : forallb rec_ok (fitting (Z.of_nat k) rs) = true).
  { clear - Hr. revert Hr. generalize (Z.of_nat k). induction rs as [|r rs IH]; intros n H; [reflexivity|]. cbn [fitting forallb] in *. apply andb_prop in H as [H1 H2].
    destruct (_ <=? _); [|reflexivity]. cbn [forallb]. now rewrite H1, IH. }
  destruct (@C02_biff_filtered_scan _ 0 [] F) as (b' & Hb' & _). exists b'. split; [exact Hb'|]. intros i ids.
  unfold scan_part. rewrite (@C03_biff_truncated_filtered rs b k i ids Hr Hd). destruct (@C02_biff_filtered_scan _ i ids F) as (b2 & Hb2 & S).
  assert (b2 = b') by congruence. subst b2. now rewrite S.
Qed.
Theorem C93_xlsb_refuted expat ro z w op n rs part k : has_member z (s "xl/workbook.xml") = false -> n <> s "xl/_rels/workbook.bin.rels" ->
  forallb rec_ok rs = true -> dump_all rs = Ok part ->
  exists whole, dump_all (fitting (Z.of_nat k) rs) = Ok whole /\
    read_book expat ro (replaced z n (firstn k part)) w op = read_book expat ro (replaced z n whole) w op.
Proof.
  intros Hx Hn Hr Hd. destruct (scan_cut k Hr Hd) as (b' & Hb' & Sc). exists b'. split; [exact Hb'|]. set (b := firstn k part) in *. clearbody b. clear Hr Hd Hb' rs part k.
  assert (Op : forall m, (exists e, zopen (replaced z n b) m = Err e /\ zopen (replaced z n b') m = Err e) \/
    (exists c c', zopen (replaced z n b) m = Ok c /\ zopen (replaced z n b') m = Ok c' /\ forall i ids, scan_part (i :: ids) c = scan_part (i :: ids) c')).
  { intro m. rewrite !replaced_open. destruct (zopen z m) as [c|e]; [right|left; now exists e]. destruct (str_eqb n m); [exists b, b'; auto|exists c, c; auto]. }
  unfold read_book. rewrite !replaced_has, Hx. destruct (has_member z (s "xl/workbook.bin")); [|reflexivity].
  assert (S : forall nv, bbook_shared (replaced z n b) nv = bbook_shared (replaced z n b') nv).
  { intro nv. unfold bbook_shared. destruct (Op (s "xl/sharedStrings.bin")) as [(e & -> & ->)|(c & c' & -> & -> & Q)]; [reflexivity|]. cbn [bind]. unfold xlsb_shared. now rewrite Q. }
  assert (T : bbook_styles (replaced z n b) = bbook_styles (replaced z n b')).
  { unfold bbook_styles. destruct (Op (s "xl/styles.bin")) as [(e & -> & ->)|(c & c' & -> & -> & Q)]; [reflexivity|]. cbn [bind]. unfold xlsb_styles. now rewrite !Q. }
  assert (D : bbook_sheets expat (replaced z n b) = bbook_sheets expat (replaced z n b')).
  { unfold bbook_sheets. assert (R : zopen (replaced z n b) (s "xl/_rels/workbook.bin.rels") = zopen (replaced z n b') (s "xl/_rels/workbook.bin.rels")).
    { rewrite !replaced_open. destruct (str_eqb n _) eqn:E; [apply str_eqb_eq in E; contradiction|reflexivity]. }
    rewrite R. destruct (zopen (replaced z n b') (s "xl/_rels/workbook.bin.rels")) as [rb|]; cbn [bind]; [|reflexivity]. destruct (parse expat scan_rels rb) as [rels|]; cbn [bind]; [|reflexivity].
    destruct (Op (s "xl/workbook.bin")) as [(e & -> & ->)|(c & c' & -> & -> & Q)]; [reflexivity|]. cbn [bind]. now rewrite Q. }
  assert (I : bbook_iter expat (replaced z n b) w = bbook_iter expat (replaced z n b') w).
  { unfold bbook_iter. cbv zeta. rewrite S, T, D. destruct (bbook_sheets expat (replaced z n b')) as [d|]; cbn [bind]; [|reflexivity].
    destruct (select_sheet d (wo_sheet w)) as [p|]; cbn [bind]; [|reflexivity]. destruct (wo_skip w <? 0) eqn:Sk; [reflexivity|]. destruct (wo_take w <? 0) eqn:Tk; [reflexivity|].
    destruct (Op p) as [(e & -> & ->)|(c & c' & -> & -> & Q)]; [reflexivity|]. unfold xlsb_iter. rewrite Sk, Tk. unfold xlsb_ids. now rewrite Q. }
  now rewrite S, I.
Qed.
Print Assumptions C93_xlsb_refuted.

(** The sheet of C71's example, cut one byte before its last record, and cut in the last row;
    an .xlsx sheet whose end is missing; a workbook part that breaks off. *)
Definition sheet_part : bytes := dumped (sheet_records [mkRec 129 []] exb_rows [] [mkRec 130 []]).
Definition exb_cut (k : nat) : archive := replaced (exb_files exb_rows exb_sl) (s "xl/worksheets/sheet1.bin") (firstn k sheet_part).
Definition broken (expat : bytes -> list event * option exn) (b : bytes) (e : exn) : bytes -> list event * option exn :=
  fun c => if str_eqb b c then (fst (expat c), Some e) else expat c.
Example C93_example :
  show_table (read_book exb_expat ex_ro (exb_cut (List.length sheet_part - 1)) (ex_w true) opts1) =
    Ok [(s "name", (34, None, [Some (inl (s "x")); None; Some (inl (s "z"))])); (s "age", (9, None, [Some (inr 7); None; Some (inr 9)]))] /\
  show_table (read_book exb_expat ex_ro (exb_cut (List.length sheet_part - 30)) (ex_w true) opts1) <>
    show_table (read_book exb_expat ex_ro (exb_files exb_rows exb_sl) (ex_w true) opts1) /\
  (exists t, show_table (read_book exb_expat ex_ro (exb_cut (List.length sheet_part - 30)) (ex_w true) opts1) = Ok t) /\
  read_book (broken exb_expat [1] XmlError) ex_ro (exb_files exb_rows exb_sl) (ex_w true) opts1 = Err XmlError.
Proof.
  split; [vm_compute; reflexivity|]. split; [vm_compute; discriminate|]. split; [eexists; vm_compute; reflexivity|].
  eapply (@C93_relations _ ex_ro _ (ex_w true) opts1 [1] exb_rl).
  - right. eexists. split; [intros b H; in_cases; discriminate|]. split; reflexivity.
  - reflexivity.
  - reflexivity.
Qed.
