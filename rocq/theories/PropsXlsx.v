(** C16-C24, C27 and C29 for .xlsx workbooks.  [is_xsheet rows es]: the worksheet part
    gives the XML events [es] and consists of the rows [rows], with any other elements and
    text around rows, cells and values (XlsxSpec.v, XlsxNorm.v).  [xexpected_row] is what
    should be delivered for a row. *)
From Verif Require Import Py PyFacts PyText NumFmt NumFmtSpec NumFmtProofs Cell Xlsx Xlsb XlsbSpec XlsbProofs
  XlsbParts XlsxSpec XlsxProofs XlsxParts XlsxNorm.
From Coq Require Import ZifyBool.
Ltac Zify.zify_post_hook ::= Z.div_mod_to_equations.

Ltac from_sheet H :=
  match goal with |- context [xlsx_iter ?a ?b ?c ?d ?e ?f ?es ?g] =>
    let pre := fresh "pre" in let post := fresh "post" in let Hok := fresh "Hok" in let E := fresh "E" in
    destruct (@xlsx_of_sheet a b c d e f _ es g H) as (pre & post & Hok & E); rewrite E; clear E end.

(** ** C20: column letters *)
Theorem C20_letters_to_index : forall n ds, 0 <= n -> forallb is_digit ds = true ->
  col_idx (utf8 (letters n ++ ds)) = n.
Proof. intros n ds Hn Hd. rewrite ref_ascii by exact Hd. now apply col_idx_letters. Qed.
Print Assumptions C20_letters_to_index.
Theorem C20_distinct_letters : forall w1 w2 d1 d2, w1 <> [] -> w2 <> [] ->
  forallb is_upper w1 = true -> forallb is_upper w2 = true ->
  forallb is_digit d1 = true -> forallb is_digit d2 = true ->
  col_idx (w1 ++ d1) = col_idx (w2 ++ d2) -> w1 = w2.
Proof.
  intros w1 w2 d1 d2 N1 N2 U1 U2 D1 D2 E.
  rewrite <- (letters_col_idx N1 U1 D1), <- (letters_col_idx N2 U2 D2). now rewrite E.
Qed.
Print Assumptions C20_distinct_letters.
Example C20_example : letters 0 = s "A" /\ letters 25 = s "Z" /\ letters 26 = s "AA" /\ letters 701 = s "ZZ"
  /\ letters 702 = s "AAA" /\ letters 16383 = s "XFD" /\ col_idx (s "XFD1048576") = 16383.
Proof. repeat split; reflexivity. Qed.

(** ** Whole sheets: the exact result *)
(** Empty rows kept.  The row limit in force is [take + skip + 2 q], where [q] is the
    number of rows before the first one that delivers something. *)
Theorem C24_xlsx_exact_kept_rows : forall styles nv rows es skip take skip_cols fail,
  is_xsheet rows es -> 0 <= skip -> 0 <= take ->
  let q := Z.min (zlen rows) skip + leading (xrow_nonempty styles nv skip_cols) (skipn (Z.to_nat skip) rows) in
  let T := take + skip + 2 * q in
  cells_of (fst (xlsx_iter styles nv skip take true skip_cols es fail)) =
  flat_map (fun p => if ((T =? 0) || (fst p <=? T)) && (skip <=? fst p)
                     then xexpected_row styles nv skip_cols (fst p - skip) (snd p) else []) (enum_from 0 rows).
Proof.
  intros styles nv rows es skip take sc fail H Hs Ht q T. from_sheet H.
  rewrite xlsx_keep_cells by assumption. subst T q.
  rewrite (@quiet_skip styles nv sc skip rows 0 Hs), Z.sub_0_r. reflexivity.
Qed.
Print Assumptions C24_xlsx_exact_kept_rows.
(** Empty rows not kept: leading empty rows are not counted, all later rows are. *)
Theorem C24_xlsx_exact_collapsed_rows : forall styles nv rows es skip_cols fail, is_xsheet rows es ->
  let e := leading (xrow_nonempty styles nv skip_cols) rows in
  cells_of (fst (xlsx_iter styles nv 0 0 false skip_cols es fail)) =
  flat_map (fun p => xexpected_row styles nv skip_cols (Z.max 0 (fst p - e)) (snd p)) (enum_from 0 rows).
Proof. intros styles nv rows es sc fail H e. from_sheet H. now apply xlsx_collapse_all. Qed.
Print Assumptions C24_xlsx_exact_collapsed_rows.

(** A sheet used below: the cell in column [c] with text [t]. *)
Definition ex_c (c : Z) (t : str) : xcell := mkX c (s "7") None None [] [XV t].
Definition ex_r (l : list xcell) : xrow := map PC l.

(** ** C24: row numbers *)
(** Every delivered cell has the number of its row (empty rows kept). *)
Theorem C24_xlsx_row_number_kept : forall styles nv rows es skip take skip_cols fail c,
  is_xsheet rows es -> 0 <= skip -> 0 <= take ->
  In c (cells_of (fst (xlsx_iter styles nv skip take true skip_cols es fail))) ->
  exists r, nth_error rows (Z.to_nat (c_row c + skip)) = Some r /\ 0 <= c_row c
    /\ In c (xexpected_row styles nv skip_cols (c_row c) r).
Proof.
  intros styles nv rows es skip take sc fail c H Hs Ht. from_sheet H. now apply xlsx_keep_row_index.
Qed.
Print Assumptions C24_xlsx_row_number_kept.
(** Missing from the full statement: sheets with an empty row after a non-empty one. *)
Theorem C24_xlsx_row_number_collapsed_partial : forall styles nv rows es skip_cols fail,
  is_xsheet rows es ->
  forallb (xrow_nonempty styles nv skip_cols)
    (skipn (Z.to_nat (leading (xrow_nonempty styles nv skip_cols) rows)) rows) = true ->
  cells_of (fst (xlsx_iter styles nv 0 0 false skip_cols es fail)) =
  flat_map (fun p => xexpected_row styles nv skip_cols (fst p) (snd p))
    (count_before (xrow_nonempty styles nv skip_cols) 0 rows).
Proof. intros styles nv rows es sc fail H. from_sheet H. now apply xlsx_collapse_counted. Qed.
Print Assumptions C24_xlsx_row_number_collapsed_partial.
(** Rows A, (empty), B: B should get number 1, it gets 2. *)
Definition ex_gap : list xrow := [ex_r [ex_c 0 (s "x")]; []; ex_r [ex_c 0 (s "y")]].
Theorem C24_xlsx_inner_empty_row_refuted :
  let st := fun _ => None in let nv := xlsx_null NNone in
  map c_row (cells_of (fst (xlsx_iter st nv 0 0 false [] (xsheet_events [] ex_gap []) None))) = [0; 2]
  /\ map fst (count_before (xrow_nonempty st nv []) 0 ex_gap) = [0; 1; 1].
Proof. split; vm_compute; reflexivity. Qed.
Print Assumptions C24_xlsx_inner_empty_row_refuted.
Example C24_example : is_xsheet ex_gap (xsheet_events [] ex_gap [])
  /\ is_xsheet [[]; ex_r [ex_c 0 (s "x")]; ex_r [ex_c 1 (s "y")]]
       [EStart (s "sheetData") [(s "a", s "b")]; EStart (s "row") [(s "r", s "1")]; EEnd (s "row");
        EText (s " "); EStart (s "row") [(s "r", s "2")];
        EStart (s "c") [(s "r", s "A7")]; EStart (s "v") []; EText (s "x"); EEnd (s "v"); EEnd (s "c"); EEnd (s "row");
        EStart (s "row") []; EStart (s "c") [(s "r", s "B7")]; EStart (s "v") []; EText (s "y"); EEnd (s "v");
        EEnd (s "c"); EEnd (s "row"); EEnd (s "sheetData")]
  /\ (let l := [[]; ex_r [ex_c 0 (s "x")]; ex_r [ex_c 1 (s "y")]] in
      let ne := xrow_nonempty (fun _ => None) (xlsx_null NNone) [] in
      leading ne l = 1 /\ forallb ne (skipn 1 l) = true).
Proof.
  split; [exists [], []; split; reflexivity|]. split; [|split; reflexivity].
  exists [EStart (s "sheetData") []], [EEnd (s "sheetData")]. split; reflexivity.
Qed.

(** ** C23: cells *)
(** Missing from the full statement: sheets whose first row delivers nothing (see
    C23_xlsx_rows_lost_refuted); for those C24_xlsx_exact_kept_rows says what happens. *)
Theorem C23_xlsx_cells_partial : forall styles nv r rows es skip_cols fail, is_xsheet (r :: rows) es ->
  xrow_nonempty styles nv skip_cols r = true ->
  cells_of (fst (xlsx_iter styles nv 0 0 true skip_cols es fail)) =
  flat_map (fun p => xexpected_row styles nv skip_cols (fst p) (snd p)) (enum_from 0 (r :: rows)).
Proof. intros styles nv r rows es sc fail H. from_sheet H. now apply xlsx_whole_sheet. Qed.
Print Assumptions C23_xlsx_cells_partial.
(** The same for any sheet that is short enough for its leading empty rows. *)
Theorem C23_xlsx_cells_short_partial : forall styles nv rows es skip_cols fail, is_xsheet rows es ->
  zlen rows <= 2 * leading (xrow_nonempty styles nv skip_cols) rows + 1 ->
  cells_of (fst (xlsx_iter styles nv 0 0 true skip_cols es fail)) =
  flat_map (fun p => xexpected_row styles nv skip_cols (fst p) (snd p)) (enum_from 0 rows).
Proof.
  intros styles nv rows es sc fail H Hl. from_sheet H.
  rewrite (@xlsx_enough styles nv sc pre rows post 0 0 fail Hok) by (rewrite ?quiet_zero; lia). reflexivity.
Qed.
Print Assumptions C23_xlsx_cells_short_partial.
(** What a delivered cell looks like, and that each value gives one. *)
Theorem C23_xlsx_cell_fields : forall styles nv skip_cols row r c,
  In c (xexpected_row styles nv skip_cols row r) <->
  exists x t, In x (xrow_cells r) /\ In (XV t) (x_body x) /\ strip t <> [] /\ nv (strip t) = false
    /\ ~ In (x_col x) skip_cols
    /\ c = mkCell row (x_col x)
             (match x_type x, styles (match x_style x with Some k => k | None => s "0" end) with
              | Some [115], _ => Z.lor TYPE_STRING REPR_SHARED
              | _, Some k => k
              | _, None => Z.lor TYPE_STRING REPR_PREPARED
              end) (VBytes (utf8 (strip t))).
Proof.
  intros styles nv sc row r c. unfold xexpected_row, xexpected, x_texts. rewrite in_flat_map.
  assert (K : forall x, x_kind styles x =
    match x_type x, styles (match x_style x with Some k => k | None => s "0" end) with
    | Some [115], _ => Z.lor TYPE_STRING REPR_SHARED
    | _, Some k => k
    | _, None => Z.lor TYPE_STRING REPR_PREPARED
    end).
  { intro x. unfold x_kind. destruct (x_type x) as [[|y [|z l]]|]; reflexivity. }
  assert (B : forall t, blank t = true <-> strip t = []).
  { intro t. unfold blank. destruct (strip t); split; congruence. }
  split.
  - intros (x & Hx & Hc). apply in_flat_map in Hc as (t & Ht & Hc). apply in_flat_map in Ht as (i & Hi & Ht).
    exists x, t. split; [exact Hx|].
    destruct i as [t'|tag a l|t']; [|destruct Ht|destruct Ht]. destruct Ht as [->|[]]. split; [exact Hi|].
    destruct (blank t) eqn:Eb; [destruct Hc|]. destruct (nv (strip t)) eqn:En; [destruct Hc|]. cbn [orb] in Hc.
    destruct (existsb (Z.eqb (x_col x)) sc) eqn:Es; [destruct Hc|]. destruct Hc as [<-|[]].
    split; [intro E; apply B in E; congruence|]. split; [reflexivity|]. split; [|now rewrite K].
    intro Hin. assert (existsb (Z.eqb (x_col x)) sc = true) by (apply existsb_exists; exists (x_col x); split; [exact Hin|lia]).
    congruence.
  - intros (x & t & Hx & Ht & Hs & Hn & Hc & ->). exists x. split; [exact Hx|]. apply in_flat_map. exists t. split.
    + apply in_flat_map. exists (XV t). split; [exact Ht|now left].
    + destruct (blank t) eqn:Eb; [apply B in Eb; contradiction|]. rewrite Hn. cbn [orb].
      destruct (existsb (Z.eqb (x_col x)) sc) eqn:Es.
      * apply existsb_exists in Es as (y & Hy & E). apply Z.eqb_eq in E. subst y. contradiction.
      * left. now rewrite K.
Qed.
Print Assumptions C23_xlsx_cell_fields.
(** Attributes of other elements and blank text do not matter. *)
Theorem C23_xlsx_irrelevant_events : forall styles nv skip take tne skip_cols es es' fail, norm es = norm es' ->
  xlsx_iter styles nv skip take tne skip_cols es fail = xlsx_iter styles nv skip take tne skip_cols es' fail.
Proof. intros. rewrite <- xlsx_norm, H, xlsx_norm. reflexivity. Qed.
Print Assumptions C23_xlsx_irrelevant_events.
(** Rows after the first [2 e] are lost when the first [e >= 1] rows deliver nothing. *)
Theorem C23_xlsx_rows_lost_refuted : forall styles nv rows es skip_cols fail c, is_xsheet rows es ->
  let e := leading (xrow_nonempty styles nv skip_cols) rows in
  0 < e -> In c (cells_of (fst (xlsx_iter styles nv 0 0 true skip_cols es fail))) -> c_row c <= 2 * e.
Proof.
  intros styles nv rows es sc fail c H e He. from_sheet H.
  rewrite xlsx_keep_cells by (assumption || lia). rewrite quiet_zero by lia. fold e. intro Hc.
  apply in_flat_map in Hc as ([i r] & Hin & Hc). cbn [fst snd] in Hc.
  match type of Hc with In _ (if ?b then _ else _) => destruct b eqn:E end; [|destruct Hc].
  apply exp_row_row in Hc. lia.
Qed.
Print Assumptions C23_xlsx_rows_lost_refuted.
Definition ex_lost : list xrow := [] :: map (fun t => ex_r [ex_c 0 [t]]) (s "abcd").
Example C23_rows_lost_example :
  is_xsheet ex_lost (xsheet_events [] ex_lost [])
  /\ leading (xrow_nonempty (fun _ => None) (xlsx_null NNone) []) ex_lost = 1
  /\ zlen (flat_map xrow_cells ex_lost) = 4
  /\ map c_row (cells_of (fst (xlsx_iter (fun _ => None) (xlsx_null NNone) 0 0 true [] (xsheet_events [] ex_lost []) None)))
     = [1; 2].
Proof. split; [exists [], []; split; reflexivity|]. repeat split; vm_compute; reflexivity. Qed.
(** Character data delivered in two pieces gives two cells at the same place. *)
Theorem C23_xlsx_split_text_refuted : forall styles a b row,
  let nv := xlsx_null NNone in
  blank a = false -> blank b = false -> nv (strip a) = false -> nv (strip b) = false ->
  row = [EStart (s "row") []; EStart (s "c") [(s "r", s "B1")]; EStart (s "v") []; EText a; EText b;
         EEnd (s "v"); EEnd (s "c"); EEnd (s "row")] ->
  let k := match styles (s "0") with Some k => k | None => Z.lor TYPE_STRING REPR_PREPARED end in
  cells_of (fst (xlsx_iter styles nv 0 0 true [] row None)) =
  [mkCell 0 1 k (VBytes (utf8 (strip a))); mkCell 0 1 k (VBytes (utf8 (strip b)))].
Proof.
  intros styles a b row nv Ha Hb Na Nb -> k. rewrite blank_strip in Ha, Hb.
  unfold xlsx_iter. change (0 <? 0) with false. cbv iota. unfold worker.
  cbn [worker_loop]. unfold cell_sh. cbn [w_tag w_row].
  change (str_eqb (s "row") (s "c") && (0 <=? 0)) with false. cbv iota.
  change (str_eqb (s "c") (s "c") && (0 <=? 0)) with true. cbv iota.
  change (attr_req [(s "r", s "B1")] (s "r")) with (@Ok str (s "B1")). cbn [bind].
  change (attr [(s "r", s "B1")] (s "t")) with (@None str). change (attr [(s "r", s "B1")] (s "s")) with (@None str).
  cbv iota. cbn [w_tag w_row w_empty w_take w_crow w_ctyp w_col].
  unfold cell_th. cbn [w_tag w_row w_empty w_take w_crow w_ctyp w_col].
  change (0 <? 0) with false. cbv iota. change (str_eqb (s "v") (s "v")) with true.
  fold nv. rewrite Ha, Hb, Na, Nb. cbn [negb andb mem_Z existsb]. reflexivity.
Qed.
Print Assumptions C23_xlsx_split_text_refuted.
Example C23_example :
  let st := fun k => if str_eqb k (s "3") then Some 0x24 else None in
  let rows := [ex_r [mkX 2 (s "1") (Some (s "s")) None [(s "x", s "y")] [XV (s "0")];
                     mkX 27 (s "1") None (Some (s "3")) [] [XO (s "f") [] [EText (s "NOW()")]; XV (s " 43831.5 ")]]; [];
               ex_r [ex_c 0 (s "#N/A"); ex_c 1 (s "txt")]] in
  xsheet_ok [] rows [] = true /\ xrow_nonempty st (xlsx_null NNone) [] (hd [] rows) = true
  /\ cells_of (fst (xlsx_iter st (xlsx_null NNone) 0 0 true [] (xsheet_events [] rows []) None))
     = [mkCell 0 2 0x11 (VBytes (s "0")); mkCell 0 27 0x24 (VBytes (s "43831.5")); mkCell 2 1 0x18 (VBytes (s "txt"))].
Proof. repeat split; vm_compute; reflexivity. Qed.

(** ** C16: skip_rows *)
(** Missing from the full statement: sheets longer than the limit in force (which without
    [take_rows] is [3 skip_rows + 2 e]). *)
Theorem C16_xlsx_skip_rows_partial : forall styles nv rows es skip take skip_cols fail, is_xsheet rows es ->
  0 <= skip -> 0 <= take ->
  let q := Z.min (zlen rows) skip + leading (xrow_nonempty styles nv skip_cols) (skipn (Z.to_nat skip) rows) in
  zlen rows <= take + skip + 2 * q + 1 ->
  cells_of (fst (xlsx_iter styles nv skip take true skip_cols es fail)) =
  flat_map (fun p => xexpected_row styles nv skip_cols (fst p) (snd p)) (enum_from 0 (skipn (Z.to_nat skip) rows)).
Proof.
  intros styles nv rows es skip take sc fail H Hs Ht q Hl. from_sheet H. apply xlsx_enough; try assumption.
  rewrite (@quiet_skip styles nv sc skip rows 0 Hs), Z.sub_0_r. exact Hl.
Qed.
Print Assumptions C16_xlsx_skip_rows_partial.
(** Empty rows not kept: any [skip_rows > 0] delivers nothing at all. *)
Theorem C16_xlsx_collapsed_skip_refuted : forall styles nv rows es skip take skip_cols fail, is_xsheet rows es ->
  0 < skip -> 0 <= take ->
  cells_of (fst (xlsx_iter styles nv skip take false skip_cols es fail)) = [].
Proof. intros styles nv rows es skip take sc fail H Hs Ht. from_sheet H. now apply xlsx_collapse_skip_cells. Qed.
Print Assumptions C16_xlsx_collapsed_skip_refuted.
(** Empty rows kept, no limit asked for: nothing beyond row [3 skip + 2 e] of the sheet. *)
Theorem C16_xlsx_rows_lost_refuted : forall styles nv rows es skip skip_cols fail c, is_xsheet rows es ->
  0 < skip ->
  let e := leading (xrow_nonempty styles nv skip_cols) (skipn (Z.to_nat skip) rows) in
  In c (cells_of (fst (xlsx_iter styles nv skip 0 true skip_cols es fail))) -> c_row c + skip <= 3 * skip + 2 * e.
Proof.
  intros styles nv rows es skip sc fail c H Hs e Hc.
  rewrite (@C24_xlsx_exact_kept_rows styles nv rows es skip 0 sc fail H) in Hc by lia. fold e in Hc.
  pose proof (@leading_ge0 _ (xrow_nonempty styles nv sc) (skipn (Z.to_nat skip) rows)) as He. fold e in He.
  pose proof (zlen_nonneg rows).
  apply in_flat_map in Hc as ([i r] & Hin & Hc). cbn [fst snd] in Hc.
  match type of Hc with In _ (if ?b then _ else _) => destruct b eqn:E end; [|destruct Hc].
  apply exp_row_row in Hc. lia.
Qed.
Print Assumptions C16_xlsx_rows_lost_refuted.
Definition ex_six : list xrow := map (fun t => ex_r [ex_c 0 [t]]) (s "abcdef").
Example C16_xlsx_example :
  let st := fun _ => None in let nv := xlsx_null NNone in
  is_xsheet ex_six (xsheet_events [] ex_six [])
  /\ cells_of (fst (xlsx_iter st nv 1 0 true [] (xsheet_events [] ex_six []) None))
     = map (fun p => mkCell (fst p) 0 0x18 (VBytes [snd p])) [(0, 98); (1, 99); (2, 100)]
  /\ cells_of (fst (xlsx_iter st nv 1 4 true [] (xsheet_events [] ex_six []) None))
     = map (fun p => mkCell (fst p) 0 0x18 (VBytes [snd p])) [(0, 98); (1, 99); (2, 100); (3, 101); (4, 102)].
Proof. split; [exists [], []; split; reflexivity|]. split; vm_compute; reflexivity. Qed.

(** ** C17: take_rows *)
Theorem C17_xlsx_take_rows_partial : forall styles nv r rows es take skip_cols fail, is_xsheet (r :: rows) es ->
  xrow_nonempty styles nv skip_cols r = true -> 0 < take ->
  cells_of (fst (xlsx_iter styles nv 0 take true skip_cols es fail)) =
  flat_map (fun p => if fst p <=? take then xexpected_row styles nv skip_cols (fst p) (snd p) else [])
    (enum_from 0 (r :: rows)).
Proof. intros styles nv r rows es take sc fail H. from_sheet H. now apply xlsx_take_first. Qed.
Print Assumptions C17_xlsx_take_rows_partial.
(** Empty rows not kept: the limit applies to the numbers the reader gives (C24). *)
Theorem C17_xlsx_take_collapsed_partial : forall styles nv rows es take skip_cols fail, is_xsheet rows es ->
  0 <= take ->
  cells_of (fst (xlsx_iter styles nv 0 take false skip_cols es fail)) =
  filter (fun c => (take =? 0) || (c_row c <=? take))
    (cells_of (fst (xlsx_iter styles nv 0 0 false skip_cols es fail))).
Proof.
  intros styles nv rows es take sc fail (p1 & q1 & Hok & E) Ht.
  rewrite <- (xlsx_norm styles nv 0 take false sc), <- (xlsx_norm styles nv 0 0 false sc), E, !xlsx_norm.
  assert (G : forall p0 q0, xsheet_ok p0 rows q0 = true -> forall t, 0 <= t ->
    cells_of (fst (xlsx_iter styles nv 0 t false sc (xsheet_events p0 rows q0) fail)) =
    flat_map (fun p => if (t =? 0) || (fst p <=? t) then xexpected_row styles nv sc (fst p) (snd p) else [])
      (enum_from 0 (skipn (Z.to_nat (leading (xrow_nonempty styles nv sc) rows)) rows)))
    by (intros; now apply xlsx_collapse_cells).
  rewrite !G by (assumption || lia). rewrite filter_flat_map. apply flat_map_ext. intros [i r]. cbn [fst snd].
  change (0 =? 0) with true. cbn [orb].
  assert (F : filter (fun c => (take =? 0) || (c_row c <=? take)) (xexpected_row styles nv sc i r)
    = filter (fun _ => (take =? 0) || (i <=? take)) (xexpected_row styles nv sc i r)).
  { apply filter_ext_in. intros c Hc. apply exp_row_row in Hc. now rewrite Hc. }
  rewrite F. clear. destruct ((take =? 0) || (i <=? take)).
  - symmetry. induction (xexpected_row styles nv sc i r) as [|c l IH]; [reflexivity|]. cbn [filter]. now rewrite IH.
  - induction (xexpected_row styles nv sc i r) as [|c l IH]; [reflexivity|]. exact IH.
Qed.
Print Assumptions C17_xlsx_take_collapsed_partial.
(** With a leading empty row, [take_rows=1] delivers rows up to 3. *)
Theorem C17_xlsx_leading_empty_refuted :
  map c_row (cells_of (fst (xlsx_iter (fun _ => None) (xlsx_null NNone) 0 1 true [] (xsheet_events [] ex_lost []) None)))
  = [1; 2; 3].
Proof. vm_compute. reflexivity. Qed.
Print Assumptions C17_xlsx_leading_empty_refuted.
Example C17_xlsx_example :
  map c_row (cells_of (fst (xlsx_iter (fun _ => None) (xlsx_null NNone) 0 2 true [] (xsheet_events [] ex_six []) None)))
  = [0; 1; 2].
Proof. vm_compute. reflexivity. Qed.

(** ** C18: skip_cols *)
Theorem C18_xlsx_skip_cols_partial : forall styles nv r rows es skip_cols fail, is_xsheet (r :: rows) es ->
  xrow_nonempty styles nv skip_cols r = true ->
  cells_of (fst (xlsx_iter styles nv 0 0 true skip_cols es fail)) =
  filter (fun c => negb (existsb (Z.eqb (c_col c)) skip_cols))
    (cells_of (fst (xlsx_iter styles nv 0 0 true [] es fail))).
Proof.
  intros styles nv r rows es sc fail (pre & post & Hok & E) Hr.
  rewrite <- (xlsx_norm styles nv 0 0 true sc), <- (xlsx_norm styles nv 0 0 true []), E, !xlsx_norm.
  now apply xlsx_skip_cols.
Qed.
Print Assumptions C18_xlsx_skip_cols_partial.
(** Skipping the only column of the first row loses cells of other columns further down. *)
Definition ex_cols : list xrow :=
  ex_r [ex_c 0 (s "a")] :: map (fun t => ex_r [ex_c 1 [t]]) (s "bcde").
Theorem C18_xlsx_first_row_refuted :
  is_xsheet ex_cols (xsheet_events [] ex_cols []) /\
  map c_row (cells_of (fst (xlsx_iter (fun _ => None) (xlsx_null NNone) 0 0 true [] (xsheet_events [] ex_cols []) None)))
  = [0; 1; 2; 3; 4] /\
  map c_row (cells_of (fst (xlsx_iter (fun _ => None) (xlsx_null NNone) 0 0 true [0] (xsheet_events [] ex_cols []) None)))
  = [1; 2].
Proof. split; [exists [], []; split; reflexivity|]. split; vm_compute; reflexivity. Qed.
Print Assumptions C18_xlsx_first_row_refuted.
Example C18_xlsx_example : xrow_nonempty (fun _ => None) (xlsx_null NNone) [1] (hd [] ex_cols) = true
  /\ map c_row (cells_of (fst (xlsx_iter (fun _ => None) (xlsx_null NNone) 0 0 true [1] (xsheet_events [] ex_cols []) None))) = [0].
Proof. split; vm_compute; reflexivity. Qed.

(** ** C19: callbacks *)
Theorem C19_xlsx_calls_collapsed : forall styles nv rows es skip_cols fail, is_xsheet rows es ->
  calls_of (fst (xlsx_iter styles nv 0 0 false skip_cols es fail)) = zlen rows + 1.
Proof. intros styles nv rows es sc fail H. from_sheet H. now apply xlsx_collapse_calls. Qed.
Print Assumptions C19_xlsx_calls_collapsed.
(** Empty rows kept: exact count; it is what C19 asks when the sheet is read completely. *)
Theorem C19_xlsx_calls_kept_partial : forall styles nv rows es skip_cols fail, is_xsheet rows es ->
  let e := leading (xrow_nonempty styles nv skip_cols) rows in
  (e = 0 \/ zlen rows <= 2 * e + 1) ->
  calls_of (fst (xlsx_iter styles nv 0 0 true skip_cols es fail)) = zlen rows + 1.
Proof.
  intros styles nv rows es sc fail H e He. from_sheet H. rewrite xlsx_keep_calls by (assumption || lia).
  rewrite quiet_zero by lia. fold e. pose proof (zlen_nonneg rows).
  destruct (0 + 0 + 2 * e =? 0) eqn:E; lia.
Qed.
Print Assumptions C19_xlsx_calls_kept_partial.
Theorem C19_xlsx_calls_exact : forall styles nv rows es skip take skip_cols fail, is_xsheet rows es ->
  0 <= skip -> 0 <= take ->
  let q := Z.min (zlen rows) skip + leading (xrow_nonempty styles nv skip_cols) (skipn (Z.to_nat skip) rows) in
  let T := take + skip + 2 * q in
  calls_of (fst (xlsx_iter styles nv skip take true skip_cols es fail)) =
  1 + (if T =? 0 then zlen rows else Z.min (zlen rows) (T + 1)).
Proof.
  intros styles nv rows es skip take sc fail H Hs Ht q T. from_sheet H.
  rewrite xlsx_keep_calls by assumption. subst T q.
  rewrite (@quiet_skip styles nv sc skip rows 0 Hs), Z.sub_0_r. reflexivity.
Qed.
Print Assumptions C19_xlsx_calls_exact.
Theorem C19_xlsx_leading_empty_refuted :
  zlen ex_lost = 5 /\
  calls_of (fst (xlsx_iter (fun _ => None) (xlsx_null NNone) 0 0 true [] (xsheet_events [] ex_lost []) None)) = 4.
Proof. split; vm_compute; reflexivity. Qed.
Print Assumptions C19_xlsx_leading_empty_refuted.
Example C19_xlsx_example : zlen ex_six = 6 /\
  calls_of (fst (xlsx_iter (fun _ => None) (xlsx_null NNone) 0 0 true [] (xsheet_events [] ex_six []) None)) = 7.
Proof. split; vm_compute; reflexivity. Qed.

(** ** C21, C22: shared strings *)
Theorem C21_one_entry_per_si : forall nv l, forallb xsi_ok l = true ->
  exists table keys, xlsx_shared nv (flat_map xsi_events l) = (table, keys)
    /\ zlen table = zlen (sis l)
    /\ (forall k, 0 <= k -> mem_str (dec k) keys = true <-> nth_error table (Z.to_nat k) = Some None)
    /\ (forall k i, nth_error (sis l) k = Some i ->
        nth_error table k = Some (match filter (fun t => negb (blank t) && negb (nv (strip t))) (si_texts i) with
                                  | [] => None | t :: _ => Some (strip t) end)).
Proof.
  intros nv l H. eexists _, _. split; [apply xlsx_shared_ok; exact H|]. split; [|split].
  - unfold zlen. now rewrite map_length.
  - intros k Hk. rewrite null_positions_mem by lia. rewrite Z.sub_0_r. tauto.
  - intros k i Hk. rewrite nth_error_map, Hk. reflexivity.
Qed.
Print Assumptions C21_one_entry_per_si.
Definition ex_sis : list xsi :=
  [XSJ (EStart (s "sst") []); XSI [EStart (s "t") []; EText (s "one"); EEnd (s "t")];
   XSI [EStart (s "t") []; EEnd (s "t")]; XSJ (EText (s " "));
   XSI [EStart (s "r") []; EStart (s "t") []; EText (s "a "); EEnd (s "t"); EEnd (s "r");
        EStart (s "r") []; EStart (s "t") []; EText (s "b"); EEnd (s "t"); EEnd (s "r")];
   XSI [EStart (s "t") []; EText (s "#N/A"); EEnd (s "t")]; XSJ (EEnd (s "sst"))].
Example C21_example : forallb xsi_ok ex_sis = true
  /\ xlsx_shared (xlsx_null NNone) (flat_map xsi_events ex_sis)
     = ([Some (s "one"); None; Some (s "a"); None], [s "1"; s "3"]).
Proof. split; vm_compute; reflexivity. Qed.

(** C22 for elements with one text node that is not null: the entry is that text without the
    white space around it.  Missing: several runs or split character data (only the first piece
    is kept) and the white space around the text. *)
Definition trimmed (t : str) : Prop := exists c m d, (t = [c] /\ c = d \/ t = c :: m ++ [d]) /\ is_space c = false /\ is_space d = false.
Lemma lstrip_spaces a t : forallb is_space a = true -> lstrip (a ++ t) = lstrip t.
Proof. induction a as [|c a IH]; cbn; [reflexivity|]. destruct (is_space c); [exact IH|discriminate]. Qed.
Lemma strip_trimmed a t b : forallb is_space a = true -> forallb is_space b = true -> trimmed t -> strip (a ++ t ++ b) = t.
Proof.
  intros Ha Hb (c & m & d & E & Hc & Hd). unfold strip. rewrite lstrip_spaces by exact Ha.
  assert (L : lstrip (t ++ b) = t ++ b) by (destruct E as [[-> _] | ->]; cbn; now rewrite Hc). rewrite L, rev_app_distr.
  rewrite lstrip_spaces by (apply forallb_forall; intros x Hx; apply in_rev in Hx; exact (proj1 (forallb_forall _ _) Hb x Hx)).
  assert (R : lstrip (rev t) = rev t); [|now rewrite R, rev_involutive].
  destruct E as [[-> ->] | ->]; [cbn; now rewrite Hd|]. change (c :: m ++ [d]) with ((c :: m) ++ [d]). rewrite rev_app_distr. cbn. now rewrite Hd.
Qed.
Theorem C22_single_text_partial : forall nv l k i a t b, forallb xsi_ok l = true ->
  nth_error (sis l) k = Some i -> si_texts i = [a ++ t ++ b] -> forallb is_space a = true -> forallb is_space b = true -> trimmed t -> nv t = false ->
  nth_error (fst (xlsx_shared nv (flat_map xsi_events l))) k = Some (Some t).
Proof.
  intros nv l k i a t b H Hk Ht Ha Hb Tr Hn. rewrite xlsx_shared_ok by exact H. cbn [fst].
  rewrite nth_error_map, Hk. cbn [option_map]. unfold si_entry. rewrite Ht. cbn [filter].
  pose proof (strip_trimmed a t b Ha Hb Tr) as Hs.
  assert (blank (a ++ t ++ b) = false) by (rewrite blank_strip, Hs; destruct Tr as (c & m & d & [[-> _] | ->] & _); reflexivity).
  rewrite H0, Hs, Hn. cbn. now rewrite Hs.
Qed.
Print Assumptions C22_single_text_partial.
(** With two or more non-blank, non-null pieces only the first survives. *)
Theorem C22_runs_lost_refuted : forall nv l k i t1 t2 ts, forallb xsi_ok l = true ->
  nth_error (sis l) k = Some i -> si_texts i = t1 :: t2 :: ts ->
  blank t1 = false -> nv (strip t1) = false ->
  nth_error (fst (xlsx_shared nv (flat_map xsi_events l))) k = Some (Some (strip t1)).
Proof.
  intros nv l k i t1 t2 ts H Hk Ht Hb Hn. rewrite xlsx_shared_ok by exact H. cbn [fst].
  rewrite nth_error_map, Hk. cbn [option_map]. unfold si_entry. rewrite Ht. cbn [filter]. now rewrite Hb, Hn.
Qed.
Print Assumptions C22_runs_lost_refuted.
Example C22_example :
  nth_error (sis ex_sis) 2 = Some [EStart (s "r") []; EStart (s "t") []; EText (s "a "); EEnd (s "t"); EEnd (s "r");
        EStart (s "r") []; EStart (s "t") []; EText (s "b"); EEnd (s "t"); EEnd (s "r")]
  /\ nth_error (fst (xlsx_shared (xlsx_null NNone) (flat_map xsi_events ex_sis))) 2 = Some (Some (s "a"))
  /\ nth_error (fst (xlsx_shared (xlsx_null NNone) (flat_map xsi_events ex_sis))) 0 = Some (Some (s "one")).
Proof. repeat split; vm_compute; reflexivity. Qed.

(** ** C27: null values in .xlsx *)
(** The predicate in force. *)
Theorem C27_xlsx_null_predicate : forall t,
  (xlsx_null NNone t = true <-> In t ERROR_TEXTS)
  /\ (forall l, xlsx_null (NList l) t = true <-> In t ERROR_TEXTS \/ In t l)
  /\ (forall p, xlsx_null (NPred p) t = true <-> In t ERROR_TEXTS \/ p t = true).
Proof.
  intro t. unfold xlsx_null. split; [apply mem_str_In|]. split.
  - intro l. rewrite mem_str_In, in_app_iff. reflexivity.
  - intro p. rewrite orb_true_iff, mem_str_In. reflexivity.
Qed.
Print Assumptions C27_xlsx_null_predicate.
(** Cells that are not shared strings: of all cells of the sheet exactly those are missing
    whose text is blank or null or whose column is skipped.  Missing: shared strings (below),
    and sheets where keeping empty rows loses rows (C23). *)
Definition x_text (x : xcell) : str := match x_body x with [XV t] => strip t | _ => [] end.
Theorem C27_xlsx_plain_cells_partial : forall styles nv rows es skip_cols fail, is_xsheet rows es ->
  (forall x, In x (flat_map xrow_cells rows) -> exists t, x_body x = [XV t]) ->
  map (fun c => (c_col c, c_xdt c, c_val c)) (cells_of (fst (xlsx_iter styles nv 0 0 false skip_cols es fail))) =
  map (fun x => (x_col x, x_kind styles x, VBytes (utf8 (x_text x))))
    (filter (fun x => negb (str_eqb (x_text x) [] || nv (x_text x) || existsb (Z.eqb (x_col x)) skip_cols)) (flat_map xrow_cells rows)).
Proof.
  intros styles nv rows es sc fail H Hp. rewrite C24_xlsx_exact_collapsed_rows with (1 := H). cbv zeta.
  generalize (leading (xrow_nonempty styles nv sc) rows) as e. intro e. generalize 0 at 2. clear H.
  induction rows as [|r rows IH]; intro i; cbn [enum_from flat_map]; [reflexivity|].
  rewrite map_app, filter_app, map_app. cbn [flat_map] in Hp. f_equal; [|apply IH; intros x Hx; apply Hp, in_or_app; now right].
  cbn [fst snd]. unfold xexpected_row. generalize (Z.max 0 (i - e)) as q. intro q.
  assert (Hr : forall x, In x (xrow_cells r) -> exists t, x_body x = [XV t]) by (intros; apply Hp, in_or_app; now left).
  clear -Hr. induction (xrow_cells r) as [|x l IH]; cbn [flat_map filter map]; [reflexivity|].
  rewrite map_app, IH by (intros y Hy; apply Hr; now right). destruct (Hr x (or_introl eq_refl)) as (t & Hb).
  assert (Ht : x_text x = strip t) by (unfold x_text; now rewrite Hb).
  assert (Hx : xexpected styles nv sc q x = if str_eqb (x_text x) [] || nv (x_text x) || existsb (Z.eqb (x_col x)) sc then []
    else [mkCell q (x_col x) (x_kind styles x) (VBytes (utf8 (x_text x)))]).
  { unfold xexpected, x_texts. rewrite Hb. cbn [flat_map app]. rewrite app_nil_r, Ht. unfold blank.
    now replace (match strip t with [] => true | _ :: _ => false end) with (str_eqb (strip t) []) by now destruct (strip t). }
  rewrite Hx. destruct (_ || _); reflexivity.
Qed.
Print Assumptions C27_xlsx_plain_cells_partial.
(** A shared-string cell is dropped when its index, as text, is a null value: with
    [null_values=["1"]] the cell showing "keep" disappears, and the cell whose shared
    string is the null value "1" is delivered. *)
Theorem C27_xlsx_shared_index_refuted :
  let nv := xlsx_null (NList [s "1"]) in
  let sst := [XSI [EText (s "1")]; XSI [EText (s "keep")]] in
  let shared c i := mkX c (s "1") (Some (s "s")) None [] [XV i] in
  let rows := [ex_r [shared 0 (s "0"); shared 1 (s "1")]] in
  fst (xlsx_shared nv (flat_map xsi_events sst)) = [None; Some (s "keep")]
  /\ cells_of (fst (xlsx_iter (fun _ => None) nv 0 0 true [] (xsheet_events [] rows []) None))
     = [mkCell 0 0 0x11 (VBytes (s "0"))].
Proof. split; vm_compute; reflexivity. Qed.
Print Assumptions C27_xlsx_shared_index_refuted.
Example C27_xlsx_example : is_xsheet [ex_r [ex_c 3 (s " n/a ")]; ex_r [ex_c 0 (s "b")]] (xsheet_events [] [ex_r [ex_c 3 (s " n/a ")]; ex_r [ex_c 0 (s "b")]] [])
  /\ (forall x, In x (flat_map xrow_cells [ex_r [ex_c 3 (s " n/a ")]; ex_r [ex_c 0 (s "b")]]) -> exists t, x_body x = [XV t])
  /\ xexpected (fun _ => None) (xlsx_null (NList [s "n/a"])) [] 0 (ex_c 3 (s " n/a ")) = []
  /\ xexpected (fun _ => None) (xlsx_null NNone) [] 0 (ex_c 3 (s " n/a ")) = [mkCell 0 3 0x18 (VBytes (s "n/a"))].
Proof.
  split; [exists [], []; split; reflexivity|]. split; [|split; vm_compute; reflexivity].
  intros x [<-|[<-|[]]]; eexists; reflexivity.
Qed.

(** ** C29: styles *)
(** Kind of a format id: numeric (0x20) when built-in numeric or a custom code whose first
    section is "0" or contains ".00"; else temporal (0x24) when built-in or custom
    temporal ([tm] is any classification of the custom codes that agrees with C28's
    token reading). *)
Theorem C29_styles : forall l (num tm : str -> bool), forallb ystyle_ok l = true ->
  (forall i c, In (i, c) (z_fmts l) ->
     code_class c (tm c)
     /\ exists fs rest, existsb (Z.eqb ch_semi) fs = false /\ (c = fs \/ c = fs ++ ch_semi :: rest)
        /\ (num c = true <-> fs = s "0" \/ exists a b, fs = a ++ s ".00" ++ b)) ->
  exists st, xlsx_styles (flat_map ystyle_events l) = Ok st /\
    forall k f, nth_error (z_xfs l) k = Some f ->
      style_get st (dec (Z.of_nat k)) =
      let custom p := match last_fmt f (z_fmts l) with Some c => p c | None => false end in
      if builtin_numeric f || custom num then Some 0x20
      else if builtin_temporal f || custom tm then Some 0x24 else None.
Proof.
  intros l num tm Hl Hc. destruct (xlsx_styles_exact Hl) as (st & E & H). exists st. split; [exact E|].
  intros k f Hk. rewrite (H k f Hk). unfold ystyle_kind. cbn zeta.
  destruct (last_fmt f (z_fmts l)) as [c|] eqn:Ef; [|reflexivity].
  apply last_fmt_In in Ef. destruct (Hc f c Ef) as [Hcl (fs & rest & Hs & Hfs & Hnum)].
  rewrite (code_class_temporal Hcl).
  assert (Efs : first_section c = fs).
  { destruct (first_section_app rest Hs) as [E1 E2]. destruct Hfs as [-> | ->]; assumption. }
  assert (En : is_num c = num c).
  { unfold is_num. rewrite Efs. apply eq_true_iff_eq. rewrite orb_true_iff, Hnum, has_dot00_spec, str_eqb_eq.
    reflexivity. }
  now rewrite En.
Qed.
Print Assumptions C29_styles.
(** The same without assumptions on the codes: [fmt_temporal] is the code's own test. *)
Theorem C29_styles_exact : forall l, forallb ystyle_ok l = true ->
  exists st, xlsx_styles (flat_map ystyle_events l) = Ok st /\
    forall k f, nth_error (z_xfs l) k = Some f ->
      style_get st (dec (Z.of_nat k)) =
      ystyle_kind (fun c => str_eqb (first_section c) (s "0") || has_dot00 (first_section c))
        (fun c => fmt_temporal (first_section c)) (z_fmts l) f.
Proof. intros l H. exact (xlsx_styles_exact H). Qed.
Print Assumptions C29_styles_exact.
Example C29_example :
  let l := [ZFmt 164 (s "yyyy-mm-dd;@"); ZFmt 165 (s "0.00 mm"); ZXfStyle 14; ZO (EStart (s "cellXfs") []);
            ZXf 0 []; ZXf 164 [(s "fontId", s "1")]; ZXf 165 []; ZXf 14 []; ZXf 2 []; ZO (EEnd (s "cellXfs"))] in
  forallb ystyle_ok l = true /\ z_xfs l = [0; 164; 165; 14; 2]
  /\ code_class (s "yyyy-mm-dd;@") true
  /\ exists st, xlsx_styles (flat_map ystyle_events l) = Ok st
       /\ map (fun k => style_get st (dec k)) [0; 1; 2; 3; 4; 5] = [None; Some 0x24; Some 0x20; Some 0x24; Some 0x20; None].
Proof.
  split; [reflexivity|]. split; [reflexivity|]. split.
  - exists (map TChar (s "yyyy-mm-dd")), (s "@"). repeat split; try reflexivity. now right.
  - eexists. split; vm_compute; reflexivity.
Qed.
(** The part raises exactly if one of the elements it uses lacks an attribute or has a format id
    that is no number. *)
Definition bad_style (ev : event) : Prop :=
  match ev with
  | EStart tag a =>
      tag = s "numFmt" /\ (attr a (s "formatCode") = None \/ attr a (s "numFmtId") = None)
   \/ tag = s "xf" /\ attr a (s "xfId") <> None /\ forall y n, attr a (s "numFmtId") = Some y -> py_int y <> Ok n
  | _ => False
  end.
Lemma builtin_ok ids l : (forall x y, In (x, y) l -> exists n, py_int y = Ok n) -> exists t, builtin_keys ids l = Ok t.
Proof.
  induction l as [|[x y] l IH]; intro H; cbn [builtin_keys]; [now eexists|]. destruct (H x y (or_introl eq_refl)) as [n ->]. cbn [bind].
  destruct IH as [t ->]; [intros x' y' I; apply (H x' y'); now right|]. cbn [bind]. now eexists.
Qed.
Lemma builtin_bad ids l x y : In (x, y) l -> (forall n, py_int y <> Ok n) -> exists e, builtin_keys ids l = Err e.
Proof.
  intros I N. induction l as [|[x' y'] l IH]; [easy|]. cbn [builtin_keys]. destruct (py_int y') as [n|e] eqn:E; cbn [bind]; [|now eexists].
  destruct I as [I|I]; [injection I as -> ->; now destruct (N n)|]. destruct (IH I) as [e ->]. cbn. now eexists.
Qed.
Lemma keyed_in l : forall i x y, In (x, y) (keyed i l) -> In y l.
Proof. induction l as [|f l IH]; intros i x y; [easy|]. cbn. intros [H|H]; [injection H as _ <-; now left|right; exact (IH _ _ _ H)]. Qed.
Lemma in_keyed l y : In y l -> forall i, exists x, In (x, y) (keyed i l).
Proof. induction l as [|f l IH]; [easy|]. intros [->|H] i; [eexists; now left|]. destruct (IH H (i + 1)) as [x I]. exists x. now right. Qed.
Lemma scan_styles_iff es : forall xl fms,
  (exists e, ' (xl, fms) <- xlsx_scan_styles es xl fms ;; xlsx_styles_of xl fms = Err e) <->
  Exists bad_style es \/ exists y, In y xl /\ forall n, py_int y <> Ok n.
Proof.
  induction es as [|ev es IH]; intros xl fms; cbn [xlsx_scan_styles bind].
  - unfold xlsx_styles_of. cbv zeta. split.
    + intros [e H]. right. destruct (List.existsb (fun y => match py_int y with Ok _ => false | Err _ => true end) xl) eqn:X.
      * apply existsb_exists in X. destruct X as (y & I & Y). exists y. split; [exact I|]. intros n E. now rewrite E in Y.
      * exfalso. assert (A : forall x y, In (x, y) (keyed 0 xl) -> exists n, py_int y = Ok n).
        { intros x y I. apply keyed_in in I. destruct (py_int y) as [n|e'] eqn:E; [now exists n|]. exfalso. assert (B : existsb (fun y => match py_int y with Ok _ => false | Err _ => true end) xl = true) by (apply existsb_exists; exists y; now rewrite E). congruence. }
        destruct (builtin_ok TEMPORAL_STYLES _ A) as [t E1]. destruct (builtin_ok NUMERIC_STYLES _ A) as [n E2]. rewrite E1, E2 in H. discriminate.
    + intros [H|(y & I & N)]; [now apply Exists_nil in H|]. destruct (in_keyed _ _ I 0) as [x J]. destruct (builtin_bad TEMPORAL_STYLES _ _ _ J N) as [e ->]. cbn. now eexists.
  - assert (Skip : ~ bad_style ev -> forall xl fms, ((exists e, ' (xl, fms) <- xlsx_scan_styles es xl fms ;; xlsx_styles_of xl fms = Err e) <->
      Exists bad_style (ev :: es) \/ exists y, In y xl /\ forall n, py_int y <> Ok n)).
    { intros N xl' fms'. rewrite IH, Exists_cons. tauto. }
    assert (Raise : bad_style ev -> forall e, (exists e', @Err xstyles e = Err e') <-> Exists bad_style (ev :: es) \/ exists y, In y xl /\ forall n, py_int y <> Ok n).
    { intros B e. rewrite Exists_cons. split; [now left; left|]. intros _. now exists e. }
    destruct ev as [tag a|t|tag]; [|apply Skip; easy..].
    destruct (str_eqb tag (s "numFmt")) eqn:T.
    + apply str_eqb_eq in T. subst tag. unfold attr_req. destruct (attr a (s "formatCode")) as [c|] eqn:A1; cbn [bind]; [|apply Raise; cbn [bad_style]; left; now split; [|left]].
      destruct (attr a (s "numFmtId")) as [i|] eqn:A2; cbn [bind]; [|apply Raise; cbn [bad_style]; left; now split; [|right]]. apply Skip. cbn [bad_style]. intros [(_ & [X|X])|(X & _)]; [congruence..|discriminate].
    + assert (T' : tag <> s "numFmt") by (intros ->; now rewrite str_eqb_refl in T). destruct (str_eqb tag (s "xf")) eqn:F; cbn [andb].
      * apply str_eqb_eq in F. subst tag. destruct (attr a (s "xfId")) as [k|] eqn:A0; [|apply Skip; cbn [bad_style]; intros [(X & _)|(_ & X & _)]; [discriminate|now apply X]].
        unfold attr_req. destruct (attr a (s "numFmtId")) as [y|] eqn:A1; cbn [bind]; [|apply Raise; cbn [bad_style]; right; repeat split; congruence].
        rewrite IH, Exists_cons. cbn [bad_style]. rewrite A0, A1. split.
        -- intros [H|(y' & I & N)]; [left; now right|]. apply in_app_or in I. destruct I as [I|[<-|[]]]; [right; now exists y'|]. left. left. right. repeat split; [easy|]. intros y' n E. injection E as <-. apply N.
        -- intros [[[(X & _)|(_ & _ & N)]|H]|(y' & I & N)]; [now destruct T'| |now left|]; right; [exists y; split; [apply in_or_app; right; now left|]; intro n; now apply N|exists y'; split; [apply in_or_app; now left|exact N]].
      * apply Skip. cbn [bad_style]. intros [(X & _)|(X & _)]; [congruence|]. subst tag. now rewrite str_eqb_refl in F.
Qed.
Theorem C29_raises es : (exists e, xlsx_styles es = Err e) <-> Exists bad_style es.
Proof. unfold xlsx_styles. rewrite scan_styles_iff. split; [intros [H|(y & [] & _)]; exact H|now left]. Qed.
Print Assumptions C29_raises.
Example C29_raises_example : Exists bad_style [EStart (s "xf") [(s "xfId", s "0"); (s "numFmtId", s "1.5")]] /\ ~ Exists bad_style [EStart (s "xf") [(s "numFmtId", s "1.5")]].
Proof.
  split.
  - constructor. cbn. right. repeat split; [discriminate|]. intros y n H. injection H as <-. vm_compute. discriminate.
  - rewrite Exists_cons, Exists_nil. cbn [bad_style]. intros [[(E & _)|(_ & X & _)]|[]]; [discriminate|now apply X].
Qed.
