(** From an archive to the cells of its sheet. *)
From Coq Require Import Sorted.
From Verif Require Import Py PyFacts PyText Biff BiffSpec BiffRecs Utf16 Utf16Spec NumFmt NumFmtSpec Cell Xlsb Xlsx XlsbSpec XlsbProofs XlsbParts
  XlsxSpec XlsxProofs XlsxParts XlsxNorm PropsXlsx Sheets SheetsSpec SheetsProofs PropsSheets Casts Chunk ChunkSpec Utf8 Series SeriesSpec
  Reader ReaderSpec Workbook WorkbookSpec.
From Coq Require Import ZifyBool ZifyNat.
Set Implicit Arguments. Unset Strict Implicit.

(** ** Cells laid out row by row *)
Section Laid.
  Context (A : Type) (f : Z -> A -> list cell) (Hf : forall i x c, In c (f i x) -> c_row c = i).
  Definition laid_from (i : Z) (rows : list A) : list cell := flat_map (fun p => f (fst p) (snd p)) (enum_from i rows).
  Definition laid (rows : list A) : list cell := laid_from 0 rows.
  Lemma firsts_row i l : (forall c, In c l -> c_row c = i) -> forall n rest, n < i ->
    firsts n (l ++ rest) = match l with [] => firsts n rest | c :: _ => c :: firsts i rest end.
  Proof.
    intros H n rest Hn. destruct l as [|c l]; [reflexivity|]. cbn [app firsts]. rewrite (H c) by now left. replace (n <? i) with true by lia. f_equal.
    assert (G : forall d, In d l -> c_row d = i) by (intros; apply H; now right). clear -G.
    induction l as [|d l IH]; [reflexivity|]. cbn [app firsts]. rewrite (G d) by now left. rewrite Z.ltb_irrefl. apply IH. intros; apply G; now right.
  Qed.
  Lemma column_app a b k : column_cells (a ++ b) k = column_cells a k ++ column_cells b k.
  Proof. apply filter_app. Qed.
  Lemma laid_rows i rows c : In c (laid_from i rows) -> i <= c_row c.
  Proof.
    revert i. induction rows as [|x rows IH]; intros i H; [easy|]. unfold laid_from in H. cbn [enum_from flat_map fst snd] in H. apply in_app_iff in H.
    destruct H as [H|H]; [rewrite (Hf H); lia|]. specialize (IH (i + 1) H). lia.
  Qed.
  Lemma firsts_in n l c : In c (firsts n l) -> In c l.
  Proof. revert n. induction l as [|d l IH]; intros n H; [easy|]. cbn in H. destruct (n <? c_row d); [destruct H as [->|H]; [now left|right; eauto]|right; eauto]. Qed.
  Lemma find_none_all (p : cell -> bool) l : (forall c, In c l -> p c = false) -> find p l = None.
  Proof. induction l as [|c l IH]; intro H; [reflexivity|]. cbn. rewrite (H c) by now left. apply IH. intros; apply H; now right. Qed.
  Lemma laid_at_from k rows : forall i n r, n < i -> i <= r ->
    find (fun c => c_row c =? r) (firsts n (column_cells (laid_from i rows) k)) =
    match nth_error rows (Z.to_nat (r - i)) with
    | None => None
    | Some x => find (fun c => c_col c =? k) (f r x)
    end.
  Proof.
    induction rows as [|x rows IH]; intros i n r Hn Hr.
    - cbn. now destruct (Z.to_nat (r - i)).
    - unfold laid_from. cbn [enum_from flat_map fst snd]. rewrite column_app. change (flat_map _ (enum_from (i + 1) rows)) with (laid_from (i + 1) rows).
      rewrite (@firsts_row i) by (try exact Hn; intros c Hc; apply filter_In in Hc; eapply Hf; apply Hc).
      assert (F : find (fun c => c_col c =? k) (f i x) = match column_cells (f i x) k with [] => None | c :: _ => Some c end).
      { unfold column_cells. induction (f i x) as [|c l IHl]; [reflexivity|]. cbn. destruct (c_col c =? k); [reflexivity|exact IHl]. }
      destruct (Z.eq_dec r i) as [->|Ne].
      + rewrite Z.sub_diag. cbn [Z.to_nat nth_error]. rewrite F. destruct (column_cells (f i x) k) as [|c t] eqn:E.
        * apply find_none_all. intros c Hc. apply firsts_in in Hc. apply filter_In in Hc. destruct Hc as [Hc _]. apply laid_rows in Hc. lia.
        * cbn [find]. rewrite (@Hf i x c), Z.eqb_refl; [reflexivity|]. assert (In c (column_cells (f i x) k)) by (rewrite E; now left). apply filter_In in H. apply H.
      + replace (Z.to_nat (r - i)) with (S (Z.to_nat (r - (i + 1)))) by lia. cbn [nth_error].
        destruct (column_cells (f i x) k) as [|c t] eqn:E.
        * apply IH; lia.
        * cbn [find]. rewrite (@Hf i x c) by (assert (In c (column_cells (f i x) k)) by (rewrite E; now left); apply filter_In in H; apply H).
          replace (i =? r) with false by lia. apply IH; lia.
  Qed.
  Lemma laid_at o sc rows k r : 0 <= r ->
    at_row o sc (content (laid rows) k) r =
    match nth_error rows (Z.to_nat r) with
    | None => tnull
    | Some x => match find (fun c => c_col c =? k) (f r x) with Some c => tag_of o sc c | None => tnull end
    end.
  Proof.
    intro Hr. unfold at_row, content, laid. rewrite laid_at_from by lia. rewrite Z.sub_0_r. now destruct (nth_error rows (Z.to_nat r)).
  Qed.
  (** Rows without cells may be left out when rows are numbered by those with cells. *)
  Lemma laid_counted (p : A -> bool) rows : (forall i x, p x = false -> f i x = []) -> forall i,
    flat_map (fun q => f (fst q) (snd q)) (count_before p i rows) = laid_from i (filter p rows).
  Proof.
    intro H. induction rows as [|x rows IH]; intro i; [reflexivity|]. cbn [count_before flat_map fst snd filter].
    destruct (p x) eqn:E; [unfold laid_from; cbn [enum_from flat_map fst snd]; now rewrite IH|]. now rewrite (H i x E), IH.
  Qed.
  Lemma laid_leading (p : A -> bool) rows : (forall i x, p x = false -> f i x = []) ->
    flat_map (fun q => f (Z.max 0 (fst q - leading p rows)) (snd q)) (enum_from 0 rows) = laid (skipn (Z.to_nat (leading p rows)) rows).
  Proof.
    clear Hf. intro H. assert (G : forall rows j e, 0 <= e -> j <= e -> e = j + leading p rows ->
      flat_map (fun q => f (Z.max 0 (fst q - e)) (snd q)) (enum_from j rows) = laid (skipn (Z.to_nat (leading p rows)) rows)).
    { clear rows. induction rows as [|x rows IH]; intros j e He Hj E; [now destruct (Z.to_nat (leading p []))|]. cbn [enum_from flat_map fst snd]. cbn [leading] in *.
      destruct (p x) eqn:Ex.
      - assert (e = j) as -> by lia. cbn [Z.to_nat skipn]. unfold laid, laid_from. cbn [enum_from flat_map fst snd]. replace (Z.max 0 (j - j)) with 0 by lia. f_equal.
        clear -H. assert (K : forall rows k, 0 <= k -> flat_map (fun q => f (Z.max 0 (fst q - j)) (snd q)) (enum_from (j + k) rows) = flat_map (fun q => f (fst q) (snd q)) (enum_from (0 + k) rows)).
        { clear rows. induction rows as [|x rows IH]; intros k Hk; [reflexivity|]. cbn [enum_from flat_map fst snd]. replace (Z.max 0 (j + k - j)) with (0 + k) by lia. f_equal.
          replace (j + k + 1) with (j + (k + 1)) by lia. replace (0 + k + 1) with (0 + (k + 1)) by lia. apply IH; lia. }
        apply (K rows 1); lia.
      - rewrite (H _ x Ex). cbn [app]. assert (0 <= leading p rows) by apply leading_ge0. rewrite (IH (j + 1) e) by lia.
        replace (Z.to_nat (1 + leading p rows)) with (S (Z.to_nat (leading p rows))) by lia. reflexivity. }
    apply G; [apply leading_ge0|apply leading_ge0|lia].
  Qed.
End Laid.

(** ** Members *)
Lemma member_open z n b : member z n b -> zopen z n = Ok b.
Proof.
  unfold member, zopen. induction z as [|[m c] z IH]; [discriminate|]. cbn [find dget fst]. destruct (str_eqb n m) eqn:E; [congruence|exact IH].
Qed.
Lemma member_has z n b : member z n b -> has_member z n = true.
Proof.
  unfold member, has_member, mem_str. induction z as [|[m c] z IH]; [discriminate|]. cbn [find map existsb fst]. destruct (str_eqb n m); [reflexivity|exact IH].
Qed.
Lemma absent_has z n : absent z n -> has_member z n = false.
Proof.
  unfold absent, has_member, mem_str. induction z as [|[m c] z IH]; intro H; [reflexivity|]. cbn [map existsb fst]. destruct (str_eqb n m) eqn:E.
  - apply str_eqb_eq in E. subst. exfalso. apply (H c). now left.
  - apply IH. intros b Hb. apply (H b). now right.
Qed.
Lemma absent_open z n : absent z n -> zopen z n = Err KeyError.
Proof.
  unfold absent, zopen. induction z as [|[m c] z IH]; intro H; [reflexivity|]. cbn [dget]. destruct (str_eqb n m) eqn:E.
  - apply str_eqb_eq in E. subst. exfalso. apply (H c). now left.
  - apply IH. intros b Hb. apply (H b). now right.
Qed.
Lemma parse_ok expat A (f : list event -> res A) b es : expat b = (es, None) -> parse expat f b = f es.
Proof. intro E. unfold parse. rewrite E. now destruct (f es). Qed.
Lemma asked_select d a path : NoDup (map fst d) -> asked d a path -> select_sheet d a = Ok path.
Proof.
  intros N. destruct a as [i|n]; cbn [asked].
  - intros (Hi & n & E). pose proof (@C30_index_is_name d N _ _ _ E) as [H _]. rewrite <- H. f_equal. f_equal. lia.
  - intro H. apply In_nth_error in H. destruct H as (k & E). apply (@C30_index_is_name d N _ _ _ E).
Qed.

(** ** .xlsb *)
Section FirstCell.
  Context (styles : res (list bytes)) (nv : str -> bool) (skip_rows take_rows : Z) (tne : bool) (skip_cols : list Z).
  Lemma loop_first ns ns' rs : forall row em n, ns n = ns' n ->
    hd_error (Cell.cells_of (fst (xlsb_loop styles nv ns skip_rows take_rows tne skip_cols rs row em n))) =
    hd_error (Cell.cells_of (fst (xlsb_loop styles nv ns' skip_rows take_rows tne skip_cols rs row em n))).
  Proof.
    intros row em n H. revert row em. induction rs as [|r rs IH]; intros row em; [reflexivity|]. cbn [xlsb_loop]. destruct (rec_id r =? 0).
    - set (row' := if negb em || tne then row + 1 else row). destruct (_ && _); [reflexivity|]. specialize (IH row' true).
      destruct (xlsb_loop styles nv ns _ _ _ _ rs row' true n) as [o e], (xlsb_loop styles nv ns' _ _ _ _ rs row' true n) as [o' e'].
      cbn [fst] in *. now destruct (skip_rows <=? row').
    - destruct (row <? skip_rows); [apply IH|]. destruct (rec_id r =? 402); [reflexivity|].
      assert (E : xlsb_cell styles nv ns skip_rows skip_cols n row r = xlsb_cell styles nv ns' skip_rows skip_cols n row r).
      { unfold xlsb_cell. now rewrite H. }
      rewrite E. destruct (xlsb_cell styles nv ns' skip_rows skip_cols n row r) as [[c|]|e]; [|apply IH|reflexivity].
      destruct (xlsb_loop styles nv ns _ _ _ _ rs row false (S n)) as [o e], (xlsb_loop styles nv ns' _ _ _ _ rs row false (S n)) as [o' e']. reflexivity.
  Qed.
  Lemma iter_first ns ns' part : ns O = ns' O ->
    hd_error (Cell.cells_of (fst (xlsb_iter styles nv ns skip_rows take_rows tne skip_cols part))) =
    hd_error (Cell.cells_of (fst (xlsb_iter styles nv ns' skip_rows take_rows tne skip_cols part))).
  Proof. intro H. unfold xlsb_iter. destruct (skip_rows <? 0); [reflexivity|]. destruct (take_rows <? 0); [reflexivity|]. now apply loop_first. Qed.
End FirstCell.

Section BFile.
  Context (o : oracle) (tm : Z -> bool) (xfs : list Z) (texts : list str) (nv : str -> bool) (sc : list Z) (cf : conf).
  Local Notation shown := (b_shown texts nv sc).
  Local Notation null := (b_null texts nv).
  Context (keys : bytes -> bool) (Hkeys : forall k f, nth_error xfs k = Some f -> keys (le2 (Z.of_nat k) ++ [0]) = tm f).
  Local Notation ex := (expected keys nv (null_entry nv texts) sc).
  Local Notation conf1 := (mkSC (map Some texts) true cf).
  Definition refs_ok (c : bcell) : Prop :=
    bcell_ok c = true /\ (exists k f, nth_error xfs k = Some f /\ b_style c = le2 (Z.of_nat k) ++ [0]) /\ (forall i, b_val c = BShared i -> i < zlen texts).
  Definition b_cell (row : Z) (c : bcell) : cell :=
    match b_val c with
    | BRk v => mkCell row (b_col c) (if keys (b_style c) then 0x25 else 0x21) (VBytes v)
    | BReal _ v => mkCell row (b_col c) (if keys (b_style c) then 0x24 else 0x28) (VBytes v)
    | BBool _ b => mkCell row (b_col c) 0x22 (VBytes [b])
    | BStr _ t => mkCell row (b_col c) 0x18 (VStr t)
    | BShared i => mkCell row (b_col c) 0x11 (VBytes (le4 i))
    end.
  Lemma expected_shown row c : ex row c = if shown c then [b_cell row c] else [].
  Proof.
    unfold expected, b_shown, b_null, b_cell, null_entry. destruct (existsb _ sc); [reflexivity|]. destruct (b_val c); try reflexivity.
    - now destruct (nv t).
    - destruct (nth_error texts (Z.to_nat i)) as [t|]; [now destruct (nv t)|reflexivity].
  Qed.
  Lemma expected_row_find row x k :
    find (fun c => c_col c =? k) (flat_map (ex row) (row_cells x)) =
    option_map (b_cell row) (find (fun c => (b_col c =? k) && shown c) (row_cells x)).
  Proof.
    induction (row_cells x) as [|c l IH]; [reflexivity|]. cbn [flat_map find]. rewrite expected_shown. destruct (shown c) eqn:E; cbn [app].
    - cbn [find]. replace (c_col (b_cell row c)) with (b_col c) by (unfold b_cell; now destruct (b_val c)). rewrite andb_true_r. destruct (b_col c =? k); [reflexivity|exact IH].
    - rewrite andb_false_r. exact IH.
  Qed.
  Lemma keys_temporal c : refs_ok c -> keys (b_style c) = b_temporal tm xfs c.
  Proof.
    intros (_ & (k & f & E & S) & _). unfold b_temporal. rewrite S, (Hkeys E).
    assert (V : le_value (le2 (Z.of_nat k) ++ [0]) = Z.of_nat k).
    { unfold le2, le_value. cbn [app fold_right]. pose proof (Z.div_mod (Z.of_nat k) 256). lia. }
    now rewrite V, Nat2Z.id, E.
  Qed.
  Lemma zlen_dest4 (v : bytes) : zlen v = 4 -> exists a b c d, v = [a; b; c; d].
  Proof. unfold zlen. destruct v as [|a [|b [|c [|d [|]]]]]; cbn [List.length]; intro H; try lia. now exists a, b, c, d. Qed.
  Lemma zlen_dest8 (v : bytes) : zlen v = 8 -> exists a b c d e f g h, v = [a; b; c; d; e; f; g; h].
  Proof. unfold zlen. destruct v as [|a [|b [|c [|d [|e [|f [|g [|h [|]]]]]]]]]; cbn [List.length]; intro H; try lia. now exists a, b, c, d, e, f, g, h. Qed.
  Lemma b_cell_tag row c : refs_ok c -> cell_tag o conf1 (b_cell row c) = Some (b_tag o tm xfs texts c).
  Proof.
    intro R. pose proof (keys_temporal R) as K. destruct R as (Hc & _ & Hs). unfold cell_tag, b_cell, b_tag. cbn [sc_binary].
    unfold bcell_ok in Hc. apply andb_prop in Hc as [_ Hc]. rewrite K. clear K. destruct (b_val c) as [v|f v|f v|f t|i].
    - destruct (@zlen_dest4 v ltac:(lia)) as (a & b & d & e & ->). cbn [c_xdt c_val].
      replace (le_value [a; b; d; e]) with (a + 2 ^ 8 * b + 2 ^ 16 * d + 2 ^ 24 * e) by (cbn [le_value fold_right]; lia).
      destruct (b_temporal tm xfs c); reflexivity.
    - destruct (@zlen_dest8 v ltac:(lia)) as (a & b & d & e & g & h & j & l & ->). cbn [c_xdt c_val].
      replace (le_value [a; b; d; e; g; h; j; l]) with (a + 2 ^ 8 * b + 2 ^ 16 * d + 2 ^ 24 * e + 2 ^ 32 * g + 2 ^ 40 * h + 2 ^ 48 * j + 2 ^ 56 * l)
        by (cbn [le_value fold_right]; lia).
      destruct (b_temporal tm xfs c); reflexivity.
    - reflexivity.
    - reflexivity.
    - specialize (Hs i eq_refl). assert (U : unpack_I (le4 i) = Ok i) by (apply unpack_le4; lia). cbn [c_xdt c_val].
      unfold bin_tag, le4. change (0x11 =? 0x11) with true. cbv iota.
      match goal with |- shared_text _ ?n = _ => replace n with i by (unfold unpack_I, le4 in U; cbn in U; inversion U as [U']; rewrite U' at 1; lia) end.
      unfold shared_text. cbn [sc_shared]. unfold in_table, zlen. rewrite map_length. unfold zlen in Hs.
      replace ((0 <=? i) && (i <? Z.of_nat (List.length texts)) && (i <? 2 ^ 32)) with true by lia.
      unfold shared_at. replace (i <? 0) with false by lia. rewrite nth_error_map.
      destruct (nth_error texts (Z.to_nat i)) as [t|] eqn:E; [reflexivity|]. apply nth_error_None in E. lia.
  Qed.
  Local Notation erow := (expected_row keys nv (null_entry nv texts) sc).
  Lemma b_laid_at rows r k : 0 <= r -> (forall x c, In x rows -> In c (row_cells x) -> refs_ok c) ->
    at_row o conf1 (content (laid erow rows) k) r = b_at o tm xfs texts nv sc rows r k.
  Proof.
    intros Hr R. rewrite laid_at; [|intros i x c Hc; unfold expected_row in Hc; apply in_flat_map in Hc as (b & _ & Hc); rewrite expected_shown in Hc;
      destruct (shown b); [destruct Hc as [<-|[]]; unfold b_cell; now destruct (b_val b)|easy]|exact Hr].
    unfold b_at. destruct (nth_error rows (Z.to_nat r)) as [x|] eqn:E; [|reflexivity]. unfold expected_row. rewrite expected_row_find.
    destruct (find _ (row_cells x)) as [c|] eqn:F; [|reflexivity]. cbn [option_map]. unfold tag_of. rewrite b_cell_tag; [reflexivity|].
    apply nth_error_In in E. apply find_some in F. apply (R x c E). apply F.
  Qed.
  Lemma b_laid_ok rows : (forall x c, In x rows -> In c (row_cells x) -> refs_ok c) -> sheet_ok o conf1 (laid erow rows) = true.
  Proof.
    intro R. apply forallb_forall. intros c Hc.
    assert (G : forall i, In c (laid_from erow i rows) -> i <= c_row c /\ good o conf1 c = true).
    { clear Hc. induction rows as [|x rows IH]; intros i Hc; [easy|]. unfold laid_from in Hc. cbn [enum_from flat_map fst snd] in Hc. apply in_app_iff in Hc.
      destruct Hc as [Hc|Hc].
      - apply in_flat_map in Hc as (b & Hb & Hc). rewrite expected_shown in Hc. destruct (shown b); [|easy]. destruct Hc as [<-|[]].
        split; [unfold b_cell; destruct (b_val b); cbn; lia|]. unfold good. rewrite b_cell_tag; [reflexivity|]. apply (R x b); [now left|exact Hb].
      - destruct (IH ltac:(intros; apply (R x0 c0); [now right|assumption]) (i + 1) Hc). split; [lia|assumption]. }
    destruct (G 0 Hc) as [G1 G2]. rewrite G2. lia.
  Qed.
End BFile.

Section Books.
  Context (expat : bytes -> list event * option exn) (z : archive).
  Lemma bbook_dir d : xlsb_book expat z d -> bbook_sheets expat z = Ok d /\ NoDup (map fst d).
  Proof.
    intros (rl & bl & wb & (rb & Hrb & Erb) & Hrl & Hwb & Dwb & Hbl & Rbl & N & Hr & ->). split.
    - unfold bbook_sheets. rewrite (member_open Hrb). cbn [bind]. rewrite (parse_ok _ Erb). rewrite scan_rels_ok by exact Hrl. cbn [bind].
      rewrite (member_open Hwb). cbn [bind].
      pose proof (@C30_xlsb_table rl bl wb Hrl Hbl Rbl Dwb N Hr) as C. unfold xlsb_sheets in C. rewrite scan_rels_ok in C by exact Hrl. cbn [bind] in C.
      now rewrite C.
    - now rewrite (proj1 (@C30_table_entries _ _ Hr)).
  Qed.
  Lemma xbook_dir d : xlsx_book expat z d -> xbook_sheets expat z = Ok d /\ NoDup (map fst d).
  Proof.
    intros (rl & wl & (rb & Hrb & Erb) & Hrl & (wb & Hwb & Ewb) & Hwl & N1 & N2 & N3 & Hr & ->). split.
    - unfold xbook_sheets. rewrite (member_open Hrb). cbn [bind]. rewrite (parse_ok _ Erb). rewrite scan_rels_ok by exact Hrl. cbn [bind].
      rewrite (member_open Hwb). cbn [bind]. rewrite (parse_ok _ Ewb).
      pose proof (@C30_xlsx_table rl wl Hrl Hwl N1 N2 N3 Hr) as C. unfold xlsx_sheets in C. rewrite scan_rels_ok in C by exact Hrl. cbn [bind] in C. exact C.
    - rewrite (proj1 (@C30_table_entries (rel_list rl) (sheet_list wl) ltac:(intros n i H; destruct (Hr n i H) as [t Ht]; congruence))). exact N2.
  Qed.
  Lemma xlsb_book_kind d : xlsb_book expat z d -> has_member z (s "xl/workbook.bin") = true.
  Proof. intros (rl & bl & wb & _ & _ & Hwb & _). exact (member_has Hwb). Qed.
  Lemma xlsx_book_kind d : xlsx_book expat z d -> has_member z (s "xl/workbook.xml") = true.
  Proof. intros (rl & wl & _ & _ & (wb & Hwb & _) & _). exact (member_has Hwb). Qed.
  Lemma bbook_path a rows path : xlsb_sheet expat z a rows path -> exists pre e post part, is_part pre rows e post part /\ zopen z path = Ok part /\
    exists d, bbook_sheets expat z = Ok d /\ select_sheet d a = Ok path.
  Proof.
    intros (d & pre & e & post & part & B & A & Hp & P). exists pre, e, post, part. split; [exact P|]. split; [now apply member_open|].
    destruct (bbook_dir B) as [E N]. exists d. split; [exact E|]. now apply asked_select.
  Qed.
  Lemma xbook_path a rows path : xlsx_sheet expat z a rows path -> exists b es, expat b = (es, None) /\ is_xsheet rows es /\ zopen z path = Ok b /\
    exists d, xbook_sheets expat z = Ok d /\ select_sheet d a = Ok path.
  Proof.
    intros (d & es & B & A & (b & Hb & Eb) & S). exists b, es. split; [exact Eb|]. split; [exact S|]. split; [now apply member_open|].
    destruct (xbook_dir B) as [E N]. exists d. split; [exact E|]. now apply asked_select.
  Qed.
End Books.

Section BBook.
  Context (expat : bytes -> list event * option exn) (z : archive) (w : wopts) (sl : list sitem) (yl : list yitem) (rows : list brow).
  Local Notation nv := (xlsb_null (wo_nulls w)).
  Local Notation texts := (sitem_texts sl).
  Local Notation cols := (wo_cols w).
  Local Notation shown := (b_shown texts nv cols).
  Context (F : xlsb_file expat z (wo_sheet w) sl yl rows).
  Lemma bfile_cells_ok : forall r c, In r rows -> In c (row_cells r) -> bcell_ok c = true.
  Proof.
    destruct F as [_ (path & d & pre & e & post & part & _ & _ & _ & (H & _)) _ _ _]. intros r c Hr Hc.
    unfold XlsbSpec.sheet_ok in H. apply andb_prop in H as [_ H]. rewrite forallb_forall in H. specialize (H r Hr). rewrite forallb_forall in H.
    unfold row_cells, item_cells in Hc. apply in_flat_map in Hc as (x & Hx & Hc). specialize (H x Hx). destruct x as [b|]; [|easy]. destruct Hc as [<-|[]]. exact H.
  Qed.
  Lemma bbook_sheet : exists path pre e post part, is_part pre rows e post part /\ zopen z path = Ok part /\
    exists d, bbook_sheets expat z = Ok d /\ select_sheet d (wo_sheet w) = Ok path.
  Proof.
    destruct F as [_ (path & P) _ _ _]. exists path. exact (bbook_path P).
  Qed.
  Lemma bbook_shared_ok : bbook_shared z nv = Ok (texts, null_keys nv 0 texts).
  Proof. destruct F as [_ _ (sst & Hm & Hs & Hn) _ _]. unfold bbook_shared. rewrite (member_open Hm). cbn [bind]. now apply xlsb_shared_ok. Qed.
  Lemma null_keys_entry i : 0 <= i < 2 ^ 32 -> mem_str (le4 i) (null_keys nv 0 texts) = null_entry nv texts i.
  Proof. intro Hi. destruct F as [_ _ (sst & Hm & Hs & Hn) _ _]. now rewrite null_keys_mem by (try exact Hn; lia). Qed.

  Lemma bbook_iter_cells st : bbook_styles z = Ok st -> wo_skip w = 0 -> wo_take w = 0 -> starts_well texts nv cols rows ->
    exists outs, bbook_iter expat z w = (outs, None) /\
      Cell.cells_of outs = laid (expected_row (fun k => mem_str k st) nv (null_entry nv texts) cols) (b_rows texts nv cols (wo_tne w) rows).
  Proof.
    intros St Sk Tk Sw. destruct bbook_sheet as (path & pre & e & post & part & P & Op & d & Hd & Sel).
    unfold bbook_iter. cbv zeta. rewrite bbook_shared_ok, Hd. cbn [bind]. rewrite Sel, Sk, Tk. cbn [bind Z.ltb Z.compare]. rewrite Op, St.
    set (nul := fun k => mem_str k (null_keys nv 0 texts)).
    assert (T : xlsb_iter (Ok st) nv (filled_after_first nul) 0 0 (wo_tne w) cols part = xlsb_iter (Ok st) nv (fun _ => nul) 0 0 (wo_tne w) cols part).
    { destruct (@xlsb_iter_timed st nv nul 0 0 (wo_tne w) cols part) as [T|(c & rest & v & L & X & V & N)]; [exact T|exfalso].
      assert (Hn : zlen texts <= 2 ^ 32) by (destruct F as [_ _ (sst & _ & _ & Hn) _ _]; exact Hn).
      pose proof (@iter_first (Ok st) nv 0 0 (wo_tne w) cols (filled_after_first nul) (fun _ _ => false) part eq_refl) as I. rewrite L in I. cbn [hd_error] in I.
      destruct (@xlsb_all_rows st nv (fun _ => false) pre rows e post part (wo_tne w) cols P) as [_ G]. rewrite G in I. clear G L.
      set (p := fun r => wo_tne w || _) in I. change (count_before p 0 rows) with (count_before p (0 + 0) rows) in I. revert I. unfold starts_well in Sw. generalize (0 + 0). clearbody p. revert Sw.
      assert (Ok : forall r c, In r rows -> In c (row_cells r) -> bcell_ok c = true) by exact bfile_cells_ok. clear P Hd Sel Op F. revert Ok.
      induction rows as [|x rs IH]; intros Ok Sw i I; [discriminate|]. cbn [flat_map count_before fst snd] in *. rewrite filter_app in Sw.
      unfold expected_row in I at 1.
      assert (Ok' : forall c, In c (row_cells x) -> bcell_ok c = true) by (intros; eapply Ok; [now left|assumption]).
      revert I Sw Ok'. induction (row_cells x) as [|b bs IHb]; intros I Sw Ok'.
      - apply (IH (fun r c Hr Hc => Ok r c (or_intror Hr) Hc) Sw _ I).
      - cbn [flat_map filter] in *. unfold expected in I at 1. destruct (existsb (Z.eqb (b_col b)) cols) eqn:Ec; cbn [negb andb app] in *.
        + apply IHb; [exact I|exact Sw|intros; apply Ok'; now right].
        + unfold b_null in Sw. destruct (b_val b) as [u|f u|f u|f t|j] eqn:Eb; cbn [negb app hd_error] in *.
          * inversion I; subst c. discriminate X || (cbn in X; destruct (mem_str (b_style b) st); discriminate).
          * inversion I; subst c. cbn in X; destruct (mem_str (b_style b) st); discriminate.
          * inversion I; subst c. discriminate.
          * destruct (nv t) eqn:Et; cbn [negb app hd_error] in *; [apply IHb; [exact I|exact Sw|intros; apply Ok'; now right]|].
            inversion I; subst c. discriminate.
          * inversion I; subst c. cbn in V. inversion V; subst v. rewrite Eb in Sw. specialize (Ok' b (or_introl eq_refl)). unfold bcell_ok in Ok'. rewrite Eb in Ok'.
            unfold nul in N. rewrite null_keys_mem in N by lia. congruence. }
    rewrite T. destruct (@xlsb_all_rows st nv nul pre rows e post part (wo_tne w) cols P) as [G1 G2].
    destruct (xlsb_iter (Ok st) nv (fun _ => nul) 0 0 (wo_tne w) cols part) as [outs e'] eqn:Eo. cbn [fst snd] in *. subst e'. exists outs. split; [reflexivity|]. rewrite G2.
    set (f := expected_row (fun k => mem_str k st) nv (null_entry nv texts) cols).
    assert (Ef : forall r i, In r rows -> expected_row (fun k => mem_str k st) nv (fun i => nul (le4 i)) cols i r = f i r).
    { intros r i Hr. unfold f, expected_row. apply flat_map_ext_in. intros c Hc. apply expected_null_ext; [now apply (bfile_cells_ok Hr)|].
      intros j Hj. now apply null_keys_entry. }
    assert (Er : forall r, In r rows -> row_nonempty (fun k => mem_str k st) nv (fun i => nul (le4 i)) cols r = existsb shown (row_cells r)).
    { intros r Hr. unfold row_nonempty. rewrite (Ef r 0 Hr). unfold f, expected_row. clear. induction (row_cells r) as [|c l IH]; [reflexivity|]. cbn [flat_map existsb].
      rewrite expected_shown. destruct (shown c); [reflexivity|exact IH]. }
    transitivity (flat_map (fun q => f (fst q) (snd q)) (count_before (fun r => wo_tne w || existsb shown (row_cells r)) 0 rows)).
    - clear -Ef Er. generalize 0. revert Ef Er. induction rows as [|x rs IH]; intros Ef Er i; [reflexivity|]. cbn [count_before flat_map fst snd].
      rewrite (Ef x) by now left. rewrite (Er x) by now left. f_equal. apply IH; intros; [apply Ef|apply Er]; now right.
    - apply (@laid_counted _ f). intros i x H. apply orb_false_elim in H as [_ H]. unfold f, expected_row.
      clear -H. induction (row_cells x) as [|c l IH]; [reflexivity|]. cbn [flat_map existsb] in *. apply orb_false_elim in H as [H1 H2]. rewrite expected_shown, H1. now apply IH.
  Qed.
End BBook.

(** ** .xlsx *)
Lemma lstrip_scalars t : scalars t = true -> scalars (lstrip t) = true.
Proof. induction t as [|c t IH]; intro H; [reflexivity|]. cbn [lstrip]. destruct (is_space c); [|exact H]. apply IH. unfold scalars in *. cbn in H. now apply andb_prop in H as [_ H]. Qed.
Lemma rev_scalars t : scalars t = true -> scalars (rev t) = true.
Proof. unfold scalars. rewrite !forallb_forall. intros H x Hx. apply H. now apply in_rev. Qed.
Lemma strip_scalars t : scalars t = true -> scalars (strip t) = true.
Proof. intro H. unfold strip. apply rev_scalars, lstrip_scalars, rev_scalars, lstrip_scalars, H. Qed.
Lemma int_digits_ascii t : forall b a n, int_digits b a t = Some n -> forall c, In c t -> 0 <= c < 128.
Proof.
  induction t as [|x t IH]; intros b a n; cbn [int_digits]; [easy|]. destruct (is_digit x) eqn:D.
  - intros H c [<-|I]; [unfold is_digit in D; lia|eapply IH; eassumption].
  - destruct ((x =? 95) && b) eqn:U; [|discriminate]. intros H c [<-|I]; [lia|eapply IH; eassumption].
Qed.
Lemma askip_in t c : In c t -> In c (askip t) \/ is_aspace c = true.
Proof.
  induction t as [|x t IH]; [easy|]. cbn [askip]. destruct (is_aspace x) eqn:S; [|now left]. intros [<-|I]; [now right|now apply IH].
Qed.
Lemma py_int_ascii t n : py_int t = Ok n -> forall c, In c t -> 0 <= c < 128.
Proof.
  intros H c I. unfold py_int in H. destruct (askip_in I) as [J|S]; [|unfold is_aspace in S; lia]. apply in_rev in J.
  destruct (askip_in J) as [K|S]; [|unfold is_aspace in S; lia]. apply in_rev in K.
  destruct (rev (askip (rev (askip t)))) as [|x r]; [easy|].
  assert (G : forall l, In c l -> match int_digits false 0 l with Some n => Ok n | None => Err ValueError end = Ok n -> 0 <= c < 128).
  { intros l L E. destruct (int_digits false 0 l) as [m|] eqn:D; [|discriminate]. eapply int_digits_ascii; eassumption. }
  assert (G' : forall l, In c l -> match option_map Z.opp (int_digits false 0 l) with Some n => Ok n | None => Err ValueError end = Ok n -> 0 <= c < 128).
  { intros l L E. destruct (int_digits false 0 l) as [m|] eqn:D; [|discriminate]. eapply int_digits_ascii; eassumption. }
  destruct (Z.eq_dec x 45) as [->|N1]; [destruct K as [<-|K]; [lia|now apply (G' r)]|].
  destruct (Z.eq_dec x 43) as [->|N2]; [destruct K as [<-|K]; [lia|now apply (G r)]|].
  apply (G (x :: r) K). rewrite <- H. destruct x as [|p|p]; try reflexivity. do 6 (destruct p as [p|p|]; try reflexivity); congruence.
Qed.
Lemma py_int_utf8 t i : py_int t = Ok i -> py_int (utf8 t) = Ok i.
Proof. intro H. rewrite utf8_ascii; [exact H|]. intros c Hc. pose proof (py_int_ascii H Hc). lia. Qed.

Section XFile.
  Context (o : oracle) (kind : Z -> option xkind) (xfs : list Z) (table : list (option str)) (nv : str -> bool) (sc : list Z) (cf : conf).
  Local Notation shown := (x_shown nv sc).
  Local Notation row_shown := (x_row_shown nv sc).
  Definition kind_code (k : option xkind) : option Z := match k with Some XNumber => Some 0x20 | Some XTime => Some 0x24 | None => None end.
  Context (styles : str -> option Z) (Hst : forall k f, nth_error xfs k = Some f -> styles (dec (Z.of_nat k)) = kind_code (kind f)).
  Local Notation ex := (xexpected styles nv sc).
  Local Notation erow := (xexpected_row styles nv sc).
  Local Notation conf0 := (mkSC table false cf).
  Definition x_cell (row : Z) (c : xcell) (t : str) : cell := mkCell row (x_col c) (x_kind styles c) (VBytes (utf8 t)).
  (** The first delivered cell of one element. *)
  Lemma xexpected_head row c : hd_error (ex row c) = if shown c then option_map (x_cell row c) (x_text nv c) else None.
  Proof.
    unfold xexpected, x_shown, x_text, x_cell. destruct (existsb (Z.eqb (x_col c)) sc) eqn:E; cbn [negb andb].
    - induction (x_texts c) as [|t l IH]; [reflexivity|]. cbn [flat_map]. rewrite orb_true_r. exact IH.
    - induction (x_texts c) as [|t l IH]; [reflexivity|]. cbn [flat_map find]. rewrite orb_false_r.
      destruct (XlsxSpec.blank t), (nv (strip t)); cbn [negb andb orb app hd_error option_map] in *; try exact IH. reflexivity.
  Qed.
  Lemma xexpected_col row c d : In d (ex row c) -> c_col d = x_col c /\ c_row d = row.
  Proof. unfold xexpected. intro H. apply in_flat_map in H as (t & _ & H). destruct (_ || _); [easy|]. destruct H as [<-|[]]. now split. Qed.
  Lemma xexpected_row_find row x k :
    find (fun c => c_col c =? k) (flat_map (ex row) (xrow_cells x)) =
    match find (fun c => (x_col c =? k) && shown c) (xrow_cells x) with Some c => option_map (x_cell row c) (x_text nv c) | None => None end.
  Proof.
    induction (xrow_cells x) as [|c l IH]; [reflexivity|]. cbn [flat_map find]. pose proof (xexpected_head row c) as Hh.
    assert (Hc : forall d, In d (ex row c) -> c_col d = x_col c) by (intros d Hd; now apply xexpected_col in Hd).
    assert (S : shown c = true -> x_text nv c <> None) by (unfold x_shown; destruct (x_text nv c); [discriminate|rewrite andb_false_r; discriminate]).
    destruct (ex row c) as [|d ds]; cbn [app].
    - cbn [hd_error] in Hh. destruct (shown c); [destruct (x_text nv c); [discriminate|exfalso; now apply S]|]. rewrite andb_false_r. exact IH.
    - cbn [hd_error] in Hh. destruct (shown c); [|discriminate]. rewrite andb_true_r. destruct (x_col c =? k) eqn:E.
      + cbn [find]. rewrite (Hc d) by now left. rewrite E. exact Hh.
      + rewrite <- IH. clear -Hc E. assert (G : forall ds, (forall d, In d ds -> c_col d = x_col c) -> find (fun c => c_col c =? k) (ds ++ flat_map (ex row) l) = find (fun c => c_col c =? k) (flat_map (ex row) l)).
        { clear -E. induction ds as [|d ds IH]; intro H; [reflexivity|]. cbn [app find]. rewrite (H d), E by now left. apply IH. intros; apply H; now right. }
        apply (G (d :: ds) Hc).
  Qed.
  Lemma x_format_style c : (exists k f, nth_error xfs k = Some f /\ (match x_style c with Some t => t | None => s "0" end) = dec (Z.of_nat k)) ->
    styles (match x_style c with Some t => t | None => s "0" end) = kind_code (x_format kind xfs c).
  Proof. intros (k & f & E & D). unfold x_format. rewrite D, (Hst E), py_int_dec by lia. now rewrite Nat2Z.id, E. Qed.
  Lemma x_text_scalars c t : (forall t, In t (x_texts c) -> scalars t = true) -> x_text nv c = Some t -> scalars t = true.
  Proof.
    intros H E. unfold x_text in E. destruct (find _ (x_texts c)) as [v|] eqn:F; [|discriminate]. cbn in E. inversion E; subst.
    apply find_some in F. apply strip_scalars, H, F.
  Qed.
  Lemma shared_type (u : option str) A (a d : A) :
    match u with Some [115] => a | _ => d end = if (match u with Some v => str_eqb v (s "s") | None => false end) then a else d.
  Proof.
    destruct u as [[|x [|y u]]|]; try reflexivity.
    - destruct (Z.eq_dec x 115) as [->|N]; [reflexivity|].
      replace (str_eqb [x] (s "s")) with false by (cbn; change (Z.of_N _) with 115; replace (x =? 115) with false by lia; reflexivity).
      destruct x as [|p|p]; try reflexivity. do 7 (destruct p as [p|p|]; try reflexivity); exfalso; apply N; reflexivity.
    - replace (str_eqb (x :: y :: u) (s "s")) with false by (cbn; now rewrite andb_false_r).
      destruct x as [|p|p]; try reflexivity. do 7 (destruct p as [p|p|]; try reflexivity).
  Qed.
  (** A cell made from the element has its value. *)
  Lemma x_cell_tag row c t : (exists k f, nth_error xfs k = Some f /\ (match x_style c with Some t => t | None => s "0" end) = dec (Z.of_nat k)) ->
    scalars t = true -> x_text nv c = Some t -> x_tag o kind xfs table nv c <> None -> cell_tag o conf0 (x_cell row c t) = x_tag o kind xfs table nv c.
  Proof.
    intros Hs Sc E. unfold cell_tag, x_tag, x_cell, x_kind. rewrite E. cbn [sc_binary c_xdt c_val]. rewrite shared_type. change [48] with (s "0").
    rewrite (x_format_style Hs). destruct (match x_type c with Some v => str_eqb v (s "s") | None => false end).
    - intro H. unfold txt_tag. change (0x11 =? 0x18) with false. change (0x11 =? 0x11) with true. cbv iota.
      destruct (py_int t) as [i|] eqn:P; [|easy]. rewrite (py_int_utf8 P). unfold shared_text. cbn [sc_shared]. unfold in_table.
      destruct ((0 <=? i) && (i <? 2 ^ 32)) eqn:R; [|easy]. destruct (nth_error table (Z.to_nat i)) as [v|] eqn:N; [|easy].
      assert (Z.to_nat i < List.length table)%nat by (apply nth_error_Some; congruence).
      replace ((0 <=? i) && (i <? zlen table) && (i <? 2 ^ 32)) with true by (unfold zlen; lia). unfold shared_at. replace (i <? 0) with false by lia. now rewrite N.
    - destruct (x_format kind xfs c) as [[|]|]; cbn [kind_code]; unfold txt_tag.
      + change (0x20 =? 0x18) with false. change (0x20 =? 0x11) with false. change (0x20 =? 0x20) with true. cbv iota. now destruct (o_float o (utf8 t)).
      + change (0x24 =? 0x18) with false. change (0x24 =? 0x11) with false. change (0x24 =? 0x20) with false. change (0x24 =? 0x24) with true. cbv iota. now destruct (o_float o (utf8 t)).
      + change (0x18 =? 0x18) with true. cbv iota. now rewrite (decode8_utf8 Sc).
  Qed.
  Local Notation readable := (x_readable o kind xfs table nv sc).
  Lemma x_laid_at rows r k : 0 <= r -> readable rows ->
    at_row o conf0 (content (laid erow rows) k) r = x_at o kind xfs table nv sc rows r k.
  Proof.
    intros Hr R. rewrite laid_at; [|intros i x c Hc; apply in_flat_map in Hc as (b & _ & Hc); now apply xexpected_col in Hc|exact Hr].
    unfold x_at. destruct (nth_error rows (Z.to_nat r)) as [x|] eqn:E; [|reflexivity]. unfold xexpected_row. rewrite xexpected_row_find.
    destruct (find _ (xrow_cells x)) as [c|] eqn:F; [|reflexivity]. apply find_some in F. destruct F as [F1 F2]. apply andb_prop in F2 as [_ F2].
    apply nth_error_In in E. destruct (R x c E F1) as (R1 & _ & R2 & R3). specialize (R3 F2).
    destruct (x_text nv c) as [t|] eqn:T; [|exfalso; unfold x_shown in F2; rewrite T, andb_false_r in F2; discriminate].
    cbn [option_map]. unfold tag_of. rewrite (@x_cell_tag r c t R1 (x_text_scalars R2 T) T R3). reflexivity.
  Qed.
  Lemma xexpected_one row c : (List.length (x_texts c) <= 1)%nat -> ex row c = match hd_error (ex row c) with Some d => [d] | None => [] end.
  Proof.
    unfold xexpected. destruct (x_texts c) as [|t [|]]; cbn [List.length]; intro H; [reflexivity| |lia]. cbn [flat_map]. rewrite app_nil_r.
    now destruct (_ || _).
  Qed.
  Lemma x_laid_ok rows : readable rows -> sheet_ok o conf0 (laid erow rows) = true.
  Proof.
    intro R. apply forallb_forall. intros c Hc.
    assert (G : forall i, In c (laid_from erow i rows) -> i <= c_row c /\ good o conf0 c = true).
    { clear Hc. induction rows as [|x rows IH]; intros i Hc; [easy|]. unfold laid_from in Hc. cbn [enum_from flat_map fst snd] in Hc. apply in_app_iff in Hc.
      destruct Hc as [Hc|Hc].
      - apply in_flat_map in Hc as (b & Hb & Hc). destruct (R x b (or_introl eq_refl) Hb) as (R1 & R0 & R2 & R3). split; [apply xexpected_col in Hc; lia|].
        rewrite (xexpected_one i R0), xexpected_head in Hc. destruct (shown b) eqn:S; [|easy]. destruct (x_text nv b) as [t|] eqn:T; [|easy].
        destruct Hc as [<-|[]]. specialize (R3 eq_refl). unfold good. rewrite (@x_cell_tag i b t R1 (x_text_scalars R2 T) T R3).
        now destruct (x_tag o kind xfs table nv b).
      - destruct (IH (fun r c Hr Hc => R r c (or_intror Hr) Hc) (i + 1) Hc). split; [lia|assumption]. }
    destruct (G 0 Hc) as [G1 G2]. rewrite G2. lia.
  Qed.
  Lemma x_laid_text rows c : readable rows -> In c (laid erow rows) -> exists t, scalars t = true /\ c_val c = VBytes (utf8 t).
  Proof.
    intros R Hc. unfold laid, laid_from in Hc. apply in_flat_map in Hc as ([i x] & Hx & Hc). assert (Hx' : In x rows) by (revert Hx; clear; generalize 0; induction rows as [|y r IH]; intros n H; [easy|]; destruct H as [H|H]; [left; congruence|right; exact (IH _ H)]).
    apply in_flat_map in Hc as (b & Hb & Hc). destruct (R x b Hx' Hb) as (_ & _ & R2 & _). apply in_flat_map in Hc as (t & Ht & Hc). destruct (_ || _); [easy|].
    destruct Hc as [<-|[]]. exists (strip t). split; [now apply strip_scalars, R2|reflexivity].
  Qed.
  Lemma xrow_nonempty_shown r : xrow_nonempty styles nv sc r = row_shown r.
  Proof.
    unfold xrow_nonempty, xexpected_row, x_row_shown. induction (xrow_cells r) as [|c l IH]; [reflexivity|]. cbn [flat_map existsb].
    pose proof (xexpected_head 0 c) as Hh. assert (S : shown c = true -> x_text nv c <> None) by (unfold x_shown; destruct (x_text nv c); [discriminate|rewrite andb_false_r; discriminate]).
    destruct (ex 0 c) as [|d ds]; cbn [app hd_error] in *.
    - destruct (shown c); [destruct (x_text nv c); [discriminate|exfalso; now apply S]|exact IH].
    - destruct (shown c); [reflexivity|discriminate].
  Qed.
End XFile.

Section XBook.
  Context (expat : bytes -> list event * option exn) (z : archive) (w : wopts) (sl : list xsi) (yl : list ystyle) (rows : list xrow).
  Local Notation nv := (xlsx_null (wo_nulls w)).
  Local Notation cols := (wo_cols w).
  Context (F : xlsx_file expat z (wo_sheet w) sl yl rows).
  Lemma xbook_sheet : exists path b es, expat b = (es, None) /\ is_xsheet rows es /\ zopen z path = Ok b /\
    exists d, xbook_sheets expat z = Ok d /\ select_sheet d (wo_sheet w) = Ok path.
  Proof.
    destruct F as [(path & P) _ _]. exists path. exact (xbook_path P).
  Qed.
  Lemma xbook_shared_ok : xbook_shared expat z nv = Ok (fst (xlsx_shared nv (flat_map xsi_events sl))).
  Proof. destruct F as [_ ((b & Hb & Eb) & _) _]. unfold xbook_shared. rewrite (member_open Hb). cbn [bind]. now rewrite (parse_ok _ Eb). Qed.
  Lemma xbook_styles_ok : xbook_styles expat z = xlsx_styles (flat_map ystyle_events yl).
  Proof. destruct F as [_ _ ((b & Hb & Eb) & _)]. unfold xbook_styles. rewrite (member_open Hb). cbn [bind]. now rewrite (parse_ok _ Eb). Qed.
  Lemma xbook_iter_cells st : xbook_styles expat z = Ok st -> wo_skip w = 0 -> wo_take w = 0 ->
    (wo_tne w = true -> match rows with [] => True | r :: _ => x_row_shown nv cols r = true end) ->
    exists outs, xbook_iter expat z w = (outs, None) /\
      Cell.cells_of outs = laid (xexpected_row (style_get st) nv cols) (x_rows nv cols (wo_tne w) rows).
  Proof.
    intros St Sk Tk Hd. destruct xbook_sheet as (path & b & es & Eb & S & Op & d & Hs & Sel).
    unfold xbook_iter. rewrite Hs. cbn [bind]. rewrite Sel, Sk, Tk. cbn [bind Z.ltb Z.compare]. rewrite Op, St. cbn [bind]. rewrite Eb.
    eexists. split; [reflexivity|]. unfold x_rows. destruct (wo_tne w).
    - specialize (Hd eq_refl). destruct rows as [|r rs].
      + destruct (@xlsx_of_sheet (style_get st) nv 0 0 true cols [] es None S) as (pre & post & Hok & E). rewrite E.
        rewrite xlsx_keep_cells by (try exact Hok; lia). reflexivity.
      + rewrite (@C23_xlsx_cells_partial (style_get st) nv r rs es cols None S); [reflexivity|]. now rewrite xrow_nonempty_shown.
    - rewrite (@C24_xlsx_exact_collapsed_rows (style_get st) nv rows es cols None S). cbv zeta.
      assert (L : leading (xrow_nonempty (style_get st) nv cols) rows = leading (x_row_shown nv cols) rows).
      { clear. induction rows as [|r rs IH]; [reflexivity|]. cbn [leading]. now rewrite xrow_nonempty_shown, IH. }
      rewrite L. apply (@laid_leading _ (xexpected_row (style_get st) nv cols) (x_row_shown nv cols)). intros i x H. rewrite <- (xrow_nonempty_shown nv cols (style_get st)) in H.
      unfold xrow_nonempty in H. clear -H. unfold xexpected_row in *. induction (xrow_cells x) as [|c l IH]; [reflexivity|]. cbn [flat_map] in *.
      pose proof (xexpected_head nv cols (style_get st) i c) as H1. pose proof (xexpected_head nv cols (style_get st) 0 c) as H0.
      destruct (xexpected (style_get st) nv cols 0 c); [|discriminate]. cbn [app hd_error] in *. rewrite IH by exact H.
      destruct (xexpected (style_get st) nv cols i c); [reflexivity|]. exfalso. cbn in H1. destruct (x_shown nv cols c); [|discriminate]. destruct (x_text nv c); discriminate.
  Qed.
End XBook.
