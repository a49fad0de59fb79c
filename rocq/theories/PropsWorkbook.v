(** Claims C69-C73: from the archive to the table. *)
From Coq Require Import Sorted.
From Verif Require Import Py PyFacts PyText Biff BiffSpec BiffRecs Utf16 Utf16Spec NumFmt NumFmtSpec Cell Xlsb Xlsx XlsbSpec XlsbProofs XlsbParts PropsXlsb
  XlsxSpec XlsxProofs XlsxParts XlsxNorm PropsXlsx Sheets SheetsSpec SheetsProofs PropsSheets Casts Chunk ChunkSpec Utf8 Series SeriesSpec
  Reader ReaderSpec ReaderProofs ReaderSteps ReaderRead ReaderMore PropsReader Workbook WorkbookSpec WorkbookProofs.
From Coq Require Import ZifyBool ZifyNat.
Set Implicit Arguments. Unset Strict Implicit.

(** ** Places *)
(** The sheet as a function from row and column to the cell's value ([tnull]: no cell), [n]
    its number of rows.  Its columns, in order; some column reaches from the first to the last row. *)
Definition columns_of (P : Z -> Z -> tag) (n : Z) (ks : list Z) : Prop :=
  StronglySorted Z.lt ks /\ forall k, In k ks <-> exists r, 0 <= r < n /\ P r k <> tnull.
Definition reaches (P : Z -> Z -> tag) (n : Z) : Prop := exists k, P 0 k <> tnull /\ P (n - 1) k <> tnull.
(** The rows from [off] on of one column. *)
Definition below (P : Z -> Z -> tag) (k off n : Z) : list tag := map (fun i => P (off + Z.of_nat i) k) (seq 0 (Z.to_nat (n - off))).
(** The array [a] shows these values: each one as it is or converted (only where the mode and
    the other values of the column allow), else in the natural type of the column. *)
Definition shows (o : oracle) (cf : conf) (w : list tag) (a : array) : Prop :=
  Forall2 (delivers o cf (a_type a)) w (a_vals a) /\
  (attempted (mkSC [] true cf) w = false -> a_type a = natural o (mkSC [] true cf) w /\
     Forall2 (fun x v => render o (a_type a) (t_val x) = Ok v) w (a_vals a)).

(** The names of the columns: numbered without a header, else the titles made of the texts of
    the first [h] rows. *)
Definition named (o : oracle) (cf : conf) (P : Z -> Z -> tag) (ks : list Z) (h : Z) (names : list str) : Prop :=
  if h =? 0 then names = map (fun i => s "Unnamed. " ++ dec (Z.of_nat i)) (seq 0 (List.length ks))
  else exists blocks, names = titles blocks /\
    Forall2 (fun k b => exists a, shows o cf (below P k 0 h) a /\ b = map (text_form o) (a_vals a)) ks blocks.
(** The table: one column per column of the sheet, names from the first [h] rows, values from
    row [off] on. *)
Definition table_shows (ro : roracle) (cf : conf) (P : Z -> Z -> tag) (n : Z) (ks : list Z) (h off : Z) (tbl : table ro) : Prop :=
  List.length tbl = List.length ks /\ named (ro_o ro) cf P ks h (map fst tbl) /\
  forall i k, nth_error ks i = Some k -> exists name a, nth_error tbl i = Some (name, Plain ro a) /\ shows (ro_o ro) cf (below P k off n) a.

Lemma tag_not_null o sc c : good o sc c = true -> tag_of o sc c <> tnull.
Proof.
  unfold good, tag_of. destruct (cell_tag o sc c) as [t|] eqn:E; [|discriminate]. intros _ ->. unfold cell_tag in E.
  assert (S : forall i, shared_text sc i <> Some tnull) by (intro i; unfold shared_text; destruct (_ && _); discriminate).
  destruct (sc_binary sc).
  - unfold bin_tag in E. destruct (c_val c) as [b|t]; [|destruct (_ =? _); discriminate].
    destruct b as [|b0 [|b1 [|b2 [|b3 [|b4 [|b5 [|b6 [|b7 [|]]]]]]]]]; try discriminate; repeat (destruct (c_xdt c =? _); [try discriminate; now apply S in E|]); discriminate.
  - unfold txt_tag in E. destruct (c_val c) as [b|t]; [|discriminate]. destruct (_ =? _); [destruct (decode8 b); discriminate|].
    destruct (_ =? _); [destruct (py_int b); [now apply S in E|discriminate]|]. destruct (_ =? _); [destruct (o_float o b); discriminate|].
    destruct (_ =? _); [destruct (o_float o b); discriminate|discriminate].
Qed.

Section Table.
  Context (A : Type) (f : Z -> A -> list cell) (Hf : forall i x c, In c (f i x) -> c_row c = i).
  Context (ro : roracle) (sc : sconf) (rows : list A) (P : Z -> Z -> tag) (ks : list Z).
  Local Notation o := (ro_o ro).
  Local Notation l := (laid f rows).
  Local Notation n := (zlen rows).
  Context (S : sheet_ok o sc l = true) (HP : forall r k, 0 <= r -> at_row o sc (content l k) r = P r k) (K : columns_of P n ks).
  Lemma laid_in_row c : In c l -> exists x, nth_error rows (Z.to_nat (c_row c)) = Some x /\ In c (f (c_row c) x) /\ 0 <= c_row c < n.
  Proof.
    clear S HP K. unfold laid, laid_from. assert (G : forall rows i, 0 <= i -> In c (flat_map (fun p => f (fst p) (snd p)) (enum_from i rows)) ->
      exists x, nth_error rows (Z.to_nat (c_row c - i)) = Some x /\ In c (f (c_row c) x) /\ i <= c_row c < i + zlen rows).
    { clear ks P. intro rs. induction rs as [|x rs IH]; intros i Hi H; [easy|]. cbn [enum_from flat_map fst snd] in H. rewrite zlen_cons. pose proof (zlen_nonneg rs).
      apply in_app_iff in H. destruct H as [H|H].
      - pose proof (Hf H) as E. exists x. rewrite E, Z.sub_diag. split; [reflexivity|]. split; [exact H|lia].
      - destruct (IH (i + 1) ltac:(lia) H) as (y & E & H1 & H2). exists y. split; [|split; [exact H1|lia]].
        replace (Z.to_nat (c_row c - i)) with (Datatypes.S (Z.to_nat (c_row c - (i + 1)))) by lia. exact E. }
    intro H. destruct (G rows 0 ltac:(lia) H) as (x & E & H1 & H2). rewrite Z.sub_0_r in E. exists x. split; [exact E|]. split; [exact H1|lia].
  Qed.
  Lemma place_filled c : In c l -> P (c_row c) (c_col c) <> tnull.
  Proof.
    intro H. destruct (laid_in_row H) as (x & E & Hx & Hr). rewrite <- HP by lia. rewrite (laid_at Hf) by lia. rewrite E.
    destruct (find (fun d => c_col d =? c_col c) (f (c_row c) x)) as [d|] eqn:F.
    - apply tag_not_null. apply find_some in F. destruct F as [F _]. assert (In d l).
      { unfold laid, laid_from. apply in_flat_map. exists (c_row c, x). split; [|exact F]. clear -E Hr.
        apply nth_error_In with (n := Z.to_nat (c_row c)). rewrite enum_from_nth, E. cbn. f_equal. f_equal. lia. }
      unfold sheet_ok in S. rewrite forallb_forall in S. specialize (S d H0). lia.
    - exfalso. assert (G := find_none _ _ F c Hx). cbn in G. lia.
  Qed.
  Lemma filled_place r k : 0 <= r -> P r k <> tnull -> exists c, In c (content l k) /\ c_row c = r.
  Proof.
    clear -HP. intros Hr H. rewrite <- HP in H by exact Hr. unfold at_row in H. destruct (find _ (content l k)) as [c|] eqn:F; [|easy]. apply find_some in F. exists c. split; [apply F|lia].
  Qed.
  Lemma content_cell k c : In c (content l k) -> In c l /\ c_col c = k.
  Proof. clear. intro H. apply ReaderProofs.firsts_in in H. apply filter_In in H. split; [apply H|lia]. Qed.
  Lemma places_listing : listing l ks.
  Proof.
    destruct K as [K1 K2]. split; [exact K1|]. intro k. rewrite K2. split.
    - intros (r & Hr & H). destruct (filled_place (proj1 Hr) H) as (c & Hc & _). apply content_cell in Hc. now exists c.
    - intros (c & Hc & <-). destruct (laid_in_row Hc) as (_ & _ & _ & Hr). exists (c_row c). split; [exact Hr|]. now apply place_filled.
  Qed.
  Lemma increasing_first m c r : increasing m (c :: r) = true -> forall d, In d (c :: r) -> c_row c <= c_row d.
  Proof.
    clear. cbn. revert m c. induction r as [|b r IH]; intros m c H d [->|Hd]; [lia|easy|lia|]. apply andb_prop in H as [H1 H2]. cbn in H2. specialize (IH _ _ H2 d Hd). lia.
  Qed.
  Lemma increasing_last m t : increasing m t = true -> forall d, In d t -> c_row d <= last_row t.
  Proof.
    clear. intros H d Hd. destruct t as [|c r] eqn:E; [easy|]. rewrite <- E in *. apply (@increasing_ends t m H d c r E Hd).
  Qed.
  Lemma places_tallest : reaches P n -> tallest l ks n.
  Proof.
    intros (k & H0 & H1). assert (B : forall j, In j ks -> exists c r, content l j = c :: r /\ (forall d, In d (c :: r) -> 0 <= c_row d < n) /\ exists d, In d (c :: r) /\ c_row d = last_row (content l j)).
    { intros j Hj. apply places_listing in Hj. destruct Hj as (c & Hc & Ec). destruct (laid_in_row Hc) as (_ & _ & _ & Hr).
      destruct (@filled_place (c_row c) j ltac:(lia)) as (d & Hd & Ed); [rewrite <- Ec; now apply place_filled|].
      destruct (content l j) as [|c0 r] eqn:E; [easy|]. exists c0, r. split; [reflexivity|]. split.
      - intros x Hx. rewrite <- E in Hx. apply content_cell in Hx. destruct (laid_in_row (proj1 Hx)) as (_ & _ & _ & Hr'). exact Hr'.
      - apply (@last_row_in _ c0 r). reflexivity. }
    assert (Hk : In k ks /\ span l k = n).
    { assert (0 < n).
      { destruct (filled_place (Z.le_refl 0) H0) as (c & Hc & Ec). apply content_cell in Hc. destruct (laid_in_row (proj1 Hc)) as (_ & _ & _ & Hr). lia. }
      destruct (filled_place (Z.le_refl 0) H0) as (c & Hc & Ec). destruct (@filled_place (n - 1) k ltac:(lia) H1) as (d & Hd & Ed).
      assert (J : In k ks). { apply places_listing. exists c. now apply content_cell. }
      split; [exact J|]. destruct (B k J) as (c0 & r & E & Br & x & Hx & Ex). unfold span. rewrite E in *.
      pose proof (content_increasing l k) as I. rewrite E in I. pose proof (increasing_first I Hc). pose proof (increasing_last I Hd).
      pose proof (Br c0 (or_introl eq_refl)). pose proof (Br x Hx). lia. }
    split; [exists k; split; [apply Hk|symmetry; apply Hk]|].
    intros j Hj. destruct (B j Hj) as (c & r & E & Br & x & Hx & Ex). unfold span. rewrite E in *. pose proof (Br c (or_introl eq_refl)). pose proof (Br x Hx). lia.
  Qed.
  Lemma places_wanted k off m : 0 <= off < m -> wanted o sc (content l k) off (m - off) None = below P k off m.
  Proof.
    clear -HP. intro H. unfold wanted. replace ((off =? 0) && (m - off =? 0)) with false by lia. unfold at_rows, below. apply map_ext_in. intros i _. apply HP. lia.
  Qed.

  (** The table, plain options. *)
  Lemma places_table op outs h : Cell.cells_of outs = l -> reaches P n -> plain op -> r_header op = HInt h -> 0 <= h -> 0 <= r_skip_after op ->
    h + r_skip_after op < n -> cf_datetime (sc_conf sc) = false ->
    exists tbl, read_trace ro sc op (outs, None) = Ok tbl /\ table_shows (sc_conf sc) P n ks h (h + r_skip_after op) tbl.
  Proof.
    intros El Re Pl Hh Hh0 Hs Hn Hd. pose proof places_listing as Ls. pose proof (places_tallest Re) as T.
    assert (Ne : l <> []). { destruct Re as (k & H0 & _). destruct (filled_place (Z.le_refl 0) H0) as (c & Hc & _). apply content_cell in Hc. destruct l; [easy|discriminate]. }
    rewrite <- El in Ls, T, Ne. assert (S' : sheet_ok o sc (Cell.cells_of outs) = true) by now rewrite El.
    destruct (@C52_returns ro sc op h outs ks n S' Ne Ls Pl Hh Hh0 Hs T Hn Hd) as (tbl & R). exists tbl. split; [exact R|]. split; [apply (C52_shape Ls R)|].
    assert (Sz : sizes_ok op). { destruct Pl as (P1 & _). split; [now rewrite P1|]. split; [intros m E; rewrite Hh in E; inversion E; lia|exact Hs]. }
    destruct (C52_content S' Ls Sz R) as (tall & first & height & idx & T' & L' & N' & C).
    assert (tall = n). { destruct T as [(k & Hk & E) T2], T' as [(k' & Hk' & E') T2']. specialize (T2 k' Hk'). specialize (T2' k Hk). lia. }
    subst tall. destruct Pl as (P1 & P2 & P3). unfold located in L'. rewrite P1 in L'. subst first. unfold titled in N'. rewrite Hh in N'. destruct N' as [-> N'].
    split.
    { unfold named. destruct (h =? 0) eqn:E0; [exact N'|]. destruct N' as (bs & F & E). exists bs. split; [exact E|]. rewrite El in F. clear -F HP Hh0 E0.
      induction F as [|k b ks0 bs Hb F IH]; constructor; [|exact IH]. destruct Hb as (a & [H1 H2] & Ea). exists a. split; [|exact Ea].
      assert (W : wanted o sc (content l k) 0 h None = below P k 0 h) by (rewrite <- places_wanted by lia; now rewrite Z.sub_0_r). rewrite W in H1, H2. split; [exact H1|exact H2]. }
    rewrite Z.add_0_r in C. destruct C as [Kr C]; [lia|].
    rewrite P2 in Kr. unfold chosen_columns in Kr. assert (E : flat_map (fun i => if chosen ro FNone i (nth i (map fst tbl) []) then [nth i ks 0] else []) (seq 0 (List.length ks)) = []).
    { clear. induction (seq 0 (List.length ks)) as [|i r IH]; [reflexivity|exact IH]. }
    rewrite E in Kr. cbn in Kr. destruct idx; [easy|]. intros i k Hk. destruct (C i k Hk) as (name & c & a & H1 & [H2 H3] & H4). rewrite P3 in H4. cbn in H4. subst c.
    exists name, a. split; [exact H1|]. rewrite El in H2, H3. rewrite places_wanted in H2, H3 by lia. split; [exact H2|exact H3].
  Qed.
End Table.

(** ** C71: the table of a well-formed file *)
(** An .xlsb format id is a date or time format: built in, or by its (last) custom code. *)
Definition b_time (yl : list yitem) (tm : str -> bool) (f : Z) : bool :=
  builtin_temporal f || match last_fmt f (custom_fmts yl) with Some c => tm c | None => false end.

Section BTable.
  Context (expat : bytes -> list event * option exn) (ro : roracle) (z : archive) (w : wopts) (sl : list sitem) (yl : list yitem) (rows : list brow) (tm : str -> bool).
  Local Notation nv := (xlsb_null (wo_nulls w)).
  Local Notation texts := (sitem_texts sl).
  Local Notation cols := (wo_cols w).
  Local Notation rs := (b_rows texts nv cols (wo_tne w) rows).
  Local Notation P := (b_at (ro_o ro) (b_time yl tm) (cell_xfs yl) texts nv cols rs).
  Local Notation sc := (mkSC (map Some texts) true (wo_conf w)).
  Context (F : xlsb_file expat z (wo_sheet w) sl yl rows) (Ids : forallb (fun f => f <? 256) (cell_xfs yl) = true)
    (Codes : forall i c, In (i, c) (custom_fmts yl) -> code_class c (tm c) /\ safe_length (n_units c) = true)
    (Sk : wo_skip w = 0) (Tk : wo_take w = 0) (Sw : starts_well texts nv cols rows).
  Lemma b_read : exists (f : Z -> brow -> list cell) outs, (forall i x c, In c (f i x) -> c_row c = i) /\ Cell.cells_of outs = laid f rs /\
    sheet_ok (ro_o ro) sc (laid f rs) = true /\ (forall r k, 0 <= r -> at_row (ro_o ro) sc (content (laid f rs) k) r = P r k) /\
    forall op, laid f rs <> [] -> read_book expat ro z w op = read_trace ro sc op (outs, None).
  Proof.
    assert (St : exists st, bbook_styles z = Ok st /\ forall k f, nth_error (cell_xfs yl) k = Some f -> mem_str (le2 (Z.of_nat k) ++ [0]) st = b_time yl tm f).
    { destruct F as [_ _ _ (st & Hm & Hs & Hn) _]. unfold bbook_styles. rewrite (member_open Hm). cbn [bind]. exact (@C14_styles_partial yl st tm Hs Hn Ids Codes). }
    destruct St as (st & Est & Hst). destruct (bbook_iter_cells F Est Sk Tk Sw) as (outs & Ei & El).
    set (f := expected_row (fun k => mem_str k st) nv (null_entry nv texts) cols) in *. exists f, outs.
    assert (R : forall x c, In x rs -> In c (row_cells x) -> refs_ok (cell_xfs yl) texts c).
    { intros x c Hx Hc. apply filter_In in Hx as [Hx _]. split; [exact (bfile_cells_ok F Hx Hc)|]. destruct F as [_ _ _ _ Rf]. exact (Rf x c Hx Hc). }
    split. { intros i x c Hc. unfold f, expected_row in Hc. apply in_flat_map in Hc as (b & _ & Hc). rewrite expected_shown in Hc.
      destruct (b_shown texts nv cols b); [destruct Hc as [<-|[]]; unfold b_cell; now destruct (b_val b)|easy]. }
    split; [exact El|]. split; [apply (@b_laid_ok (ro_o ro) (b_time yl tm) (cell_xfs yl) texts nv cols (wo_conf w) (fun k => mem_str k st) Hst rs R)|].
    split; [intros r k Hr; apply (@b_laid_at (ro_o ro) (b_time yl tm) (cell_xfs yl) texts nv cols (wo_conf w) (fun k => mem_str k st) Hst rs r k Hr R)|].
    intros op Ne. unfold read_book. destruct F as [Hk (path & d & pre & e & post & part & B & _) _ _ _]. rewrite (absent_has Hk), (xlsb_book_kind B).
    rewrite Ei, (bbook_shared_ok F). cbn [bind fst]. unfold read_cells. cbn [fst]. rewrite El. destruct (laid f rs); [easy|reflexivity].
  Qed.
  Lemma b_table ks op h : columns_of P (zlen rs) ks -> reaches P (zlen rs) -> plain op -> r_header op = HInt h -> 0 <= h -> 0 <= r_skip_after op ->
    h + r_skip_after op < zlen rs -> cf_datetime (wo_conf w) = false ->
    exists tbl, read_book expat ro z w op = Ok tbl /\ table_shows (wo_conf w) P (zlen rs) ks h (h + r_skip_after op) tbl.
  Proof.
    intros K Re Pl Hh Hh0 Hs Hn Hd. destruct b_read as (f & outs & Hf & El & S & HP & R).
    destruct (@places_table _ f Hf ro sc rs P ks S HP K op outs h El Re Pl Hh Hh0 Hs Hn Hd) as (tbl & Ht & T). exists tbl. split; [|exact T].
    rewrite R; [exact Ht|]. destruct Re as (k & H0 & _). destruct (@filled_place _ f ro sc rs P HP 0 k (Z.le_refl 0) H0) as (c & Hc & _).
    apply content_cell in Hc. destruct (laid f rs); [easy|discriminate].
  Qed.
End BTable.

(** An .xlsx format id: number, date or time, or neither. *)
Definition x_class (yl : list ystyle) (num tm : str -> bool) (f : Z) : option xkind :=
  let custom p := match last_fmt f (z_fmts yl) with Some c => p c | None => false end in
  if builtin_numeric f || custom num then Some XNumber else if builtin_temporal f || custom tm then Some XTime else None.

(** The text of each shared string: its first text that is neither blank nor null. *)
Definition shared_table (nv : str -> bool) (sl : list xsi) : list (option str) :=
  map (fun i => option_map strip (find (fun t => negb (XlsxSpec.blank t) && negb (nv (strip t))) (si_texts i))) (sis sl).
Lemma shared_table_ok nv sl : forallb xsi_ok sl = true -> fst (xlsx_shared nv (flat_map xsi_events sl)) = shared_table nv sl.
Proof.
  intro H. rewrite xlsx_shared_ok by exact H. cbn [fst]. unfold shared_table. apply map_ext. intro i. unfold si_entry.
  induction (si_texts i) as [|t l IH]; [reflexivity|]. cbn [filter find]. destruct (_ && _); [reflexivity|exact IH].
Qed.

Section XTable.
  Context (expat : bytes -> list event * option exn) (ro : roracle) (z : archive) (w : wopts) (sl : list xsi) (yl : list ystyle) (rows : list xrow) (num tm : str -> bool).
  Local Notation nv := (xlsx_null (wo_nulls w)).
  Local Notation tab := (shared_table nv sl).
  Local Notation cols := (wo_cols w).
  Local Notation rs := (x_rows nv cols (wo_tne w) rows).
  Local Notation P := (x_at (ro_o ro) (x_class yl num tm) (z_xfs yl) tab nv cols rs).
  Local Notation sc := (mkSC tab false (wo_conf w)).
  Context (F : xlsx_file expat z (wo_sheet w) sl yl rows)
    (Codes : forall i c, In (i, c) (z_fmts yl) -> code_class c (tm c)
       /\ exists fs rest, existsb (Z.eqb ch_semi) fs = false /\ (c = fs \/ c = fs ++ ch_semi :: rest)
          /\ (num c = true <-> fs = s "0" \/ exists a b, fs = a ++ s ".00" ++ b))
    (Rd : x_readable (ro_o ro) (x_class yl num tm) (z_xfs yl) tab nv cols rows)
    (Sk : wo_skip w = 0) (Tk : wo_take w = 0) (Fr : wo_tne w = true -> match rows with [] => True | r :: _ => x_row_shown nv cols r = true end).
  Lemma x_rows_in x : In x rs -> In x rows.
  Proof. unfold x_rows. destruct (wo_tne w); [easy|]. intro H. rewrite <- (firstn_skipn (Z.to_nat (leading (x_row_shown nv cols) rows)) rows). apply in_or_app. now right. Qed.
  Lemma x_read : exists (f : Z -> xrow -> list cell) outs, (forall i x c, In c (f i x) -> c_row c = i) /\ Cell.cells_of outs = laid f rs /\
    sheet_ok (ro_o ro) sc (laid f rs) = true /\ (forall r k, 0 <= r -> at_row (ro_o ro) sc (content (laid f rs) k) r = P r k) /\
    forall op, laid f rs <> [] -> read_book expat ro z w op = read_trace ro sc op (outs, None).
  Proof.
    assert (St : exists st, xbook_styles expat z = Ok st /\ forall k f, nth_error (z_xfs yl) k = Some f -> style_get st (dec (Z.of_nat k)) = kind_code (x_class yl num tm f)).
    { rewrite (xbook_styles_ok F). destruct F as [_ _ (_ & Hy)]. destruct (@C29_styles yl num tm Hy Codes) as (st & E & H). exists st. split; [exact E|].
      intros k f Hk. rewrite (H k f Hk). unfold x_class. cbv zeta. destruct (_ || _); [reflexivity|]. now destruct (_ || _). }
    destruct St as (st & Est & Hst). destruct (xbook_iter_cells F Est Sk Tk Fr) as (outs & Ei & El).
    set (f := xexpected_row (style_get st) nv cols) in *. exists f, outs.
    assert (R : x_readable (ro_o ro) (x_class yl num tm) (z_xfs yl) tab nv cols rs) by (intros r c Hr; apply Rd; now apply x_rows_in).
    split; [intros i x c Hc; apply in_flat_map in Hc as (b & _ & Hc); now apply xexpected_col in Hc|].
    split; [exact El|]. split; [apply (@x_laid_ok (ro_o ro) (x_class yl num tm) (z_xfs yl) tab nv cols (wo_conf w) (style_get st) Hst rs R)|].
    split; [intros r k Hr; apply (@x_laid_at (ro_o ro) (x_class yl num tm) (z_xfs yl) tab nv cols (wo_conf w) (style_get st) Hst rs r k Hr R)|].
    intros op Ne. unfold read_book. destruct (xf_sheet F) as (path & d & es & B & _). rewrite (xlsx_book_kind B).
    rewrite Ei, (xbook_shared_ok F), shared_table_ok by apply F. cbn [bind fst]. unfold read_cells. cbn [fst]. rewrite El. destruct (laid f rs); [easy|reflexivity].
  Qed.
  Lemma x_table ks op h : columns_of P (zlen rs) ks -> reaches P (zlen rs) -> plain op -> r_header op = HInt h -> 0 <= h -> 0 <= r_skip_after op ->
    h + r_skip_after op < zlen rs -> cf_datetime (wo_conf w) = false ->
    exists tbl, read_book expat ro z w op = Ok tbl /\ table_shows (wo_conf w) P (zlen rs) ks h (h + r_skip_after op) tbl.
  Proof.
    intros K Re Pl Hh Hh0 Hs Hn Hd. destruct x_read as (f & outs & Hf & El & S & HP & R).
    destruct (@places_table _ f Hf ro sc rs P ks S HP K op outs h El Re Pl Hh Hh0 Hs Hn Hd) as (tbl & Ht & T). exists tbl. split; [|exact T].
    rewrite R; [exact Ht|]. destruct Re as (k & H0 & _). destruct (@filled_place _ f ro sc rs P HP 0 k (Z.le_refl 0) H0) as (c & Hc & _).
    apply content_cell in Hc. destruct (laid f rs); [easy|discriminate].
  Qed.
End XTable.

(** Full claim: no restriction on format ids and codes, on the first cell, on the shape of the
    sheet (a column reaching from the first to the last row), on the conversion mode.  Proved
    here: the file is read, and every column of the sheet appears once, in order, with its
    title and the values of its cells row by row. *)
Theorem C71_xlsb_partial expat ro z w sl yl rows (tm : str -> bool) ks op h :
  let nv := xlsb_null (wo_nulls w) in let texts := sitem_texts sl in
  let rs := b_rows texts nv (wo_cols w) (wo_tne w) rows in
  let P := b_at (ro_o ro) (b_time yl tm) (cell_xfs yl) texts nv (wo_cols w) rs in
  xlsb_file expat z (wo_sheet w) sl yl rows ->
  forallb (fun f => f <? 256) (cell_xfs yl) = true ->
  (forall i c, In (i, c) (custom_fmts yl) -> code_class c (tm c) /\ safe_length (n_units c) = true) ->
  wo_skip w = 0 -> wo_take w = 0 -> starts_well texts nv (wo_cols w) rows ->
  columns_of P (zlen rs) ks -> reaches P (zlen rs) ->
  plain op -> r_header op = HInt h -> 0 <= h -> 0 <= r_skip_after op -> h + r_skip_after op < zlen rs ->
  cf_datetime (wo_conf w) = false ->
  exists tbl, read_book expat ro z w op = Ok tbl /\ table_shows (wo_conf w) P (zlen rs) ks h (h + r_skip_after op) tbl.
Proof. intros nv texts rs P F Ids Codes Sk Tk Sw K Re Pl Hh Hh0 Hs Hn Hd. exact (b_table F Ids Codes Sk Tk Sw K Re Pl Hh Hh0 Hs Hn Hd). Qed.
Print Assumptions C71_xlsb_partial.
Theorem C71_xlsx_partial expat ro z w sl yl rows (num tm : str -> bool) ks op h :
  let nv := xlsx_null (wo_nulls w) in let tab := shared_table nv sl in
  let rs := x_rows nv (wo_cols w) (wo_tne w) rows in
  let P := x_at (ro_o ro) (x_class yl num tm) (z_xfs yl) tab nv (wo_cols w) rs in
  xlsx_file expat z (wo_sheet w) sl yl rows ->
  (forall i c, In (i, c) (z_fmts yl) -> code_class c (tm c)
     /\ exists fs rest, existsb (Z.eqb ch_semi) fs = false /\ (c = fs \/ c = fs ++ ch_semi :: rest)
        /\ (num c = true <-> fs = s "0" \/ exists a b, fs = a ++ s ".00" ++ b)) ->
  x_readable (ro_o ro) (x_class yl num tm) (z_xfs yl) tab nv (wo_cols w) rows ->
  wo_skip w = 0 -> wo_take w = 0 -> (wo_tne w = true -> match rows with [] => True | r :: _ => x_row_shown nv (wo_cols w) r = true end) ->
  columns_of P (zlen rs) ks -> reaches P (zlen rs) ->
  plain op -> r_header op = HInt h -> 0 <= h -> 0 <= r_skip_after op -> h + r_skip_after op < zlen rs ->
  cf_datetime (wo_conf w) = false ->
  exists tbl, read_book expat ro z w op = Ok tbl /\ table_shows (wo_conf w) P (zlen rs) ks h (h + r_skip_after op) tbl.
Proof. intros nv tab rs P F Codes Rd Sk Tk Fr K Re Pl Hh Hh0 Hs Hn Hd. exact (x_table F Codes Rd Sk Tk Fr K Re Pl Hh Hh0 Hs Hn Hd). Qed.
Print Assumptions C71_xlsx_partial.

(** ** Example files *)
(** Members of an XML kind hold one byte; the parser knows them by it. *)
Definition ex_expat (parts : list (Z * list event)) (b : bytes) : list event * option exn :=
  match b with [k] => match find (fun p => fst p =? k) parts with Some p => (snd p, None) | None => ([], Some XmlError) end | _ => ([], Some XmlError) end.
Definition dumped (l : list record) : bytes := match dump_all l with Ok b => b | Err _ => [] end.
(** Rows: "name" "age"; "x" 7; (nothing); "z" 9.  "name" and "z" are shared strings. *)
Definition bc (k : Z) (v : bval) : bcell := mkB k [1; 0; 0] 0 v [].
Definition bk (n : Z) : bval := BRk [4 * n + 2; 0; 0; 0].
Definition row_of (n : Z) (l : list bcell) : brow := (le4 n ++ [0; 0], map IC l).
Definition exb_rows : list brow :=
  [row_of 0 [bc 0 (BShared 0); bc 2 (BStr false (s "age"))]; row_of 1 [bc 0 (BStr false (s "x")); bc 2 (bk 7)]; row_of 2 []; row_of 3 [bc 0 (BShared 1); bc 2 (bk 9)]].
Definition exb_sl : list sitem := [SX (mkRec 159 [0; 0]); SI 0 (s "name") []; SI 0 (s "z") []].
Definition exb_yl : list yitem := [YFmt 164 (s "yyyy"); YXF 0xFFFF 0 [0; 0]; YXF 0 164 [0; 0]; YXF 0 0 [0; 0]].
Definition exb_rl : list ritem := [RI (s "rId1") (s "http://x") (s "worksheet") (s "worksheets/sheet1.bin") []].
Definition exb_bl : list bitem := [BI 0 1 (s "rId1") (s "Data") []].
Definition exb_files (rows : list brow) (sl : list sitem) : archive :=
  [(s "xl/_rels/workbook.bin.rels", [1]); (s "xl/workbook.bin", dumped (map bitem_record exb_bl));
   (s "xl/worksheets/sheet1.bin", dumped (sheet_records [mkRec 129 []] rows [] [mkRec 130 []]));
   (s "xl/styles.bin", dumped (map yitem_record exb_yl)); (s "xl/sharedStrings.bin", dumped (map sitem_record sl))].
Definition exb_expat := ex_expat [(1, flat_map ritem_events exb_rl)].
Definition plain_conf : conf := mkConf false false None 6.
Definition ex_w (tne : bool) : wopts := mkWO (SName (s "Data")) 0 0 tne [] NNone plain_conf true.
Ltac in_cases := repeat match goal with H : In _ _ |- _ => cbn in H; repeat (destruct H as [H|H]; [subst|]); [..|solve [destruct H]] end.
Lemma exb_book rows sl : xlsb_book exb_expat (exb_files rows sl) [(s "Data", s "xl/worksheets/sheet1.bin")].
Proof.
  exists exb_rl, exb_bl, (dumped (map bitem_record exb_bl)). split; [exists [1]; split; reflexivity|]. repeat (split; [reflexivity|]).
  split; [repeat constructor; easy|]. split; [|reflexivity]. intros n i [E|[]]. now inversion E.
Qed.
Lemma exb_file tne : xlsb_file exb_expat (exb_files exb_rows exb_sl) (wo_sheet (ex_w tne)) exb_sl exb_yl exb_rows.
Proof.
  constructor.
  - intros b H. in_cases; discriminate.
  - exists (s "xl/worksheets/sheet1.bin"), [(s "Data", s "xl/worksheets/sheet1.bin")], [mkRec 129 []], [], [mkRec 130 []], (dumped (sheet_records [mkRec 129 []] exb_rows [] [mkRec 130 []])).
    split; [apply exb_book|]. split; [now left|]. split; [reflexivity|]. repeat split; vm_compute; reflexivity.
  - eexists. split; [reflexivity|]. repeat split; vm_compute; try reflexivity. discriminate.
  - eexists. split; [reflexivity|]. repeat split; vm_compute; try reflexivity. discriminate.
  - intros r c Hr Hc. in_cases; (split; [exists 1%nat, 0; now split|]); cbn; intros i E; inversion E; subst; vm_compute; reflexivity.
Qed.
Example C71_xlsb_example :
  show_table (read_book exb_expat ex_ro (exb_files exb_rows exb_sl) (ex_w true) opts1) =
    Ok [(s "name", (34, None, [Some (inl (s "x")); None; Some (inl (s "z"))])); (s "age", (9, None, [Some (inr 7); None; Some (inr 9)]))] /\
  show_table (read_book exb_expat ex_ro (exb_files exb_rows exb_sl) (ex_w false) opts1) =
    Ok [(s "name", (34, None, [Some (inl (s "x")); Some (inl (s "z"))])); (s "age", (9, None, [Some (inr 7); Some (inr 9)]))].
Proof. split; vm_compute; reflexivity. Qed.
(** The hypotheses of [C71_xlsb_partial] on this file. *)
Example C71_xlsb_example_hyps :
  let rs := b_rows (sitem_texts exb_sl) (xlsb_null NNone) [] true exb_rows in
  let P := b_at PropsSeries.ex_o2 (b_time exb_yl (fun _ => true)) (cell_xfs exb_yl) (sitem_texts exb_sl) (xlsb_null NNone) [] rs in
  forallb (fun f => f <? 256) (cell_xfs exb_yl) = true /\
  (forall i c, In (i, c) (custom_fmts exb_yl) -> code_class c true /\ safe_length (n_units c) = true) /\
  starts_well (sitem_texts exb_sl) (xlsb_null NNone) [] exb_rows /\ columns_of P (zlen rs) [0; 2] /\ reaches P (zlen rs) /\
  plain opts1 /\ zlen rs = 4.
Proof.
  cbv zeta. split; [reflexivity|]. split.
  { intros i c H. in_cases. inversion H; subst. split; [|reflexivity]. exists (map TChar (s "yyyy")), []. repeat split; try reflexivity. now left. }
  split; [reflexivity|]. split.
  { split; [repeat constructor|]. intro k. split.
    - intros [<-|[<-|[]]]; exists 0; (split; [vm_compute; split; [discriminate|reflexivity]|vm_compute; discriminate]).
    - intros (r & Hr & N). assert (D : r = 0 \/ r = 1 \/ r = 2 \/ r = 3) by (change (0 <= r < 4) in Hr; lia). clear Hr. destruct (Z.eq_dec k 0) as [->|K0]; [now left|]. destruct (Z.eq_dec k 2) as [->|K2]; [now right; left|].
      exfalso. apply N. unfold b_at. destruct D as [D|[D|[D|D]]]; subst r; [change (Z.to_nat 0) with 0%nat|change (Z.to_nat 1) with 1%nat|change (Z.to_nat 2) with 2%nat|change (Z.to_nat 3) with 3%nat]; cbn [b_rows exb_rows filter orb nth_error];
        try reflexivity; cbn [row_cells row_of item_cells snd map flat_map app find bc b_col];
        replace (0 =? k) with false by lia; replace (2 =? k) with false by lia; reflexivity. }
  split; [exists 0; split; vm_compute; discriminate|]. split; [now repeat split|reflexivity].
Qed.

(** The same sheet as .xlsx; "age" cells have style 1, a number format. *)
Definition xc (k : Z) (row : str) (ty st : option str) (t : str) : xcell := mkX k row ty st [] [XV t].
Definition exx_rows : list xrow :=
  [map PC [xc 0 (s "1") (Some (s "s")) None (s "0"); xc 2 (s "1") (Some (s "str")) None (s "age")];
   map PC [xc 0 (s "2") (Some (s "str")) None (s "x"); xc 2 (s "2") None (Some (s "1")) (s "1")]; [];
   map PC [xc 0 (s "4") (Some (s "s")) None (s "1"); xc 2 (s "4") None (Some (s "1")) (s "43831")]].
Definition exx_sl : list xsi := [XSI [EStart (s "t") []; EText (s "name"); EEnd (s "t")]; XSI [EStart (s "t") []; EText (s "z"); EEnd (s "t")]].
Definition exx_yl : list ystyle := [ZFmt 164 (s "0.00"); ZXfStyle 0; ZO (EStart (s "cellXfs") []); ZXf 0 []; ZXf 164 []; ZO (EEnd (s "cellXfs"))].
Definition exx_rl : list ritem := [RI (s "rId1") (s "http://x") (s "worksheet") (s "worksheets/sheet1.xml") []].
Definition exx_wl : list witem := [WI (s "Data") (s "rId1") []].
Definition exx_files : archive :=
  [(s "xl/_rels/workbook.xml.rels", [1]); (s "xl/workbook.xml", [2]); (s "xl/worksheets/sheet1.xml", [3]); (s "xl/styles.xml", [4]); (s "xl/sharedStrings.xml", [5])].
Definition exx_expat (rows : list xrow) := ex_expat
  [(1, flat_map ritem_events exx_rl); (2, flat_map witem_events exx_wl); (3, xsheet_events [] rows []); (4, flat_map ystyle_events exx_yl); (5, flat_map xsi_events exx_sl)].
Lemma exx_book rows z : firstn 2 z = firstn 2 exx_files -> xlsx_book (exx_expat rows) z [(s "Data", s "xl/worksheets/sheet1.xml")].
Proof.
  intro H. destruct z as [|a [|b z]]; try discriminate. inversion H; subst.
  exists exx_rl, exx_wl. split; [exists [1]; split; reflexivity|]. split; [reflexivity|]. split; [exists [2]; split; reflexivity|]. split; [reflexivity|].
  do 3 (split; [repeat constructor; easy|]). split; [|reflexivity]. intros n i [E|[]]. inversion E. now exists (s "worksheets/sheet1.xml").
Qed.
Lemma exx_file tne : xlsx_file (exx_expat exx_rows) exx_files (wo_sheet (ex_w tne)) exx_sl exx_yl exx_rows.
Proof.
  constructor.
  - exists (s "xl/worksheets/sheet1.xml"), [(s "Data", s "xl/worksheets/sheet1.xml")], (xsheet_events [] exx_rows []).
    split; [now apply exx_book|]. split; [now left|]. split; [exists [3]; split; reflexivity|]. exists [], []. split; reflexivity.
  - split; [exists [5]; split; reflexivity|reflexivity].
  - split; [exists [4]; split; reflexivity|reflexivity].
Qed.
Example C71_xlsx_example :
  show_table (read_book (exx_expat exx_rows) ex_ro exx_files (ex_w true) opts1) =
    Ok [(s "name", (34, None, [Some (inl (s "x")); None; Some (inl (s "z"))])); (s "age", (9, None, [Some (inr 1); None; Some (inr 43831)]))].
Proof. vm_compute; reflexivity. Qed.
Lemma is_some A (x : option A) : match x with Some _ => true | None => false end = true -> x <> None.
Proof. now destruct x. Qed.
Example C71_xlsx_example_hyps :
  let nv := xlsx_null NNone in let tab := shared_table nv exx_sl in
  let num := str_eqb (s "0.00") in let tm := fun _ : str => false in
  let P := x_at PropsSeries.ex_o2 (x_class exx_yl num tm) (z_xfs exx_yl) tab nv [] exx_rows in
  (forall i c, In (i, c) (z_fmts exx_yl) -> code_class c (tm c)
     /\ exists fs rest, existsb (Z.eqb ch_semi) fs = false /\ (c = fs \/ c = fs ++ ch_semi :: rest)
        /\ (num c = true <-> fs = s "0" \/ exists a b, fs = a ++ s ".00" ++ b)) /\
  x_readable PropsSeries.ex_o2 (x_class exx_yl num tm) (z_xfs exx_yl) tab nv [] exx_rows /\
  x_row_shown nv [] (hd [] exx_rows) = true /\ columns_of P 4 [0; 2] /\ reaches P 4.
Proof.
  cbv zeta. split.
  { intros i c H. in_cases. inversion H; subst. split.
    - exists (map TChar (s "0.00")), []. repeat split; try reflexivity. now left.
    - exists (s "0.00"), []. split; [reflexivity|]. split; [now left|]. split; [|reflexivity]. intros _. right. now exists (s "0"), []. }
  split.
  { intros r c Hr Hc. in_cases; (split; [first [exists 0%nat, 0; split; reflexivity|exists 1%nat, 164; split; reflexivity]|]);
      (split; [cbn; lia|]); (split; [intros t [<-|[]]; reflexivity|]); intros _; apply is_some; vm_compute; reflexivity. }
  split; [reflexivity|]. split.
  { split; [repeat constructor|]. intro k. split.
    - intros [<-|[<-|[]]]; exists 0; (split; [lia|vm_compute; discriminate]).
    - intros (r & Hr & N). assert (D : r = 0 \/ r = 1 \/ r = 2 \/ r = 3) by lia. clear Hr. destruct (Z.eq_dec k 0) as [->|K0]; [now left|]. destruct (Z.eq_dec k 2) as [->|K2]; [now right; left|].
      exfalso. apply N. unfold x_at. destruct D as [D|[D|[D|D]]]; subst r; [change (Z.to_nat 0) with 0%nat|change (Z.to_nat 1) with 1%nat|change (Z.to_nat 2) with 2%nat|change (Z.to_nat 3) with 3%nat];
        cbn [exx_rows nth_error]; try reflexivity; cbn [xrow_cells map flat_map app find xc x_col];
        replace (0 =? k) with false by lia; replace (2 =? k) with false by lia; reflexivity. }
  exists 0; split; vm_compute; discriminate.
Qed.
