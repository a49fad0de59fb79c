(** C106: rows that are not asked for do not matter.  C107: nor do other columns. *)
From Coq Require Import Sorted ZifyBool ZifyNat.
From Verif Require Import Py PyFacts PyText Cell Casts Chunk ChunkSpec ReadSpec ReadProofs Utf8 Series SeriesSpec PropsChunk PropsSeries
  Reader ReaderSpec ReaderProofs PropsReader TableSpec TableSteps TableFresh TableErrors PropsTable TableCalm SameSpec SameProofs PropsSame WindowSpec WindowProofs.
Set Implicit Arguments. Unset Strict Implicit.

Lemma filter_filter A (p q : A -> bool) l : filter p (filter q l) = filter (fun x => q x && p x) l.
Proof. induction l as [|x l IH]; [reflexivity|]. cbn [filter]. destruct (q x); cbn [filter andb]; [destruct (p x); now rewrite IH|exact IH]. Qed.
Section Two.
  Context (ro : roracle) (sc : sconf) (l l' : list cell) (S : sheet_ok (ro_o ro) sc l = true) (S' : sheet_ok (ro_o ro) sc l' = true).
  Lemma window_from k off len idx : rows_from off l k = rows_from off l' k -> (idx = None -> 0 < len) ->
    array_at ro sc l [] k off len idx = array_at ro sc l' [] k off len idx.
  Proof.
    intros E L. apply array_cut; [exact S|exact S'|exact L|]. set (b := read_end off len idx).
    assert (G : forall m, filter (between (Z.max 0 off) b) (content m k) = filter (between (Z.max 0 off) b) (rows_from off m k)).
    { intro m. unfold rows_from. rewrite filter_filter. apply filter_ext. intro c. unfold between. lia. }
    now rewrite (G l), (G l'), E.
  Qed.
  Lemma window_between k off len : 0 <= off -> 0 < len -> rows_between off (off + len) l k = rows_between off (off + len) l' k ->
    text_at ro sc l [] k off len = text_at ro sc l' [] k off len.
  Proof.
    intros H L E. unfold text_at. rewrite (@array_cut ro sc l l' k off len None S S'); [reflexivity|now intros|]. unfold read_end. replace (Z.max 0 off) with off by lia. exact E.
  Qed.
  Context (ks : list Z) (Ls : listing l ks) (Ls' : listing l' ks).
  Lemma order_same k : mem_Z k (order l) = mem_Z k (order l').
  Proof.
    assert (G : In k (order l) <-> In k (order l')).
    { rewrite !order_in, !in_map_iff. pose proof (proj2 Ls k) as A. pose proof (proj2 Ls' k) as B. split.
      - intros (c & C1 & C2). destruct (proj1 B) as (d & D1 & D2); [apply (proj2 A); exists c; now split|]. exists d. now split.
      - intros (c & C1 & C2). destruct (proj1 A) as (d & D1 & D2); [apply (proj2 B); exists c; now split|]. exists d. now split. }
    destruct (mem_Z k (order l)) eqn:E; destruct (mem_Z k (order l')) eqn:E'; try reflexivity.
    - apply mem_Z_In, G, mem_Z_In in E. congruence.
    - apply mem_Z_In, G, mem_Z_In in E'. congruence.
  Qed.
  Context (op : ropts).
  Lemma top_same : (r_lookup op <> None -> 0 < r_size op /\ forall k, rows_between 0 (r_size op) l k = rows_between 0 (r_size op) l' k) ->
    (forall t, r_lookup op = Some (LText t) -> order l = order l') -> top_row ro sc l op = top_row ro sc l' op.
  Proof.
    intros H Eo. unfold top_row. destruct (r_lookup op) as [[k|t]|]; [| |reflexivity]; destruct H as [Hs H]; try discriminate;
      assert (T : forall k, text_at ro sc l [] k 0 (r_size op) = text_at ro sc l' [] k 0 (r_size op)) by (intro j; apply window_between; [lia|exact Hs|apply H]).
    - rewrite order_same. now rewrite T.
    - rewrite (Eo t eq_refl). destruct (ro_search ro t) as [p|].
      + generalize (@nil Z) as bs. generalize (order l') as q. induction q as [|k r IH]; intro bs; [reflexivity|]. cbn [search]. rewrite T.
        apply bind_same; [reflexivity|]. intros ts _. destruct (place (fits p) ts None); [reflexivity|apply IH].
      + destruct (order l') as [|k r]; [reflexivity|]. now rewrite T.
  Qed.
  Lemma heading_same top : (forall h, r_header op = HInt h -> 0 <= h) -> 0 <= top ->
    (forall k, rows_between top (top + header_rows op) l k = rows_between top (top + header_rows op) l' k) -> heading ro sc l op ks top [] = heading ro sc l' op ks top [].
  Proof.
    intros Hh T E. unfold heading, header_rows in *. destruct (r_header op) as [n|given]; [|reflexivity]. specialize (Hh n eq_refl). destruct (n =? 0) eqn:N; [reflexivity|].
    apply bind_same; [|reflexivity]. apply mapM_same. intros k _. apply window_between; [exact T|lia|apply E].
  Qed.
  Lemma kept_same fs off len : 0 < len -> (forall k, rows_from off l k = rows_from off l' k) ->
    rows_kept ro sc l (r_strategy op) [] fs off len = rows_kept ro sc l' (r_strategy op) [] fs off len.
  Proof.
    intros L E. unfold rows_kept. destruct fs as [|k fs]; [reflexivity|]. apply bind_same; [|reflexivity]. apply mapM_same. intros j _. apply window_from; [apply E|now intros].
  Qed.
  Lemma arrays_same off len m : 0 < len -> (forall k, rows_from off l k = rows_from off l' k) ->
    mapM (fun k => array_at ro sc l [] k off len m) ks = mapM (fun k => array_at ro sc l' [] k off len m) ks.
  Proof. intros L E. apply mapM_same. intros k _. apply window_from; [apply E|now intros]. Qed.
End Two.
Lemma place_nonneg A (p : A -> bool) l d i : place p l d = Some i -> 0 <= Z.of_nat i.
Proof. lia. Qed.
Lemma top_nonneg ro sc l op top h : top_row ro sc l op = Ok (top, h) -> 0 <= top.
Proof.
  unfold top_row. destruct (r_lookup op) as [[k|t]|]; [| |intro H; injection H; lia].
  - destruct (mem_Z k (order l)); [|discriminate]. destruct (text_at _ _ _ _ _ _ _) as [ts|]; [|discriminate]. cbn [bind]. destruct (place _ ts None); [|discriminate]. intro H. injection H. lia.
  - destruct (ro_search ro t) as [p|].
    + generalize (@nil Z) as bs. induction (order l) as [|k r IH]; intro bs; [discriminate|]. cbn [search]. destruct (text_at _ _ _ _ _ _ _) as [ts|]; [|discriminate]. cbn [bind].
      destruct (place _ ts None); [|apply IH]. intro H. injection H. lia.
    + destruct (order l) as [|k r]; [discriminate|]. destruct (text_at _ _ _ _ _ _ _); discriminate.
Qed.
Lemma heading_height ro sc l op ks top h height names h' : heading ro sc l op ks top h = Ok (height, names, h') -> height = header_rows op.
Proof.
  unfold heading, header_rows. destruct (r_header op) as [n|given].
  - destruct (n =? 0) eqn:N; [intro H; injection H; lia|]. destruct (mapM _ ks); [|discriminate]. cbn [bind]. intro H. injection H. lia.
  - destruct (Nat.eqb _ _); [|discriminate]. intro H. injection H. lia.
Qed.

(** ** C106 *)
(** Full claim: a read depends on the rows of the lookup, the rows of the header and the rows from
    the first data row on; what else the sheet holds - the rows above the header, the rows skipped
    below it - has no influence.  Proved for sheets with the same columns and the same height (the
    height is that of the tallest column, counted from its first cell: see C53), all of whose cells
    hold what their type says, when at least one row is left and no
    part that is read mixes dates with shared strings while dates are recognised in text
    ([apart_fresh]: enough if no column does; always so if dates are not recognised). *)
Theorem C106_rows_partial ro sc op outs outs' ks n :
  let l := Cell.cells_of outs in let l' := Cell.cells_of outs' in let o := ro_o ro in
  sheet_ok o sc l = true -> sheet_ok o sc l' = true -> readable ro sc l = true -> readable ro sc l' = true ->
  listing l ks -> listing l' ks -> tallest l ks n -> tallest l' ks n ->
  (forall h, r_header op = HInt h -> 0 <= h) -> fresh_table ro sc l op ks n <> Err ArrowNotImplemented ->
  (r_lookup op <> None -> 0 < r_size op /\ forall k, rows_between 0 (r_size op) l k = rows_between 0 (r_size op) l' k) ->
  (forall t, r_lookup op = Some (LText t) -> order l = order l') ->
  (forall top h, top_row ro sc l op = Ok (top, h) ->
     let off := header_rows op + top + r_skip_after op in
     off < n /\ forall k, rows_between top (top + header_rows op) l k = rows_between top (top + header_rows op) l' k /\ rows_from off l k = rows_from off l' k) ->
  read_trace ro sc op (outs, None) = read_trace ro sc op (outs', None).
Proof.
  intros l l' o S S' R R' Ls Ls' T T' Hh D Lk Eo W. assert (Hs : r_lookup op <> None -> r_size op <> 0) by (intro X; specialize (Lk X); lia).
  assert (F : fresh_table ro sc l op ks n = fresh_table ro sc l' op ks n).
  { unfold fresh_table. apply bind_same; [now apply (@top_same ro sc l l' S S' ks Ls Ls')|]. intros [top h] Et. specialize (W top h Et) as [Hn W].
    pose proof (top_nonneg Et) as T0. apply bind_same; [apply heading_same; try assumption; intro k; apply W|]. intros [[height names] h'] Eh. pose proof (heading_height Eh) as ->.
    apply bind_same; [reflexivity|]. intros fs _. cbv zeta. apply bind_same; [apply kept_same; try assumption; [lia|]; intro k; apply W|]. intros m _.
    apply bind_same; [|reflexivity]. apply arrays_same; try assumption; [lia|]. intro k. apply W. }
  rewrite (@C91_dates_partial ro sc op outs ks n R Ls T Hh Hs D). rewrite (@C91_dates_partial ro sc op outs' ks n R' Ls' T' Hh Hs); [exact F|].
  fold l'. rewrite <- F. exact D.
Qed.
Print Assumptions C106_rows_partial.

(** When that condition holds: no column mixes dates with shared strings. *)
Theorem C91_unmixed_partial ro sc op outs ks n : let l := Cell.cells_of outs in
  readable ro sc l = true -> listing l ks -> tallest l ks n -> (forall h, r_header op = HInt h -> 0 <= h) -> (r_lookup op <> None -> r_size op <> 0) -> dates_apart ro sc l ks ->
  read_trace ro sc op (outs, None) = fresh_table ro sc l op ks n.
Proof. exact (@read_apart ro sc op outs ks n). Qed.
Print Assumptions C91_unmixed_partial.
(** A column of dates under a title, and a skipped row that holds a string in one of the sheets and
    a date in the other. *)
Definition ex_dates (c : out) : list out := [shared 0 0 0; c; serial 2 0 8; serial 3 0 9].
Example C106_dates_example : let op := mkR (HInt 1) DTNone 1 None 30 FNone SOr in let l := Cell.cells_of (ex_dates (shared 1 0 0)) in let l' := Cell.cells_of (ex_dates (serial 1 0 7)) in
  cf_datetime (sc_conf ex_temporal) = true /\
  sheet_ok ex_o2 ex_temporal l = true /\ sheet_ok ex_o2 ex_temporal l' = true /\ readable ex_ro ex_temporal l = true /\ readable ex_ro ex_temporal l' = true /\
  tallest l [0] 4 /\ tallest l' [0] 4 /\ top_row ex_ro ex_temporal l op = Ok (0, []) /\
  (forall k, rows_between 0 1 l k = rows_between 0 1 l' k /\ rows_from 2 l k = rows_from 2 l' k) /\
  (exists t, show_table (fresh_table ex_ro ex_temporal l op [0] 4) = Ok t /\ show_table (read_trace ex_ro ex_temporal op (ex_dates (shared 1 0 0), None)) = Ok t /\
    show_table (read_trace ex_ro ex_temporal op (ex_dates (serial 1 0 7), None)) = Ok t).
Proof.
  cbv zeta. do 5 (split; [vm_compute; reflexivity|]). do 2 (split; [split; [exists 0; split; [now left|reflexivity]|intros k [<-|[]]; vm_compute; discriminate]|]). split; [reflexivity|].
  split; [intros [|p|p]; split; reflexivity|]. eexists. split; [vm_compute; reflexivity|]. split; vm_compute; reflexivity.
Qed.

(** *** Data, whatever the titles are *)
Lemma heading_names ro sc l op ks top h height names h' : heading ro sc l op ks top h = Ok (height, names, h') -> List.length names = List.length ks.
Proof.
  unfold heading. destruct (r_header op) as [n|given].
  - destruct (n =? 0); [intro H; injection H as _ <- _; now rewrite map_length, seq_length|]. destruct (mapM _ ks) as [bs|] eqn:E; [|discriminate]. cbn [bind]. intro H. injection H as _ <- _.
    unfold titles. rewrite map_length, seq_length. exact (PyFacts.mapM_length _ _ E).
  - destruct (Nat.eqb _ _) eqn:E; [|discriminate]. intro H. injection H as _ <- _. now apply Nat.eqb_eq.
Qed.
Lemma typed_names ro dt names names' arrays : (forall d, dt <> DTDict d) -> List.length names = List.length names' -> typed ro dt names arrays = typed ro dt names' arrays.
Proof.
  intros D L. unfold typed. rewrite L. destruct (match dt with DTSeq _ => _ | _ => _ end); [|reflexivity].
  revert names L arrays. generalize 0%nat as i. induction names' as [|x m' IH]; intros i [|y m] L as_; try discriminate; [reflexivity|]. cbn [List.length seq combine]. destruct as_ as [|a as_]; [reflexivity|].
  cbn [mapM fst snd]. rewrite IH by (injection L; auto). replace (type_wanted dt i y) with (type_wanted dt i x); [reflexivity|]. destruct dt as [|d|d|d]; try reflexivity. now destruct (D d).
Qed.
Lemma snd_combine A B (a : list A) (b : list B) : List.length a = List.length b -> map snd (combine a b) = b.
Proof. revert b. induction a as [|x a IH]; intros [|y b] L; try discriminate; [reflexivity|]. cbn. f_equal. apply IH. now injection L. Qed.
(** The data also do not depend on what the header says, if no argument refers to titles. *)
Theorem C106_data_partial ro sc op outs outs' ks n top h h' tbl tbl' :
  let l := Cell.cells_of outs in let l' := Cell.cells_of outs' in let o := ro_o ro in
  sheet_ok o sc l = true -> sheet_ok o sc l' = true -> readable ro sc l = true -> readable ro sc l' = true ->
  listing l ks -> listing l' ks -> tallest l ks n -> tallest l' ks n ->
  (forall h, r_header op = HInt h -> 0 <= h) -> (r_lookup op <> None -> r_size op <> 0) -> fresh_table ro sc l op ks n <> Err ArrowNotImplemented -> fresh_table ro sc l' op ks n <> Err ArrowNotImplemented ->
  (r_filters op = FNone \/ exists is, r_filters op = FInts is) -> (forall d, r_dtypes op <> DTDict d) ->
  top_row ro sc l op = Ok (top, h) -> top_row ro sc l' op = Ok (top, h') ->
  let off := header_rows op + top + r_skip_after op in
  off < n -> (forall k, rows_from off l k = rows_from off l' k) ->
  read_trace ro sc op (outs, None) = Ok tbl -> read_trace ro sc op (outs', None) = Ok tbl' -> map snd tbl = map snd tbl'.
Proof.
  intros l l' o S S' R R' Ls Ls' T T' Hh Hs D D' F Dt Et Et' off Hn W.
  rewrite (@C91_dates_partial ro sc op outs ks n R Ls T Hh Hs D), (@C91_dates_partial ro sc op outs' ks n R' Ls' T' Hh Hs D').
  fold l. fold l'. unfold fresh_table. rewrite Et, Et'. cbn [bind].
  destruct (heading ro sc l op ks top []) as [[[g names] hh]|] eqn:Eh; [|discriminate]. destruct (heading ro sc l' op ks top []) as [[[g' names'] hh']|] eqn:Eh'; [|discriminate]. cbn [bind].
  pose proof (heading_height Eh) as ->. pose proof (heading_height Eh') as ->. pose proof (heading_names Eh) as N. pose proof (heading_names Eh') as N'.
  assert (E : filter_columns ro (r_filters op) names ks = filter_columns ro (r_filters op) names' ks) by (destruct F as [-> | [is ->]]; reflexivity).
  rewrite E. destruct (filter_columns ro (r_filters op) names' ks) as [fs|]; [|discriminate]. cbn [bind]. fold off.
  assert (P : 0 < n - off) by lia. rewrite <- (@kept_same ro sc l l' S S' op fs off (n - off) P W). destruct (rows_kept ro sc l _ [] fs off (n - off)) as [m|]; [|discriminate]. cbn [bind].
  rewrite <- (@arrays_same ro sc l l' S S' ks off (n - off) m P W). destruct (mapM _ ks) as [arrays|] eqn:Ea; [|discriminate]. cbn [bind]. apply PyFacts.mapM_length in Ea.
  rewrite (@typed_names ro (r_dtypes op) names names' arrays Dt) by congruence. destruct (typed ro (r_dtypes op) names' arrays) as [cs|] eqn:Ec; [|discriminate]. cbn [bind].
  assert (Lc : List.length cs = List.length ks).
  { unfold typed in Ec. destruct (match r_dtypes op with DTSeq _ => _ | _ => _ end); [|discriminate]. apply PyFacts.mapM_length in Ec. rewrite Ec, !combine_length, seq_length. lia. }
  destruct (equal_lengths _); [|discriminate]. intros X Y. injection X as <-. injection Y as <-. rewrite !snd_combine by congruence. reflexivity.
Qed.
Print Assumptions C106_data_partial.

(** Row 1 is skipped.  A workbook of text: the number below it becomes text if row 1 holds no
    number. *)
Definition ex_words (t : str) : list out :=
  [OCell (mkCell 0 0 0x18 (VBytes (s "h"))); OCell (mkCell 1 0 0x20 (VBytes t)); OCell (mkCell 2 0 0x20 (VBytes (s "1")))].
Definition opts_skip : ropts := mkR (HInt 1) DTNone 1 None 30 FNone SOr.
Lemma words_listing t : listing (Cell.cells_of (ex_words t)) [0].
Proof.
  split; [repeat constructor|]. intro k. cbn. split.
  - intros [<-|[]]. eexists. split; [now left|reflexivity].
  - intros (c & [<-|[<-|[<-|[]]]] & <-); cbn; tauto.
Qed.
Lemma words_tallest t : tallest (Cell.cells_of (ex_words t)) [0] 3.
Proof. split; [exists 0; split; [now left|reflexivity]|]. intros k [<-|[]]. vm_compute. discriminate. Qed.
Theorem C106_refuted : let sc := mkSC [] false mode_no in let l := Cell.cells_of (ex_words (s "x")) in let l' := Cell.cells_of (ex_words (s "1")) in
  readable ex_ro sc l = true /\ readable ex_ro sc l' = true /\ listing l [0] /\ listing l' [0] /\ tallest l [0] 3 /\ tallest l' [0] 3 /\
  (forall k, rows_between 0 1 l k = rows_between 0 1 l' k /\ rows_from 2 l k = rows_from 2 l' k) /\
  show_table (read_trace ex_ro sc opts_skip (ex_words (s "x"), None)) = Ok [(s "h", (34, None, [Some (inl (s "1"))]))] /\
  show_table (read_trace ex_ro sc opts_skip (ex_words (s "1"), None)) = Ok [(s "h", (9, None, [Some (inr 1)]))].
Proof.
  cbv zeta. split; [vm_compute; reflexivity|]. split; [vm_compute; reflexivity|]. do 2 (split; [apply words_listing|]). do 2 (split; [apply words_tallest|]).
  split; [|split; vm_compute; reflexivity]. intros [|p|p]; split; reflexivity.
Qed.
Print Assumptions C106_refuted.
(** A cell in a skipped row can decide how many rows are read: without it the column starts lower
    and is shorter (C53). *)
Definition ex_start (above : list out) : list out := words 0 1 (s "t") :: above ++ [rk 2 0 5; rk 2 1 6; rk 3 0 7; rk 4 0 8].
Theorem C106_height_refuted : let l := Cell.cells_of (ex_start [words 0 0 (s "a")]) in let l' := Cell.cells_of (ex_start []) in
  sheet_ok ex_o2 ex_binary l = true /\ sheet_ok ex_o2 ex_binary l' = true /\ listing l [0; 1] /\ listing l' [0; 1] /\
  (forall k, rows_from 2 l k = rows_from 2 l' k) /\
  show_table (read_trace ex_ro ex_binary (mkR (HList [s "a"; s "b"]) DTNone 2 None 30 FNone SOr) (ex_start [words 0 0 (s "a")], None)) =
    Ok [(s "a", (9, None, [Some (inr 5); Some (inr 7); Some (inr 8)])); (s "b", (9, None, [Some (inr 6); None; None]))] /\
  show_table (read_trace ex_ro ex_binary (mkR (HList [s "a"; s "b"]) DTNone 2 None 30 FNone SOr) (ex_start [], None)) =
    Ok [(s "a", (9, None, [Some (inr 5)])); (s "b", (9, None, [Some (inr 6)]))].
Proof.
  cbv zeta. split; [vm_compute; reflexivity|]. split; [vm_compute; reflexivity|]. split; [|split; [|split; [|split; vm_compute; reflexivity]]].
  - split; [repeat constructor|]. intro k. cbn. split.
    + intros [<-|[<-|[]]]; eexists; split; [now right; left|reflexivity|now left|reflexivity].
    + intros (c & H & <-). repeat (destruct H as [<-|H]; [cbn; tauto|]). easy.
  - split; [repeat constructor|]. intro k. cbn. split.
    + intros [<-|[<-|[]]]; eexists; split; [now right; left|reflexivity|now left|reflexivity].
    + intros (c & H & <-). repeat (destruct H as [<-|H]; [cbn; tauto|]). easy.
  - intros [|[p|p|]|p]; reflexivity.
Qed.
Print Assumptions C106_height_refuted.
(** Sheets that differ in row 1 only. *)
Example C106_example : let outs c := [words 0 0 (s "h"); c; rk 2 0 5; rk 3 0 6] in let l := Cell.cells_of (outs (words 1 0 (s "note"))) in let l' := Cell.cells_of (outs (rk 1 0 9)) in
  sheet_ok ex_o2 ex_binary l = true /\ sheet_ok ex_o2 ex_binary l' = true /\ readable ex_ro ex_binary l = true /\ readable ex_ro ex_binary l' = true /\
  tallest l [0] 4 /\ tallest l' [0] 4 /\ cf_datetime (sc_conf ex_binary) = false /\ top_row ex_ro ex_binary l opts_skip = Ok (0, []) /\
  (forall k, rows_between 0 1 l k = rows_between 0 1 l' k /\ rows_from 2 l k = rows_from 2 l' k) /\ l <> l' /\
  show_table (read_trace ex_ro ex_binary opts_skip (outs (words 1 0 (s "note")), None)) = Ok [(s "h", (9, None, [Some (inr 5); Some (inr 6)]))].
Proof.
  cbv zeta. do 4 (split; [vm_compute; reflexivity|]). do 2 (split; [split; [exists 0; split; [now left|reflexivity]|intros k [<-|[]]; vm_compute; discriminate]|]). do 2 (split; [reflexivity|]).
  split; [|split; [discriminate|vm_compute; reflexivity]]. intros [|p|p]; split; reflexivity.
Qed.

(** ** C107 *)
(** Full claim: the data of a column of the table depend on the cells of that column and on the
    rows asked for only; other columns have no influence.  Proved for reads without row filters and
    with at most one type for all columns, for sheets of the same height: the height is that of the
    tallest column. *)
Lemma array_own ro sc l l' h k off len idx : content l k = content l' k -> array_at ro sc l h k off len idx = array_at ro sc l' h k off len idx.
Proof. intro E. unfold array_at, now, sheet_runs. now rewrite E. Qed.
Lemma mapM_at A B (f : A -> res B) l r i x : mapM f l = Ok r -> nth_error l i = Some x -> exists y, f x = Ok y /\ nth_error r i = Some y.
Proof.
  intros M N. apply mapM_Forall2 in M. destruct (Forall2_nth_error M N) as (y & Y1 & Y2). now exists y.
Qed.
Lemma typed_one ro dt names arrays cs i a : (dt = DTNone \/ exists d, dt = DTOne d) -> List.length names = List.length arrays -> typed ro dt names arrays = Ok cs -> nth_error arrays i = Some a ->
  exists c, nth_error cs i = Some c /\ convert ro (type_wanted dt 0 []) a = Ok c.
Proof.
  intros D L E N. unfold typed in E. replace (match dt with DTSeq _ => _ | _ => true end) with true in E by (destruct D as [-> | [d ->]]; reflexivity).
  assert (Li : (i < List.length arrays)%nat) by (apply nth_error_Some; congruence).
  destruct (nth_error names i) as [nm|] eqn:En; [|apply nth_error_None in En; lia].
  assert (Es : nth_error (seq 0 (List.length names)) i = Some i) by (rewrite (nth_error_nth' _ 0%nat) by (rewrite seq_length; lia); now rewrite seq_nth by lia).
  destruct (mapM_at E (nth_error_combine (nth_error_combine Es En) N)) as (c & C1 & C2). exists c. split; [exact C2|]. rewrite <- C1. cbn [fst snd]. now destruct D as [-> | [d ->]].
Qed.
Lemma now_header ro sc l ks top n k : In k ks -> now ro sc l [(ks, (top, n))] k = runs_after 0 (sheet_runs ro sc l k) top n.
Proof. intro H. unfold now. cbn [fold_left fst snd]. now replace (mem_Z k ks) with true by (symmetry; now apply mem_Z_In). Qed.
Theorem C107_column_partial ro sc op outs outs' ks ks' n i j k tbl tbl' :
  let l := Cell.cells_of outs in let l' := Cell.cells_of outs' in
  readable ro sc l = true -> readable ro sc l' = true -> listing l ks -> listing l' ks' -> tallest l ks n -> tallest l' ks' n ->
  (forall h, r_header op = HInt h -> 0 <= h) -> r_lookup op = None -> r_filters op = FNone -> (r_dtypes op = DTNone \/ exists d, r_dtypes op = DTOne d) ->
  content l k = content l' k -> nth_error ks i = Some k -> nth_error ks' j = Some k ->
  read_trace ro sc op (outs, None) = Ok tbl -> read_trace ro sc op (outs', None) = Ok tbl' ->
  exists c, option_map snd (nth_error tbl i) = Some c /\ option_map snd (nth_error tbl' j) = Some c.
Proof.
  intros l l' R R' Ls Ls' T T' Hh Lk F D E Ni Nj.
  rewrite (@C90_complete ro sc op outs ks n R Ls T Hh), (@C90_complete ro sc op outs' ks' n R' Ls' T' Hh) by (rewrite Lk; now intro). fold l. fold l'.
  assert (G : forall m ms t x, nth_error ms x = Some k -> expected_table ro sc m op ms n = Ok t ->
    exists c a, option_map snd (nth_error t x) = Some c /\ convert ro (type_wanted (r_dtypes op) 0 []) a = Ok c /\
      array_at ro sc m (match r_header op with HInt h => if h =? 0 then [] else [([k], (0, h))] | HList _ => [] end) k (header_rows op + r_skip_after op) (n - (header_rows op + r_skip_after op)) None = Ok a).
  { clear -Lk F D. intros m ms t x Nx. unfold expected_table, top_row. rewrite Lk, F. cbn [bind].
    destruct (heading ro sc m op ms 0 []) as [[[g names] h]|] eqn:Eh; [|discriminate]. cbn [bind filter_columns rows_kept]. pose proof (heading_height Eh) as ->. pose proof (heading_names Eh) as Ln.
    replace (header_rows op + 0 + r_skip_after op) with (header_rows op + r_skip_after op) by lia. set (off := header_rows op + r_skip_after op).
    destruct (mapM _ ms) as [arrays|] eqn:Ea; [|discriminate]. cbn [bind]. destruct (mapM_at Ea Nx) as (a & A1 & A2). apply PyFacts.mapM_length in Ea.
    destruct (typed ro (r_dtypes op) names arrays) as [cs|] eqn:Ec; [|discriminate]. cbn [bind]. destruct (equal_lengths _); [|discriminate]. intro X. injection X as <-.
    destruct (@typed_one ro _ _ _ _ _ _ D (eq_trans Ln (eq_sym Ea)) Ec A2) as (c & C1 & C2). exists c, a.
    assert (Lx : (x < List.length names)%nat) by (rewrite Ln; apply nth_error_Some; congruence). destruct (nth_error names x) as [nm|] eqn:En; [|apply nth_error_None in En; lia].
    split; [now rewrite (nth_error_combine En C1)|]. split; [exact C2|]. rewrite <- A1. unfold array_at. f_equal. f_equal.
    unfold heading in Eh. destruct (r_header op) as [q|given].
    - destruct (q =? 0); [injection Eh as _ _ <-; reflexivity|]. destruct (mapM _ ms) as [bs|]; [|discriminate]. cbn [bind] in Eh. injection Eh as _ _ <-. cbn [app].
      unfold now. cbn [fold_left fst snd]. replace (mem_Z k ms) with true by (symmetry; apply mem_Z_In; eapply nth_error_In; exact Nx). replace (mem_Z k [k]) with true by (symmetry; apply mem_Z_In; now left). reflexivity.
    - destruct (Nat.eqb _ _); [|discriminate]. injection Eh as _ _ <-. reflexivity. }
  intros X Y. destruct (G _ _ _ _ Ni X) as (c & a & C1 & C2 & C3). destruct (G _ _ _ _ Nj Y) as (c' & a' & C1' & C2' & C3'). rewrite <- (@array_own ro sc l l' _ k _ _ None E) in C3'.
  rewrite C3 in C3'. injection C3' as <-. rewrite C2 in C2'. injection C2' as <-. now exists c.
Qed.
Print Assumptions C107_column_partial.
(** The number of rows does depend on the other columns. *)
Theorem C107_refuted :
  let alone := [words 0 1 (s "b"); rk 1 1 5] in let after := alone ++ [words 2 0 (s "x"); words 3 0 (s "y"); words 4 0 (s "z")] in
  sheet_ok ex_o2 ex_binary (Cell.cells_of alone) = true /\ sheet_ok ex_o2 ex_binary (Cell.cells_of after) = true /\ content (Cell.cells_of alone) 1 = content (Cell.cells_of after) 1 /\
  show_table (read_trace ex_ro ex_binary opts1 (alone, None)) = Ok [(s "b", (9, None, [Some (inr 5)]))] /\
  exists c, show_table (read_trace ex_ro ex_binary opts1 (after, None)) = Ok [c; (s "b", (9, None, [Some (inr 5); None]))].
Proof. cbv zeta. split; [vm_compute; reflexivity|]. split; [vm_compute; reflexivity|]. split; [reflexivity|]. split; [vm_compute; reflexivity|]. eexists. vm_compute. reflexivity. Qed.
Print Assumptions C107_refuted.
Example C107_example : let outs c := [c; words 0 4 (s "t"); rk 1 4 5; rk 2 4 6] in
  let l := Cell.cells_of (outs (words 0 2 (s "u"))) in let l' := Cell.cells_of (outs (rk 0 7 3)) in
  readable ex_ro ex_numeric l = true /\ readable ex_ro ex_numeric l' = true /\ tallest l [2; 4] 3 /\ tallest l' [4; 7] 3 /\ content l 4 = content l' 4 /\
  show_table (read_trace ex_ro ex_numeric opts1 (outs (words 0 2 (s "u")), None)) = Ok [(s "u", (34, None, [None; None])); (s "t", (9, None, [Some (inr 5); Some (inr 6)]))] /\
  show_table (read_trace ex_ro ex_numeric opts1 (outs (rk 0 7 3), None)) = Ok [(s "t", (9, None, [Some (inr 5); Some (inr 6)])); (s "3", (34, None, [None; None]))].
Proof.
  cbv zeta. do 2 (split; [vm_compute; reflexivity|]). split; [split; [exists 4; split; [now right; left|reflexivity]|intros k [<-|[<-|[]]]; vm_compute; discriminate]|].
  split; [split; [exists 4; split; [now left|reflexivity]|intros k [<-|[<-|[]]]; vm_compute; discriminate]|]. split; [reflexivity|]. split; vm_compute; reflexivity.
Qed.
