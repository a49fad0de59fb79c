(** C107 with a lookup, row filters and types for single columns. *)
From Coq Require Import Sorted ZifyBool ZifyNat.
From Verif Require Import Py PyFacts PyText Cell Casts Chunk ChunkSpec ReadSpec ReadProofs Utf8 Series SeriesSpec PropsChunk PropsSeries
  Reader ReaderSpec ReaderProofs PropsReader TableSpec TableSteps TableFresh TableErrors PropsTable TableCalm SameSpec SameProofs PropsSame WindowSpec WindowProofs PropsReader2 PropsWindow.
Set Implicit Arguments. Unset Strict Implicit.

Lemma kept_own ro sc l l' st fs fs' off len : map (content l) fs = map (content l') fs' ->
  TableSpec.rows_kept ro sc l st [] fs off len = TableSpec.rows_kept ro sc l' st [] fs' off len.
Proof.
  intro E. assert (M : mapM (fun k => array_at ro sc l [] k off len None) fs = mapM (fun k => array_at ro sc l' [] k off len None) fs').
  { revert fs' E. induction fs as [|k fs IH]; intros [|k' fs'] E; try discriminate; [reflexivity|]. cbn [map] in E. injection E as E1 E2. cbn [mapM].
    rewrite (IH _ E2). replace (array_at ro sc l' [] k' off len None) with (array_at ro sc l [] k off len None); [reflexivity|].
    unfold array_at, now, sheet_runs. cbn [fold_left]. now rewrite E1. }
  assert (Ln : List.length fs = List.length fs') by (rewrite <- (map_length (content l) fs), E; apply map_length).
  unfold TableSpec.rows_kept. destruct fs as [|k fs], fs' as [|k' fs']; try discriminate; [reflexivity|]. rewrite M. cbn [List.length] in Ln. injection Ln as ->. reflexivity.
Qed.
Lemma typed_at ro dt names arrays cs i a nm : List.length names = List.length arrays -> typed ro dt names arrays = Ok cs -> nth_error arrays i = Some a -> nth_error names i = Some nm ->
  exists c, nth_error cs i = Some c /\ convert ro (type_wanted dt i nm) a = Ok c.
Proof.
  intros L E N En. unfold typed in E. destruct (match dt with DTSeq _ => _ | _ => true end); [|discriminate].
  assert (Li : (i < List.length arrays)%nat) by (apply nth_error_Some; congruence).
  assert (Es : nth_error (seq 0 (List.length names)) i = Some i) by (rewrite (nth_error_nth' _ 0%nat) by (rewrite seq_length; lia); now rewrite seq_nth by lia).
  destruct (mapM_at E (nth_error_combine (nth_error_combine Es En) N)) as (c & C1 & C2). exists c. split; [exact C2|exact C1].
Qed.
Lemma map_fst_combine A B (x : list A) (y : list B) : List.length x = List.length y -> map fst (combine x y) = x.
Proof. revert y. induction x as [|a x IH]; intros [|b y] L; try discriminate; [reflexivity|]. cbn in *. f_equal. apply IH. lia. Qed.

(** Both reads begin at the same row and are filtered by columns with the same cells.  No part that
    is read mixes dates with shared strings while dates are recognised in text. *)
Theorem C107_filters_partial ro sc op outs outs' ks ks' n i j k fs fs' tbl tbl' top h h' :
  let l := Cell.cells_of outs in let l' := Cell.cells_of outs' in
  readable ro sc l = true -> readable ro sc l' = true -> listing l ks -> listing l' ks' -> tallest l ks n -> tallest l' ks' n ->
  (forall x, r_header op = HInt x -> 0 <= x) -> (r_lookup op <> None -> r_size op <> 0) -> fresh_table ro sc l op ks n <> Err ArrowNotImplemented -> fresh_table ro sc l' op ks' n <> Err ArrowNotImplemented ->
  top_row ro sc l op = Ok (top, h) -> top_row ro sc l' op = Ok (top, h') ->
  read_trace ro sc op (outs, None) = Ok tbl -> read_trace ro sc op (outs', None) = Ok tbl' ->
  filter_columns ro (r_filters op) (map fst tbl) ks = Ok fs -> filter_columns ro (r_filters op) (map fst tbl') ks' = Ok fs' ->
  map (content l) fs = map (content l') fs' ->
  content l k = content l' k -> nth_error ks i = Some k -> nth_error ks' j = Some k ->
  type_wanted (r_dtypes op) i (nth i (map fst tbl) []) = type_wanted (r_dtypes op) j (nth j (map fst tbl') []) ->
  exists c, option_map snd (nth_error tbl i) = Some c /\ option_map snd (nth_error tbl' j) = Some c.
Proof.
  intros l l' R R' Ls Ls' T T' Hh Hs Dt Dt' Tp Tp'.
  rewrite (@C91_dates_partial ro sc op outs ks n R Ls T Hh Hs Dt), (@C91_dates_partial ro sc op outs' ks' n R' Ls' T' Hh Hs Dt'). fold l. fold l'.
  assert (G : forall m ms hm t fm x, top_row ro sc m op = Ok (top, hm) -> nth_error ms x = Some k -> fresh_table ro sc m op ms n = Ok t ->
    filter_columns ro (r_filters op) (map fst t) ms = Ok fm ->
    let off := header_rows op + top + r_skip_after op in
    exists c a msk, option_map snd (nth_error t x) = Some c /\ convert ro (type_wanted (r_dtypes op) x (nth x (map fst t) [])) a = Ok c /\
      TableSpec.rows_kept ro sc m (r_strategy op) [] fm off (n - off) = Ok msk /\
      array_at ro sc m [] k off (n - off) msk = Ok a).
  { clear. intros m ms hm t fm x Tm Nx. unfold fresh_table. rewrite Tm. cbn [bind].
    destruct (heading ro sc m op ms top []) as [[[g names] hh]|] eqn:Eh; [|discriminate]. cbn [bind]. pose proof (heading_height Eh) as ->. pose proof (heading_names Eh) as Ln.
    destruct (filter_columns ro (r_filters op) names ms) as [fx|] eqn:Ef; [|discriminate]. cbn [bind]. cbv zeta. set (off := header_rows op + top + r_skip_after op).
    destruct (TableSpec.rows_kept ro sc m (r_strategy op) [] fx off (n - off)) as [msk|] eqn:Em; [|discriminate]. cbn [bind].
    destruct (mapM _ ms) as [arrays|] eqn:Ea; [|discriminate]. cbn [bind]. destruct (mapM_at Ea Nx) as (a & A1 & A2). apply PyFacts.mapM_length in Ea.
    destruct (typed ro (r_dtypes op) names arrays) as [cs|] eqn:Ec; [|discriminate]. cbn [bind]. destruct (equal_lengths _); [|discriminate]. intro X. injection X as <-.
    assert (Lx : (x < List.length names)%nat) by (rewrite Ln; apply nth_error_Some; congruence). destruct (nth_error names x) as [nm|] eqn:En; [|apply nth_error_None in En; lia].
    destruct (@typed_at ro _ _ _ _ _ _ _ (eq_trans Ln (eq_sym Ea)) Ec A2 En) as (c & C1 & C2).
    assert (Lc : List.length names = List.length cs).
    { unfold typed in Ec. destruct (match r_dtypes op with DTSeq _ => _ | _ => true end); [|discriminate]. apply PyFacts.mapM_length in Ec. rewrite Ec, !combine_length, seq_length. lia. }
    rewrite map_fst_combine by exact Lc. intro Fm. rewrite Ef in Fm. injection Fm as <-. exists c, a, msk.
    split; [now rewrite (nth_error_combine En C1)|]. rewrite (nth_error_nth names x ([] : str) En). now repeat split. }
  intros X Y Fs Fs' Ef Ek Ni Nj Ew. destruct (G _ _ _ _ _ _ Tp Ni X Fs) as (c & a & k1 & C1 & C2 & C3 & C4). destruct (G _ _ _ _ _ _ Tp' Nj Y Fs') as (c' & a' & k2 & C1' & C2' & C3' & C4').
  rewrite <- (kept_own ro sc (r_strategy op) (header_rows op + top + r_skip_after op) (n - (header_rows op + top + r_skip_after op)) Ef), C3 in C3'. injection C3' as <-.
  rewrite <- (@array_own ro sc l l' _ k _ _ k1 Ek), C4 in C4'. injection C4' as <-. rewrite <- Ew, C2 in C2'. injection C2' as <-. now exists c.
Qed.
Print Assumptions C107_filters_partial.
(** The text of [b] decides the rows; [t] comes out the same beside another column. *)
Example C107_filters_example : let rest := [words 0 2 (s "b"); words 0 4 (s "t"); rk 1 4 5; words 2 2 (s "x"); rk 2 4 6; words 3 2 (s "y")] in
  let outs := words 0 1 (s "u") :: rk 1 1 9 :: rest in let outs' := rest ++ [rk 3 6 3] in
  let l := Cell.cells_of outs in let l' := Cell.cells_of outs' in let op := with_filters (FTexts [s "b"]) SAnd in
  readable ex_ro ex_numeric l = true /\ readable ex_ro ex_numeric l' = true /\ tallest l [1; 2; 4] 4 /\ tallest l' [2; 4; 6] 4 /\
  top_row ex_ro ex_numeric l op = Ok (0, []) /\ top_row ex_ro ex_numeric l' op = Ok (0, []) /\
  filter_columns ex_ro (r_filters op) [s "u"; s "b"; s "t"] [1; 2; 4] = Ok [2] /\ filter_columns ex_ro (r_filters op) [s "b"; s "t"; s "Unnamed"] [2; 4; 6] = Ok [2] /\
  map (content l) [2] = map (content l') [2] /\ content l 4 = content l' 4 /\
  show_table (read_trace ex_ro ex_numeric op (outs, None)) =
    Ok [(s "u", (34, None, [None; None])); (s "b", (34, None, [Some (inl (s "x")); Some (inl (s "y"))])); (s "t", (9, None, [Some (inr 6); None]))] /\
  show_table (read_trace ex_ro ex_numeric op (outs', None)) =
    Ok [(s "b", (34, None, [Some (inl (s "x")); Some (inl (s "y"))])); (s "t", (9, None, [Some (inr 6); None])); (s "Unnamed", (9, None, [None; Some (inr 3)]))].
Proof.
  cbv zeta. do 2 (split; [vm_compute; reflexivity|]). split; [split; [exists 2; split; [now right; left|reflexivity]|intros k [<-|[<-|[<-|[]]]]; vm_compute; discriminate]|].
  split; [split; [exists 2; split; [now left|reflexivity]|intros k [<-|[<-|[<-|[]]]]; vm_compute; discriminate]|].
  do 2 (split; [vm_compute; reflexivity|]). do 2 (split; [vm_compute; reflexivity|]). do 2 (split; [reflexivity|]).
  split.
  - vm_compute. reflexivity.
  - vm_compute. reflexivity.
Qed.
