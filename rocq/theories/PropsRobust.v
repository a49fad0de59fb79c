(** C81-C84: what the worksheet iterators do with any part at all, well formed or not. *)
From Verif Require Import Py PyText PyFacts Biff BiffSpec Utf16 Utf16Spec Utf16Proofs NumFmt Cell Xlsb XlsbSpec XlsbParts Xlsx XlsxSpec XlsxNorm
  PropsXlsb PropsXlsx RobustSpec RobustProofs.
From Coq Require Import Sorted ZifyBool.

(** ** C81: a smaller row limit only cuts off the end *)
Theorem C81_xlsb_limit : forall styles nv ns skip t t' tne cols part, 0 <= skip -> 0 <= t <= t' -> 0 < t + skip ->
  extends (xlsb_iter styles nv ns skip t tne cols part) (xlsb_iter styles nv ns skip t' tne cols part).
Proof.
  intros. unfold xlsb_iter. replace (skip <? 0) with false by lia. replace (t <? 0) with false by lia. replace (t' <? 0) with false by lia.
  apply xlsb_loop_limit; [assumption|lia].
Qed.
Print Assumptions C81_xlsb_limit.
Theorem C81_xlsb_no_limit : forall styles nv ns t tne cols part, 0 < t ->
  extends (xlsb_iter styles nv ns 0 t tne cols part) (xlsb_iter styles nv ns 0 0 tne cols part).
Proof.
  intros. unfold xlsb_iter. change (0 <? 0) with false. replace (t <? 0) with false by lia. apply xlsb_loop_limit; lia.
Qed.
Print Assumptions C81_xlsb_no_limit.
Theorem C81_xlsx_limit : forall styles nv skip t t' tne cols es fail, 0 <= skip -> 0 <= t <= t' -> 0 < t + skip ->
  extends (xlsx_iter styles nv skip t tne cols es fail) (xlsx_iter styles nv skip t' tne cols es fail).
Proof.
  intros. unfold xlsx_iter, worker. replace (skip <? 0) with false by lia. replace (t <? 0) with false by lia. replace (t' <? 0) with false by lia.
  rewrite (pair_eta (worker_loop _ _ _ _ _ es fail (mkW 0 true (t + skip) 0 0 [] None))),
    (pair_eta (worker_loop _ _ _ _ _ es fail (mkW 0 true (t' + skip) 0 0 [] None))).
  apply (extends_app [OCall]). apply (worker_limit styles nv skip tne cols es fail (mkW 0 true (t + skip) 0 0 [] None) (t' + skip)).
  split; cbn; lia.
Qed.
Print Assumptions C81_xlsx_limit.
Theorem C81_xlsx_no_limit : forall styles nv t cols es fail, 0 < t ->
  extends (xlsx_iter styles nv 0 t false cols es fail) (xlsx_iter styles nv 0 0 false cols es fail).
Proof.
  intros. unfold xlsx_iter, worker. change (0 <? 0) with false. replace (t <? 0) with false by lia.
  rewrite (pair_eta (worker_loop _ _ _ _ _ es fail (mkW 0 true (t + 0) 0 0 [] None))),
    (pair_eta (worker_loop _ _ _ _ _ es fail (mkW 0 true (0 + 0) 0 0 [] None))).
  apply (extends_app [OCall]). apply (worker_limit styles nv 0 false cols es fail (mkW 0 true (t + 0) 0 0 [] None) (0 + 0)).
  split; cbn; [lia|]. right. lia.
Qed.
Print Assumptions C81_xlsx_no_limit.
(** Keeping empty rows, no limit can deliver less than a limit of 9: the leading empty row
    turns "no limit" into "up to row 2". *)
Theorem C81_xlsx_kept_refuted :
  is_xsheet ex_lost (xsheet_events [] ex_lost []) /\
  map c_row (cells_of (fst (xlsx_iter (fun _ => None) (xlsx_null NNone) 0 9 true [] (xsheet_events [] ex_lost []) None))) = [1; 2; 3; 4] /\
  map c_row (cells_of (fst (xlsx_iter (fun _ => None) (xlsx_null NNone) 0 0 true [] (xsheet_events [] ex_lost []) None))) = [1; 2].
Proof. split; [exists [], []; split; reflexivity|split; vm_compute; reflexivity]. Qed.
Print Assumptions C81_xlsx_kept_refuted.
(** Not a well-formed part: a row mark, a cell, a stray mark, a cell, no end of the sheet data,
    and four bytes that are no record. *)
Definition odd_part : bytes :=
  match dump_all [mkRec 5 [9; 9]; mkRec 0 []; mkRec 7 [0; 0; 0; 0; 0; 0; 0; 0; 1; 0; 0; 0]; mkRec 0 [1]; mkRec 0 [];
                  mkRec 4 [3; 0; 0; 0; 0; 0; 0; 0; 1]; mkRec 0 []; mkRec 6 [1; 0; 0; 0; 0; 0; 0; 0; 1; 0; 0; 0; 65; 0]] with
  | Ok b => b | Err _ => [] end ++ [5; 200; 1; 1].
Example C81_example :
  map c_row (cells_of (fst (xlsb_iter (Ok []) (fun _ => false) (fun _ _ => false) 0 1 true [] odd_part))) = [0] /\
  map c_row (cells_of (fst (xlsb_iter (Ok []) (fun _ => false) (fun _ _ => false) 0 2 true [] odd_part))) = [0; 2] /\
  map c_row (cells_of (fst (xlsb_iter (Ok []) (fun _ => false) (fun _ _ => false) 0 0 true [] odd_part))) = [0; 2; 3].
Proof. repeat split. Qed.

Lemma column_range b k : bytes_ok b = true -> unpack_I b = Ok k -> 0 <= k < 2 ^ 32.
Proof.
  unfold unpack_I. destruct b as [|b0 [|b1 [|b2 [|b3 [|b4 b]]]]]; try discriminate.
  unfold bytes_ok, byte_ok. cbn [forallb]. intros H E.
  assert (E' : k = b0 + 2 ^ 8 * b1 + 2 ^ 16 * b2 + 2 ^ 24 * b3) by congruence. rewrite E'. change (2 ^ 8) with 256. change (2 ^ 16) with 65536.
  change (2 ^ 24) with 16777216. change (2 ^ 32) with 4294967296. lia.
Qed.
Lemma part_bytes p q d n m : 0 <= n <= m -> bytes_ok (p ++ d ++ q) = true -> bytes_ok (sub d n m) = true.
Proof.
  intros L H. rewrite sub_spec by lia. unfold bytes_ok in *. rewrite forallb_forall in *. intros x I. apply H.
  apply in_or_app. right. apply in_or_app. left. rewrite <- (firstn_skipn (Z.to_nat n) d). apply in_or_app. right.
  rewrite <- (firstn_skipn (Z.to_nat (m - n))). apply in_or_app. now left.
Qed.
(** ** C82: every delivered cell respects the arguments and comes from the part *)
Theorem C82_xlsb_cells : forall styles nv ns skip t tne cols part i c,
  nth_error (cells_of (fst (xlsb_iter styles nv ns skip t tne cols part))) i = Some c ->
  0 <= c_row c /\ (0 < t -> c_row c <= t) /\ ~ In (c_col c) cols /\
  (bytes_ok part = true -> 0 <= c_col c < 2 ^ 32) /\
  (exists before r after, part = before ++ rec_data r ++ after /\ In (rec_id r) [2; 4; 5; 6; 7; 8; 9; 10] /\
    unpack_I (sub (rec_data r) 0 4) = Ok (c_col c) /\ payload r (c_val c)) /\
  match c_val c with
  | VStr x => nv x = false
  | VBytes b => c_xdt c = Z.lor TYPE_STRING REPR_SHARED -> ns i b = false
  end.
Proof.
  intros styles nv ns skip t tne cols part i c H. unfold xlsb_iter in H.
  destruct (Z.ltb_spec skip 0) as [|K0]; [now destruct i|]. destruct (Z.ltb_spec t 0) as [|T0]; [now destruct i|].
  destruct (xlsb_cells_all styles nv ns skip t tne cols _ K0 (-1) false 0%nat i c ltac:(lia) H) as (A & B & C & (r & I & U & P) & V).
  destruct (scan_part_inside xlsb_ids part r ltac:(discriminate) (proj1 I)) as (N & before & after & Q).
  destruct I as (_ & I0 & I4). repeat split; auto.
  - intro M. apply mem_Z_In in M. congruence.
  - apply (column_range (sub (rec_data r) 0 4)); [|exact U]. rewrite Q in H0. apply (part_bytes before after); [lia|exact H0].
  - apply (column_range (sub (rec_data r) 0 4)); [|exact U]. rewrite Q in H0. apply (part_bytes before after); [lia|exact H0].
  - exists before, r, after. repeat split; auto. unfold xlsb_ids in N. cbn in N |- *. lia.
Qed.
Print Assumptions C82_xlsb_cells.
Theorem C82_xlsb_rows : forall styles nv ns skip t tne cols part,
  Sorted Z.le (map c_row (cells_of (fst (xlsb_iter styles nv ns skip t tne cols part)))).
Proof.
  intros. unfold xlsb_iter. destruct (skip <? 0); [constructor|]. destruct (t <? 0); [constructor|].
  pose proof (xlsb_rows_sorted styles nv ns skip t tne cols (scan_part xlsb_ids part) (-1) false 0) as S. now inversion S.
Qed.
Print Assumptions C82_xlsb_rows.
Lemma col_idx_ge b : -1 <= col_idx b.
Proof.
  unfold col_idx. assert (G : forall l a i, 0 <= i -> a <= col_idx_rev l a i); [|apply G; lia].
  induction l as [|x l IH]; intros a i I; cbn [col_idx_rev]; [lia|].
  destruct (Z.ltb_spec 64 x); [|now apply IH]. apply Z.le_trans with (2 := IH _ (i + 1) ltac:(lia)).
  pose proof (Z.pow_nonneg 26 i ltac:(lia)). nia.
Qed.
Theorem C82_xlsx_cells : forall styles nv skip t tne cols es fail c,
  In c (cells_of (fst (xlsx_iter styles nv skip t tne cols es fail))) ->
  0 <= c_row c /\ (tne = false -> 0 < t -> c_row c <= t) /\ ~ In (c_col c) cols /\ -1 <= c_col c /\
  (exists a r, In (EStart (s "c") a) es /\ attr a (s "r") = Some r /\ c_col c = col_idx (utf8 r)) /\
  (exists x, In (EText x) es /\ c_val c = VBytes (utf8 (strip x)) /\ strip x <> [] /\ nv (strip x) = false).
Proof.
  intros styles nv skip t tne cols es fail c H. unfold xlsx_iter, worker in H.
  destruct (Z.ltb_spec skip 0) as [|K0]; [destruct H|]. destruct (Z.ltb_spec t 0) as [|T0]; [destruct H|].
  assert (W : winv skip (mkW 0 true (t + skip) 0 0 [] None)) by (split; cbn; [lia|intro N; now elim N]).
  assert (L : wlimit skip tne t (mkW 0 true (t + skip) 0 0 [] None)) by (intros _ P; cbn; lia).
  pose proof (xlsx_cells_all styles nv skip tne cols fail t es es K0 (incl_refl es) (mkW 0 true (t + skip) 0 0 [] None) c W L) as A.
  assert (F : wfrom es (mkW 0 true (t + skip) 0 0 [] None)) by (intro N; now elim N). specialize (A F).
  destruct (worker_loop _ _ _ _ _ _ _ _) as [o e]. cbn [fst] in *. rewrite cells_cons_call in H.
  destruct (A H) as (A1 & A2 & A3 & (r & (a & A4 & A4') & A5) & A6).
  repeat split; auto.
  - intro M. apply mem_Z_In in M. congruence.
  - rewrite A5. apply col_idx_ge.
  - exists a, r. auto.
Qed.
Print Assumptions C82_xlsx_cells.
Theorem C82_xlsx_rows : forall styles nv skip t tne cols es fail,
  Sorted Z.le (map c_row (cells_of (fst (xlsx_iter styles nv skip t tne cols es fail)))).
Proof.
  intros. unfold xlsx_iter, worker. destruct (skip <? 0) eqn:K; [constructor|]. destruct (t <? 0); [constructor|].
  pose proof (xlsx_rows_sorted styles nv skip tne cols fail es (mkW 0 true (t + skip) 0 0 [] None)) as S.
  destruct (worker_loop _ _ _ _ _ _ _ _) as [o e]. cbn [fst] in *. rewrite cells_cons_call.
  assert (W : winv skip (mkW 0 true (t + skip) 0 0 [] None)) by (split; cbn; [lia|intro N; now elim N]).
  specialize (S W). now inversion S.
Qed.
Print Assumptions C82_xlsx_rows.
Example C82_example :
  map (fun c => (c_row c, c_col c)) (cells_of (fst (xlsb_iter (Ok []) (fun _ => false) (fun _ _ => false) 1 1 true [3] odd_part))) = [] /\
  map (fun c => (c_row c, c_col c)) (cells_of (fst (xlsb_iter (Ok []) (fun _ => false) (fun _ _ => false) 1 2 true [3] odd_part))) = [(2, 1)] /\
  let es := [EText (s "x"); EStart (s "c") [(s "r", s "C")]; EStart (s "v") []; EText (s " y "); EText (s "z"); EEnd (s "row"); EText (s "w")] in
  cells_of (fst (xlsx_iter (fun _ => None) (fun t => str_eqb t (s "z")) 0 0 true [] es (Some XmlError)))
  = [mkCell 0 2 24 (VBytes (s "y")); mkCell 0 2 24 (VBytes (s "w"))].
Proof. repeat split. Qed.

(** ** C83: exclusions only remove cells *)
(** Kept rows: with more null values and more skipped columns exactly the hidden cells are
    missing, and the callbacks are the same. *)
Theorem C83_xlsb_kept : forall styles nv0 nv nul0 nul skip t cols0 cols part,
  (forall x, nv0 x = true -> nv x = true) -> (forall b, nul0 b = true -> nul b = true) -> incl cols0 cols ->
  let a := xlsb_iter styles nv0 (fun _ => nul0) skip t true cols0 part in
  let b := xlsb_iter styles nv (fun _ => nul) skip t true cols part in
  snd a = None ->
  snd b = None /\ cells_of (fst b) = filter (visible nv nul cols) (cells_of (fst a)) /\ calls_of (fst b) = calls_of (fst a).
Proof.
  intros styles nv0 nv nul0 nul skip t cols0 cols part Hn Hs Hc a b. subst a b. unfold xlsb_iter.
  destruct (skip <? 0); [discriminate|]. destruct (t <? 0); [discriminate|]. intro H.
  apply kept_filter; auto. intros k K. apply mem_Z_In, Hc, mem_Z_In, K.
Qed.
Print Assumptions C83_xlsb_kept.
(** Any mode: the same cells up to their row numbers. *)
Theorem C83_xlsb_contents : forall styles nv0 nv nul0 nul tne cols0 cols part,
  (forall x, nv0 x = true -> nv x = true) -> (forall b, nul0 b = true -> nul b = true) -> incl cols0 cols ->
  let a := xlsb_iter styles nv0 (fun _ => nul0) 0 0 tne cols0 part in
  let b := xlsb_iter styles nv (fun _ => nul) 0 0 tne cols part in
  snd a = None ->
  snd b = None /\ map no_row (cells_of (fst b)) = filter (visible nv nul cols) (map no_row (cells_of (fst a))).
Proof.
  intros styles nv0 nv nul0 nul tne cols0 cols part Hn Hs Hc a b H. subst a b. unfold xlsb_iter in *. change (0 <? 0) with false in *.
  apply contents_filter; auto; [|right; auto]. intros k K. apply mem_Z_In, Hc, mem_Z_In, K.
Qed.
Print Assumptions C83_xlsb_contents.
(** .xlsx, empty rows not kept; the null predicate is given on the encoded text. *)
Theorem C83_xlsx_contents : forall styles p0 p cols0 cols es fail,
  (forall x, p0 x = true -> p x = true) -> incl cols0 cols ->
  let a := xlsx_iter styles (fun x => p0 (utf8 x)) 0 0 false cols0 es fail in
  let b := xlsx_iter styles (fun x => p (utf8 x)) 0 0 false cols es fail in
  snd b = snd a /\ calls_of (fst b) = calls_of (fst a) /\
  map no_row (cells_of (fst b)) = filter (xvisible p cols) (map no_row (cells_of (fst a))).
Proof.
  intros styles p0 p cols0 cols es fail Hn Hc a b. subst a b. unfold xlsx_iter, worker. change (0 <? 0) with false. change (0 + 0) with 0. cbv zeta.
  pose proof (worker_filter styles p0 p cols0 cols Hn (fun k K => proj2 (mem_Z_In k cols) (Hc k (proj1 (mem_Z_In k cols0) K))) fail es
    (mkW 0 true 0 0 0 [] None) (mkW 0 true 0 0 0 [] None)) as W. cbv zeta in W.
  destruct (worker_loop _ (fun x => p0 (utf8 x)) _ _ _ _ _ _) as [o1 e1]. destruct (worker_loop _ (fun x => p (utf8 x)) _ _ _ _ _ _) as [o2 e2].
  cbn [fst snd] in *. rewrite !cells_cons_call. destruct W as (W1 & W2 & W3); [repeat split; cbn; lia|].
  repeat split; auto. unfold calls_of in *. cbn [filter]. rewrite !zlen_cons. lia.
Qed.
Print Assumptions C83_xlsx_contents.
(** .xlsx keeping empty rows: hiding the only text of the first row makes a further row appear. *)
Definition ex_abcd : list event := xsheet_events [] (map (fun t => ex_r [ex_c 0 [t]]) (s "abcd")) [].
Theorem C83_xlsx_kept_refuted :
  is_xsheet (map (fun t => ex_r [ex_c 0 [t]]) (s "abcd")) ex_abcd /\
  let run nv := cells_of (fst (xlsx_iter (fun _ => None) nv 0 1 true [] ex_abcd None)) in
  map c_val (run (xlsx_null NNone)) = [VBytes (s "a"); VBytes (s "b")] /\
  map c_val (run (xlsx_null (NList [s "a"]))) = [VBytes (s "b"); VBytes (s "c"); VBytes (s "d")].
Proof. split; [exists [], []; split; reflexivity|split; vm_compute; reflexivity]. Qed.
Print Assumptions C83_xlsx_kept_refuted.
Example C83_example :
  let run nv nul cols := xlsb_iter (Ok []) nv (fun _ => nul) 0 0 true cols odd_part in
  snd (run (fun _ => false) (fun _ => false) []) = None /\
  map c_col (cells_of (fst (run (fun _ => false) (fun _ => false) []))) = [0; 3; 1] /\
  map c_col (cells_of (fst (run (fun x => str_eqb x (s "A")) (fun _ => false) [0]))) = [3] /\
  map c_row (cells_of (fst (run (fun _ => false) (fun b => str_eqb b [1; 0; 0; 0]) [3]))) = [3].
Proof. repeat split. Qed.

(** ** C84: an .xlsb sheet fails only through a cell record that is too short or holds a bad text *)
Theorem C84_xlsb_failure : forall styles nv ns skip t tne cols part e, 0 <= skip -> 0 <= t ->
  snd (xlsb_iter (Ok styles) nv ns skip t tne cols part) = Some e ->
  (e = StructError \/ e = UnicodeError) /\
  exists r, In r (scan_part xlsb_ids part) /\ In (rec_id r) [2; 4; 5; 6; 7; 8; 9; 10] /\ ~ good_cell r.
Proof.
  intros styles nv ns skip t tne cols part e K T H. unfold xlsb_iter in H.
  replace (skip <? 0) with false in H by lia. replace (t <? 0) with false in H by lia.
  destruct (xlsb_loop_err _ _ _ _ _ _ _ _ _ _ _ _ H) as [?|(E & r & I & Z0 & Z4 & G)]; [discriminate|].
  split; [exact E|]. exists r. repeat split; auto.
  destruct (scan_part_inside xlsb_ids part r ltac:(discriminate) I) as (N & _). unfold xlsb_ids in N. cbn in N |- *. lia.
Qed.
Print Assumptions C84_xlsb_failure.
Theorem C84_xlsb_no_failure : forall styles nv ns skip t tne cols part, 0 <= skip -> 0 <= t ->
  (forall r, In r (scan_part xlsb_ids part) -> In (rec_id r) [2; 4; 5; 6; 7; 8; 9; 10] -> good_cell r) ->
  snd (xlsb_iter (Ok styles) nv ns skip t tne cols part) = None.
Proof.
  intros styles nv ns skip t tne cols part K T G. destruct (snd _) as [e|] eqn:E; [|reflexivity].
  destruct (C84_xlsb_failure styles nv ns skip t tne cols part e K T E) as (_ & r & I & N & B). now elim B; apply G.
Qed.
Print Assumptions C84_xlsb_no_failure.
(** The .xlsx thread fails only when the parser does or a cell has no reference. *)
Theorem C84_xlsx_failure : forall styles nv skip t tne cols es fail e, 0 <= skip -> 0 <= t ->
  snd (xlsx_iter styles nv skip t tne cols es fail) = Some e ->
  fail = Some e \/ e = KeyError /\ exists a, In (EStart (s "c") a) es /\ attr a (s "r") = None.
Proof.
  intros styles nv skip t tne cols es fail e K T H. unfold xlsx_iter, worker in H.
  replace (skip <? 0) with false in H by lia. replace (t <? 0) with false in H by lia.
  destruct (worker_loop _ _ _ _ _ _ _ _) as [o x] eqn:E in H. cbn [snd] in H. eapply worker_err. rewrite E. exact H.
Qed.
Print Assumptions C84_xlsx_failure.
Example C84_example :
  (forall r, In r (scan_part xlsb_ids (skipn 4 odd_part)) -> In (rec_id r) [2; 4; 5; 6; 7; 8; 9; 10] -> good_cell r) /\
  List.length (scan_part xlsb_ids (skipn 4 odd_part)) = 7%nat /\
  (exists p, dump_all [mkRec 0 []; mkRec 5 [1; 0; 0]] = Ok p /\
    snd (xlsb_iter (Ok []) (fun _ => false) (fun _ _ => false) 0 0 true [] p) = Some StructError) /\
  (exists p, dump_all [mkRec 0 []; mkRec 6 [1; 0; 0; 0; 0; 0; 0; 0; 1; 0; 0; 0; 0; 216]] = Ok p /\
    snd (xlsb_iter (Ok []) (fun _ => false) (fun _ _ => false) 0 0 true [] p) = Some UnicodeError).
Proof.
  split; [|split; [reflexivity|split; eexists; split; reflexivity]].
  intros r I N. vm_compute in I.
  assert (S : rec_id r = 6 -> rec_data r = [1; 0; 0; 0; 0; 0; 0; 0; 1; 0; 0; 0; 65; 0])
    by (intro E; repeat (destruct I as [<-|I]; [try discriminate E; reflexivity|]); destruct I).
  assert (E8 : rec_id r <> 8) by (intro E; repeat (destruct I as [<-|I]; [discriminate E|]); destruct I).
  split.
  - repeat (destruct I as [<-|I]; [try (exfalso; cbn in N; lia); vm_compute; discriminate|]). destruct I.
  - intros [E|E]; [|contradiction]. rewrite (S E). exists [1; 0; 0; 0; 0; 0; 0; 0], (s "A"), []. repeat split.
Qed.
