(** C105 for the cells of an .xlsb sheet, with skipped rows and a limit. *)
From Verif Require Import Py PyFacts PyText Biff BiffRecs Utf16 Cell Xlsb Xlsx Sheets Reader Workbook WorkbookSpec WorkbookProofs FileSpec DefectSpec PropsXlsx PropsReader PropsWorkbook PropsDamage PropsCauses BiffAny PropsDefects.
From Coq Require Import ZifyBool ZifyNat.
Set Implicit Arguments. Unset Strict Implicit.

Lemma headers_cons q rs : headers (q :: rs) = (if Z.eqb (rec_id q) 0 then 1 else 0) + headers rs.
Proof. unfold headers. cbn [filter]. destruct (rec_id q =? 0); [rewrite zlen_cons|]; lia. Qed.
Lemma headers_pos (rs : list record) : 0 <= headers rs.
Proof. apply zlen_nonneg. Qed.
Lemma looked_nil sk tk h r : ~ looked_at sk tk h [] r.
Proof. intros (pre & post & E & _). now destruct pre. Qed.
Lemma looked_header sk tk h q rs r : rec_id q = 0 -> (looked_at sk tk h (q :: rs) r <-> looked_at sk tk (h + 1) rs r).
Proof.
  intro Q. split.
  - intros (pre & post & E & R0 & R4 & S & T & N). destruct pre as [|q' pre]; injection E as -> E; [congruence|]. rewrite headers_cons, Q in *. cbn [Z.eqb] in *.
    exists pre, post. split; [exact E|]. split; [exact R0|]. split; [exact R4|]. split; [lia|]. split; [lia|]. intros p x w -> X. specialize (N (q' :: p) x w eq_refl X). rewrite headers_cons, Q in N. cbn [Z.eqb] in N. lia.
  - intros (pre & post & -> & R0 & R4 & S & T & N). exists (q :: pre), post. rewrite headers_cons, Q. cbn [Z.eqb]. split; [reflexivity|]. split; [exact R0|]. split; [exact R4|]. split; [lia|]. split; [lia|].
    intros [|q' p] x w E X; injection E as <- E; [congruence|]. rewrite headers_cons, Q. cbn [Z.eqb]. specialize (N p x w E X). lia.
Qed.
Lemma looked_over sk tk h q rs r : rec_id q <> 0 -> (rec_id q = 402 -> h <= sk) -> looked_at sk tk h rs r -> looked_at sk tk h (q :: rs) r.
Proof.
  intros Q Q4 (pre & post & -> & R0 & R4 & S & T & N). exists (q :: pre), post. rewrite headers_cons. replace (rec_id q =? 0) with false by lia. split; [reflexivity|]. split; [exact R0|]. split; [exact R4|]. split; [lia|]. split; [lia|].
  intros [|q' p] x w E X; injection E as <- E; [change (headers []) with 0; specialize (Q4 X); lia|]. rewrite headers_cons. replace (rec_id q =? 0) with false by lia. specialize (N p x w E X). lia.
Qed.
Lemma looked_other sk tk h q rs r : rec_id q <> 0 -> looked_at sk tk h (q :: rs) r ->
  r = q /\ rec_id q <> 402 /\ sk < h \/ looked_at sk tk h rs r /\ (rec_id q = 402 -> h <= sk).
Proof.
  intros Q (pre & post & E & R0 & R4 & S & T & N). destruct pre as [|q' pre]; injection E as -> E.
  - left. change (headers []) with 0 in S. split; [reflexivity|]. split; [exact R4|lia].
  - right. rewrite headers_cons in S, T. replace (rec_id q' =? 0) with false in S, T by lia. split.
    + exists pre, post. split; [exact E|]. split; [exact R0|]. split; [exact R4|]. split; [lia|]. split; [lia|]. intros p x w -> X. specialize (N (q' :: p) x w eq_refl X). rewrite headers_cons in N. replace (rec_id q' =? 0) with false in N by lia. lia.
    + intro X. specialize (N [] q' pre eq_refl X). change (headers []) with 0 in N. lia.
Qed.
Lemma looked_head sk tk h q rs : rec_id q <> 0 -> rec_id q <> 402 -> sk < h -> (sk + tk = 0 \/ h <= sk + tk + 1) -> looked_at sk tk h (q :: rs) q.
Proof. intros Q Q4 S T. exists [], rs. change (headers []) with 0. split; [reflexivity|]. split; [exact Q|]. split; [exact Q4|]. split; [lia|]. split; [lia|]. intros [|? ?]; discriminate. Qed.

(** A sound cell is read. *)
Lemma four b n body : counted b n body -> unpack_I (firstn 4 b) = Ok n /\ skipn 4 b = body.
Proof. intros (p & q & u & v & -> & ->). split; reflexivity. Qed.
Lemma cell_reads st nv ns sk cols n row r : bytes_ok (rec_data r) = true -> cell_sound cols r -> exists x, xlsb_cell (Ok st) nv ns sk cols n row r = Ok x.
Proof.
  intros B (col & body & C & H). unfold xlsb_cell. cbv zeta. destruct (four C) as [U _]. rewrite (sub_spec (rec_data r) (a := 0) (b := 4)) by lia. change (Z.to_nat (4 - 0)) with 4%nat. cbn [Z.to_nat skipn]. rewrite U. cbn [bind].
  destruct (mem_Z col cols) eqn:M; [now eexists|]. cbn [bind]. destruct H as [I|H]; [apply mem_Z_In in I; congruence|].
  destruct ((rec_id r =? 6) || (rec_id r =? 8)) eqn:E.
  - destruct H as (m & t & Cm & (txt & D)); [lia|]. destruct (four Cm) as [V Sk]. rewrite (sub_spec (rec_data r) (a := 8) (b := 12)) by lia. change (Z.to_nat (12 - 8)) with 4%nat. change (Z.to_nat 8) with 8%nat. rewrite V. cbn [bind].
    assert (0 <= m).
    { destruct Cm as (p & q & u & v & Es & ->). assert (Bs : bytes_ok (skipn 8 (rec_data r)) = true).
      { unfold bytes_ok in *. apply forallb_forall. intros c I. apply forallb_forall with (x := c) in B; [exact B|]. rewrite <- (firstn_skipn 8 (rec_data r)). apply in_or_app. now right. }
      rewrite Es in Bs. repeat match goal with H : bytes_ok (_ :: _) = true |- _ => apply bytes_cons in H as [? H] end. lia. }
    fold (sub (rec_data r) 12 (m * 2 + 12)). rewrite sub_spec by lia. replace (m * 2 + 12 - 12) with (2 * m) by lia. change (Z.to_nat 12) with (8 + 4)%nat. rewrite <- ChunkWindow.skipn_plus, Sk, D. cbn [bind]. destruct (nv txt); now eexists.
  - destruct ((rec_id r =? 5) || (rec_id r =? 9)); [now eexists|]. destruct ((rec_id r =? 4) || (rec_id r =? 10)); [now eexists|]. destruct (rec_id r =? 7); [destruct (ns n _)|]; now eexists.
Qed.

(** Rows that are kept: the [h]-th header opens row [h - 1]. *)
Lemma loop_exact st nv ns sk tk cols rs : (forall r, In r rs -> bytes_ok (rec_data r) = true) -> forall h empty n, 0 <= sk + tk -> (sk + tk = 0 \/ h <= sk + tk + 1) ->
  (snd (xlsb_loop (Ok st) nv ns sk tk true cols rs (h - 1) empty n) = None <-> forall r, looked_at sk tk h rs r -> cell_sound cols r).
Proof.
  induction rs as [|q rs IH]; intros B h empty n P L; cbn [xlsb_loop].
  - split; [|reflexivity]. intros _ r H. now destruct (looked_nil H).
  - assert (B' : forall r, In r rs -> bytes_ok (rec_data r) = true) by (intros x I; apply B; now right). specialize (IH B'). destruct (rec_id q =? 0) eqn:E0.
    + rewrite orb_true_r. cbv zeta. unfold xlsb_take. replace (h - 1 + 1) with (h + 1 - 1) by lia. destruct ((0 <? tk + sk) && (tk + sk <? h + 1 - 1)) eqn:K.
      * split; [|reflexivity]. intros _ r H. apply looked_header in H; [|lia]. destruct H as (pre & post & _ & _ & _ & _ & T & _). assert (0 <= headers pre) by apply zlen_nonneg. lia.
      * assert (L' : sk + tk = 0 \/ h + 1 <= sk + tk + 1) by lia. specialize (IH (h + 1) true n P L'). destruct (xlsb_loop (Ok st) nv ns sk tk true cols rs (h + 1 - 1) true n) as [o e]. cbn [snd] in *. rewrite IH.
        split; intros H r I; apply H; apply (@looked_header sk tk h q rs r) in I || apply (@looked_header sk tk h q rs r); try exact I; lia.
    + destruct (h - 1 <? sk) eqn:Ks.
      * rewrite (IH h empty n P L). split; intros H r I; apply H.
        -- destruct (looked_other (q := q) ltac:(lia) I) as [(_ & _ & ?)|[J _]]; [lia|exact J].
        -- apply looked_over; [lia|lia|exact I].
      * destruct (rec_id q =? 402) eqn:E4.
        -- split; [|reflexivity]. intros _ r I. destruct (looked_other (q := q) ltac:(lia) I) as [(_ & ? & _)|[_ J]]; [lia|]. specialize (J ltac:(lia)). lia.
        -- assert (Hd : looked_at sk tk h (q :: rs) q) by (apply looked_head; lia).
           destruct (xlsb_cell (Ok st) nv ns sk cols n (h - 1) q) as [x|x] eqn:X.
           ++ assert (So : cell_sound cols q) by (refine (cell_ok _ X); apply B; now left).
              assert (G : (forall r, looked_at sk tk h rs r -> cell_sound cols r) <-> forall r, looked_at sk tk h (q :: rs) r -> cell_sound cols r).
              { split; intros H r I.
                - destruct (looked_other (q := q) ltac:(lia) I) as [(-> & _)|[J _]]; [exact So|exact (H r J)].
                - apply H, looked_over; [lia|lia|exact I]. }
              rewrite <- G. destruct x as [c|]; [|exact (IH h empty n P L)]. specialize (IH h false (S n) P L). destruct (xlsb_loop (Ok st) nv ns sk tk true cols rs (h - 1) false (S n)) as [o e]. exact IH.
           ++ split; [discriminate|]. intro H. destruct (@cell_reads st nv ns sk cols n (h - 1) q) as [y Y]; [apply B; now left|now apply H|]. congruence.
Qed.

(** Exactly: the iteration of a sheet whose rows are kept ends without an exception if and only if
    every cell record that is looked at is sound. *)
Theorem C105_xlsb_rows expat z w d p b : wo_tne w = true -> bbook_sheets expat z = Ok d -> chosen_part d (wo_sheet w) p -> member z p b -> bytes_ok b = true ->
  0 <= wo_skip w -> 0 <= wo_take w -> xlsb_styles_sound z ->
  (snd (bbook_iter expat z w) = None <-> forall r, looked_at (wo_skip w) (wo_take w) 0 (scan_part xlsb_ids b) r -> cell_sound (wo_cols w) r).
Proof.
  intros T D P M B K L S. apply C105_xlsb_styles in S as [st S]. unfold bbook_iter. cbv zeta. apply select_ok in P. rewrite D. cbn [bind]. rewrite P. cbn [bind]. rewrite (member_open M), S, T. unfold xlsb_iter.
  destruct (wo_skip w <? 0) eqn:K'; [lia|]. destruct (wo_take w <? 0) eqn:L'; [lia|]. change (-1) with (0 - 1). apply loop_exact; [|lia|lia]. intro q. now apply inside_bytes.
Qed.
Print Assumptions C105_xlsb_rows.

(** Rows that are not kept: nothing is delivered behind skipped rows ... *)
Lemma loop_nothing styles nv ns sk tk cols rs : 0 < sk -> forall row empty n, (row = -1 \/ row = 0 /\ empty = true) -> Cell.cells_of (fst (xlsb_loop styles nv ns sk tk false cols rs row empty n)) = [].
Proof.
  intro K. induction rs as [|q rs IH]; intros row empty n R; cbn [xlsb_loop]; [reflexivity|]. destruct (rec_id q =? 0).
  - cbv zeta. rewrite orb_false_r. set (row' := if negb empty then row + 1 else row). assert (R' : row' = -1 \/ row' = 0 /\ true = true) by (unfold row'; destruct empty; cbn [negb]; lia).
    destruct ((0 <? xlsb_take sk tk) && (xlsb_take sk tk <? row')); [reflexivity|]. specialize (IH row' true n R'). destruct (xlsb_loop styles nv ns sk tk false cols rs row' true n) as [o e]. cbn [fst] in *. now destruct (sk <=? row').
  - destruct (row <? sk) eqn:E; [exact (IH row empty n R)|lia].
Qed.
(** ... and otherwise the row number never exceeds the number of headers. *)
Lemma loop_rows styles nv ns sk tk (tne : bool) cols rs : (forall r, In r rs -> bytes_ok (rec_data r) = true) -> 0 <= sk -> 0 <= tk -> forall h row empty n,
  (if tne then row = h - 1 else sk = 0 /\ row <= h - 1 /\ -1 <= row /\ (0 < h -> 0 <= row) /\ (empty = false \/ 0 <= row)) ->
  snd (xlsb_loop styles nv ns sk tk tne cols rs row empty n) = None -> forall r, looked_at sk tk h rs r -> cell_sound cols r.
Proof.
  intros B K L. induction rs as [|q rs IH]; intros h row empty n I E r J; [now destruct (looked_nil J)|]. cbn [xlsb_loop] in E.
  assert (B' : forall r, In r rs -> bytes_ok (rec_data r) = true) by (intros x X; apply B; now right). specialize (IH B'). destruct (rec_id q =? 0) eqn:E0.
  - apply looked_header in J; [|lia]. cbv zeta in E. set (row' := if negb empty || tne then row + 1 else row) in *.
    assert (I' : if tne then row' = h + 1 - 1 else sk = 0 /\ row' <= h + 1 - 1 /\ -1 <= row' /\ (0 < h + 1 -> 0 <= row') /\ (true = false \/ 0 <= row')).
    { unfold row'. destruct tne, empty; cbn [negb orb]; lia. }
    unfold xlsb_take in E. destruct ((0 <? tk + sk) && (tk + sk <? row')) eqn:X.
    + destruct J as (pre & post & _ & _ & _ & _ & T & _). assert (0 <= headers pre) by apply zlen_nonneg. destruct tne; lia.
    + specialize (IH (h + 1) row' true n I'). destruct (xlsb_loop styles nv ns sk tk tne cols rs row' true n) as [o e]. exact (IH E r J).
  - destruct (row <? sk) eqn:Ks.
    + destruct (looked_other (q := q) ltac:(lia) J) as [(_ & _ & X)|[X _]]; [destruct tne; lia|]. exact (IH h row empty n I E r X).
    + destruct (rec_id q =? 402) eqn:E4.
      * destruct (looked_other (q := q) ltac:(lia) J) as [(_ & X & _)|[(pre & post & _ & _ & _ & S & _) X]]; [lia|]. specialize (X ltac:(lia)). destruct tne; lia.
      * destruct (xlsb_cell styles nv ns sk cols n row q) as [x|x] eqn:X; [|discriminate].
        destruct (looked_other (q := q) ltac:(lia) J) as [(-> & _)|[Y _]]; [refine (cell_ok _ X); apply B; now left|].
        destruct x as [c|]; [|exact (IH h row empty n I E r Y)].
        assert (I' : if tne then row = h - 1 else sk = 0 /\ row <= h - 1 /\ -1 <= row /\ (0 < h -> 0 <= row) /\ (false = false \/ 0 <= row)) by (destruct tne; intuition).
        specialize (IH h row false (S n) I'). destruct (xlsb_loop styles nv ns sk tk tne cols rs row false (S n)) as [o e]. exact (IH E r Y).
Qed.
(** A file that is read: every such cell is sound, whether empty rows are kept or not.  (Where they
    are not, a limit counts only rows with cells, and some more records are looked at.) *)
Theorem C105_xlsb_cells_rows_partial expat ro z w op wb tbl d p b : absent z (s "xl/workbook.xml") -> member z (s "xl/workbook.bin") wb ->
  read_book expat ro z w op = Ok tbl -> bbook_sheets expat z = Ok d -> chosen_part d (wo_sheet w) p -> member z p b -> bytes_ok b = true ->
  forall r, looked_at (wo_skip w) (wo_take w) 0 (scan_part xlsb_ids b) r -> cell_sound (wo_cols w) r.
Proof.
  intros A W H D P M B r J. unfold read_book in H. rewrite (absent_has A), (member_has W) in H. apply read_cells_ok in H as (I & N & _).
  unfold bbook_iter in I, N. cbv zeta in I, N. apply select_ok in P. rewrite D in I, N. cbn [bind] in I, N. rewrite P in I, N. cbn [bind] in I, N. rewrite (member_open M) in I, N. unfold xlsb_iter in I, N.
  destruct (wo_skip w <? 0) eqn:K; [discriminate|]. destruct (wo_take w <? 0) eqn:T; [discriminate|].
  refine (loop_rows _ _ _ _ I J); [intro q; now apply inside_bytes|lia|lia|]. destruct (wo_tne w) eqn:E; [reflexivity|].
  destruct (Z.eq_dec (wo_skip w) 0) as [Z|Z]; [lia|]. exfalso. apply N. apply loop_nothing; [lia|now left].
Qed.
Print Assumptions C105_xlsb_cells_rows_partial.
(** A damaged text in the first row: with the row skipped it is not looked at and the sheet is read,
    otherwise it is and the iteration fails. *)
Definition exd_part : list record :=
  [mkRec 145 []; mkRec 0 (repeat 0 25); mkRec 6 [0; 0; 0; 0; 0; 0; 0; 0; 5]; mkRec 0 (repeat 0 25); mkRec 2 [1; 0; 0; 0; 0; 0; 0; 0; 30; 0; 0; 0]; mkRec 402 []].
Definition exd_files : archive := exb_with (s "xl/worksheets/sheet1.bin") exd_part.
Definition exd_w (skip : Z) : wopts := mkWO (SName (s "Data")) skip 0 true [] NNone plain_conf true.
Example C105_rows_example :
  (forall r, looked_at 1 0 0 (scan_part xlsb_ids (dumped exd_part)) r -> cell_sound [] r) /\
  ~ (forall r, looked_at 0 0 0 (scan_part xlsb_ids (dumped exd_part)) r -> cell_sound [] r) /\
  (exists r, looked_at 1 0 0 (scan_part xlsb_ids (dumped exd_part)) r).
Proof.
  assert (D : bbook_sheets exb_expat exd_files = Ok [(s "Data", s "xl/worksheets/sheet1.bin")]) by (vm_compute; reflexivity).
  assert (M : member exd_files (s "xl/worksheets/sheet1.bin") (dumped exd_part)) by (vm_compute; reflexivity).
  assert (S : xlsb_styles_sound exd_files).
  { apply C105_xlsb_styles. assert (R : raised (bbook_styles exd_files) = None) by (vm_compute; reflexivity). destruct (bbook_styles exd_files) as [x|]; [now exists x|discriminate]. }
  assert (G : forall k, 0 <= k -> (snd (bbook_iter exb_expat exd_files (exd_w k)) = None <-> forall r, looked_at k 0 0 (scan_part xlsb_ids (dumped exd_part)) r -> cell_sound [] r)).
  { intros k K. apply (@C105_xlsb_rows exb_expat exd_files (exd_w k) _ (s "xl/worksheets/sheet1.bin") (dumped exd_part) eq_refl D); [vm_compute; reflexivity|exact M|vm_compute; reflexivity|exact K|cbn; lia|exact S]. }
  split; [apply (G 1); [lia|vm_compute; reflexivity]|]. split; [rewrite <- (G 0) by lia; vm_compute; discriminate|].
  exists (nth 3 (scan_part xlsb_ids (dumped exd_part)) (mkRec 0 [])). exists (firstn 3 (scan_part xlsb_ids (dumped exd_part))), (skipn 4 (scan_part xlsb_ids (dumped exd_part))).
  split; [vm_compute; reflexivity|]. split; [vm_compute; discriminate|]. split; [vm_compute; discriminate|]. split; [vm_compute; reflexivity|]. split; [right; vm_compute; discriminate|].
  intros p x q E X. exfalso. assert (I : In x (firstn 3 (scan_part xlsb_ids (dumped exd_part)))) by (rewrite E; apply in_or_app; right; now left).
  apply (in_map rec_id) in I. rewrite X in I. assert (F : forall l, existsb (Z.eqb 402) l = false -> ~ In 402 l).
  { intros l F J. assert (existsb (Z.eqb 402) l = true) by (apply existsb_exists; now exists 402). congruence. }
  revert I. apply F. vm_compute. reflexivity.
Qed.
