(** C11-C19 and C27 for .xlsb workbooks. *)
From Verif Require Import Py Biff BiffSpec Utf16 Utf16Spec NumFmt NumFmtSpec Cell Xlsb XlsbSpec
  XlsbProofs XlsbParts.

(** ** C11 *)
Theorem C11_shared_table : forall nv l part,
  forallb sitem_ok l = true -> forallb rec_ok (map sitem_record l) = true ->
  dump_all (map sitem_record l) = Ok part -> zlen (sitem_texts l) <= 2 ^ 32 ->
  exists keys, xlsb_shared nv part = Ok (sitem_texts l, keys) /\
    forall k, In k keys <->
      exists j t, nth_error (sitem_texts l) j = Some t /\ nv t = true /\ k = le4 (Z.of_nat j).
Proof.
  intros nv l part H1 H2 H3 Hn. eexists. split.
  - apply xlsb_shared_ok; [|exact Hn]. repeat split; assumption.
  - intro k. exact (null_keys_spec nv (sitem_texts l) 0 k).
Qed.
Print Assumptions C11_shared_table.

Example C11_example :
  let l := [SX (mkRec 159 [1; 2]); SI 0 (s "a") []; SX (mkRec 1000 []); SI 1 [0x1F600; 98] [7; 7]; SI 0 (s "a") []] in
  forallb sitem_ok l = true /\ forallb rec_ok (map sitem_record l) = true
  /\ (exists b, dump_all (map sitem_record l) = Ok b)
  /\ sitem_texts l = [s "a"; [0x1F600; 98]; s "a"].
Proof. repeat split; try reflexivity. eexists. reflexivity. Qed.

(** ** C12, C15: all rows *)
Theorem C12_cells_kept_rows : forall styles nv nul pre rows e post part skip_cols,
  is_part pre rows e post part ->
  snd (xlsb_iter (Ok styles) nv (fun _ => nul) 0 0 true skip_cols part) = None /\
  cells_of (fst (xlsb_iter (Ok styles) nv (fun _ => nul) 0 0 true skip_cols part)) =
  flat_map (fun p => expected_row (fun k => mem_str k styles) nv (fun i => nul (le4 i)) skip_cols (fst p) (snd p))
           (enum_from 0 rows).
Proof. exact xlsb_keep_rows. Qed.
Print Assumptions C12_cells_kept_rows.

Theorem C12_cells_collapsed_rows : forall styles nv nul pre rows e post part skip_cols,
  is_part pre rows e post part ->
  snd (xlsb_iter (Ok styles) nv (fun _ => nul) 0 0 false skip_cols part) = None /\
  cells_of (fst (xlsb_iter (Ok styles) nv (fun _ => nul) 0 0 false skip_cols part)) =
  flat_map (fun p => expected_row (fun k => mem_str k styles) nv (fun i => nul (le4 i)) skip_cols (fst p) (snd p))
           (count_before (row_nonempty (fun k => mem_str k styles) nv (fun i => nul (le4 i)) skip_cols) 0 rows).
Proof. exact xlsb_collapse_rows. Qed.
Print Assumptions C12_cells_collapsed_rows.

(** Nothing behind BrtEndSheetData is read, whatever records stand there (a sheet with rows). *)
Section AfterEnd.
  Context (styles : res (list bytes)) (nv : str -> bool) (ns : nat -> bytes -> bool) (take : Z) (tne : bool) (cols : list Z).
  Local Notation loop := (xlsb_loop styles nv ns 0 take tne cols).
  Lemma loop_after_end e after l : forall row empty n, 0 <= row \/ row = -1 /\ empty = false /\ existsb (fun r => rec_id r =? 0) l = true ->
    loop (l ++ mkRec 402 e :: after) row empty n = loop (l ++ [mkRec 402 e]) row empty n.
  Proof.
    induction l as [|r l IH]; intros row empty n H; cbn [app xlsb_loop].
    - cbn [existsb] in H. destruct H as [H|(_ & _ & H)]; [|discriminate]. replace (row <? 0) with false by lia. reflexivity.
    - cbn [existsb] in H. destruct (rec_id r =? 0) eqn:E0.
      + rewrite IH; [reflexivity|]. left. destruct H as [H|(-> & -> & _)]; [destruct (_ || _); lia|cbn; lia].
      + cbn [orb] in H. destruct (row <? 0) eqn:E1; [apply IH; intuition lia|]. destruct (rec_id r =? 402); [reflexivity|].
        destruct (xlsb_cell _ _ _ _ _ _ _ _) as [[c|]|]; [rewrite IH by (left; lia)|rewrite IH by (left; lia)|]; reflexivity.
  Qed.
End AfterEnd.
Theorem C12_after_end : forall styles nv ns take tne skip_cols before e after part part',
  forallb rec_ok (before ++ mkRec 402 e :: after) = true -> existsb (fun r => rec_id r =? 0) before = true ->
  dump_all (before ++ mkRec 402 e :: after) = Ok part -> dump_all (before ++ [mkRec 402 e]) = Ok part' ->
  xlsb_iter styles nv ns 0 take tne skip_cols part = xlsb_iter styles nv ns 0 take tne skip_cols part'.
Proof.
  intros styles nv ns take tne sc before e after part part' Ok H0 D D'. unfold xlsb_iter. destruct (0 <? 0); [reflexivity|]. destruct (take <? 0); [reflexivity|].
  change xlsb_ids with (0 :: [2; 4; 5; 6; 7; 8; 9; 10; 402]).
  assert (Ok' : forallb rec_ok (before ++ [mkRec 402 e]) = true) by (rewrite forallb_app in *; cbn [forallb] in *; apply andb_prop in Ok as [A B]; apply andb_prop in B as [B _]; now rewrite A, B).
  rewrite (scan_part_dump 0 [2; 4; 5; 6; 7; 8; 9; 10; 402] Ok D), (scan_part_dump 0 [2; 4; 5; 6; 7; 8; 9; 10; 402] Ok' D').
  rewrite !filter_app. cbn [filter]. change (mem_Z (rec_id (mkRec 402 e)) _) with true. cbv iota. apply loop_after_end. right. repeat split.
  rewrite existsb_exists in *. destruct H0 as (r & Hr & E). exists r. split; [|exact E]. apply filter_In. split; [exact Hr|]. apply Z.eqb_eq in E. now rewrite E.
Qed.
Print Assumptions C12_after_end.
Example C12_after_end_example :
  let before := [mkRec 129 []; mkRec 0 [0; 0; 0; 0]; mkRec 6 (le4 0 ++ le4 0 ++ le4 1 ++ [120; 0])] in let after := [mkRec 0 [1; 0; 0; 0]; mkRec 6 [1; 2]] in
  exists part part', dump_all (before ++ mkRec 402 [] :: after) = Ok part /\ dump_all (before ++ [mkRec 402 []]) = Ok part' /\
  xlsb_iter (Ok []) (fun _ => false) (fun _ _ => false) 0 0 true [] part = ([OCall; OCell (mkCell 0 0 0x18 (VStr (s "x"))); OCall], None) /\ part <> part'.
Proof. do 2 eexists. repeat (split; [vm_compute; reflexivity|]). vm_compute. discriminate. Qed.

(** The numbers used above are what C15 says. *)
Lemma row_number_kept : forall (rows : list brow) k r, nth_error rows k = Some r ->
  nth_error (enum_from 0 rows) k = Some (Z.of_nat k, r).
Proof. intros rows k r H. rewrite enum_from_nth, H. reflexivity. Qed.
Lemma row_number_collapsed : forall (p : brow -> bool) rows k r, nth_error rows k = Some r ->
  nth_error (count_before p 0 rows) k = Some (zlen (filter p (firstn k rows)), r).
Proof. intros p rows k r H. exact (count_before_nth p 0 H). Qed.

(** Each delivered cell belongs to one cell record of one row, with its number. *)
Theorem C15_delivered_row : forall styles nv nul pre rows e post part skip_cols tne c,
  is_part pre rows e post part ->
  In c (cells_of (fst (xlsb_iter (Ok styles) nv (fun _ => nul) 0 0 tne skip_cols part))) <->
  exists k r, nth_error rows k = Some r /\
    In c (expected_row (fun x => mem_str x styles) nv (fun i => nul (le4 i)) skip_cols
      (if tne then Z.of_nat k
       else zlen (filter (row_nonempty (fun x => mem_str x styles) nv (fun i => nul (le4 i)) skip_cols)
                         (firstn k rows))) r).
Proof. exact xlsb_delivered_row. Qed.
Print Assumptions C15_delivered_row.

(** A small sheet used by the examples: row 0 = A:RK, C:"hi"; row 1 empty (with a foreign
    record); row 2 = B: shared 1, D: date, F: true. *)
Definition ex_rows : list brow :=
  [ ([0; 0; 0; 0], [IC (mkB 0 [0; 0; 0] 0 (BRk [6; 0; 0; 0]) []); IC (mkB 2 [0; 0; 0] 0 (BStr false (s "hi")) [])]);
    ([1; 0; 0; 0], [IX (mkRec 1 [9; 9])]);
    ([2; 0; 0; 0], [IC (mkB 1 [0; 0; 0] 0 (BShared 1) []);
                    IC (mkB 3 [5; 0; 0] 0 (BReal true [0; 0; 0; 0; 0; 0; 0xF0; 0x3F]) [1; 2]);
                    IC (mkB 5 [0; 0; 0] 0 (BBool false 1) [])]) ].
Definition ex_pre : list record := [mkRec 129 []; mkRec 148 [1; 2; 3]].
Definition ex_post : list record := [mkRec 130 []].
Definition ex_part : bytes :=
  match dump_all (sheet_records ex_pre ex_rows [] ex_post) with Ok b => b | Err _ => [] end.
Example ex_is_part : is_part ex_pre ex_rows [] ex_post ex_part.
Proof. repeat split; reflexivity. Qed.
Definition ex_styles : list bytes := [[5; 0; 0]].
Definition ex_iter := xlsb_iter (Ok ex_styles) (fun _ => false) (fun _ _ => false).
Example C12_example :
  cells_of (fst (ex_iter 0 0 true [] ex_part)) =
  [ mkCell 0 0 0x21 (VBytes [6; 0; 0; 0]); mkCell 0 2 0x18 (VStr (s "hi"));
    mkCell 2 1 0x11 (VBytes [1; 0; 0; 0]); mkCell 2 3 0x24 (VBytes [0; 0; 0; 0; 0; 0; 0xF0; 0x3F]);
    mkCell 2 5 0x22 (VBytes [1]) ].
Proof. reflexivity. Qed.
Example C15_example :
  map c_row (cells_of (fst (ex_iter 0 0 false [] ex_part))) = [0; 0; 1; 1; 1].
Proof. reflexivity. Qed.

(** ** C13: false.  No text at all is an error string for the .xlsb reader, so a cell
    holding one is delivered. *)
Theorem C13_no_error_strings_refuted : forall t, xlsb_null NNone t = false.
Proof. exact xlsb_null_none. Qed.
Print Assumptions C13_no_error_strings_refuted.
Theorem C13_error_cell_delivered_refuted : forall t, In t ERROR_TEXTS ->
  forall styles nul pre rows e post part k r c f,
  is_part pre rows e post part -> nth_error rows k = Some r -> In c (row_cells r) -> b_val c = BStr f t ->
  In (mkCell (Z.of_nat k) (b_col c) 0x18 (VStr t))
     (cells_of (fst (xlsb_iter (Ok styles) (xlsb_null NNone) (fun _ => nul) 0 0 true [] part))).
Proof. intros t _. exact (@xlsb_text_delivered t). Qed.
Print Assumptions C13_error_cell_delivered_refuted.
Example C13_example : In (s "#N/A") ERROR_TEXTS /\ wide_ok (s "#N/A") = true /\ List.length ERROR_TEXTS = 14%nat.
Proof. cbn. tauto. Qed.

(** ** C14 *)
(** Exact when the format ids fit one byte and no code has a length that reads as a
    character with meaning ([safe_length]). *)
Theorem C14_styles_partial : forall l part (tm : str -> bool),
  is_styles l part -> zlen (cell_xfs l) <= 2 ^ 16 ->
  forallb (fun f => f <? 256) (cell_xfs l) = true ->
  (forall i c, In (i, c) (custom_fmts l) -> code_class c (tm c) /\ safe_length (n_units c) = true) ->
  exists st, xlsb_styles part = Ok st /\
    forall k f, nth_error (cell_xfs l) k = Some f ->
      mem_str (style_key (Z.of_nat k)) st
      = (builtin_temporal f
         || match last_fmt f (custom_fmts l) with Some c => tm c | None => false end).
Proof. exact xlsb_styles_ok. Qed.
Print Assumptions C14_styles_partial.

(** What the code really computes (codes shorter than 256). *)
Theorem C14_styles_exact_behaviour : forall l part, is_styles l part -> zlen (cell_xfs l) <= 2 ^ 16 ->
  forallb (fun p => short_code (snd p)) (custom_fmts l) = true ->
  exists st, xlsb_styles part = Ok st /\
    forall k f, nth_error (cell_xfs l) k = Some f ->
      mem_str (style_key (Z.of_nat k)) st
      = (builtin_temporal (f mod 256)
         || match last_fmt f (custom_fmts l) with
            | Some c => fmt_temporal (first_section (n_units c :: 0 :: c))
            | None => false
            end).
Proof. exact xlsb_styles_exact. Qed.
Print Assumptions C14_styles_exact_behaviour.

Definition ex_sty (fmt : Z) (code : str) : list yitem :=
  [YX (mkRec 1000 []); YFmt fmt code; YXF 0xFFFF 0 [0; 0]; YXF 0 0 [0; 0]; YXF 0 fmt [1; 1]].
Definition ex_sty_part (fmt : Z) (code : str) : bytes :=
  match dump_all (map yitem_record (ex_sty fmt code)) with Ok b => b | Err _ => [] end.
Example C14_example :
  is_styles (ex_sty 164 (s "yyyy-mm-dd;@")) (ex_sty_part 164 (s "yyyy-mm-dd;@"))
  /\ code_class (s "yyyy-mm-dd;@") true /\ safe_length (n_units (s "yyyy-mm-dd;@")) = true
  /\ xlsb_styles (ex_sty_part 164 (s "yyyy-mm-dd;@")) = Ok [style_key 1].
Proof.
  repeat split; try reflexivity.
  exists (map TChar (s "yyyy-mm-dd")), (s "@"). repeat split; try reflexivity. now right.
Qed.

(** Custom number format 270 = 0x10E with code "0.000": its low byte is 14. *)
Theorem C14_low_byte_refuted : exists l part,
  is_styles l part /\ cell_xfs l = [0; 270] /\ custom_fmts l = [(270, s "0.000")]
  /\ code_class (s "0.000") false /\ builtin_temporal 270 = false
  /\ exists st, xlsb_styles part = Ok st /\ mem_str (style_key 1) st = true.
Proof.
  exists (ex_sty 270 (s "0.000")), (ex_sty_part 270 (s "0.000")). repeat split; try reflexivity.
  - exists (map TChar (s "0.000")), []. repeat split; try reflexivity. now left.
  - eexists. split; reflexivity.
Qed.
Print Assumptions C14_low_byte_refuted.

(** A 100-character code (the letter d is character 100) counts as a date; a date code of
    59 characters (the semicolon) does not. *)
Definition rep (n : nat) (c : Z) : str := repeat c n.
Theorem C14_code_length_refuted :
  (exists l part st, is_styles l part /\ custom_fmts l = [(164, rep 100 48)] /\ cell_xfs l = [0; 164]
     /\ code_class (rep 100 48) false /\ xlsb_styles part = Ok st /\ mem_str (style_key 1) st = true)
  /\ (exists l part st, is_styles l part /\ custom_fmts l = [(164, rep 59 121)] /\ cell_xfs l = [0; 164]
     /\ code_class (rep 59 121) true /\ xlsb_styles part = Ok st /\ mem_str (style_key 1) st = false).
Proof.
  split.
  - exists (ex_sty 164 (rep 100 48)), (ex_sty_part 164 (rep 100 48)).
    eexists. split; [repeat split; vm_compute; reflexivity|]. do 2 (split; [reflexivity|]).
    split; [|split; [vm_compute; reflexivity|reflexivity]].
    exists (map TChar (rep 100 48)), []. repeat split; try (vm_compute; reflexivity). now left.
  - exists (ex_sty 164 (rep 59 121)), (ex_sty_part 164 (rep 59 121)).
    eexists. split; [repeat split; vm_compute; reflexivity|]. do 2 (split; [reflexivity|]).
    split; [|split; [vm_compute; reflexivity|reflexivity]].
    exists (map TChar (rep 59 121)), []. repeat split; try (vm_compute; reflexivity). now left.
Qed.
Print Assumptions C14_code_length_refuted.

(** ** C16: false for every [skip_rows > 0] *)
(** Empty rows kept, no row limit: only row number [k] itself is delivered. *)
Theorem C16_xlsb_skip_keeps_one_row_refuted : forall styles nv nul pre rows e post part k skip_cols,
  is_part pre rows e post part -> 0 < k ->
  cells_of (fst (xlsb_iter (Ok styles) nv (fun _ => nul) k 0 true skip_cols part)) =
  match nth_error rows (Z.to_nat k) with
  | Some r => expected_row (fun x => mem_str x styles) nv (fun i => nul (le4 i)) skip_cols 0 r
  | None => []
  end.
Proof. exact xlsb_skip_one_row. Qed.
Print Assumptions C16_xlsb_skip_keeps_one_row_refuted.
(** Empty rows dropped: nothing is delivered. *)
Theorem C16_xlsb_skip_collapse_refuted : forall styles nv nul pre rows e post part k take skip_cols,
  is_part pre rows e post part -> 0 < k -> 0 <= take ->
  xlsb_iter (Ok styles) nv (fun _ => nul) k take false skip_cols part = ([], None).
Proof. exact xlsb_skip_collapse. Qed.
Print Assumptions C16_xlsb_skip_collapse_refuted.
(** What does hold: with empty rows kept and an explicit limit [take] at least the
    number of remaining rows, exactly the rows from [k] on are delivered. *)
Theorem C16_xlsb_skip_with_limit_partial : forall styles nv nul pre rows e post part k take skip_cols,
  is_part pre rows e post part -> 0 <= k -> 0 < take -> zlen rows <= k + take ->
  cells_of (fst (xlsb_iter (Ok styles) nv (fun _ => nul) k take true skip_cols part)) =
  flat_map (fun p => expected_row (fun x => mem_str x styles) nv (fun i => nul (le4 i)) skip_cols (fst p) (snd p))
           (enum_from 0 (skipn (Z.to_nat k) rows)).
Proof. exact xlsb_skip_limited. Qed.
Print Assumptions C16_xlsb_skip_with_limit_partial.
Example C16_example :
  map c_col (cells_of (fst (ex_iter 1 0 true [] ex_part))) = []
  /\ map c_row (cells_of (fst (ex_iter 1 5 true [] ex_part))) = [1; 1; 1].
Proof. split; reflexivity. Qed.

(** ** C17 *)
Theorem C17_xlsb_take_rows : forall styles nv nul pre rows e post part n tne skip_cols,
  is_part pre rows e post part -> 0 < n ->
  snd (xlsb_iter (Ok styles) nv (fun _ => nul) 0 n tne skip_cols part) = None /\
  cells_of (fst (xlsb_iter (Ok styles) nv (fun _ => nul) 0 n tne skip_cols part)) =
  filter (fun c => c_row c <=? n) (cells_of (fst (xlsb_iter (Ok styles) nv (fun _ => nul) 0 0 tne skip_cols part))).
Proof. exact xlsb_take_rows. Qed.
Print Assumptions C17_xlsb_take_rows.
Example C17_example : List.length (cells_of (fst (ex_iter 0 1 true [] ex_part))) = 2%nat
  /\ List.length (cells_of (fst (ex_iter 0 1 false [] ex_part))) = 5%nat.
Proof. split; reflexivity. Qed.

(** ** C18 *)
Theorem C18_xlsb_skip_cols : forall styles nv nul pre rows e post part skip_cols,
  is_part pre rows e post part ->
  cells_of (fst (xlsb_iter (Ok styles) nv (fun _ => nul) 0 0 true skip_cols part)) =
  filter (fun c => negb (existsb (Z.eqb (c_col c)) skip_cols))
    (cells_of (fst (xlsb_iter (Ok styles) nv (fun _ => nul) 0 0 true [] part))).
Proof. exact xlsb_skip_cols. Qed.
Print Assumptions C18_xlsb_skip_cols.
Example C18_example : map c_col (cells_of (fst (ex_iter 0 0 true [1; 0; 9] ex_part))) = [2; 3; 5].
Proof. reflexivity. Qed.

(** ** C19 *)
Theorem C19_xlsb_calls_partial : forall styles nv nul pre r rows e post part tne skip_cols,
  is_part pre (r :: rows) e post part ->
  calls_of (fst (xlsb_iter (Ok styles) nv (fun _ => nul) 0 0 tne skip_cols part)) = zlen (r :: rows) + 1.
Proof. intros styles nv nul pre r rows e post part tne sc. exact (@xlsb_calls styles nv nul pre (r :: rows) e post part tne sc). Qed.
Print Assumptions C19_xlsb_calls_partial.
(** A sheet without rows: no call at all. *)
Theorem C19_xlsb_no_rows_refuted : forall styles nv nul pre e post part tne skip_cols,
  is_part pre [] e post part ->
  calls_of (fst (xlsb_iter (Ok styles) nv (fun _ => nul) 0 0 tne skip_cols part)) = 0.
Proof. intros styles nv nul pre e post part tne sc. exact (@xlsb_calls styles nv nul pre [] e post part tne sc). Qed.
Print Assumptions C19_xlsb_no_rows_refuted.
Example C19_example : calls_of (fst (ex_iter 0 0 true [] ex_part)) = 4
  /\ is_part [] [] [] [] [0x92; 0x01; 0].
Proof. split; [reflexivity|]. repeat split; reflexivity. Qed.

(** ** C27 *)
(** Once the shared strings have been read, a cell is dropped exactly when its text is
    null for the predicate ([null_entry] resolves the index). *)
Theorem C27_xlsb_shared_loaded_partial : forall styles nv l sst pre rows e post part skip_cols,
  is_sst l sst -> zlen (sitem_texts l) <= 2 ^ 32 -> is_part pre rows e post part ->
  exists keys, xlsb_shared nv sst = Ok (sitem_texts l, keys) /\
    cells_of (fst (xlsb_iter (Ok styles) nv (fun _ k => mem_str k keys) 0 0 true skip_cols part)) =
    flat_map (fun p => expected_row (fun k => mem_str k styles) nv
                         (fun i => match nth_error (sitem_texts l) (Z.to_nat i) with
                                   | Some t => nv t | None => false end)
                         skip_cols (fst p) (snd p))
             (enum_from 0 rows).
Proof. exact xlsb_cells_resolved. Qed.
Print Assumptions C27_xlsb_shared_loaded_partial.
(** What is null: the texts of the list, or those of the predicate, nothing more (the error
    strings never match, C13). *)
Theorem C27_xlsb_null_list_partial : forall t,
  xlsb_null NNone t = false /\ (forall l, xlsb_null (NList l) t = true <-> In t l) /\ (forall p, xlsb_null (NPred p) t = p t).
Proof. intro t. split; [apply xlsb_null_none|]. split; [intro l; rewrite xlsb_null_list; apply PyFacts.mem_str_In|intro p; apply xlsb_null_pred]. Qed.
Print Assumptions C27_xlsb_null_list_partial.
(** As used by [read] (the null set is filled on the first delivered cell), the result
    is the same, for arbitrary parts and options, unless the first delivered cell is a
    null shared string. *)
Theorem C27_xlsb_first_cell_partial : forall styles nv nul skip take tne skip_cols part,
  xlsb_iter (Ok styles) nv (filled_after_first nul) skip take tne skip_cols part
  = xlsb_iter (Ok styles) nv (fun _ => nul) skip take tne skip_cols part
  \/ exists c rest v,
       cells_of (fst (xlsb_iter (Ok styles) nv (filled_after_first nul) skip take tne skip_cols part)) = c :: rest
       /\ c_xdt c = 0x11 /\ c_val c = VBytes v /\ nul v = true.
Proof. exact xlsb_iter_timed. Qed.
Print Assumptions C27_xlsb_first_cell_partial.
(** And that case happens: a null shared string in the first cell is delivered. *)
Definition ex_null_rows : list brow :=
  [([0; 0; 0; 0], [IC (mkB 0 [0; 0; 0] 0 (BShared 0) []); IC (mkB 1 [0; 0; 0] 0 (BShared 0) [])])].
Definition ex_null_part : bytes :=
  match dump_all (sheet_records [] ex_null_rows [] []) with Ok b => b | Err _ => [] end.
Theorem C27_xlsb_first_cell_refuted :
  is_part [] ex_null_rows [] [] ex_null_part /\
  (let nul := fun k => mem_str k [le4 0] in
  cells_of (fst (xlsb_iter (Ok []) (fun _ => false) (fun _ => nul) 0 0 true [] ex_null_part)) = [] /\
  cells_of (fst (xlsb_iter (Ok []) (fun _ => false) (filled_after_first nul) 0 0 true [] ex_null_part))
    = [mkCell 0 0 0x11 (VBytes (le4 0))]).
Proof. split; [repeat split; reflexivity|]. split; reflexivity. Qed.
Print Assumptions C27_xlsb_first_cell_refuted.
