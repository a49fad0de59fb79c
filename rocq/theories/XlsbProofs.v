From Verif Require Import Py PyFacts Biff BiffSpec BiffProofs BiffNumba Utf16 Utf16Spec BiffRecs
  Utf16Proofs NumFmt NumFmtSpec NumFmtProofs Cell Xlsb XlsbSpec.
From Coq Require Import ZifyBool ZifyNat.
Ltac Zify.zify_post_hook ::= Z.div_mod_to_equations.
Set Implicit Arguments.
Unset Strict Implicit.

(** Scanning a dumped part. *)
Lemma scan_part_dump i ids rs b : forallb rec_ok rs = true -> dump_all rs = Ok b ->
  scan_part (i :: ids) b = filter (fun r => mem_Z (rec_id r) (i :: ids)) rs.
Proof.
  intros H E. unfold scan_part. rewrite <- (app_nil_r b).
  rewrite (@scan_biff_stream _ _ _ [] H E), scan_biff_nil, app_nil_r. reflexivity.
Qed.

(** ** One cell record *)
Section Cells.
  Context (styles : list bytes) (nv : str -> bool) (ns : nat -> bytes -> bool).
  Context (skip take : Z) (tne : bool) (sc : list Z).

  Lemma data_parts c : bcell_ok c = true ->
    sub (rec_data (bcell_record c)) 0 4 = le4 (b_col c)
    /\ sub (rec_data (bcell_record c)) 4 7 = b_style c.
  Proof.
    intro H. unfold bcell_ok in H. apply andb_prop in H as [H _]. apply andb_prop in H as [_ H].
    assert (L : zlen (b_style c) = 3) by lia.
    unfold bcell_record. cbn [rec_data]. split.
    - rewrite sub_app_l by (rewrite ?zlen_le4; lia).
      rewrite sub_spec by lia. reflexivity.
    - apply sub_app_mid; rewrite zlen_le4; lia.
  Qed.

  Lemma data_value c v rest n : bcell_ok c = true ->
    bval_bytes (b_val c) ++ b_tail c = v ++ rest -> zlen v = n ->
    sub (rec_data (bcell_record c)) 8 (8 + n) = v.
  Proof.
    intros H E Hn. unfold bcell_ok in H. apply andb_prop in H as [H _]. apply andb_prop in H as [_ H].
    assert (L : zlen (b_style c) = 3) by lia.
    unfold bcell_record. cbn [rec_data]. rewrite E.
    rewrite !app_assoc. rewrite <- (app_assoc _ v rest).
    apply sub_app_mid; rewrite !zlen_app, L, zlen_le4, zlen_cons, zlen_nil; lia.
  Qed.

  Lemma xlsb_cell_ok n row c : bcell_ok c = true ->
    xlsb_cell (Ok styles) nv ns skip sc n row (bcell_record c) =
    Ok (match expected (fun k => mem_str k styles) nv (fun i => ns n (le4 i)) sc (row - skip) c with
        | x :: _ => Some x
        | [] => None
        end).
  Proof.
    intro H. destruct (data_parts H) as (D1 & D2).
    unfold xlsb_cell. rewrite D1, D2. rewrite unpack_le4.
    2: { unfold bcell_ok in H. lia. }
    cbn [bind]. unfold expected. change (mem_Z (b_col c) sc) with (existsb (Z.eqb (b_col c)) sc).
    destruct (existsb (Z.eqb (b_col c)) sc); [reflexivity|].
    assert (Hv := H). unfold bcell_ok in Hv. apply andb_prop in Hv as [_ Hv].
    change (rec_id (bcell_record c)) with (bcell_id c).
    pose proof (data_value (c := c)) as DV.
    unfold bcell_id. destruct (b_val c) as [v|f v|f v|f t|i] eqn:Ev; cbn [bval_bytes] in DV.
    - replace (2 =? 6) with false by reflexivity. replace (2 =? 8) with false by reflexivity.
      cbn [Z.eqb Pos.eqb orb].
      replace (sub (rec_data (bcell_record c)) 8 12) with v
        by (symmetry; apply (DV v (b_tail c) 4 H eq_refl); lia).
      destruct (mem_str (b_style c) styles); reflexivity.
    - replace (sub (rec_data (bcell_record c)) 8 16) with v
        by (symmetry; apply (DV v (b_tail c) 8 H eq_refl); lia).
      destruct f; cbn [Z.eqb Pos.eqb orb]; destruct (mem_str (b_style c) styles); reflexivity.
    - replace (sub (rec_data (bcell_record c)) 8 9) with [v]
        by (symmetry; apply (DV [v] (b_tail c) 1 H eq_refl); reflexivity).
      destruct f; cbn [Z.eqb Pos.eqb orb]; reflexivity.
    - unfold wide_string in DV.
      replace (sub (rec_data (bcell_record c)) 8 12) with (le4 (n_units t))
        by (symmetry; apply (DV (le4 (n_units t)) (utf16le t ++ b_tail c) 4 H);
            [now rewrite <- app_assoc|reflexivity]).
      destruct (wide_ok_inv Hv) as (W1 & W2 & W3).
      assert (Hd : py_slice (rec_data (bcell_record c)) (Some 12) (Some (n_units t * 2 + 12)) = utf16le t).
      { fold (sub (rec_data (bcell_record c)) 12 (n_units t * 2 + 12)).
        unfold bcell_record. cbn [rec_data]. rewrite Ev. cbn [bval_bytes]. unfold wide_string.
        assert (L : zlen (b_style c) = 3) by (unfold bcell_ok in H; lia).
        rewrite <- !app_assoc. rewrite (app_assoc [b_flags c]), (app_assoc (b_style c)), (app_assoc (le4 (b_col c))).
        apply sub_app_mid; rewrite ?utf16le_length, !zlen_app, L, !zlen_le4, zlen_cons, zlen_nil; lia. }
      destruct f; cbn [Z.eqb Pos.eqb orb]; rewrite unpack_le4 by lia; cbn [bind]; rewrite Hd;
        rewrite decode16_utf16le by auto; cbn [bind]; destruct (nv t); reflexivity.
    - replace (sub (rec_data (bcell_record c)) 8 12) with (le4 i)
        by (symmetry; apply (DV (le4 i) (b_tail c) 4 H eq_refl); reflexivity).
      cbn [Z.eqb Pos.eqb orb]. destruct (ns n (le4 i)); reflexivity.
  Qed.
End Cells.

(** ** Structure of the scanned records *)
Definition core_row (r : brow) : list record := mkRec 0 (fst r) :: map bcell_record (row_cells r).

Lemma filter_unused l : unused l = true -> filter (fun r => mem_Z (rec_id r) xlsb_ids) l = [].
Proof.
  induction l as [|r l IH]; intro H; [reflexivity|]. unfold unused in H. cbn [forallb] in H.
  apply andb_prop in H as [Hr H]. apply negb_true_iff in Hr. cbn [filter].
  change (mem_Z (rec_id r) xlsb_ids) with (existsb (Z.eqb (rec_id r)) used_ids). rewrite Hr.
  now apply IH.
Qed.

Lemma bcell_id_used c : mem_Z (bcell_id c) xlsb_ids = true.
Proof. unfold bcell_id. destruct (b_val c) as [v|[] v|[] v|[] t|i]; reflexivity. Qed.

Lemma filter_items l : forallb item_ok l = true ->
  filter (fun r => mem_Z (rec_id r) xlsb_ids) (map item_record l) = map bcell_record (item_cells l).
Proof.
  induction l as [|x l IH]; intro H; [reflexivity|]. cbn [forallb] in H.
  apply andb_prop in H as [Hx H]. cbn [map filter item_cells flat_map].
  destruct x as [c|r]; cbn [item_record].
  - change (rec_id (bcell_record c)) with (bcell_id c). rewrite bcell_id_used.
    cbn [app map]. f_equal. now apply IH.
  - cbn [item_ok] in Hx. apply negb_true_iff in Hx.
    change (mem_Z (rec_id r) xlsb_ids) with (existsb (Z.eqb (rec_id r)) used_ids). rewrite Hx.
    now apply IH.
Qed.

Lemma filter_rows rows : forallb (fun r => forallb item_ok (snd r)) rows = true ->
  filter (fun r => mem_Z (rec_id r) xlsb_ids) (flat_map row_records rows) = flat_map core_row rows.
Proof.
  induction rows as [|r rows IH]; intro H; [reflexivity|]. cbn [forallb] in H.
  apply andb_prop in H as [Hr H]. cbn [flat_map]. rewrite filter_app. rewrite IH by exact H.
  f_equal. unfold row_records, core_row. cbn [filter rec_id].
  replace (mem_Z 0 xlsb_ids) with true by reflexivity. f_equal. now apply filter_items.
Qed.

Lemma filter_sheet pre rows e post : sheet_ok pre rows post = true ->
  filter (fun r => mem_Z (rec_id r) xlsb_ids) (sheet_records pre rows e post)
  = flat_map core_row rows ++ [mkRec 402 e].
Proof.
  unfold sheet_ok. intro H. apply andb_prop in H as [H H3]. apply andb_prop in H as [H1 H2].
  unfold sheet_records. rewrite !filter_app, filter_unused by exact H1.
  rewrite filter_rows by exact H3. cbn [app filter rec_id].
  replace (mem_Z 402 xlsb_ids) with true by reflexivity. now rewrite filter_unused.
Qed.

Lemma rows_cells_ok rows r : forallb (fun r => forallb item_ok (snd r)) rows = true -> In r rows ->
  forallb bcell_ok (row_cells r) = true.
Proof.
  intros H Hin. rewrite forallb_forall in H. apply H in Hin. clear H.
  rewrite forallb_forall in *. unfold row_cells, item_cells. intros c Hc.
  apply in_flat_map in Hc as (x & Hx & Hc). apply Hin in Hx.
  destruct x as [c'|]; [|contradiction]. destruct Hc as [->|[]]. exact Hx.
Qed.

Lemma last_cons A (a : A) l d : last (a :: l) d = last l a.
Proof.
  revert a d; induction l as [|b l IH]; intros a d; [reflexivity|].
  change (last (a :: b :: l) d) with (last (b :: l) d). rewrite (IH b d), (IH b a). reflexivity.
Qed.

(** ** The record loop *)
Lemma count_before_ge A (q : A -> bool) i l x y : In (x, y) (count_before q i l) -> i <= x.
Proof.
  revert i; induction l as [|a l IH]; intros i H; [destruct H|].
  destruct H as [H|H]; [injection H as -> _; lia|]. apply IH in H. destruct (q a); lia.
Qed.

Section Loop.
  Context (styles : list bytes) (nv : str -> bool) (nul : bytes -> bool).
  Context (skip take : Z) (tne : bool) (sc : list Z).
  Notation loop := (xlsb_loop (Ok styles) nv (fun _ : nat => nul) skip take tne sc).
  Notation exp := (expected (fun k => mem_str k styles) nv (fun i => nul (le4 i)) sc).
  Notation exp_row := (expected_row (fun k => mem_str k styles) nv (fun i => nul (le4 i)) sc).
  Notation nonempty := (row_nonempty (fun k => mem_str k styles) nv (fun i => nul (le4 i)) sc).

  Definition is_nil {A} (l : list A) : bool := match l with [] => true | _ => false end.

  Lemma expected_single row c : exp row c = [] \/ exists x, exp row c = [x].
  Proof.
    unfold expected. destruct (existsb _ sc); [now left|].
    destruct (b_val c) as [v|f v|f v|f t|i]; try (right; eexists; reflexivity).
    - destruct (nv t); [now left|right; eexists; reflexivity].
    - destruct (nul (le4 i)); [now left|right; eexists; reflexivity].
  Qed.

  Lemma expected_nil_row row row' c : is_nil (exp row c) = is_nil (exp row' c).
  Proof.
    unfold expected. destruct (existsb _ sc); [reflexivity|].
    destruct (b_val c) as [v|f v|f v|f t|i]; try reflexivity;
      [destruct (nv t)|destruct (nul (le4 i))]; reflexivity.
  Qed.

  Lemma flat_map_nil_row row row' cs : is_nil (flat_map (exp row) cs) = is_nil (flat_map (exp row') cs).
  Proof.
    induction cs as [|c cs IH]; [reflexivity|]. cbn [flat_map].
    pose proof (expected_nil_row row row' c) as E.
    destruct (exp row c), (exp row' c); cbn in *; congruence.
  Qed.

  Lemma bcell_record_id c : (rec_id (bcell_record c) =? 0) = false /\ (rec_id (bcell_record c) =? 402) = false.
  Proof.
    change (rec_id (bcell_record c)) with (bcell_id c). unfold bcell_id.
    destruct (b_val c) as [v|[] v|[] v|[] t|i]; split; reflexivity.
  Qed.

  Lemma cells_loop cs : forall rest row empty n, forallb bcell_ok cs = true -> skip <= row ->
    exists m,
    loop (map bcell_record cs ++ rest) row empty n =
    (let d := flat_map (exp (row - skip)) cs in
     let '(o, e) := loop rest row (empty && is_nil d) m in (map OCell d ++ o, e)).
  Proof.
    induction cs as [|c cs IH]; intros rest row empty n H Hs.
    - exists n. cbn [map app flat_map is_nil]. rewrite andb_true_r.
      destruct (loop rest row empty n); reflexivity.
    - cbn [forallb] in H. apply andb_prop in H as [Hc H].
      cbn [map app xlsb_loop]. destruct (bcell_record_id c) as [-> ->].
      replace (row <? skip) with false by lia.
      rewrite xlsb_cell_ok by exact Hc. cbn [flat_map]. cbv beta.
      destruct (expected_single (row - skip) c) as [E|(x & E)]; rewrite E.
      + destruct (IH rest row empty n H Hs) as (m & Em). exists m. exact Em.
      + destruct (IH rest row false (S n) H Hs) as (m & Em). exists m. rewrite Em.
        cbn [app is_nil]. rewrite andb_false_r, andb_false_l.
        destruct (loop rest row false m) as [o e]. reflexivity.
  Qed.

  Lemma cells_skip cs : forall rest row empty n, row < skip ->
    loop (map bcell_record cs ++ rest) row empty n = loop rest row empty n.
  Proof.
    induction cs as [|c cs IH]; intros rest row empty n Hs; [reflexivity|].
    cbn [map app xlsb_loop]. destruct (bcell_record_id c) as [-> _].
    replace (row <? skip) with true by lia. now apply IH.
  Qed.

  (** Row limits: [take = 0] with nothing skipped means no limit. *)
  Definition in_limit (i : Z) : bool := negb ((0 <? take + skip) && (take + skip <? i)).
  Definition row_out (p : Z * brow) : list out :=
    let '(i, r) := p in
    if (skip <=? i) && in_limit i then OCall :: map OCell (exp_row (i - skip) r) else [].

  Definition adv (r : brow) : bool := tne || nonempty r.

  Lemma rows_loop rows : forall e row empty n,
    skip = 0 \/ tne = true -> forallb (fun r => forallb item_ok (snd r)) rows = true ->
    let nxt := if negb empty || tne then row + 1 else row in
    let l := count_before adv nxt rows in
    0 <= nxt ->
    loop (flat_map core_row rows ++ [mkRec 402 e]) row empty n =
    (flat_map row_out l ++
       (if forallb (fun p => in_limit (fst p)) l && (skip <=? last (map fst l) row)
        then [OCall] else []), None).
  Proof.
    induction rows as [|r rows IH]; intros e row empty n Hm H nxt l H0.
    - subst l. cbn [flat_map app xlsb_loop rec_id count_before forallb map last andb].
      replace (402 =? 0) with false by reflexivity. rewrite Z.eqb_refl.
      destruct (Z.ltb_spec row skip).
      + replace (skip <=? row) with false by lia. reflexivity.
      + replace (skip <=? row) with true by lia. reflexivity.
    - assert (Hr : forallb bcell_ok (row_cells r) = true)
        by (eapply rows_cells_ok; [exact H|now left]).
      cbn [forallb] in H. apply andb_prop in H as [_ H].
      subst l. cbn [flat_map count_before forallb map fst].
      cbn [core_row app xlsb_loop rec_id]. replace (0 =? 0) with true by reflexivity.
      fold nxt. clearbody nxt. unfold xlsb_take.
      replace ((0 <? take + skip) && (take + skip <? nxt)) with (negb (in_limit nxt))
        by (unfold in_limit; apply negb_involutive). destruct (in_limit nxt) eqn:Lim; cbn [negb andb].
      + rewrite <- app_assoc.
        assert (Hlast : forall l d, last (nxt :: map fst (count_before adv l rows)) d
          = last (map fst (count_before adv l rows)) nxt).
        { intros l d. apply last_cons. }
        unfold row_out at 1. rewrite Lim, andb_true_r.
        destruct (Z.leb_spec skip nxt) as [Hs|Hs].
        * destruct (@cells_loop (row_cells r) (flat_map core_row rows ++ [mkRec 402 e]) nxt true n Hr Hs)
            as (m & ->).
          cbv zeta. rewrite IH by (try assumption; destruct (_ || tne); lia). cbn [andb].
          assert (Hn : (if negb (is_nil (flat_map (exp (nxt - skip)) (row_cells r))) || tne
                        then nxt + 1 else nxt) = (if adv r then nxt + 1 else nxt)).
          { unfold adv, row_nonempty, expected_row. rewrite (flat_map_nil_row (nxt - skip) 0).
            rewrite orb_comm. destruct (flat_map (exp 0) (row_cells r)); reflexivity. }
          rewrite Hn. rewrite Hlast. cbn [app]. unfold expected_row. rewrite app_assoc. reflexivity.
        * assert (Ht : tne = true) by (destruct Hm as [Hm|Hm]; [lia|exact Hm]).
          rewrite cells_skip by exact Hs. rewrite IH by (try assumption; destruct (_ || tne); lia). rewrite Ht. cbn [negb orb].
          assert (Ha : adv r = true) by (unfold adv; now rewrite Ht). rewrite Ha.
          rewrite Hlast. cbn [app]. reflexivity.
      + assert (Hout : forall i, nxt <= i -> in_limit i = false).
        { intros i Hi. unfold in_limit in *. lia. }
        unfold row_out at 1. rewrite Lim, andb_false_r. cbn [app].
        rewrite app_nil_r. f_equal. symmetry.
        assert (Hall : forall l, (forall p, In p l -> nxt <= fst p) -> flat_map row_out l = []).
        { induction l as [|[i y] l IHl]; intro Hp; [reflexivity|]. cbn [flat_map].
          unfold row_out at 1. rewrite (Hout i) by (apply (Hp (i, y)); now left).
          rewrite andb_false_r. cbn [app]. apply IHl. intros p Hin. apply Hp. now right. }
        apply Hall. intros [i y] Hin. apply count_before_ge in Hin. cbn [fst]. destruct (adv r); lia.
  Qed.
End Loop.

(** ** Whole parts, down to bytes *)
Lemma cells_of_app a b : cells_of (a ++ b) = cells_of a ++ cells_of b.
Proof. unfold cells_of. apply flat_map_app. Qed.
Lemma cells_of_map l : cells_of (map OCell l) = l.
Proof. induction l as [|c l IH]; [reflexivity|]. cbn. f_equal. exact IH. Qed.
Lemma calls_of_app a b : calls_of (a ++ b) = calls_of a + calls_of b.
Proof. unfold calls_of. now rewrite filter_app, zlen_app. Qed.
Lemma calls_of_map l : calls_of (map OCell l) = 0.
Proof. induction l as [|c l IH]; [reflexivity|]. exact IH. Qed.
Lemma cells_of_cons_call l : cells_of (OCall :: l) = cells_of l.
Proof. reflexivity. Qed.
Lemma calls_of_cons_call l : calls_of (OCall :: l) = 1 + calls_of l.
Proof. unfold calls_of. cbn [filter]. now rewrite zlen_cons. Qed.

Lemma count_before_true A i (l : list A) : count_before (fun _ => true) i l = enum_from i l.
Proof. revert i; induction l as [|x l IH]; intro i; [reflexivity|]. cbn. now rewrite IH. Qed.

Lemma count_before_ext A (p q : A -> bool) i l : (forall x, p x = q x) ->
  count_before p i l = count_before q i l.
Proof.
  intro H. revert i; induction l as [|x l IH]; intro i; [reflexivity|]. cbn [count_before].
  rewrite H. now rewrite IH.
Qed.

Lemma count_before_length A (p : A -> bool) i l : List.length (count_before p i l) = List.length l.
Proof. revert i; induction l as [|x l IH]; intro i; [reflexivity|]. cbn. now rewrite IH. Qed.

(** The number attached to the k-th element is the number of earlier elements
    satisfying [p]. *)
Lemma count_before_nth A (p : A -> bool) l : forall i k x, nth_error l k = Some x ->
  nth_error (count_before p i l) k = Some (i + zlen (filter p (firstn k l)), x).
Proof.
  induction l as [|y l IH]; intros i k x H; [destruct k; discriminate|].
  destruct k as [|k]; cbn [nth_error firstn filter] in *.
  - injection H as ->. cbn [count_before nth_error]. rewrite zlen_nil, Z.add_0_r. reflexivity.
  - cbn [count_before nth_error]. rewrite (IH _ _ _ H). do 2 f_equal.
    destruct (p y); [rewrite zlen_cons|]; lia.
Qed.

Section Part.
  Context (styles : list bytes) (nv : str -> bool) (nul : bytes -> bool).
  Notation iter := (xlsb_iter (Ok styles) nv (fun _ : nat => nul)).
  Notation exp := (expected (fun k => mem_str k styles) nv (fun i => nul (le4 i))).
  Notation exp_row := (expected_row (fun k => mem_str k styles) nv (fun i => nul (le4 i))).
  Notation nonempty := (row_nonempty (fun k => mem_str k styles) nv (fun i => nul (le4 i))).

  (** The bytes of a well-formed worksheet part. *)
  Definition is_part (pre : list record) (rows : list brow) (e : bytes) (post : list record)
    (part : bytes) : Prop :=
    sheet_ok pre rows post = true
    /\ forallb rec_ok (sheet_records pre rows e post) = true
    /\ dump_all (sheet_records pre rows e post) = Ok part.

  Lemma xlsb_iter_part pre rows e post part skip take tne sc :
    is_part pre rows e post part -> 0 <= skip -> 0 <= take -> skip = 0 \/ tne = true ->
    let l := count_before (fun r => tne || nonempty sc r) 0 rows in
    iter skip take tne sc part =
    (flat_map (row_out styles nv nul skip take sc) l ++
       (if forallb (fun p => in_limit skip take (fst p)) l && (skip <=? last (map fst l) (-1))
        then [OCall] else []), None).
  Proof.
    intros (H1 & H2 & H3) Hs Ht Hm l. unfold xlsb_iter.
    replace (skip <? 0) with false by lia. replace (take <? 0) with false by lia.
    change xlsb_ids with (0 :: [2; 4; 5; 6; 7; 8; 9; 10; 402]).
    rewrite (scan_part_dump 0 [2; 4; 5; 6; 7; 8; 9; 10; 402] H2 H3).
    change (0 :: [2; 4; 5; 6; 7; 8; 9; 10; 402]) with xlsb_ids.
    rewrite filter_sheet by exact H1.
    rewrite rows_loop; [reflexivity|exact Hm| |cbn; lia].
    unfold sheet_ok in H1. now apply andb_prop in H1 as [_ ?].
  Qed.

  Lemma row_out_cells skip take sc p : cells_of (row_out styles nv nul skip take sc p)
    = if (skip <=? fst p) && in_limit skip take (fst p) then exp_row sc (fst p - skip) (snd p) else [].
  Proof.
    destruct p as [i r]. unfold row_out. cbn [fst snd]. destruct (_ && _); [|reflexivity].
    rewrite cells_of_cons_call. apply cells_of_map.
  Qed.

  Lemma cells_flat_map A (f : A -> list out) l : cells_of (flat_map f l) = flat_map (fun x => cells_of (f x)) l.
  Proof.
    induction l as [|x l IH]; [reflexivity|]. cbn [flat_map]. now rewrite cells_of_app, IH.
  Qed.

  (** Cells delivered, all admissible option combinations. *)
  Lemma xlsb_cells pre rows e post part skip take tne sc :
    is_part pre rows e post part -> 0 <= skip -> 0 <= take -> skip = 0 \/ tne = true ->
    snd (iter skip take tne sc part) = None /\
    cells_of (fst (iter skip take tne sc part)) =
    flat_map (fun p => if (skip <=? fst p) && in_limit skip take (fst p)
                       then exp_row sc (fst p - skip) (snd p) else [])
             (count_before (fun r => tne || nonempty sc r) 0 rows).
  Proof.
    intros Hp Hs Ht Hm. rewrite (xlsb_iter_part sc Hp Hs Ht Hm). cbn [fst snd]. split; [reflexivity|].
    rewrite cells_of_app, cells_flat_map.
    match goal with |- context [if ?b then [OCall] else []] =>
      replace (cells_of (if b then [OCall] else [])) with (@nil cell) by (destruct b; reflexivity) end.
    rewrite app_nil_r. apply flat_map_ext. intro p. apply row_out_cells.
  Qed.

  Lemma flat_map_ext_in A B (f g : A -> list B) l : (forall x, In x l -> f x = g x) ->
    flat_map f l = flat_map g l.
  Proof.
    induction l as [|x l IH]; intro H; [reflexivity|]. cbn [flat_map].
    rewrite (H x) by now left. rewrite IH; [reflexivity|]. intros y Hy. apply H. now right.
  Qed.

  (** C12, C15: everything read. *)
  Lemma xlsb_all_rows pre rows e post part tne sc : is_part pre rows e post part ->
    snd (iter 0 0 tne sc part) = None /\
    cells_of (fst (iter 0 0 tne sc part)) =
    flat_map (fun p => exp_row sc (fst p) (snd p)) (count_before (fun r => tne || nonempty sc r) 0 rows).
  Proof.
    intro Hp. destruct (@xlsb_cells pre rows e post part 0 0 tne sc Hp) as (H1 & H2); [lia|lia|now left|].
    split; [exact H1|]. rewrite H2. apply flat_map_ext_in. intros [i r] Hin.
    apply count_before_ge in Hin. cbn [fst snd]. unfold in_limit. cbn [Z.add Z.ltb Z.compare andb negb].
    replace (0 <=? i) with true by lia. cbn [andb]. f_equal. lia.
  Qed.

  Lemma xlsb_keep_rows pre rows e post part sc : is_part pre rows e post part ->
    snd (iter 0 0 true sc part) = None /\
    cells_of (fst (iter 0 0 true sc part)) =
    flat_map (fun p => exp_row sc (fst p) (snd p)) (enum_from 0 rows).
  Proof.
    intro Hp. destruct (@xlsb_all_rows pre rows e post part true sc Hp) as (H1 & H2).
    split; [exact H1|]. rewrite H2. cbn [orb]. now rewrite count_before_true.
  Qed.

  Lemma xlsb_collapse_rows pre rows e post part sc : is_part pre rows e post part ->
    snd (iter 0 0 false sc part) = None /\
    cells_of (fst (iter 0 0 false sc part)) =
    flat_map (fun p => exp_row sc (fst p) (snd p)) (count_before (nonempty sc) 0 rows).
  Proof. intro Hp. exact (@xlsb_all_rows pre rows e post part false sc Hp). Qed.

  (** C17 *)
  Lemma xlsb_take_rows pre rows e post part n tne sc : is_part pre rows e post part -> 0 < n ->
    snd (iter 0 n tne sc part) = None /\
    cells_of (fst (iter 0 n tne sc part)) =
    filter (fun c => c_row c <=? n) (cells_of (fst (iter 0 0 tne sc part))).
  Proof.
    intros Hp Hn. destruct (@xlsb_cells pre rows e post part 0 n tne sc Hp) as (H1 & H2); [lia|lia|now left|].
    split; [exact H1|]. destruct (@xlsb_all_rows pre rows e post part tne sc Hp) as (_ & H3).
    rewrite H2, H3. clear - Hn. set (l := count_before _ _ _).
    assert (Hl : forall p, In p l -> 0 <= fst p) by (intros [i r] Hin; apply count_before_ge in Hin; exact Hin).
    clearbody l. induction l as [|[i r] l IH]; [reflexivity|].
    cbn [flat_map]. rewrite filter_app, <- IH by (intros p Hin; apply Hl; now right). f_equal.
    cbn [fst snd]. assert (0 <= i) by (apply (Hl (i, r)); now left).
    unfold in_limit. replace (0 <=? i) with true by lia. replace (0 <? n + 0) with true by lia.
    cbn [andb]. replace (i - 0) with i by lia.
    assert (Hrow : forall c, In c (exp_row sc i r) -> c_row c = i).
    { intros c Hin. unfold expected_row in Hin. apply in_flat_map in Hin as (b & _ & Hin).
      unfold expected in Hin. destruct (existsb _ sc); [destruct Hin|].
      destruct (b_val b) as [v|f v|f v|f t|k];
        try (destruct Hin as [<-|[]]; reflexivity);
        [destruct (nv t)|destruct (nul (le4 k))]; try destruct Hin as [<-|[]]; try destruct Hin; reflexivity. }
    destruct (Z.leb_spec i n) as [Hle|Hgt].
    - replace (negb (n + 0 <? i)) with true by lia. symmetry.
      induction (exp_row sc i r) as [|c cs IHc]; [reflexivity|]. cbn [filter].
      rewrite (Hrow c) by now left. replace (i <=? n) with true by lia. f_equal.
      apply IHc. intros c' Hc'. apply Hrow. now right.
    - replace (negb (n + 0 <? i)) with false by lia. symmetry.
      induction (exp_row sc i r) as [|c cs IHc]; [reflexivity|]. cbn [filter].
      rewrite (Hrow c) by now left. replace (i <=? n) with false by lia.
      apply IHc. intros c' Hc'. apply Hrow. now right.
  Qed.

  (** C18 *)
  Lemma expected_skip sc row c :
    exp sc row c = filter (fun x => negb (mem_Z (c_col x) sc)) (exp [] row c).
  Proof.
    unfold expected. change (existsb (Z.eqb (b_col c)) []) with false. cbv iota.
    change (existsb (Z.eqb (b_col c)) sc) with (mem_Z (b_col c) sc).
    destruct (b_val c) as [v|f v|f v|f t|k];
      try (cbn [filter c_col]; destruct (mem_Z (b_col c) sc); reflexivity);
      [destruct (nv t)|destruct (nul (le4 k))];
      cbn [filter c_col]; destruct (mem_Z (b_col c) sc); reflexivity.
  Qed.

  Lemma xlsb_skip_cols pre rows e post part sc : is_part pre rows e post part ->
    cells_of (fst (iter 0 0 true sc part)) =
    filter (fun c => negb (mem_Z (c_col c) sc)) (cells_of (fst (iter 0 0 true [] part))).
  Proof.
    intro Hp. destruct (@xlsb_keep_rows pre rows e post part sc Hp) as (_ & ->).
    destruct (@xlsb_keep_rows pre rows e post part [] Hp) as (_ & ->).
    generalize (enum_from 0 rows) as l. induction l as [|[i r] l IH]; [reflexivity|].
    cbn [flat_map fst snd]. rewrite filter_app, IH. f_equal. unfold expected_row.
    induction (row_cells r) as [|c cs IHc]; [reflexivity|]. cbn [flat_map].
    rewrite filter_app, <- IHc. f_equal. apply expected_skip.
  Qed.

  (** C19 *)
  Lemma xlsb_calls pre rows e post part tne sc : is_part pre rows e post part ->
    calls_of (fst (iter 0 0 tne sc part)) = match rows with [] => 0 | _ => zlen rows + 1 end.
  Proof.
    intro Hp. rewrite (@xlsb_iter_part pre rows e post part 0 0 tne sc Hp) by (try lia; now left).
    cbn [fst]. set (l := count_before _ 0 rows).
    assert (Hl : forall p, In p l -> 0 <= fst p) by (intros [i r] Hin; apply count_before_ge in Hin; exact Hin).
    assert (Hlen : zlen l = zlen rows) by (subst l; unfold zlen; now rewrite count_before_length).
    assert (Hlim : forall i, in_limit 0 0 i = true) by reflexivity.
    rewrite calls_of_app.
    assert (Hc : calls_of (flat_map (row_out styles nv nul 0 0 sc) l) = zlen l).
    { clear Hlen. induction l as [|[i r] l IH]; [reflexivity|]. cbn [flat_map].
      rewrite calls_of_app, IH by (intros p Hin; apply Hl; now right).
      unfold row_out. assert (0 <= i) by (apply (Hl (i, r)); now left).
      replace (0 <=? i) with true by lia. rewrite Hlim. cbn [andb].
      rewrite calls_of_cons_call, calls_of_map, zlen_cons. lia. }
    rewrite Hc, Hlen.
    destruct rows as [|r rows]; [reflexivity|].
    replace (forallb (fun p => in_limit 0 0 (fst p)) l) with true.
    2: { symmetry. apply forallb_forall. intros; apply Hlim. }
    assert (Hlast : 0 <= last (map fst l) (-1)).
    { assert (Hne : map fst l <> []) by (subst l; discriminate).
      assert (Hin : In (last (map fst l) (-1)) (map fst l)).
      { clear - Hne. induction (map fst l) as [|a m IHm]; [congruence|].
        destruct m as [|b m]; [now left|]. right. apply IHm. discriminate. }
      apply in_map_iff in Hin as (p & <- & Hin). now apply Hl. }
    replace (0 <=? last (map fst l) (-1)) with true by lia. reflexivity.
  Qed.

  (** C16, keep mode: with [skip_rows = k > 0] and [take_rows = 0] only the row
      number [k] is delivered, whatever follows it. *)
  Lemma enum_from_nth A i (l : list A) k :
    nth_error (enum_from i l) k = match nth_error l k with Some x => Some (i + Z.of_nat k, x) | None => None end.
  Proof.
    revert i k; induction l as [|x l IH]; intros i [|k]; cbn [enum_from nth_error]; try reflexivity.
    - now rewrite Z.add_0_r.
    - rewrite IH. destruct (nth_error l k); [|reflexivity]. do 2 f_equal. lia.
  Qed.

  Lemma xlsb_skip_keep pre rows e post part k take sc : is_part pre rows e post part ->
    0 <= k -> 0 <= take ->
    snd (iter k take true sc part) = None /\
    cells_of (fst (iter k take true sc part)) =
    flat_map (fun p => if (k <=? fst p) && ((k + take =? 0) || (fst p <=? k + take))
                       then exp_row sc (fst p - k) (snd p) else [])
             (enum_from 0 rows).
  Proof.
    intros Hp Hk Ht. destruct (@xlsb_cells pre rows e post part k take true sc Hp Hk Ht) as (H1 & H2);
      [now right|].
    split; [exact H1|]. rewrite H2. cbn [orb]. rewrite count_before_true.
    apply flat_map_ext. intros [i r]. cbn [fst snd]. unfold in_limit.
    replace (negb ((0 <? take + k) && (take + k <? i))) with ((k + take =? 0) || (i <=? k + take)) by lia.
    reflexivity.
  Qed.

  Lemma enum_single rows : forall j k sc, 0 <= j -> j <= k ->
    flat_map (fun p => if (k <=? fst p) && (fst p <=? k) then exp_row sc (fst p - k) (snd p) else [])
             (enum_from j rows)
    = match nth_error rows (Z.to_nat (k - j)) with Some r => exp_row sc 0 r | None => [] end.
  Proof.
    induction rows as [|r rows IH]; intros j k sc Hj Hk; cbn [enum_from flat_map].
    - destruct (Z.to_nat (k - j)); reflexivity.
    - cbn [fst snd]. destruct (Z.eq_dec j k) as [->|Hne].
      + rewrite Z.leb_refl. cbn [andb]. rewrite Z.sub_diag. cbn [Z.to_nat nth_error].
        replace (flat_map _ (enum_from (k + 1) rows)) with (@nil cell); [apply app_nil_r|].
        symmetry. clear. assert (G : forall j, k < j -> flat_map (fun p : Z * brow => if (k <=? fst p) && (fst p <=? k)
          then exp_row sc (fst p - k) (snd p) else []) (enum_from j rows) = []).
        { induction rows as [|r rows IH]; intros j Hj; [reflexivity|]. cbn [enum_from flat_map fst].
          replace (j <=? k) with false by lia. rewrite andb_false_r. cbn [app]. apply IH. lia. }
        apply G. lia.
      + replace (k <=? j) with false by lia. cbn [andb app]. rewrite IH by lia.
        replace (Z.to_nat (k - j)) with (S (Z.to_nat (k - (j + 1)))) by lia. reflexivity.
  Qed.

  Lemma xlsb_skip_one_row pre rows e post part k sc : is_part pre rows e post part -> 0 < k ->
    cells_of (fst (iter k 0 true sc part)) =
    match nth_error rows (Z.to_nat k) with Some r => exp_row sc 0 r | None => [] end.
  Proof.
    intros Hp Hk. destruct (@xlsb_skip_keep pre rows e post part k 0 sc Hp) as (_ & ->); [lia|lia|].
    replace (Z.to_nat k) with (Z.to_nat (k - 0)) by (f_equal; lia). rewrite <- enum_single by lia.
    apply flat_map_ext. intros [i r]. cbn [fst snd]. rewrite Z.add_0_r.
    replace (k =? 0) with false by lia. reflexivity.
  Qed.

  (** C16, collapse mode: nothing is ever delivered. *)
  Lemma loop_skip_collapse take sc rows e : forall skip row empty n, 0 < skip -> row < 1 ->
    (if negb empty then row + 1 else row) <= 0 -> 0 <= take ->
    xlsb_loop (Ok styles) nv (fun _ => nul) skip take false sc (flat_map core_row rows ++ [mkRec 402 e]) row empty n
    = ([], None).
  Proof.
    induction rows as [|r rows IH]; intros skip row empty n Hs Hr Hn Ht.
    - cbn [flat_map app xlsb_loop rec_id]. replace (402 =? 0) with false by reflexivity.
      replace (row <? skip) with true by lia. reflexivity.
    - cbn [flat_map core_row app xlsb_loop rec_id]. replace (0 =? 0) with true by reflexivity.
      rewrite orb_false_r. set (row' := if negb empty then row + 1 else row) in *.
      replace ((0 <? xlsb_take skip take) && (xlsb_take skip take <? row')) with false
        by (unfold xlsb_take; lia).
      rewrite <- app_assoc, cells_skip by lia. rewrite IH by (cbn; lia).
      replace (skip <=? row') with false by lia. reflexivity.
  Qed.

  Lemma xlsb_skip_collapse pre rows e post part k take sc : is_part pre rows e post part ->
    0 < k -> 0 <= take -> iter k take false sc part = ([], None).
  Proof.
    intros (H1 & H2 & H3) Hk Ht. unfold xlsb_iter.
    replace (k <? 0) with false by lia. replace (take <? 0) with false by lia.
    change xlsb_ids with (0 :: [2; 4; 5; 6; 7; 8; 9; 10; 402]).
    rewrite (scan_part_dump 0 [2; 4; 5; 6; 7; 8; 9; 10; 402] H2 H3).
    change (0 :: [2; 4; 5; 6; 7; 8; 9; 10; 402]) with xlsb_ids.
    rewrite filter_sheet by exact H1.
    apply loop_skip_collapse; try lia. cbn. lia.
  Qed.
End Part.
