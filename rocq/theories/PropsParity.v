(** C61: the same sheet saved as .xlsb and as .xlsx. *)
From Verif Require Import Py PyFacts PyText Biff NumFmt Cell Xlsb XlsbSpec XlsbProofs XlsbParts PropsXlsb.
From Verif Require Import Xlsx XlsxSpec XlsxProofs XlsxParts XlsxNorm PropsXlsx.
From Coq Require Import ZifyBool.
Set Implicit Arguments. Unset Strict Implicit.

(** A logical sheet: for every row the columns of its non-empty cells, in order. *)
Definition lsheet := list (list Z).

(** The rows of the .xlsb part hold this sheet: one cell record per non-empty cell, none of
    them a null text. *)
Definition bsaves (nv : str -> bool) (nul : bytes -> bool) (rows : list brow) (sh : lsheet) : Prop :=
  Forall2 (fun r cols => map b_col (row_cells r) = cols /\
    Forall (fun c => match b_val c with BStr _ t => nv t = false | BShared i => nul (le4 i) = false | _ => True end) (row_cells r)) rows sh.
(** The rows of the .xlsx part hold this sheet: one cell element with one value per non-empty
    cell (no blank or null value), and any number of cell elements without a value. *)
Definition has_text (c : xcell) : bool := match x_texts c with [] => false | _ => true end.
Definition xsaves (nv : str -> bool) (rows : list xrow) (sh : lsheet) : Prop :=
  Forall2 (fun r cols => map x_col (filter has_text (xrow_cells r)) = cols /\
    Forall (fun c => x_texts c = [] \/ exists t, x_texts c = [t] /\ blank t = false /\ nv (strip t) = false) (xrow_cells r)) rows sh.

Definition positions (l : list cell) : list (Z * Z) := map (fun c => (c_row c, c_col c)) l.
(** Positions of a row delivered under the number [i]. *)
Definition row_at (sc : list Z) (i : Z) (cols : list Z) : list (Z * Z) :=
  map (fun k => (i, k)) (filter (fun k => negb (existsb (Z.eqb k) sc)) cols).
Definition filled (sc : list Z) (cols : list Z) : bool := existsb (fun k => negb (existsb (Z.eqb k) sc)) cols.

Lemma row_at_filled sc i cols : filled sc cols = match row_at sc i cols with [] => false | _ => true end.
Proof.
  unfold filled, row_at. induction cols as [|k cols IH]; [reflexivity|]. cbn [existsb filter].
  destruct (negb _); [reflexivity|]. exact IH.
Qed.
Lemma positions_flat A (f : A -> list cell) l : positions (flat_map f l) = flat_map (fun x => positions (f x)) l.
Proof. unfold positions. induction l as [|x l IH]; [reflexivity|]. cbn [flat_map]. now rewrite map_app, IH. Qed.
Lemma count_before_rel A B (R : A -> B -> Prop) C (f : Z * A -> list C) (g : Z * B -> list C) p q l r n :
  Forall2 R l r -> (forall a b, R a b -> p a = q b) -> (forall i a b, R a b -> f (i, a) = g (i, b)) ->
  flat_map f (count_before p n l) = flat_map g (count_before q n r).
Proof.
  intros F P G. revert n. induction F as [|a b l r H F IH]; intro n; [reflexivity|]. cbn [count_before flat_map].
  now rewrite (G _ _ _ H), (P _ _ H), IH.
Qed.

Section B.
  Context (tm : bytes -> bool) (nv : str -> bool) (nul : bytes -> bool) (sc : list Z).
  Lemma b_row r cols i : map b_col (row_cells r) = cols ->
    Forall (fun c => match b_val c with BStr _ t => nv t = false | BShared i => nul (le4 i) = false | _ => True end) (row_cells r) ->
    positions (expected_row tm nv (fun i => nul (le4 i)) sc i r) = row_at sc i cols.
  Proof.
    intros <- F. unfold expected_row. induction F as [|c l H F IH]; [reflexivity|]. cbn [flat_map map]. unfold positions in *.
    rewrite map_app, IH. unfold row_at. cbn [filter]. unfold expected. destruct (existsb (Z.eqb (b_col c)) sc); cbn [negb]; [reflexivity|].
    cbn [map]. destruct (b_val c); try reflexivity; now rewrite H.
  Qed.
  Lemma b_nonempty r cols : map b_col (row_cells r) = cols ->
    Forall (fun c => match b_val c with BStr _ t => nv t = false | BShared i => nul (le4 i) = false | _ => True end) (row_cells r) ->
    row_nonempty tm nv (fun i => nul (le4 i)) sc r = filled sc cols.
  Proof.
    intros E F. pose proof (@b_row r cols 0 E F) as H. rewrite (row_at_filled sc 0), <- H. unfold row_nonempty, positions.
    now destruct (expected_row _ _ _ _ _ _).
  Qed.
End B.
Section X.
  Context (st : str -> option Z) (nv : str -> bool) (sc : list Z).
  Lemma x_row r cols i : map x_col (filter has_text (xrow_cells r)) = cols ->
    Forall (fun c => x_texts c = [] \/ exists t, x_texts c = [t] /\ blank t = false /\ nv (strip t) = false) (xrow_cells r) ->
    positions (xexpected_row st nv sc i r) = row_at sc i cols.
  Proof.
    intros <- F. unfold xexpected_row. induction F as [|c l H F IH]; [reflexivity|]. cbn [flat_map filter]. unfold positions in *.
    rewrite map_app, IH. unfold xexpected, has_text. destruct H as [E|(t & E & B & N)]; rewrite E; [reflexivity|].
    cbn [flat_map map]. unfold row_at. cbn [filter]. rewrite B, N. destruct (existsb (Z.eqb (x_col c)) sc); reflexivity.
  Qed.
  Lemma x_nonempty r cols : map x_col (filter has_text (xrow_cells r)) = cols ->
    Forall (fun c => x_texts c = [] \/ exists t, x_texts c = [t] /\ blank t = false /\ nv (strip t) = false) (xrow_cells r) ->
    xrow_nonempty st nv sc r = filled sc cols.
  Proof.
    intros E F. pose proof (@x_row r cols 0 E F) as H. rewrite (row_at_filled sc 0), <- H. unfold xrow_nonempty, positions.
    now destruct (xexpected_row _ _ _ _ _).
  Qed.
End X.

(** What each reader delivers, by the logical sheet alone. *)
Definition blimit (skip take i : Z) : bool := (take + skip =? 0) || (i <=? take + skip).
Lemma b_positions styles nv nul pre rows e post part sh skip take tne sc :
  is_part pre rows e post part -> bsaves nv nul rows sh -> 0 <= skip -> 0 <= take -> skip = 0 \/ tne = true ->
  positions (cells_of (fst (xlsb_iter (Ok styles) nv (fun _ => nul) skip take tne sc part))) =
  flat_map (fun p => if blimit skip take (fst p) && (skip <=? fst p) then row_at sc (fst p - skip) (snd p) else [])
    (count_before (fun cols => tne || filled sc cols) 0 sh).
Proof.
  intros P S Hs Ht Hm. destruct (@xlsb_cells styles nv nul pre rows e post part skip take tne sc P Hs Ht Hm) as [_ ->].
  rewrite positions_flat. eapply count_before_rel; [exact S| |].
  - intros r cols [E F]. cbv beta. f_equal. now apply b_nonempty.
  - intros i r cols [E F]. cbn [fst snd]. unfold in_limit, blimit.
    replace ((skip <=? i) && negb ((0 <? take + skip) && (take + skip <? i))) with (((take + skip =? 0) || (i <=? take + skip)) && (skip <=? i)) by lia.
    destruct (_ && _); [now apply b_row|reflexivity].
Qed.
Lemma leading_rel A B (R : A -> B -> Prop) p q l r : Forall2 R l r -> (forall a b, R a b -> p a = q b) -> leading p l = leading q r.
Proof. intros F P. induction F as [|a b l r H F IH]; [reflexivity|]. cbn [leading]. rewrite (P _ _ H). now destruct (q b); rewrite ?IH. Qed.
Lemma F2_skipn A B (R : A -> B -> Prop) n : forall l r, Forall2 R l r -> Forall2 R (skipn n l) (skipn n r).
Proof. induction n as [|n IH]; intros l r F; [exact F|]. destruct F; cbn [skipn]; [constructor|now apply IH]. Qed.
Lemma F2_zlen A B (R : A -> B -> Prop) l r : Forall2 R l r -> zlen l = zlen r.
Proof. intro F. induction F as [|a b l r H F IH]; [reflexivity|]. rewrite !zlen_cons. lia. Qed.
Definition xlimit (sc : list Z) (sh : lsheet) (skip take i : Z) : bool :=
  let T := take + skip + 2 * (Z.min (zlen sh) skip + leading (filled sc) (skipn (Z.to_nat skip) sh)) in
  (T =? 0) || (i <=? T).
Lemma x_positions styles nv rows es sh skip take sc fail :
  is_xsheet rows es -> xsaves nv rows sh -> 0 <= skip -> 0 <= take ->
  positions (cells_of (fst (xlsx_iter styles nv skip take true sc es fail))) =
  flat_map (fun p => if xlimit sc sh skip take (fst p) && (skip <=? fst p) then row_at sc (fst p - skip) (snd p) else [])
    (enum_from 0 sh).
Proof.
  intros I S Hs Ht. rewrite (C24_xlsx_exact_kept_rows styles nv rows es skip take sc fail I Hs Ht). rewrite positions_flat, <- !count_before_true.
  eapply count_before_rel; [exact S|reflexivity|]. intros i r cols [E F]. cbn [fst snd]. unfold xlimit.
  rewrite (F2_zlen S), (@leading_rel _ _ _ (xrow_nonempty styles nv sc) (filled sc) _ _ (F2_skipn (Z.to_nat skip) S))
    by (intros a b [A B]; now apply x_nonempty).
  cbv zeta. destruct (_ && _); [now apply x_row|reflexivity].
Qed.
Lemma x_positions_collapsed styles nv rows es sh take sc fail :
  is_xsheet rows es -> xsaves nv rows sh -> 0 <= take ->
  positions (cells_of (fst (xlsx_iter styles nv 0 take false sc es fail))) =
  filter (fun p => (take =? 0) || (fst p <=? take))
    (flat_map (fun p => row_at sc (Z.max 0 (fst p - leading (filled sc) sh)) (snd p)) (enum_from 0 sh)).
Proof.
  intros I S Ht. rewrite (C17_xlsx_take_collapsed_partial styles nv rows es take sc fail I Ht).
  assert (F : forall l, positions (filter (fun c => (take =? 0) || (c_row c <=? take)) l) = filter (fun p => (take =? 0) || (fst p <=? take)) (positions l)).
  { induction l as [|c l IH]; [reflexivity|]. cbn [filter positions map fst]. destruct (_ || _); cbn [positions map]; [f_equal|]; exact IH. }
  rewrite F. f_equal. rewrite (C24_xlsx_exact_collapsed_rows styles nv rows es sc fail I). rewrite positions_flat, <- !count_before_true.
  eapply count_before_rel; [exact S|reflexivity|]. intros i r cols [E G]. cbn [fst snd].
  rewrite (@leading_rel _ _ _ (xrow_nonempty styles nv sc) (filled sc) _ _ S) by (intros a b [A B]; now apply x_nonempty).
  now apply x_row.
Qed.
Lemma enum_from_ge A i (l : list A) x y : In (x, y) (enum_from i l) -> i <= x.
Proof. rewrite <- count_before_true. apply count_before_ge. Qed.

(** ** C61 *)
(** Full claim: the same positions for every sheet and all row options.  It holds with empty
    rows kept when the first row has a cell to deliver, ... *)
Theorem C61_kept_partial : forall styles nv nul pre rows e post part xstyles xnv xrows es fail sh take sc,
  is_part pre rows e post part -> bsaves nv nul rows sh -> is_xsheet xrows es -> xsaves xnv xrows sh -> 0 <= take ->
  match sh with cols :: _ => filled sc cols = true | [] => True end ->
  positions (cells_of (fst (xlsb_iter (Ok styles) nv (fun _ => nul) 0 take true sc part))) =
  positions (cells_of (fst (xlsx_iter xstyles xnv 0 take true sc es fail))).
Proof.
  intros styles nv nul pre rows e post part xst xnv xrows es fail sh take sc P B I X Ht Hh.
  rewrite (@b_positions styles nv nul pre rows e post part sh 0 take true sc P B) by (lia || tauto).
  rewrite (@x_positions xst xnv xrows es sh 0 take sc fail I X) by lia. cbn [orb]. rewrite count_before_true.
  apply flat_map_ext. intros [i cols]. cbn [fst snd]. unfold blimit, xlimit. cbn [Z.to_nat skipn].
  assert (L : leading (filled sc) sh = 0) by (destruct sh as [|c r]; [reflexivity|]; cbn [leading]; now rewrite Hh).
  rewrite L. pose proof (zlen_nonneg sh). replace (Z.min (zlen sh) 0) with 0 by lia. cbv zeta.
  now replace (take + 0 + 2 * (0 + 0)) with (take + 0) by lia.
Qed.
Print Assumptions C61_kept_partial.
(** ... with empty rows dropped when there is no empty row between two non-empty ones, ... *)
Theorem C61_collapsed_partial : forall styles nv nul pre rows e post part xstyles xnv xrows es fail sh a b n take sc,
  is_part pre rows e post part -> bsaves nv nul rows sh -> is_xsheet xrows es -> xsaves xnv xrows sh -> 0 <= take ->
  sh = a ++ b ++ n -> forallb (fun c => negb (filled sc c)) a = true -> forallb (filled sc) b = true ->
  forallb (fun c => negb (filled sc c)) n = true ->
  positions (cells_of (fst (xlsb_iter (Ok styles) nv (fun _ => nul) 0 take false sc part))) =
  positions (cells_of (fst (xlsx_iter xstyles xnv 0 take false sc es fail))).
Proof.
  intros styles nv nul pre rows e post part xst xnv xrows es fail sh a b n take sc P B I X Ht E Ha Hb Hn.
  rewrite (@b_positions styles nv nul pre rows e post part sh 0 take false sc P B) by (lia || tauto).
  rewrite (@x_positions_collapsed xst xnv xrows es sh take sc fail I X) by lia. cbn [orb].
  assert (N : forall i cols, filled sc cols = false -> row_at sc i cols = []).
  { intros i cols H. rewrite (row_at_filled sc i) in H. now destruct (row_at sc i cols). }
  assert (G : flat_map (fun p => row_at sc (Z.max 0 (fst p - leading (filled sc) sh)) (snd p)) (enum_from 0 sh) =
              flat_map (fun p => row_at sc (fst p) (snd p)) (count_before (filled sc) 0 sh)).
  { subst sh. clear - Ha Hb Hn N. assert (L : forall i, flat_map (fun p => row_at sc (Z.max 0 (fst p - (i + leading (filled sc) (a ++ b ++ n)))) (snd p)) (enum_from i (a ++ b ++ n)) =
      flat_map (fun p => row_at sc (fst p) (snd p)) (count_before (filled sc) 0 (a ++ b ++ n))).
    { induction a as [|c a IH]; intro i; cbn [app].
      - assert (K : forall j m, 0 <= j -> flat_map (fun p => row_at sc (Z.max 0 (fst p - m)) (snd p)) (enum_from (m + j) (b ++ n)) =
          flat_map (fun p => row_at sc (fst p) (snd p)) (count_before (filled sc) j (b ++ n))).
        { induction b as [|c b IHb]; intros j m Hj; cbn [app].
          - clear - Hn N. generalize (m + j) as k. revert j. induction n as [|c n IHn]; intros j k; [reflexivity|]. cbn [forallb] in Hn. apply andb_prop in Hn as [H1 H2].
            cbn [enum_from count_before flat_map fst snd]. apply negb_true_iff in H1. rewrite !(N _ _ H1), H1. now apply IHn.
          - cbn [forallb] in Hb. apply andb_prop in Hb as [H1 H2]. cbn [enum_from count_before flat_map fst snd]. rewrite H1.
            replace (Z.max 0 (m + j - m)) with j by lia. f_equal. replace (m + j + 1) with (m + (j + 1)) by lia. apply IHb; [exact H2|lia]. }
        destruct b as [|c b].
        + cbn [app]. clear - Hn N. generalize (i + leading (filled sc) n) as m. generalize 0 at 2 as j. revert i. induction n as [|c n IHn]; intros i j m; [reflexivity|].
          cbn [forallb] in Hn. apply andb_prop in Hn as [H1 H2]. cbn [enum_from count_before flat_map fst snd]. apply negb_true_iff in H1. rewrite !(N _ _ H1), H1. now apply IHn.
        + assert (Z0 : leading (filled sc) ((c :: b) ++ n) = 0) by (cbn [forallb app leading] in *; apply andb_prop in Hb as [-> _]; reflexivity).
          rewrite Z0. replace (i + 0) with i by lia. specialize (K 0 i ltac:(lia)). now replace (i + 0) with i in K by lia.
      - cbn [forallb] in Ha. apply andb_prop in Ha as [H1 H2]. apply negb_true_iff in H1. cbn [leading enum_from count_before flat_map fst snd]. rewrite H1, !(N _ _ H1). cbn [app].
        replace (i + (1 + leading (filled sc) (a ++ b ++ n))) with (i + 1 + leading (filled sc) (a ++ b ++ n)) by lia. now apply IH. }
    now rewrite <- (L 0), Z.add_0_l. }
  rewrite G. clear - Ht. assert (Q : forall i, 0 <= i -> flat_map (fun p => if blimit 0 take (fst p) && (0 <=? fst p) then row_at sc (fst p - 0) (snd p) else []) (count_before (fun cols => filled sc cols) i sh) =
    filter (fun p => (take =? 0) || (fst p <=? take)) (flat_map (fun p => row_at sc (fst p) (snd p)) (count_before (filled sc) i sh))).
  { induction sh as [|c sh IH]; intros i Hi; [reflexivity|]. cbn [count_before flat_map fst snd]. rewrite filter_app. f_equal.
    - unfold blimit. replace (take + 0) with take by lia. replace (0 <=? i) with true by lia. rewrite andb_true_r, Z.sub_0_r.
      unfold row_at. destruct (_ || _) eqn:E; induction (filter _ c) as [|k l IHl]; try reflexivity; cbn [map filter fst]; rewrite E; [f_equal|]; exact IHl.
    - apply IH. destruct (filled sc c); lia. }
  now apply Q.
Qed.
Print Assumptions C61_collapsed_partial.
(** ... and when rows are skipped with empty rows dropped, because then neither delivers
    anything (C16). *)
Theorem C61_skip_collapsed_partial : forall styles nv nul pre rows e post part xstyles xnv xrows es fail skip take sc,
  is_part pre rows e post part -> is_xsheet xrows es -> 0 < skip -> 0 <= take ->
  positions (cells_of (fst (xlsb_iter (Ok styles) nv (fun _ => nul) skip take false sc part))) = [] /\
  positions (cells_of (fst (xlsx_iter xstyles xnv skip take false sc es fail))) = [].
Proof.
  intros. split; [now rewrite (C16_xlsb_skip_collapse_refuted styles nv nul pre rows e post part skip take sc)|].
  now rewrite (C16_xlsx_collapsed_skip_refuted xstyles xnv xrows es skip take sc fail).
Qed.
Print Assumptions C61_skip_collapsed_partial.

Lemma row_at_in sc i cols x : In x (row_at sc i cols) -> fst x = i.
Proof. unfold row_at. intro H. apply in_map_iff in H. now destruct H as (k & <- & _). Qed.
Lemma row_at_some sc i cols : filled sc cols = true -> exists x, In x (row_at sc i cols).
Proof. rewrite (row_at_filled sc i). destruct (row_at sc i cols) as [|x l]; [discriminate|]. exists x. now left. Qed.
Lemma enum_from_in A (l : list A) : forall n k x, nth_error l k = Some x -> In (n + Z.of_nat k, x) (enum_from n l).
Proof.
  induction l as [|a l IH]; intros n [|k] x H; try discriminate; cbn [enum_from].
  - inversion H. left. f_equal. lia.
  - right. replace (n + Z.of_nat (S k)) with (n + 1 + Z.of_nat k) by lia. now apply IH.
Qed.
(** It fails with empty rows kept and a first row without cells: in every sheet that has a
    non-empty row beyond the [2 e]-th ([e]: number of leading empty rows), .xlsx loses it. *)
Theorem C61_leading_empty_refuted : forall styles nv nul pre rows e post part xstyles xnv xrows es fail sh k cols sc,
  is_part pre rows e post part -> bsaves nv nul rows sh -> is_xsheet xrows es -> xsaves xnv xrows sh ->
  let n := leading (filled sc) sh in
  0 < n -> nth_error sh k = Some cols -> filled sc cols = true -> 2 * n < Z.of_nat k ->
  exists p, In p (positions (cells_of (fst (xlsb_iter (Ok styles) nv (fun _ => nul) 0 0 true sc part)))) /\
    ~ In p (positions (cells_of (fst (xlsx_iter xstyles xnv 0 0 true sc es fail)))).
Proof.
  intros styles nv nul pre rows e post part xst xnv xrows es fail sh k cols sc P B I X n Hn Hk Hf Hl.
  rewrite (@b_positions styles nv nul pre rows e post part sh 0 0 true sc P B) by (lia || tauto).
  rewrite (@x_positions xst xnv xrows es sh 0 0 sc fail I X) by lia. cbn [orb]. rewrite count_before_true.
  destruct (row_at_some (Z.of_nat k) Hf) as (p & Hp). exists p. split.
  - apply in_flat_map. exists (Z.of_nat k, cols). split; [apply (@enum_from_in _ sh 0 k cols Hk)|]. cbn [fst snd].
    replace (blimit 0 0 (Z.of_nat k)) with true by reflexivity. replace (0 <=? Z.of_nat k) with true by lia. cbn [andb]. now rewrite Z.sub_0_r.
  - intro H. apply in_flat_map in H as ([i c] & _ & H). cbn [fst snd] in H. apply row_at_in in Hp. unfold xlimit in H. cbn [Z.to_nat skipn] in H. fold n in H.
    pose proof (zlen_nonneg sh). replace (Z.min (zlen sh) 0) with 0 in H by lia. cbv zeta in H.
    destruct (((0 + 0 + 2 * (0 + n) =? 0) || (i <=? 0 + 0 + 2 * (0 + n))) && (0 <=? i)) eqn:E; [|destruct H]. apply row_at_in in H. lia.
Qed.
Print Assumptions C61_leading_empty_refuted.
(** It fails with skipped rows and empty rows kept: .xlsb stops at row [take + skip], .xlsx
    goes on. *)
Theorem C61_skip_refuted : forall styles nv nul pre rows e post part xstyles xnv xrows es fail sh k cols skip take sc,
  is_part pre rows e post part -> bsaves nv nul rows sh -> is_xsheet xrows es -> xsaves xnv xrows sh -> 0 < skip -> 0 <= take ->
  nth_error sh k = Some cols -> filled sc cols = true -> take + skip < Z.of_nat k <= take + 3 * skip ->
  exists p, In p (positions (cells_of (fst (xlsx_iter xstyles xnv skip take true sc es fail)))) /\
    ~ In p (positions (cells_of (fst (xlsb_iter (Ok styles) nv (fun _ => nul) skip take true sc part)))).
Proof.
  intros styles nv nul pre rows e post part xst xnv xrows es fail sh k cols skip take sc P B I X Hs Ht Hk Hf Hl.
  rewrite (@b_positions styles nv nul pre rows e post part sh skip take true sc P B) by (lia || tauto).
  rewrite (@x_positions xst xnv xrows es sh skip take sc fail I X) by lia. cbn [orb]. rewrite count_before_true.
  destruct (row_at_some (Z.of_nat k - skip) Hf) as (p & Hp). exists p. split.
  - apply in_flat_map. exists (Z.of_nat k, cols). split; [apply (@enum_from_in _ sh 0 k cols Hk)|]. cbn [fst snd].
    assert (Lk : Z.of_nat k < zlen sh) by (unfold zlen; pose proof (proj1 (nth_error_Some sh k) ltac:(congruence)); lia).
    assert (Ld : 0 <= leading (filled sc) (skipn (Z.to_nat skip) sh)) by apply leading_ge0.
    unfold xlimit. cbv zeta. match goal with |- context [if ?b then _ else _] => replace b with true by lia end. exact Hp.
  - intro H. apply in_flat_map in H as ([i c] & _ & H). cbn [fst snd] in H. apply row_at_in in Hp. unfold blimit in H.
    destruct (((take + skip =? 0) || (i <=? take + skip)) && (skip <=? i)) eqn:E; [|destruct H]. apply row_at_in in H. lia.
Qed.
Print Assumptions C61_skip_refuted.
(** It fails with empty rows dropped and an empty row between two non-empty ones (the sheet
    below), and for error values, which only .xlsx treats as null (C13). *)
Definition ex_lsheet : lsheet := [[0]; []; [0; 2]].
Definition ex_brows : list brow :=
  [([0; 0; 0; 0], [IC (mkB 0 [0; 0; 0] 0 (BRk [6; 0; 0; 0]) [])]); ([1; 0; 0; 0], []);
   ([2; 0; 0; 0], [IC (mkB 0 [0; 0; 0] 0 (BStr false (s "hi")) []); IX (mkRec 1 [1; 0; 0; 0; 0; 0; 0; 0]); IC (mkB 2 [0; 0; 0] 0 (BBool false 1) [])])].
Definition ex_xrows : list xrow :=
  [ex_r [ex_c 0 (s "1")]; []; ex_r [ex_c 0 (s "hi"); mkX 1 (s "3") None (Some (s "4")) [] []; ex_c 2 (s "1")]].
Definition ex_bpart : bytes := match dump_all (sheet_records [] ex_brows [] []) with Ok b => b | Err _ => [] end.
Lemma ex_saved : is_part [] ex_brows [] [] ex_bpart /\ bsaves (fun _ => false) (fun _ => false) ex_brows ex_lsheet /\
  is_xsheet ex_xrows (xsheet_events [] ex_xrows []) /\ xsaves (xlsx_null NNone) ex_xrows ex_lsheet.
Proof.
  split; [now repeat split|]. split; [|split].
  - repeat constructor.
  - exists [], []. now split.
  - apply Forall2_cons; [|apply Forall2_cons; [|apply Forall2_cons; [|apply Forall2_nil]]]; split; try reflexivity.
    all: repeat (apply Forall_cons; [(now left) || (right; eexists; repeat (apply conj); reflexivity)|]); apply Forall_nil.
Qed.
Theorem C61_gap_refuted :
  positions (cells_of (fst (xlsb_iter (Ok []) (fun _ => false) (fun _ _ => false) 0 0 false [] ex_bpart))) = [(0, 0); (1, 0); (1, 2)] /\
  positions (cells_of (fst (xlsx_iter (fun _ => None) (xlsx_null NNone) 0 0 false [] (xsheet_events [] ex_xrows []) None))) = [(0, 0); (2, 0); (2, 2)].
Proof. split; vm_compute; reflexivity. Qed.
Print Assumptions C61_gap_refuted.
Example C61_example : exists p, p = [(0, 0); (2, 0); (2, 2)] /\
  positions (cells_of (fst (xlsb_iter (Ok []) (fun _ => false) (fun _ _ => false) 0 0 true [] ex_bpart))) = p /\
  positions (cells_of (fst (xlsx_iter (fun _ => None) (xlsx_null NNone) 0 0 true [] (xsheet_events [] ex_xrows []) None))) = p /\
  leading (filled [0]) [[0]; [0]; [0; 1]; [1]] = 2 /\
  exists a b n, ex_lsheet = a ++ b ++ n /\ forallb (fun c => negb (filled [0] c)) a = true /\ forallb (filled [0]) b = true.
Proof.
  eexists. split; [reflexivity|]. split; [vm_compute; reflexivity|]. split; [vm_compute; reflexivity|]. split; [reflexivity|].
  now exists [[0]; []], [[0; 2]], [].
Qed.
