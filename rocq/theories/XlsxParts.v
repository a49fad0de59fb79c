(** Consequences for whole .xlsx parts: worksheets, shared strings, styles. *)
From Verif Require Import Py PyFacts PyText NumFmt NumFmtSpec NumFmtProofs Cell Xlsx Xlsb XlsbSpec XlsbProofs
  XlsbParts XlsxSpec XlsxProofs.
From Coq Require Import ZifyBool ZifyNat.
Ltac Zify.zify_post_hook ::= Z.div_mod_to_equations.
Set Implicit Arguments.
Unset Strict Implicit.

(** ** Decimal numbers *)
Lemma dec_fuel_digits f : forall n, 0 <= n -> forallb is_digit (dec_fuel f n) = true.
Proof.
  induction f as [|f IH]; intros n H; [reflexivity|]. cbn [dec_fuel].
  destruct (Z.ltb_spec n 10).
  - cbn [forallb]. unfold is_digit. lia.
  - rewrite forallb_app, IH by lia. cbn [forallb andb]. unfold is_digit. lia.
Qed.
Lemma dec_digits n : 0 <= n -> forallb is_digit (dec n) = true.
Proof. apply dec_fuel_digits. Qed.

Lemma dec_fuel_value f : forall n, 0 <= n < 2 ^ Z.of_nat f ->
  fold_left (fun a c => a * 10 + (c - 48)) (dec_fuel f n) 0 = n.
Proof.
  induction f as [|f IH]; intros n H.
  - cbn. change (2 ^ Z.of_nat 0) with 1 in H. lia.
  - cbn [dec_fuel]. destruct (Z.ltb_spec n 10).
    + cbn [fold_left]. lia.
    + rewrite fold_left_app, IH; [cbn [fold_left]; lia|].
      rewrite Nat2Z.inj_succ, Z.pow_succ_r in H by lia. lia.
Qed.
Lemma dec_value n : 0 <= n -> fold_left (fun a c => a * 10 + (c - 48)) (dec n) 0 = n.
Proof.
  intro H. unfold dec. apply dec_fuel_value. split; [exact H|].
  rewrite Nat2Z.inj_succ, Z2Nat.id by apply Z.log2_nonneg.
  destruct (Z.eq_dec n 0) as [->|Hn]; [reflexivity|].
  replace (Z.max 1 n) with n by lia. apply Z.log2_spec. lia.
Qed.
Lemma int_digits_plain t : forall b a, forallb is_digit t = true -> int_digits b a t = if b || negb (match t with [] => true | _ => false end) then Some (fold_left (fun a c => a * 10 + (c - 48)) t a) else None.
Proof.
  induction t as [|c t IH]; intros b a H; cbn [int_digits fold_left]; [now destruct b|]. cbn [forallb] in H. apply andb_prop in H as [H1 H2].
  rewrite H1, IH by exact H2. cbn [orb]. now rewrite orb_true_r.
Qed.
Lemma askip_plain t : forallb is_digit t = true -> askip t = t.
Proof. destruct t as [|c t]; [reflexivity|]. cbn [forallb askip]. intro H. apply andb_prop in H as [H _]. unfold is_digit in H. unfold is_aspace. now replace (_ || _) with false by lia. Qed.
Lemma rev_plain t : forallb is_digit t = true -> forallb is_digit (rev t) = true.
Proof. rewrite !forallb_forall. intros H c Hc. apply H. now apply in_rev. Qed.
Lemma py_int_plain t : t <> [] -> forallb is_digit t = true -> py_int t = Ok (fold_left (fun a c => a * 10 + (c - 48)) t 0).
Proof.
  intros N H. unfold py_int. rewrite (askip_plain H), (askip_plain (rev_plain H)), rev_involutive.
  destruct t as [|c t]; [easy|]. pose proof H as H0. cbn [forallb] in H0. apply andb_prop in H0 as [H1 _]. unfold is_digit in H1.
  pose proof (int_digits_plain false 0 H) as E. cbn [orb negb] in E.
  assert (c <> 45 /\ c <> 43) as [C1 C2] by lia. replace (match c :: t with 45 :: r => option_map Z.opp (int_digits false 0 r) | 43 :: r => int_digits false 0 r | r => int_digits false 0 r end) with (int_digits false 0 (c :: t)); [now rewrite E|].
  destruct c as [|p|p]; [lia| |lia]. do 6 (destruct p as [p|p|]; try reflexivity); congruence.
Qed.
Lemma dec_nonempty n : dec n <> [].
Proof.
  intro E. unfold dec in E. cbn [dec_fuel] in E. destruct (n <? 10); [discriminate|].
  destruct (dec_fuel _ _) in E; discriminate.
Qed.
Lemma py_int_dec n : 0 <= n -> py_int (dec n) = Ok n.
Proof. intro H. rewrite py_int_plain, dec_value; [reflexivity|exact H|apply dec_nonempty|now apply dec_digits]. Qed.
Lemma dec_inj a b : 0 <= a -> 0 <= b -> dec a = dec b -> a = b.
Proof. intros Ha Hb E. apply py_int_dec in Ha, Hb. rewrite E in Ha. rewrite Ha in Hb. now apply Ok_inj in Hb. Qed.
Lemma dec_eqb a b : 0 <= a -> 0 <= b -> str_eqb (dec a) (dec b) = (a =? b).
Proof.
  intros Ha Hb. destruct (Z.eqb_spec a b) as [->|H]; [apply str_eqb_refl|].
  apply str_eqb_neq. intro E. apply H. now apply dec_inj.
Qed.

Lemma map_flat_map A B C (f : A -> list B) (g : B -> C) l :
  map g (flat_map f l) = flat_map (fun x => map g (f x)) l.
Proof. induction l as [|x l IH]; [reflexivity|]. cbn [flat_map]. now rewrite map_app, IH. Qed.

Lemma leading_ge0 A (p : A -> bool) l : 0 <= leading p l.
Proof. induction l as [|x l IH]; cbn [leading]; [lia|]. destruct (p x); lia. Qed.

(** ** Worksheets *)
(** Rows (numbered from [i]) that the reader considers empty until the first delivery:
    skipped, or without a cell to deliver. *)
Section Sheet.
  Context (styles : str -> option Z) (nv : str -> bool) (sc : list Z).
  Notation exp_row := (xexpected_row styles nv sc).
  Notation nonempty := (xrow_nonempty styles nv sc).

  Lemma exp_row_shift a b r : exp_row a r = map (fun c => mkCell a (c_col c) (c_xdt c) (c_val c)) (exp_row b r).
  Proof.
    unfold xexpected_row. rewrite map_flat_map. apply flat_map_ext. intro c. unfold xexpected.
    rewrite map_flat_map. apply flat_map_ext. intro t.
    destruct (blank t || nv (strip t) || existsb (Z.eqb (x_col c)) sc); reflexivity.
  Qed.
  Lemma exp_row_nil a r : is_nil (exp_row a r) = negb (nonempty r).
  Proof. unfold xrow_nonempty. rewrite (exp_row_shift a 0). destruct (exp_row 0 r); reflexivity. Qed.

  Lemma leading_ext A (p q : A -> bool) l : (forall x, In x l -> p x = q x) -> leading p l = leading q l.
  Proof.
    induction l as [|x l IH]; intro H; [reflexivity|]. cbn [leading]. rewrite (H x) by now left.
    destruct (q x); [reflexivity|]. rewrite IH; [reflexivity|]. intros; apply H; now right.
  Qed.
  Lemma leading_enum A (p : A -> bool) l : forall i, leading (fun x => p (snd x)) (enum_from i l) = leading p l.
  Proof. induction l as [|x l IH]; intro i; [reflexivity|]. cbn. destruct (p x); [reflexivity|]. now rewrite IH. Qed.

  (** Leading silent rows when the first [skip] rows are skipped. *)
  Fixpoint quiet_from (i skip : Z) (rows : list xrow) : Z :=
    match rows with
    | [] => 0
    | r :: rest => if (skip <=? i) && nonempty r then 0 else 1 + quiet_from (i + 1) skip rest
    end.
  Lemma quiet_loud skip rows : forall i,
    leading (loud styles nv skip sc) (enum_from i rows) = quiet_from i skip rows.
  Proof.
    induction rows as [|r rows IH]; intro i; [reflexivity|]. cbn [enum_from leading quiet_from].
    rewrite IH. unfold loud, row_cells_out. cbn [fst snd].
    destruct (skip <=? i); [|reflexivity]. rewrite exp_row_nil, negb_involutive. reflexivity.
  Qed.

  Lemma xlsx_keep pre rows post skip take fail : xsheet_ok pre rows post = true -> 0 <= skip -> 0 <= take ->
    let T := take + skip + 2 * quiet_from 0 skip rows in
    xlsx_iter styles nv skip take true sc (xsheet_events pre rows post) fail =
    (OCall :: flat_map (row_o styles nv skip sc T) (enum_from 0 rows),
     if (0 <? T) && (T <? zlen rows) then None else fail).
  Proof.
    intros H Hs Ht T. unfold xlsx_iter. replace (skip <? 0) with false by lia.
    replace (take <? 0) with false by lia. rewrite worker_sheet by exact H.
    destruct (@run_keep0 styles nv skip true sc rows (take + skip) eq_refl) as [E1 E2]; [lia|].
    rewrite quiet_loud in E1, E2. fold T in E1, E2. now rewrite E1, E2.
  Qed.

  Lemma cells_of_call o : cells_of (OCall :: o) = cells_of o.
  Proof. reflexivity. Qed.

  Lemma cells_row_o skip T l : cells_of (flat_map (row_o styles nv skip sc T) l) =
    flat_map (fun p => if ((T =? 0) || (fst p <=? T)) && (skip <=? fst p)
                       then exp_row (fst p - skip) (snd p) else []) l.
  Proof.
    induction l as [|p l IH]; [reflexivity|]. cbn [flat_map]. rewrite cells_of_app, IH. f_equal.
    unfold row_o, in_lim, row_cells_out. destruct ((T =? 0) || (fst p <=? T)); [|reflexivity]. cbn [andb].
    rewrite cells_of_app, cells_of_map, app_nil_r. destruct (skip <=? fst p); reflexivity.
  Qed.
  Lemma calls_row_o skip T l : calls_of (flat_map (row_o styles nv skip sc T) l) =
    zlen (filter (fun p => (T =? 0) || (fst p <=? T)) l).
  Proof.
    induction l as [|p l IH]; [reflexivity|]. cbn [flat_map filter]. rewrite calls_of_app, IH.
    unfold row_o, in_lim. destruct ((T =? 0) || (fst p <=? T)); [|reflexivity].
    rewrite calls_of_app, calls_of_map, zlen_cons. reflexivity.
  Qed.

  (** Cells delivered when empty rows are kept. *)
  Lemma xlsx_keep_cells pre rows post skip take fail : xsheet_ok pre rows post = true -> 0 <= skip -> 0 <= take ->
    let T := take + skip + 2 * quiet_from 0 skip rows in
    cells_of (fst (xlsx_iter styles nv skip take true sc (xsheet_events pre rows post) fail)) =
    flat_map (fun p => if ((T =? 0) || (fst p <=? T)) && (skip <=? fst p)
                       then exp_row (fst p - skip) (snd p) else []) (enum_from 0 rows).
  Proof.
    intros H Hs Ht T. rewrite xlsx_keep by assumption. cbn [fst]. rewrite cells_of_call. apply cells_row_o.
  Qed.

  Lemma count_enum T (rows : list xrow) : forall i, 0 <= i ->
    zlen (filter (fun p => (T =? 0) || (fst p <=? T)) (enum_from i rows)) =
    (if T =? 0 then zlen rows else Z.max 0 (Z.min (zlen rows) (T + 1 - i))).
  Proof.
    induction rows as [|r rows IH]; intros i Hi.
    - cbn. destruct (T =? 0); lia.
    - cbn [enum_from filter fst]. rewrite zlen_cons. specialize (IH (i + 1) ltac:(lia)).
      pose proof (zlen_nonneg rows).
      destruct (T =? 0) eqn:E; cbn [orb] in *.
      + rewrite zlen_cons. lia.
      + destruct (i <=? T) eqn:E2; rewrite ?zlen_cons; lia.
  Qed.

  Lemma xlsx_keep_calls pre rows post skip take fail : xsheet_ok pre rows post = true -> 0 <= skip -> 0 <= take ->
    let T := take + skip + 2 * quiet_from 0 skip rows in
    calls_of (fst (xlsx_iter styles nv skip take true sc (xsheet_events pre rows post) fail)) =
    1 + (if T =? 0 then zlen rows else Z.min (zlen rows) (T + 1)).
  Proof.
    intros H Hs Ht T. rewrite xlsx_keep by assumption. cbn [fst].
    change (OCall :: ?l) with ([OCall] ++ l). rewrite calls_of_app, calls_row_o, count_enum by lia.
    change (calls_of [OCall]) with 1. fold T. pose proof (zlen_nonneg rows).
    assert (0 <= quiet_from 0 skip rows).
    { clear. generalize 0 at 2 as i. induction rows as [|r rows IH]; intro i; cbn [quiet_from]; [lia|].
      specialize (IH (i + 1)). destruct ((skip <=? i) && nonempty r); lia. }
    destruct (T =? 0) eqn:E; lia.
  Qed.

  Lemma quiet_nonneg skip rows : forall i, 0 <= quiet_from i skip rows.
  Proof.
    induction rows as [|r rows IH]; intro i; cbn [quiet_from]; [lia|].
    specialize (IH (i + 1)). destruct ((skip <=? i) && nonempty r); lia.
  Qed.
  Lemma quiet_zero rows : forall i, 0 <= i -> quiet_from i 0 rows = leading nonempty rows.
  Proof.
    induction rows as [|r rows IH]; intros i Hi; cbn [quiet_from leading]; [reflexivity|].
    replace (0 <=? i) with true by lia. cbn [andb]. now rewrite IH by lia.
  Qed.
  (** [skip] rows, then the leading rows without cells. *)
  Lemma quiet_skip skip rows : forall i, i <= skip ->
    quiet_from i skip rows =
    Z.min (zlen rows) (skip - i) + leading nonempty (skipn (Z.to_nat (skip - i)) rows).
  Proof.
    induction rows as [|r rows IH]; intros i Hi.
    - rewrite skipn_nil. cbn. lia.
    - cbn [quiet_from]. rewrite zlen_cons. pose proof (zlen_nonneg rows).
      destruct (Z.eq_dec i skip) as [->|Hne].
      + rewrite Z.sub_diag. change (Z.to_nat 0) with O. cbn [skipn leading].
        replace (skip <=? skip) with true by lia. cbn [andb]. replace (Z.min (1 + zlen rows) 0) with 0 by lia.
        destruct (nonempty r); [reflexivity|].
        destruct (Z.eq_dec (zlen rows) 0) as [E|E].
        * assert (rows = []) by (destruct rows; [reflexivity|rewrite zlen_cons in E; pose proof (zlen_nonneg rows); lia]).
          subst rows. reflexivity.
        * assert (G : forall l i, skip <= i -> quiet_from i skip l = leading nonempty l).
          { induction l as [|x l IHl]; intros j Hj; [reflexivity|]. cbn [quiet_from leading].
            replace (skip <=? j) with true by lia. cbn [andb]. now rewrite IHl by lia. }
          rewrite G by lia. lia.
      + replace (skip <=? i) with false by lia. cbn [andb]. rewrite IH by lia.
        replace (Z.to_nat (skip - i)) with (S (Z.to_nat (skip - (i + 1)))) by lia. cbn [skipn]. lia.
  Qed.

  (** Collapse mode. *)
  Lemma xlsx_collapse_skip pre rows post skip take fail : xsheet_ok pre rows post = true -> 0 < skip -> 0 <= take ->
    xlsx_iter styles nv skip take false sc (xsheet_events pre rows post) fail =
    (OCall :: map (fun _ => OCall) rows, fail).
  Proof.
    intros H Hs Ht. unfold xlsx_iter. replace (skip <? 0) with false by lia.
    replace (take <? 0) with false by lia. rewrite worker_sheet by exact H.
    rewrite run_collapse_skip by lia. reflexivity.
  Qed.
  Lemma cells_of_calls (rows : list xrow) : cells_of (map (fun _ => OCall) rows) = [].
  Proof. induction rows as [|r rows IH]; [reflexivity|]. exact IH. Qed.
  Lemma calls_of_calls (rows : list xrow) : calls_of (map (fun _ => OCall) rows) = zlen rows.
  Proof.
    induction rows as [|r rows IH]; [reflexivity|]. cbn [map].
    change (OCall :: ?l) with ([OCall] ++ l). rewrite calls_of_app, IH, zlen_cons. reflexivity.
  Qed.

  Lemma xlsx_collapse_skip_cells pre rows post skip take fail :
    xsheet_ok pre rows post = true -> 0 < skip -> 0 <= take ->
    cells_of (fst (xlsx_iter styles nv skip take false sc (xsheet_events pre rows post) fail)) = [].
  Proof.
    intros H Hs Ht. rewrite xlsx_collapse_skip by assumption. cbn [fst]. rewrite cells_of_call. apply cells_of_calls.
  Qed.

  Lemma xlsx_collapse pre rows post take fail : xsheet_ok pre rows post = true -> 0 <= take ->
    let e := leading nonempty rows in
    let rest := skipn (Z.to_nat e) rows in
    xlsx_iter styles nv 0 take false sc (xsheet_events pre rows post) fail =
    (OCall :: map (fun _ => OCall) (firstn (Z.to_nat e) rows)
           ++ flat_map (row_o styles nv 0 sc take) (enum_from 0 rest),
     if (0 <? take) && (take <? zlen rest) then None else fail).
  Proof.
    intros H Ht e rest. unfold xlsx_iter. change (0 <? 0) with false. cbv iota.
    replace (take <? 0) with false by lia. rewrite worker_sheet by exact H.
    destruct (@run_collapse styles nv 0 false sc rows eq_refl eq_refl (take + 0)) as [E1 E2]; [lia|].
    assert (El : leading (fun r => negb (is_nil (exp_row 0 r))) rows = e).
    { apply leading_ext. intros r _. rewrite exp_row_nil. apply negb_involutive. }
    rewrite El in E1, E2. rewrite Z.add_0_r in *. now rewrite E1, E2.
  Qed.

  Lemma xlsx_collapse_cells pre rows post take fail : xsheet_ok pre rows post = true -> 0 <= take ->
    cells_of (fst (xlsx_iter styles nv 0 take false sc (xsheet_events pre rows post) fail)) =
    flat_map (fun p => if (take =? 0) || (fst p <=? take) then exp_row (fst p) (snd p) else [])
      (enum_from 0 (skipn (Z.to_nat (leading nonempty rows)) rows)).
  Proof.
    intros H Ht. rewrite xlsx_collapse by assumption. cbn [fst]. rewrite cells_of_call, cells_of_app, cells_of_calls.
    rewrite cells_row_o. apply flat_map_ext_in. intros [i r] Hin. apply enum_from_bound in Hin. cbn [fst snd].
    replace (0 <=? i) with true by lia. rewrite andb_true_r, Z.sub_0_r. reflexivity.
  Qed.

  Lemma xlsx_collapse_calls pre rows post fail : xsheet_ok pre rows post = true ->
    calls_of (fst (xlsx_iter styles nv 0 0 false sc (xsheet_events pre rows post) fail)) = zlen rows + 1.
  Proof.
    intro H. rewrite xlsx_collapse by (assumption || lia). cbn [fst].
    change (OCall :: ?l) with ([OCall] ++ l). rewrite !calls_of_app, calls_row_o, calls_of_calls, count_enum by lia.
    change (calls_of [OCall]) with 1. change (0 =? 0) with true. cbv iota.
    pose proof (f_equal (@zlen _) (firstn_skipn (Z.to_nat (leading nonempty rows)) rows)) as E.
    rewrite zlen_app in E. lia.
  Qed.

  (** First row delivers something: everything as expected. *)
  Lemma xlsx_whole_sheet pre r rows post fail : xsheet_ok pre (r :: rows) post = true -> nonempty r = true ->
    cells_of (fst (xlsx_iter styles nv 0 0 true sc (xsheet_events pre (r :: rows) post) fail)) =
    flat_map (fun p => exp_row (fst p) (snd p)) (enum_from 0 (r :: rows)).
  Proof.
    intros H Hr. rewrite xlsx_keep_cells by (assumption || lia). cbn [quiet_from].
    change (0 <=? 0) with true. rewrite Hr. cbn [andb]. change (0 + 0 + 2 * 0) with 0. change (0 =? 0) with true.
    apply flat_map_ext_in. intros [i x] Hin. apply enum_from_bound in Hin. cbn [fst snd orb andb].
    replace (0 <=? i) with true by lia. now rewrite Z.sub_0_r.
  Qed.
  Lemma enum_bound_hi A (l : list A) : forall i p, In p (enum_from i l) -> fst p < i + zlen l.
  Proof.
    induction l as [|x l IH]; intros i p H; [destruct H|]. cbn [enum_from] in H. rewrite zlen_cons.
    pose proof (zlen_nonneg l). destruct H as [<-|H]; [cbn [fst]; lia|]. apply IH in H. lia.
  Qed.
  (** Enough room below the limit: everything as expected. *)
  Lemma xlsx_enough pre rows post skip take fail : xsheet_ok pre rows post = true -> 0 <= skip -> 0 <= take ->
    zlen rows <= take + skip + 2 * quiet_from 0 skip rows + 1 ->
    cells_of (fst (xlsx_iter styles nv skip take true sc (xsheet_events pre rows post) fail)) =
    flat_map (fun p => exp_row (fst p) (snd p)) (enum_from 0 (skipn (Z.to_nat skip) rows)).
  Proof.
    intros H Hs Ht Hl. rewrite xlsx_keep_cells by assumption.
    rewrite <- (@enum_skip xrow rows 0 skip (fun i r => exp_row i r) Hs).
    apply flat_map_ext_in. intros p Hin. apply enum_bound_hi in Hin.
    set (T := take + skip + 2 * quiet_from 0 skip rows) in *.
    replace ((T =? 0) || (fst p <=? T)) with true by lia. reflexivity.
  Qed.
End Sheet.

(** ** Shared strings *)
(** The entry for an [<si>] element with the given text nodes. *)
Definition si_entry (nv : str -> bool) (ts : list str) : option str :=
  match filter (fun t => negb (blank t) && negb (nv (strip t))) ts with
  | [] => None
  | t :: _ => Some (strip t)
  end.

Lemma shared_done nv l : forall rest ret nul, forallb si_inner_ok l = true ->
  xlsx_shared_from nv (l ++ rest) false ret nul = xlsx_shared_from nv rest false ret nul.
Proof.
  induction l as [|e l IH]; intros rest ret nul H; [reflexivity|]. cbn [forallb] in H. apply andb_prop in H as [He H].
  destruct e as [t a|t|t]; cbn [app xlsx_shared_from]; cbn [si_inner_ok tag_in existsb] in He.
  - rewrite orb_false_r in He. apply negb_true_iff in He. rewrite He. now apply IH.
  - cbn [andb]. now apply IH.
  - rewrite andb_false_r. now apply IH.
Qed.

Lemma shared_open nv l : forall rest ret nul, forallb si_inner_ok l = true ->
  xlsx_shared_from nv (l ++ EEnd (s "si") :: rest) true ret nul =
  xlsx_shared_from nv rest false (ret ++ [si_entry nv (si_texts l)])
    (nul ++ match si_entry nv (si_texts l) with None => [dec (zlen ret)] | Some _ => [] end).
Proof.
  induction l as [|e l IH]; intros rest ret nul H.
  - cbn [app xlsx_shared_from]. change (str_eqb (s "si") (s "si")) with true. cbn [andb].
    unfold si_entry, si_texts. cbn [flat_map filter]. rewrite zlen_app.
    change (zlen [@None str]) with 1. now rewrite Z.add_simpl_r.
  - cbn [forallb] in H. apply andb_prop in H as [He H].
    destruct e as [t a|t|t]; cbn [app xlsx_shared_from]; cbn [si_inner_ok tag_in existsb] in He.
    + rewrite orb_false_r in He. apply negb_true_iff in He. rewrite He. now apply IH.
    + cbn [andb]. rewrite <- blank_strip. unfold si_texts, si_entry. cbn [flat_map app filter].
      fold (si_texts l). destruct (blank t); cbn [negb andb]; [now apply IH|].
      destruct (nv (strip t)); cbn [negb]; [now apply IH|].
      rewrite app_nil_r.
      change (EEnd (s "si") :: rest) with ([EEnd (s "si")] ++ rest). rewrite app_assoc.
      rewrite <- app_assoc. rewrite shared_done by exact H. cbn [app xlsx_shared_from].
      now rewrite andb_false_r.
    + rewrite orb_false_r in He. apply negb_true_iff in He. rewrite He. cbn [andb]. now apply IH.
Qed.

Fixpoint null_positions (i : Z) (l : list (option str)) : list str :=
  match l with
  | [] => []
  | None :: r => dec i :: null_positions (i + 1) r
  | Some _ :: r => null_positions (i + 1) r
  end.

Lemma shared_items nv l : forall ret nul, forallb xsi_ok l = true ->
  xlsx_shared_from nv (flat_map xsi_events l) false ret nul =
  (ret ++ map (fun i => si_entry nv (si_texts i)) (sis l),
   nul ++ null_positions (zlen ret) (map (fun i => si_entry nv (si_texts i)) (sis l))).
Proof.
  induction l as [|x l IH]; intros ret nul H.
  - cbn. now rewrite !app_nil_r.
  - cbn [forallb] in H. apply andb_prop in H as [Hx H]. cbn [flat_map]. destruct x as [i|e]; cbn [xsi_events xsi_ok] in *.
    + cbn [app xlsx_shared_from]. change (str_eqb (s "si") (s "si")) with true. cbv iota.
      rewrite <- app_assoc. cbn [app]. rewrite shared_open by exact Hx. rewrite IH by exact H.
      unfold sis. cbn [flat_map app map]. fold (sis l). rewrite <- app_assoc. f_equal.
      rewrite <- app_assoc. f_equal. cbn [app null_positions]. rewrite zlen_app.
      change (zlen [?x]) with 1.
      destruct (si_entry nv (si_texts i)); reflexivity.
    + rewrite shared_done by (cbn [forallb]; now rewrite Hx). rewrite IH by exact H. reflexivity.
Qed.

Lemma xlsx_shared_ok nv l : forallb xsi_ok l = true ->
  let table := map (fun i => si_entry nv (si_texts i)) (sis l) in
  xlsx_shared nv (flat_map xsi_events l) = (table, null_positions 0 table).
Proof. intro H. unfold xlsx_shared. rewrite shared_items by exact H. reflexivity. Qed.

Lemma null_positions_mem l : forall i k, 0 <= i -> 0 <= k ->
  mem_str (dec k) (null_positions i l) = true <-> i <= k /\ nth_error l (Z.to_nat (k - i)) = Some None.
Proof.
  induction l as [|x l IH]; intros i k Hi Hk.
  - cbn. destruct (Z.to_nat (k - i)); split; [discriminate|intros [_ H]; discriminate|discriminate|intros [_ H]; discriminate].
  - assert (G : forall b, (i + 1 <= k /\ nth_error l (Z.to_nat (k - (i + 1))) = Some None) <->
      (k <> i /\ i <= k /\ nth_error (b :: l) (Z.to_nat (k - i)) = Some None)).
    { intro b. split.
      - intros [H1 H2]. split; [lia|]. split; [lia|].
        replace (Z.to_nat (k - i)) with (S (Z.to_nat (k - (i + 1)))) by lia. exact H2.
      - intros (H1 & H2 & H3). split; [lia|].
        replace (Z.to_nat (k - i)) with (S (Z.to_nat (k - (i + 1)))) in H3 by lia. exact H3. }
    destruct x as [t|]; cbn [null_positions].
    + rewrite IH by lia. rewrite (G (Some t)). split; [tauto|]. intros [H1 H2]. repeat split; try assumption.
      intros ->. rewrite Z.sub_diag in H2. discriminate.
    + unfold mem_str. cbn [existsb]. rewrite orb_true_iff. fold (mem_str (dec k) (null_positions (i + 1) l)).
      rewrite IH by lia. rewrite (G None). rewrite dec_eqb by lia. split.
      * intros [H|H]; [|tauto]. assert (k = i) by lia. subst k. rewrite Z.sub_diag. split; [lia|reflexivity].
      * intros [H1 H2]. destruct (Z.eq_dec k i); [left; lia|right; tauto].
Qed.

(** ** Styles *)
Definition xf_strs (l : list ystyle) : list str := map dec (z_xfs l).

Lemma scan_styles_ok l : forall xfs fms, forallb ystyle_ok l = true ->
  xlsx_scan_styles (flat_map ystyle_events l) xfs fms =
  Ok (xfs ++ map dec (z_xfs l),
      fold_left (fun d p => dset str_eqb d (dec (fst p)) (first_section (snd p))) (z_fmts l) fms).
Proof.
  induction l as [|x l IH]; intros xfs fms H; [cbn; now rewrite app_nil_r|].
  cbn [forallb] in H. apply andb_prop in H as [Hx H]. cbn [flat_map].
  destruct x as [i c|f a|f|e]; cbn [ystyle_events ystyle_ok] in *.
  - cbn [app xlsx_scan_styles]. change (str_eqb (s "numFmt") (s "numFmt")) with true. cbv iota.
    change (attr_req [(s "numFmtId", dec i); (s "formatCode", c)] (s "formatCode")) with (@Ok str c).
    change (attr_req [(s "numFmtId", dec i); (s "formatCode", c)] (s "numFmtId")) with (@Ok str (dec i)).
    cbn [bind]. rewrite IH by exact H. reflexivity.
  - apply andb_prop in Hx as [Hf Ha]. cbn [app xlsx_scan_styles].
    change (str_eqb (s "xf") (s "numFmt")) with false. change (str_eqb (s "xf") (s "xf")) with true. cbv iota. cbn [andb].
    assert (Hid : exists v, attr ((s "numFmtId", dec f) :: a ++ [(s "xfId", [48])]) (s "xfId") = Some v).
    { unfold attr. cbn [dget]. change (str_eqb (s "xfId") (s "numFmtId")) with false. cbv iota.
      clear. induction a as [|[p q] a IH]; cbn [app dget].
      - eexists. reflexivity.
      - destruct (str_eqb (s "xfId") p); [eexists; reflexivity|exact IH]. }
    destruct Hid as [v Hv]. rewrite Hv.
    change (attr_req ((s "numFmtId", dec f) :: a ++ [(s "xfId", [48])]) (s "numFmtId")) with (@Ok str (dec f)).
    cbn [bind]. rewrite IH by exact H. unfold z_xfs, z_fmts. cbn [flat_map app map]. now rewrite <- app_assoc.
  - cbn [app xlsx_scan_styles]. change (str_eqb (s "xf") (s "numFmt")) with false. cbv iota.
    change (attr [(s "numFmtId", dec f)] (s "xfId")) with (@None str). rewrite andb_false_r. now apply IH.
  - destruct e as [t a|t|t]; cbn [app xlsx_scan_styles]; [|now apply IH|now apply IH].
    cbn [tag_in existsb] in Hx. rewrite orb_false_r in Hx.
    apply negb_true_iff, orb_false_elim in Hx as [H1 H2]. rewrite H1, H2. cbn [andb]. now apply IH.
Qed.

Lemma keyed_In l : forall i p q, In (p, q) (keyed i l) -> exists k, p = dec (i + Z.of_nat k) /\ nth_error l k = Some q.
Proof.
  induction l as [|x l IH]; intros i p q H; [destruct H|]. destruct H as [H|H].
  - exists O. rewrite Z.add_0_r. split; [congruence|cbn; congruence].
  - apply IH in H as (k & E & Hk). exists (S k). split; [rewrite E; f_equal; lia|exact Hk].
Qed.
Lemma In_keyed l : forall i k q, nth_error l k = Some q -> In (dec (i + Z.of_nat k), q) (keyed i l).
Proof.
  induction l as [|x l IH]; intros i k q H; [destruct k; discriminate|]. destruct k as [|k].
  - cbn in H. left. rewrite Z.add_0_r. congruence.
  - cbn [nth_error] in H. right. replace (i + Z.of_nat (S k)) with (i + 1 + Z.of_nat k) by lia. now apply IH.
Qed.
(** The key [dec k] has exactly the k-th format. *)
Lemma keyed_unique l k q : In (dec (Z.of_nat k), q) (keyed 0 l) <-> nth_error l k = Some q.
Proof.
  split; intro H.
  - apply keyed_In in H as (j & E & H). apply dec_inj in E; [|lia|lia]. now replace k with j by lia.
  - apply In_keyed with (i := 0) in H. exact H.
Qed.

Lemma builtin_keys_ok ids l : forall i, Forall (fun f => 0 <= f) l ->
  builtin_keys ids (keyed i (map dec l)) =
  Ok (map fst (filter (fun p => match py_int (snd p) with Ok n => mem_Z n ids | Err _ => false end) (keyed i (map dec l)))).
Proof.
  induction l as [|f l IH]; intros i H; [reflexivity|]. cbn [map keyed builtin_keys filter snd].
  inversion H as [|? ? Hf Hl]; subst.
  rewrite py_int_dec by exact Hf. cbn [bind]. rewrite IH by exact Hl. cbn [bind]. destruct (mem_Z f ids); reflexivity.
Qed.

Lemma z_xfs_nonneg l : forallb ystyle_ok l = true -> Forall (fun f => 0 <= f) (z_xfs l).
Proof.
  intro H. apply Forall_forall. intros f Hf. unfold z_xfs in Hf. apply in_flat_map in Hf as (x & Hx & Hf).
  rewrite forallb_forall in H. specialize (H x Hx). destruct x as [i c|g a|g|e]; cbn in Hf; try contradiction.
  destruct Hf as [->|[]]. cbn [ystyle_ok] in H. apply andb_prop in H as [H _]. lia.
Qed.
Lemma z_fmts_nonneg l : forallb ystyle_ok l = true -> forall i c, In (i, c) (z_fmts l) -> 0 <= i.
Proof.
  intros H i c Hf. unfold z_fmts in Hf. apply in_flat_map in Hf as (x & Hx & Hf).
  rewrite forallb_forall in H. specialize (H x Hx). destruct x as [i' c'|g a|g|e]; cbn in Hf; try contradiction.
  destruct Hf as [E|[]]. cbn [ystyle_ok] in H. assert (i' = i) by congruence. lia.
Qed.

Lemma fms_fold l : (forall i c, In (i, c) l -> 0 <= i) -> forall d, NoDup (map fst d) ->
  let d' := fold_left (fun d p => dset str_eqb d (dec (fst p)) (first_section (snd p))) l d in
  NoDup (map fst d') /\ forall f, 0 <= f ->
    dget str_eqb d' (dec f) =
    fold_left (fun acc p => if fst p =? f then Some (first_section (snd p)) else acc) l (dget str_eqb d (dec f)).
Proof.
  induction l as [|[i c] l IH]; intros Hl d Hd d'; [split; [exact Hd|reflexivity]|].
  subst d'. cbn [fold_left fst snd].
  destruct (IH (fun i c H => Hl i c (or_intror H)) (dset str_eqb d (dec i) (first_section c))) as [H1 H2].
  - now apply dset_nodup_str.
  - split; [exact H1|]. intros f Hf. rewrite H2 by exact Hf. f_equal.
    rewrite dget_dset_str. rewrite dec_eqb; [|exact Hf|apply (Hl i c); now left].
    rewrite Z.eqb_sym. destruct (i =? f); reflexivity.
Qed.

(** What the property asks for, given the class of a custom code. *)
Definition ystyle_kind (numeric temporal : str -> bool) (fmts : list (Z * str)) (f : Z) : option Z :=
  let custom p := match last_fmt f fmts with Some c => p c | None => false end in
  if builtin_numeric f || custom numeric then Some 0x20
  else if builtin_temporal f || custom temporal then Some 0x24
  else None.

Lemma mem_builtin_numeric f : mem_Z f NUMERIC_STYLES = builtin_numeric f.
Proof. unfold mem_Z, NUMERIC_STYLES, builtin_numeric. cbn [existsb]. lia. Qed.
Lemma mem_builtin_temporal f : mem_Z f TEMPORAL_STYLES = builtin_temporal f.
Proof. unfold mem_Z, TEMPORAL_STYLES, builtin_temporal. cbn [existsb]. lia. Qed.

Definition is_num (c : str) : bool := str_eqb (first_section c) (s "0") || has_dot00 (first_section c).

Lemma class_mem w l fms k f : forallb ystyle_ok l = true ->
  fms = fold_left (fun d p => dset str_eqb d (dec (fst p)) (first_section (snd p))) (z_fmts l) [] ->
  nth_error (z_xfs l) k = Some f -> w <> FOther ->
  mem_str (dec (Z.of_nat k)) (flat_map (class_keys w (keyed 0 (map dec (z_xfs l)))) fms) =
  match last_fmt f (z_fmts l) with
  | Some c => match w, fmt_class (first_section c) with
              | FNumeric, FNumeric | FTemporal, FTemporal => true | _, _ => false end
  | None => false
  end.
Proof.
  intros Hl Hfms Hk Hw.
  destruct (fms_fold (z_fmts_nonneg Hl) (d := [])) as [Hd Hg]; [constructor|]. rewrite <- Hfms in Hd, Hg.
  assert (Hf0 : 0 <= f).
  { pose proof (z_xfs_nonneg Hl) as G. rewrite Forall_forall in G. apply G. eapply nth_error_In. exact Hk. }
  specialize (Hg f Hf0). cbn [dget] in Hg.
  assert (Hg' : dget str_eqb fms (dec f) = option_map first_section (last_fmt f (z_fmts l))).
  { rewrite Hg. exact (fold_left_option_map first_section f (z_fmts l) None). }
  assert (Hx : forall g, In (dec (Z.of_nat k)) (xf_ids (keyed 0 (map dec (z_xfs l))) g) <-> g = dec f).
  { intro g. unfold xf_ids. rewrite in_map_iff. split.
    - intros ([p q] & E & H). cbn [fst] in E. subst p. apply filter_In in H as [H E]. cbn [snd] in E.
      apply str_eqb_eq in E. subst q. apply keyed_unique in H. rewrite nth_error_map, Hk in H. cbn [option_map] in H. congruence.
    - intros ->. exists (dec (Z.of_nat k), dec f). split; [reflexivity|]. apply filter_In. split.
      + apply keyed_unique. rewrite nth_error_map, Hk. reflexivity.
      + cbn [snd]. apply str_eqb_refl. }
  assert (Hm : mem_str (dec (Z.of_nat k)) (flat_map (class_keys w (keyed 0 (map dec (z_xfs l)))) fms) = true
    <-> exists c, dget str_eqb fms (dec f) = Some c /\
        match w, fmt_class c with FNumeric, FNumeric | FTemporal, FTemporal => true | _, _ => false end = true).
  { rewrite mem_str_In, in_flat_map. split.
    - intros ([g c] & Hin & H). unfold class_keys in H. cbn [fst snd] in H.
      exists c. destruct w, (fmt_class c) eqn:Ec; try contradiction; apply Hx in H; subst g;
        (split; [now apply dget_In_str|reflexivity]).
    - intros (c & Hc & H). apply dget_In_str in Hc; [|exact Hd]. exists (dec f, c). split; [exact Hc|].
      unfold class_keys. cbn [fst snd]. destruct w, (fmt_class c); try discriminate; now apply Hx. }
  rewrite Hg' in Hm. destruct (last_fmt f (z_fmts l)) as [c|]; cbn [option_map] in Hm.
  - destruct (mem_str _ _).
    + destruct (proj1 Hm eq_refl) as (c' & E & H). assert (c' = first_section c) by congruence. subst c'. now rewrite H.
    + destruct w, (fmt_class (first_section c)) eqn:Ec; try reflexivity; exfalso;
        enough (false = true) by discriminate; apply Hm; exists (first_section c); rewrite Ec; split; reflexivity.
  - destruct (mem_str _ _); [|reflexivity]. destruct (proj1 Hm eq_refl) as (c' & E & _). discriminate.
Qed.

Lemma builtin_mem ids l k f : forallb ystyle_ok l = true -> nth_error (z_xfs l) k = Some f ->
  mem_str (dec (Z.of_nat k)) (map fst (filter (fun p => match py_int (snd p) with Ok n => mem_Z n ids | Err _ => false end)
     (keyed 0 (map dec (z_xfs l))))) = mem_Z f ids.
Proof.
  intros Hl Hk.
  assert (Hf0 : 0 <= f).
  { pose proof (z_xfs_nonneg Hl) as G. rewrite Forall_forall in G. apply G. eapply nth_error_In. exact Hk. }
  match goal with |- ?a = _ => assert (E : a = true <-> mem_Z f ids = true) end.
  { rewrite mem_str_In, in_map_iff. split.
    - intros ([p q] & E & H). cbn [fst] in E. subst p. apply filter_In in H as [H E]. cbn [snd] in E.
      apply keyed_unique in H. rewrite nth_error_map, Hk in H. cbn [option_map] in H. assert (q = dec f) by congruence. subst q.
      now rewrite py_int_dec in E.
    - intro H. exists (dec (Z.of_nat k), dec f). split; [reflexivity|]. apply filter_In. split.
      + apply keyed_unique. rewrite nth_error_map, Hk. reflexivity.
      + cbn [snd]. now rewrite py_int_dec. }
  destruct (mem_str _ _), (mem_Z f ids); try reflexivity; [symmetry; now apply E|now apply E].
Qed.

Lemma mem_str_app k a b : mem_str k (a ++ b) = mem_str k a || mem_str k b.
Proof. unfold mem_str. apply existsb_app. Qed.

Lemma xlsx_styles_exact l : forallb ystyle_ok l = true ->
  exists st, xlsx_styles (flat_map ystyle_events l) = Ok st /\
    forall k f, nth_error (z_xfs l) k = Some f ->
      style_get st (dec (Z.of_nat k)) =
      ystyle_kind is_num (fun c => fmt_temporal (first_section c)) (z_fmts l) f.
Proof.
  intro Hl. unfold xlsx_styles. rewrite scan_styles_ok by exact Hl. cbn [app bind]. unfold xlsx_styles_of.
  rewrite !builtin_keys_ok by (now apply z_xfs_nonneg). cbn [bind]. eexists. split; [reflexivity|].
  intros k f Hk. unfold style_get. cbn [st_numeric st_temporal]. rewrite !mem_str_app.
  rewrite !(builtin_mem _ Hl Hk), mem_builtin_numeric, mem_builtin_temporal.
  rewrite !(class_mem Hl eq_refl Hk) by discriminate. unfold ystyle_kind.
  destruct (last_fmt f (z_fmts l)) as [c|].
  - unfold fmt_class. fold (is_num c). destruct (is_num c); cbn [orb]; rewrite ?orb_true_r; [reflexivity|].
    destruct (fmt_temporal (first_section c)), (builtin_numeric f), (builtin_temporal f); reflexivity.
  - rewrite !orb_false_l, !orb_false_r. reflexivity.
Qed.

(** ".00" occurs in [t]; the first section of a code. *)
Definition contains_dot00 (t : str) : Prop := exists a b, t = a ++ 46 :: 48 :: 48 :: b.
Lemma has_dot00_spec t : has_dot00 t = true <-> contains_dot00 t.
Proof.
  induction t as [|c t IH].
  - split; [discriminate|]. intros (a & b & E). destruct a; discriminate.
  - cbn [has_dot00]. rewrite orb_true_iff, IH. split.
    + intros [H|(a & b & ->)]; [|now exists (c :: a), b].
      destruct t as [|x [|y t]]; try discriminate. exists [], t. cbn.
      replace c with 46 by lia. replace x with 48 by lia. replace y with 48 by lia. reflexivity.
    + intros (a & b & E). destruct a as [|z a].
      * left. cbn in E. assert (c = 46) by congruence. assert (t = 48 :: 48 :: b) by congruence. subst. reflexivity.
      * right. cbn in E. exists a, b. congruence.
Qed.
Lemma first_section_spec c : exists rest, existsb (Z.eqb ch_semi) (first_section c) = false
  /\ (c = first_section c \/ c = first_section c ++ ch_semi :: rest).
Proof.
  induction c as [|x c (rest & H1 & H2)]; [exists []; now split; [|left]|]. cbn [first_section].
  destruct (Z.eqb_spec x ch_semi) as [->|Hx].
  - exists c. split; [reflexivity|now right].
  - exists rest. cbn [existsb]. rewrite H1. split; [rewrite orb_false_r; lia|].
    destruct H2 as [H2|H2]; [left|right]; cbn [app]; congruence.
Qed.

(** ** Row numbers of delivered cells *)
Section Rows.
  Context (styles : str -> option Z) (nv : str -> bool) (sc : list Z).
  Notation exp_row := (xexpected_row styles nv sc).
  Notation nonempty := (xrow_nonempty styles nv sc).

  Lemma enum_In A (l : list A) : forall i x y, In (x, y) (enum_from i l) -> i <= x /\ nth_error l (Z.to_nat (x - i)) = Some y.
  Proof.
    induction l as [|a l IH]; intros i x y H; [destruct H|]. cbn [enum_from] in H. destruct H as [H|H].
    - assert (x = i) by congruence. subst x. rewrite Z.sub_diag. split; [lia|]. cbn. congruence.
    - apply IH in H as [H1 H2]. split; [lia|]. replace (Z.to_nat (x - i)) with (S (Z.to_nat (x - (i + 1)))) by lia. exact H2.
  Qed.
  Lemma exp_row_row i r c : In c (exp_row i r) -> c_row c = i.
  Proof.
    unfold xexpected_row, xexpected. intro H. apply in_flat_map in H as (x & _ & H).
    apply in_flat_map in H as (t & _ & H).
    destruct (blank t || nv (strip t) || existsb (Z.eqb (x_col x)) sc); [destruct H|].
    destruct H as [<-|[]]. reflexivity.
  Qed.

  Lemma xlsx_keep_row_index pre rows post skip take fail c :
    xsheet_ok pre rows post = true -> 0 <= skip -> 0 <= take ->
    In c (cells_of (fst (xlsx_iter styles nv skip take true sc (xsheet_events pre rows post) fail))) ->
    exists r, nth_error rows (Z.to_nat (c_row c + skip)) = Some r /\ 0 <= c_row c /\ In c (exp_row (c_row c) r).
  Proof.
    intros H Hs Ht Hc. rewrite xlsx_keep_cells in Hc by assumption.
    apply in_flat_map in Hc as ([i r] & Hin & Hc). cbn [fst snd] in Hc.
    match type of Hc with In _ (if ?b then _ else _) => destruct b eqn:E end; [|destruct Hc].
    apply andb_prop in E as [_ E]. pose proof (exp_row_row Hc) as Er. rewrite Er.
    apply enum_In in Hin as [_ Hin]. exists r. rewrite Z.sub_0_r in Hin.
    replace (i - skip + skip) with i by lia. repeat split; [exact Hin|lia|exact Hc].
  Qed.

  Lemma enum_from_shift A B (f : Z -> A -> list B) l : forall i j,
    flat_map (fun p => f (fst p) (snd p)) (enum_from (i + j) l)
    = flat_map (fun p => f (fst p + j) (snd p)) (enum_from i l).
  Proof.
    induction l as [|x l IH]; intros i j; [reflexivity|]. cbn [enum_from flat_map fst snd]. f_equal.
    replace (i + j + 1) with (i + 1 + j) by lia. apply IH.
  Qed.

  (** Leading empty rows deliver nothing and are not counted; later empty rows are counted. *)
  Lemma skip_leading rows : forall i e0, 0 <= i <= e0 ->
    let e := e0 + leading nonempty rows in
    flat_map (fun p => exp_row (Z.max 0 (fst p - (i + leading nonempty rows))) (snd p)) (enum_from i rows)
    = flat_map (fun p => exp_row (fst p) (snd p)) (enum_from 0 (skipn (Z.to_nat (leading nonempty rows)) rows)).
  Proof.
    intros i e0 _ e. clear e e0. revert i.
    induction rows as [|r rows IH]; intro i; [reflexivity|].
    cbn [leading]. destruct (nonempty r) eqn:Er.
    - change (Z.to_nat 0) with O. cbn [skipn].
      replace (enum_from i (r :: rows)) with (enum_from (0 + i) (r :: rows)) by reflexivity.
      rewrite (@enum_from_shift _ _ (fun x y => exp_row (Z.max 0 (x - (i + 0))) y)).
      apply flat_map_ext_in. intros [x y] Hin. apply enum_from_bound in Hin. cbn [fst snd]. f_equal. lia.
    - pose proof (@leading_ge0 _ nonempty rows).
      replace (Z.to_nat (1 + leading nonempty rows)) with (S (Z.to_nat (leading nonempty rows))) by lia.
      cbn [skipn enum_from flat_map fst snd].
      assert (E : exp_row (Z.max 0 (i - (i + (1 + leading nonempty rows)))) r = []).
      { pose proof (@exp_row_nil styles nv sc (Z.max 0 (i - (i + (1 + leading nonempty rows)))) r) as G.
        rewrite Er in G. destruct (exp_row _ r); [reflexivity|discriminate]. }
      rewrite E. cbn [app]. rewrite <- (IH (i + 1)). apply flat_map_ext. intros [x y]. cbn [fst snd]. f_equal. lia.
  Qed.

  Lemma xlsx_collapse_all pre rows post fail : xsheet_ok pre rows post = true ->
    let e := leading nonempty rows in
    cells_of (fst (xlsx_iter styles nv 0 0 false sc (xsheet_events pre rows post) fail)) =
    flat_map (fun p => exp_row (Z.max 0 (fst p - e)) (snd p)) (enum_from 0 rows).
  Proof.
    intros H e. rewrite xlsx_collapse_cells by (assumption || lia).
    assert (G := @skip_leading rows 0 0 ltac:(lia)). cbn zeta in G. rewrite Z.add_0_l in G. fold e in G.
    rewrite G. apply flat_map_ext. intros [x y]. reflexivity.
  Qed.

  (** When no row is empty after the first non-empty one, that is the property's count. *)
  Lemma count_all_nonempty rows : forall i, forallb nonempty rows = true -> count_before nonempty i rows = enum_from i rows.
  Proof.
    induction rows as [|r rows IH]; intros i H; [reflexivity|]. cbn [forallb] in H. apply andb_prop in H as [Hr H].
    cbn [count_before enum_from]. rewrite Hr, IH by exact H. reflexivity.
  Qed.
  Lemma count_leading rows :
    forallb nonempty (skipn (Z.to_nat (leading nonempty rows)) rows) = true ->
    flat_map (fun p => exp_row (fst p) (snd p)) (count_before nonempty 0 rows)
    = flat_map (fun p => exp_row (fst p) (snd p)) (enum_from 0 (skipn (Z.to_nat (leading nonempty rows)) rows)).
  Proof.
    induction rows as [|r rows IH]; [reflexivity|]. cbn [leading].
    destruct (nonempty r) eqn:Er.
    - change (Z.to_nat 0) with O. cbn [skipn]. intro H. now rewrite count_all_nonempty.
    - pose proof (@leading_ge0 _ nonempty rows).
      replace (Z.to_nat (1 + leading nonempty rows)) with (S (Z.to_nat (leading nonempty rows))) by lia.
      cbn [skipn count_before flat_map fst snd]. rewrite Er. intro H1. rewrite <- IH by exact H1.
      pose proof (@exp_row_nil styles nv sc 0 r) as G. rewrite Er in G. destruct (exp_row 0 r); [reflexivity|discriminate].
  Qed.
  Lemma xlsx_collapse_counted pre rows post fail : xsheet_ok pre rows post = true ->
    forallb nonempty (skipn (Z.to_nat (leading nonempty rows)) rows) = true ->
    cells_of (fst (xlsx_iter styles nv 0 0 false sc (xsheet_events pre rows post) fail)) =
    flat_map (fun p => exp_row (fst p) (snd p)) (count_before nonempty 0 rows).
  Proof.
    intros H Hn. rewrite xlsx_collapse_cells by (assumption || lia). rewrite count_leading by exact Hn.
    apply flat_map_ext. intros [x y]. reflexivity.
  Qed.

  Lemma exp_row_cols i r : exp_row i r =
    filter (fun c => negb (existsb (Z.eqb (c_col c)) sc)) (xexpected_row styles nv [] i r).
  Proof.
    unfold xexpected_row. induction (xrow_cells r) as [|c l IH]; [reflexivity|]. cbn [flat_map].
    rewrite filter_app, <- IH. f_equal. unfold xexpected. induction (x_texts c) as [|t ts IHt]; [reflexivity|].
    cbn [flat_map]. rewrite filter_app, <- IHt. f_equal. cbn [existsb]. rewrite orb_false_r.
    destruct (blank t || nv (strip t)); [reflexivity|]. cbn [orb filter c_col].
    destruct (existsb (Z.eqb (x_col c)) sc); reflexivity.
  Qed.
  Lemma nonempty_cols r : nonempty r = true -> xrow_nonempty styles nv [] r = true.
  Proof.
    unfold xrow_nonempty. rewrite exp_row_cols. destruct (xexpected_row styles nv [] 0 r); [discriminate|reflexivity].
  Qed.
  Lemma filter_flat_map A B (f : A -> list B) p l : filter p (flat_map f l) = flat_map (fun x => filter p (f x)) l.
  Proof. induction l as [|x l IH]; [reflexivity|]. cbn [flat_map]. now rewrite filter_app, IH. Qed.
  Lemma xlsx_skip_cols pre r rows post fail : xsheet_ok pre (r :: rows) post = true -> nonempty r = true ->
    cells_of (fst (xlsx_iter styles nv 0 0 true sc (xsheet_events pre (r :: rows) post) fail)) =
    filter (fun c => negb (existsb (Z.eqb (c_col c)) sc))
      (cells_of (fst (xlsx_iter styles nv 0 0 true [] (xsheet_events pre (r :: rows) post) fail))).
  Proof.
    intros H Hr. rewrite !xlsx_whole_sheet by (try assumption; now apply nonempty_cols).
    rewrite filter_flat_map. apply flat_map_ext. intros [i x]. apply exp_row_cols.
  Qed.

  Lemma xlsx_take_first pre r rows post take fail : xsheet_ok pre (r :: rows) post = true -> nonempty r = true ->
    0 < take ->
    cells_of (fst (xlsx_iter styles nv 0 take true sc (xsheet_events pre (r :: rows) post) fail)) =
    flat_map (fun p => if fst p <=? take then exp_row (fst p) (snd p) else []) (enum_from 0 (r :: rows)).
  Proof.
    intros H Hr Ht. rewrite xlsx_keep_cells by (assumption || lia). cbn [quiet_from].
    change (0 <=? 0) with true. rewrite Hr. cbn [andb]. replace (take + 0 + 2 * 0) with take by lia.
    apply flat_map_ext_in. intros [i x] Hin. apply enum_from_bound in Hin. cbn [fst snd].
    replace (take =? 0) with false by lia. cbn [orb]. replace (0 <=? i) with true by lia.
    rewrite andb_true_r, Z.sub_0_r. reflexivity.
  Qed.
End Rows.
