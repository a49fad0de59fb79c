(** Integer narrowing, timestamps to serials, multi-format parsing, date parts, bitmaps. *)
From Verif Require Import Py PyFacts Casts CastsSpec FloatFacts CastsProofs.
From Coq Require Import Reals Lra Psatz.
From Flocq.Core Require Import Core.
From Flocq.IEEE754 Require Import BinarySingleNaN Binary Bits.
Set Implicit Arguments. Unset Strict Implicit.
Open Scope Z_scope.

(** ** Narrowing *)
Lemma power_of_ten_R p : (p <= 22)%nat ->
  fin (power_of_ten p) = true /\ B2R64 (power_of_ten p) = IZR (10 ^ Z.of_nat p).
Proof.
  intro H. destruct (Nat.leb_spec p 8) as [L|L].
  - unfold power_of_ten. replace (p <? 9)%nat with true by (symmetry; apply Nat.ltb_lt; lia).
    assert (B : Z.abs (10 ^ Z.of_nat p) <= 2 ^ 53).
    { rewrite Z.abs_eq by (apply Z.pow_nonneg; lia). apply Z.le_trans with (10 ^ 8); [apply Z.pow_le_mono_r; lia|lia]. }
    split; [now apply f8_of_Z_fin|now apply f8_of_Z_B2R].
  - assert (K : forall k, (k <= 13)%nat -> fin (pow10_big k) = true /\ B2R64 (pow10_big k) = IZR (10 ^ (Z.of_nat k + 9))).
    { induction k as [|k IH]; intro Hk.
      - split; [reflexivity|]. cbn [pow10_big]. rewrite f8_of_Z_B2R by lia. reflexivity.
      - destruct IH as [F1 R1]; [lia|]. cbn [pow10_big].
        destruct (@f8_of_Z_R 10) as (T1 & T2 & _); [lia|].
        assert (E : 10 ^ (Z.of_nat k + 9) * 10 = 10 ^ (Z.of_nat (S k) + 9)).
        { rewrite <- (Z.pow_1_r 10) at 2. rewrite <- Z.pow_add_r by lia. f_equal. lia. }
        destruct (@fmul_R (pow10_big k) (f8_of_Z 10) F1 T2) as [M1 M2].
        + rewrite R1, T1, <- mult_IZR, E. apply IZR_bound with (k := 100); [|lia].
          rewrite Z.abs_eq by (apply Z.pow_nonneg; lia).
          apply Z.le_trans with (10 ^ 22); [apply Z.pow_le_mono_r; lia|vm_compute; discriminate].
        + split; [exact M2|]. rewrite M1, R1, T1, <- mult_IZR, E.
          apply round_generic; [apply valid_rnd_N|].
          assert (E5 : 10 ^ (Z.of_nat (S k) + 9) = 5 ^ (Z.of_nat (S k) + 9) * 2 ^ (Z.of_nat (S k) + 9)).
          { rewrite <- Z.pow_mul_l. reflexivity. }
          apply generic_format_FLT. exists (Float radix2 (5 ^ (Z.of_nat (S k) + 9)) (Z.of_nat (S k) + 9)).
          * unfold F2R. cbn [Fnum Fexp]. rewrite E5, mult_IZR, bpow_IZR by lia. reflexivity.
          * cbn [Fnum]. rewrite Z.abs_eq by (apply Z.pow_nonneg; lia).
            apply Z.le_lt_trans with (5 ^ 22); [apply Z.pow_le_mono_r; lia|vm_compute; reflexivity].
          * cbn [Fexp]. lia. }
    unfold power_of_ten. replace (p <? 9)%nat with false by (symmetry; apply Nat.ltb_ge; lia).
    destruct (K (p - 9)%nat) as [K1 K2]; [lia|]. split; [exact K1|]. rewrite K2. f_equal. f_equal. lia.
Qed.

Lemma feqb_fin x y : feqb x y = true -> fin x = true -> fin y = true /\ B2R64 x = B2R64 y.
Proof.
  intros H Fx. destruct (fin y) eqn:Fy.
  - split; [reflexivity|]. rewrite feqb_R in H by assumption. now apply Req_bool_true_iff in H || (revert H; case Req_bool_spec; congruence).
  - destruct x as [s1|s1| |s1 m1 e1], y as [s2|s2| |s2 m2 e2]; cbn in Fx, Fy; try discriminate; cbn in H; destruct s2; discriminate.
Qed.

Lemma rnd_rel2 x : (bpow radix2 (-1022) <= Rabs x)%R \/ x = 0%R -> (Rabs (rnd x - x) <= bpow radix2 (-53) * Rabs x)%R.
Proof.
  intros [H| ->]; [now apply rnd_rel|]. rewrite rnd_int by lia. rewrite Rminus_0_r, Rabs_R0. lra.
Qed.

Lemma is_i8_close x p : 1 <= p <= 22 -> fin x = true -> (Rabs (B2R64 x) * IZR (10 ^ p) <= IZR (2 ^ 51))%R ->
  f8_is_i8 [x] p = true -> (Rabs (B2R64 x - IZR (Ztrunc (B2R64 x))) < / IZR (10 ^ p))%R.
Proof.
  intros Hp Fx Hb H. unfold f8_is_i8 in H. cbn [existsb] in H.
  rewrite orb_false_r, Bool.negb_involutive in H. destruct (ftrunc_R x) as [T1 T2].
  apply feqb_fin in H; [|congruence]. destruct H as [Fr Er]. rewrite T1 in Er.
  unfold np_round in Fr, Er. replace (p =? 0) with false in * by lia. replace (0 <? p) with true in * by lia.
  cbv zeta in Fr, Er. destruct (@power_of_ten_R (Z.to_nat p)) as [P1 P2]; [lia|]. rewrite Z2Nat.id in P2 by lia.
  set (P := power_of_ten (Z.to_nat p)) in *. set (q := IZR (10 ^ p)) in *.
  assert (Q1 : (1 <= q)%R) by (apply IZR_le; assert (0 < 10 ^ p) by (apply Z.pow_pos_nonneg; lia); lia).
  assert (Q2 : (q <= IZR (10 ^ 22))%R) by (apply IZR_le, Z.pow_le_mono_r; lia).
  set (xr := B2R64 x) in *.
  assert (HB : (Rabs (xr * q) <= bpow radix2 51)%R).
  { rewrite Rabs_mult, (Rabs_pos_eq q) by lra. rewrite bpow_IZR by lia. exact Hb. }
  destruct (@fmul_R x P Fx P1) as [M1 M2].
  { rewrite P2. eapply Rle_trans; [exact HB|]. apply bpow_le. lia. }
  fold xr in M1. rewrite P2 in M1. destruct (frint_R (fmul x P)) as [N1 N2]. rewrite M1 in N1.
  assert (E1 : (Rabs (rnd (xr * q) - xr * q) <= / 8)%R).
  { eapply Rle_trans; [apply rnd_err with (k := 51); [lia|exact HB]|]. change (bpow radix2 (51 - 54)) with (/ 8)%R. lra. }
  set (y := rnd (xr * q)) in *. set (N := ZnearestE y) in *.
  assert (E2 : (Rabs (IZR N - y) <= / 2)%R).
  { rewrite Rabs_minus_sym. apply Znearest_half. }
  assert (HN : (Rabs (IZR N) <= IZR (2 ^ 51) + 1)%R).
  { rewrite bpow_IZR in HB by lia. apply Rabs_le_inv in E1, E2, HB. apply Rabs_le. lra. }
  destruct (@fdiv_R (frint (fmul x P)) P) as (D1 & D2 & _).
  { rewrite P2. lra. }
  { rewrite N1, P2. eapply Rle_trans; [apply Rabs_div_le; exact Q1|]. eapply Rle_trans; [exact HN|].
    rewrite <- plus_IZR. rewrite <- (Rabs_pos_eq (IZR (2 ^ 51 + 1))) by (apply IZR_le; lia).
    apply IZR_bound with (k := 60); lia. }
  rewrite D1, N1, P2 in Er. set (t := IZR (Ztrunc xr)) in *.
  assert (E3 : (Rabs (t - IZR N / q) <= bpow radix2 (-53) * Rabs (IZR N / q))%R).
  { rewrite Er. apply rnd_rel2. destruct (Z.eq_dec N 0) as [->|N0]; [right; unfold Rdiv; ring|left].
    assert (L : (1 <= Rabs (IZR N))%R) by (rewrite <- abs_IZR; apply IZR_le; lia).
    unfold Rdiv. rewrite Rabs_mult, (Rabs_pos_eq (/ q)) by (left; apply Rinv_0_lt_compat; lra).
    apply Rle_trans with (/ IZR (10 ^ 22))%R.
    - apply Rle_trans with (bpow radix2 (-100)); [apply bpow_le; lia|].
      change (bpow radix2 (-100)) with (/ IZR (2 ^ 100))%R. apply Rinv_le; [apply IZR_lt; reflexivity|].
      apply IZR_le. vm_compute. discriminate.
    - rewrite <- (Rmult_1_l (/ IZR (10 ^ 22))). apply Rmult_le_compat; [lra| |exact L|].
      + left. apply Rinv_0_lt_compat, IZR_lt. reflexivity.
      + apply Rinv_le; lra. }
  assert (Qp : (0 < / q)%R) by (apply Rinv_0_lt_compat; lra).
  assert (E4 : (Rabs (t * q - IZR N) <= / 4 + / 100)%R).
  { replace (t * q - IZR N)%R with ((t - IZR N / q) * q)%R by (field; lra).
    rewrite Rabs_mult, (Rabs_pos_eq q) by lra.
    apply Rle_trans with (bpow radix2 (-53) * Rabs (IZR N / q) * q)%R; [apply Rmult_le_compat_r; lra|].
    unfold Rdiv at 1. rewrite Rabs_mult, (Rabs_pos_eq (/ q)) by lra.
    replace (bpow radix2 (-53) * (Rabs (IZR N) * / q) * q)%R with (bpow radix2 (-53) * Rabs (IZR N))%R by (field; lra).
    apply Rle_trans with (bpow radix2 (-53) * (IZR (2 ^ 51) + 1))%R; [apply Rmult_le_compat_l; [apply bpow_ge_0|exact HN]|].
    change (bpow radix2 (-53)) with (/ IZR (2 ^ 53))%R. change (2 ^ 53) with 9007199254740992.
    change (2 ^ 51) with 2251799813685248. lra. }
  assert (E5 : (Rabs ((xr - t) * q) < 1)%R).
  { apply Rabs_le_inv in E1, E2, E4. apply Rabs_def1; lra. }
  rewrite Rabs_mult, (Rabs_pos_eq q) in E5 by lra.
  apply Rmult_lt_reg_r with q; [lra|]. rewrite Rinv_l by lra. exact E5.
Qed.
Lemma f8_is_i8_all arr p : f8_is_i8 arr p = true -> forall x, In x arr -> f8_is_i8 [x] p = true.
Proof.
  unfold f8_is_i8. rewrite Bool.negb_true_iff. intros H x Hx. cbn [existsb]. rewrite orb_false_r.
  rewrite Bool.negb_true_iff. destruct (negb (feqb (ftrunc x) (np_round p x))) eqn:E; [|reflexivity].
  assert (K : existsb (fun x => negb (feqb (ftrunc x) (np_round p x))) arr = true) by (apply existsb_exists; eauto).
  congruence.
Qed.
(** A column that passes the test holds no NaN. *)
Lemma f8_is_i8_nonan x p : f8_is_i8 [x] p = true -> is_nan 53 1024 x = false.
Proof.
  unfold f8_is_i8. cbn [existsb]. rewrite orb_false_r, Bool.negb_involutive. intro H.
  destruct x; try reflexivity. cbn in H. discriminate.
Qed.

(** ** Timestamps to serials *)
Lemma ms_to_f8_day d : Z.abs d <= 50000000 ->
  fin (ms_to_f8_win (d * 86400000)) = true /\
  B2R64 (ms_to_f8_win (d * 86400000)) = IZR (if 1 <=? d then d + 25569 else d).
Proof.
  intro H. unfold ms_to_f8_win. destruct (1 <=? d) eqn:E.
  - replace (86400000 <=? d * 86400000) with true by lia. replace (-2203891200000 <=? d * 86400000) with true by lia.
    replace (d * 86400000 + (2209075200000 + 86400000)) with ((d + 25569) * 86400000) by lia.
    destruct (@fval_div (f8_of_Z ((d + 25569) * 86400000)) (f8_of_Z 86400000) (d + 25569) 86400000) as [A B];
      try lia; try (apply f8_of_Z_B2R; lia); try (apply f8_of_Z_fin; lia). now split.
  - replace (86400000 <=? d * 86400000) with false by lia. rewrite Z.add_0_r.
    destruct (@fval_div (f8_of_Z (d * 86400000)) (f8_of_Z 86400000) d 86400000) as [A B];
      try lia; try (apply f8_of_Z_B2R; lia); try (apply f8_of_Z_fin; lia). now split.
Qed.
Lemma ms_round_trip oob d : Z.abs d <= 50000000 ->
  f8_to_ms_win oob (ms_to_f8_win (d * 86400000)) = d * 86400000.
Proof.
  intro H. destruct (@ms_to_f8_day d H) as [A B].
  rewrite (@f8_to_ms_day oob _ _ A B) by (destruct (1 <=? d) eqn:E; lia).
  unfold zoffset. destruct (1 <=? d) eqn:E.
  - replace (1 <=? d + 25569) with true by lia. replace (d + 25569 <? 60) with false by lia. lia.
  - rewrite E. lia.
Qed.

(** ** Several formats *)
Section Formats.
  Context (parse : str -> str -> option Z).
  Fixpoint first_parse (fmts : list str) (t : str) : option Z :=
    match fmts with
    | [] => None
    | f :: r => match parse f t with Some v => Some v | None => first_parse r t end
    end.
  Context (parse_pos : forall f t v, parse f t = Some v -> 0 < v).
  Definition val0 (o : option Z) : Z := match o with Some v => v | None => 0 end.
  Definition fp (fmts : list str) (t : option str) : option Z :=
    match t with Some t => first_parse fmts t | None => None end.
  Lemma first_parse_pos fmts t v : first_parse fmts t = Some v -> 0 < v.
  Proof. induction fmts as [|f r IH]; cbn; [discriminate|]. destruct (parse f t) eqn:E; [intros [= <-]; eauto|exact IH]. Qed.
  Lemma first_parse_app a b t : first_parse (a ++ b) t = match first_parse a t with Some v => Some v | None => first_parse b t end.
  Proof. induction a as [|f a IH]; cbn; [reflexivity|]. destruct (parse f t); [reflexivity|exact IH]. Qed.
  Lemma step_val done f t :
    (if val0 (fp done t) =? 0 then strptime1 parse 0 f t else val0 (fp done t)) = val0 (fp (done ++ [f]) t).
  Proof.
    unfold fp, strptime1. destruct t as [t|]; [|reflexivity]. rewrite first_parse_app. cbn [first_parse].
    destruct (first_parse done t) as [v|] eqn:E; cbn [val0].
    - pose proof (@first_parse_pos done t v E). now replace (v =? 0) with false by lia.
    - cbn [Z.eqb]. destruct (parse f t) as [v|] eqn:Ep; cbn [val0].
      + pose proof (@parse_pos f t v Ep). now replace (v <? 0) with false by lia.
      + reflexivity.
  Qed.
  Lemma step_map done f arr :
    map (fun p => if snd p =? 0 then strptime1 parse 0 f (fst p) else snd p)
        (combine arr (map (fun t => val0 (fp done t)) arr))
    = map (fun t => val0 (fp (done ++ [f]) t)) arr.
  Proof. induction arr as [|t arr IH]; cbn [map combine]; [reflexivity|]. cbn [fst snd]. now rewrite step_val, IH. Qed.
  Lemma fp_nonneg fmts t : 0 <= val0 (fp fmts t).
  Proof.
    unfold fp. destruct t as [t|]; [|cbn; lia]. destruct (first_parse fmts t) as [v|] eqn:E; cbn; [|lia].
    pose proof (@first_parse_pos fmts t v E). lia.
  Qed.
  Lemma fp_zero fmts t : val0 (fp fmts t) = 0 <-> fp fmts t = None.
  Proof.
    unfold fp. destruct t as [t|]; [|now split]. destruct (first_parse fmts t) as [v|] eqn:E; cbn; [|now split].
    pose proof (@first_parse_pos fmts t v E). split; [lia|discriminate].
  Qed.
  Definition all_parsed (fmts : list str) (arr : list (option str)) : Prop :=
    forall t, In t arr -> fp fmts t <> None.
  Lemma mf_loop_ok fmts : forall done arr,
    (all_parsed (done ++ fmts) arr ->
     mf_loop parse 0 fmts arr (map (fun t => val0 (fp done t)) arr) = Ok (map (fun t => val0 (fp (done ++ fmts) t)) arr)) /\
    (~ all_parsed (done ++ fmts) arr ->
     mf_loop parse 0 fmts arr (map (fun t => val0 (fp done t)) arr) = Err ArrowInvalid).
  Proof.
    induction fmts as [|f r IH]; intros done arr.
    - rewrite app_nil_r. cbn [mf_loop]. destruct (existsb (fun v => v =? 0) (map (fun t => val0 (fp done t)) arr)) eqn:E.
      + split; [|reflexivity]. intro H. apply existsb_exists in E. destruct E as (v & Hv & Ev).
        apply in_map_iff in Hv. destruct Hv as (t & <- & Ht). apply Z.eqb_eq in Ev. apply fp_zero in Ev. now destruct (H t Ht).
      + split; [reflexivity|]. intro H. exfalso. apply H. intros t Ht N. apply fp_zero in N.
        assert (K : existsb (fun v => v =? 0) (map (fun t => val0 (fp done t)) arr) = true).
        { apply existsb_exists. exists (val0 (fp done t)). split; [apply in_map_iff; now exists t|now rewrite N]. }
        congruence.
    - cbn [mf_loop]. rewrite step_map.
      replace (done ++ f :: r) with ((done ++ [f]) ++ r) by now rewrite <- app_assoc.
      destruct (forallb (fun v => 0 <? v) (map (fun t => val0 (fp (done ++ [f]) t)) arr)) eqn:E; [|apply IH].
      assert (K : forall t, In t arr -> fp (done ++ [f]) t <> None).
      { intros t Ht N. apply fp_zero in N. rewrite forallb_forall in E.
        assert (P : In (val0 (fp (done ++ [f]) t)) (map (fun t => val0 (fp (done ++ [f]) t)) arr)) by (apply in_map_iff; now exists t).
        apply E in P. rewrite N in P. discriminate. }
      assert (K2 : forall t, In t arr -> fp ((done ++ [f]) ++ r) t = fp (done ++ [f]) t).
      { intros t Ht. specialize (K t Ht). unfold fp in *. destruct t as [t|]; [|congruence].
        rewrite (@first_parse_app (done ++ [f]) r). now destruct (first_parse (done ++ [f]) t). }
      split.
      + intros _. f_equal. apply map_ext_in. intros t Ht. now rewrite K2.
      + intro H. exfalso. apply H. intros t Ht. rewrite K2 by exact Ht. now apply K.
  Qed.
End Formats.

(** ** Date and time parts *)
Lemma dt_has_t_iff arr : dt_has_t arr = true <-> exists t, In t arr /\ t mod 86400000 <> 0.
Proof.
  unfold dt_has_t. rewrite existsb_exists. split; intros (t & A & B); exists t; (split; [exact A|]).
  - apply Bool.negb_true_iff in B. lia.
  - apply Bool.negb_true_iff. lia.
Qed.
Lemma dt_has_d_iff arr : dt_has_d arr = true <-> exists t, In t arr /\ 86400000 < t.
Proof. unfold dt_has_d. rewrite existsb_exists. split; intros (t & A & B); exists t; (split; [exact A|lia]). Qed.

(** ** Bitmaps *)
Lemma testbit_bits_value l : forall i, Z.testbit (bits_value l) (Z.of_nat i) = nth i l false.
Proof.
  induction l as [|b l IH]; intro i; cbn [bits_value].
  - rewrite Z.bits_0. now destruct i.
  - destruct i as [|i].
    + cbn [Z.of_nat nth]. rewrite Z.add_comm, Z.bit0_odd.
      destruct b; rewrite Z.add_comm, Z.odd_add_mul_2; reflexivity.
    + cbn [nth]. rewrite Nat2Z.inj_succ, <- Z.div2_bits by lia.
      replace (((if b then 1 else 0) + 2 * bits_value l) / 2) with (bits_value l); [apply IH|].
      destruct b; Z.div_mod_to_equations; lia.
Qed.
Lemma bitmap_short l : (1 <= List.length l <= 8)%nat -> bitmap l = [bits_value l].
Proof.
  intro H. unfold bitmap. destruct l as [|b l]; [cbn in H; lia|]. cbn [List.length bitmap_fuel].
  rewrite firstn_all2 by (cbn in *; lia). rewrite skipn_all2 by (cbn in *; lia). now destruct (List.length l).
Qed.
Lemma bool_short l : (1 <= List.length l <= 8)%nat -> bool_arrow_to_numpy (bitmap l) (zlen l) = l.
Proof.
  intro H. rewrite bitmap_short by exact H. unfold bool_arrow_to_numpy, unpackbits. cbn [flat_map].
  rewrite app_nil_r. unfold unpack_byte. cbn [map].
  pose proof (testbit_bits_value l 0) as B0. pose proof (testbit_bits_value l 1) as B1.
  pose proof (testbit_bits_value l 2) as B2. pose proof (testbit_bits_value l 3) as B3.
  pose proof (testbit_bits_value l 4) as B4. pose proof (testbit_bits_value l 5) as B5.
  pose proof (testbit_bits_value l 6) as B6. pose proof (testbit_bits_value l 7) as B7.
  cbn [Z.of_nat Pos.of_succ_nat Pos.succ] in B0, B1, B2, B3, B4, B5, B6, B7.
  rewrite B0, B1, B2, B3, B4, B5, B6, B7. clear B0 B1 B2 B3 B4 B5 B6 B7.
  do 9 (destruct l as [|? l]; [cbn in H; try lia; reflexivity|]). cbn in H. lia.
Qed.

(** ** Every bitmap *)
Lemma py_tail {A} (l : list A) n : 0 < n <= zlen l -> rev (py_slice l (Some (- n)) None) = firstn (Z.to_nat n) (rev l).
Proof.
  intro H. unfold py_slice, slice_bounds, clamp. replace (- n <? 0) with true by lia.
  replace (Z.min (Z.max (- n + zlen l) 0) (zlen l)) with (zlen l - n) by lia.
  rewrite firstn_all2 by (unfold zlen in *; rewrite skipn_length; lia).
  rewrite firstn_rev. do 2 f_equal. unfold zlen in *. lia.
Qed.
Lemma rev_unpack l : (1 <= List.length l)%nat -> rev (unpack_byte (bits_value (firstn 8 l))) = firstn 8 (firstn 8 l ++ repeat false 8).
Proof.
  intro H. set (m := firstn 8 l). assert (Hm : (1 <= List.length m <= 8)%nat) by (subst m; rewrite firstn_length; lia). clearbody m. clear l H.
  unfold unpack_byte. cbn [map rev app].
  pose proof (testbit_bits_value m 0) as B0. pose proof (testbit_bits_value m 1) as B1.
  pose proof (testbit_bits_value m 2) as B2. pose proof (testbit_bits_value m 3) as B3.
  pose proof (testbit_bits_value m 4) as B4. pose proof (testbit_bits_value m 5) as B5.
  pose proof (testbit_bits_value m 6) as B6. pose proof (testbit_bits_value m 7) as B7.
  cbn [Z.of_nat Pos.of_succ_nat Pos.succ] in B0, B1, B2, B3, B4, B5, B6, B7.
  rewrite B0, B1, B2, B3, B4, B5, B6, B7. clear B0 B1 B2 B3 B4 B5 B6 B7.
  do 9 (destruct m as [|? m]; [reflexivity|]). cbn in Hm. lia.
Qed.
Lemma rev_unpackbits fuel l : rev (unpackbits (bitmap_fuel fuel l)) = List.concat (rev (blocks_fuel fuel l)).
Proof.
  revert l. induction fuel as [|f IH]; intro l; [reflexivity|]. destruct l as [|b l]; [reflexivity|].
  cbn [bitmap_fuel blocks_fuel]. unfold unpackbits. cbn [flat_map]. fold (unpackbits (bitmap_fuel f (skipn 8 (b :: l)))).
  rewrite rev_app_distr, IH, rev_unpack by (cbn; lia). cbn [rev]. rewrite concat_app. cbn [List.concat]. now rewrite app_nil_r.
Qed.
Lemma unpackbits_len fuel l : (List.length l <= fuel)%nat -> (List.length l <= List.length (unpackbits (bitmap_fuel fuel l)))%nat.
Proof.
  revert l. induction fuel as [|f IH]; intros l H; [lia|]. destruct l as [|b l]; [cbn; lia|].
  cbn [bitmap_fuel]. unfold unpackbits. cbn [flat_map]. fold (unpackbits (bitmap_fuel f (skipn 8 (b :: l)))). rewrite app_length.
  assert (L : (List.length (skipn 8 (b :: l)) <= f)%nat) by (rewrite skipn_length; cbn [List.length] in *; lia).
  specialize (IH _ L). rewrite skipn_length in IH. change (List.length (unpack_byte _)) with 8%nat. lia.
Qed.
Lemma bool_all l : bool_arrow_to_numpy (bitmap l) (zlen l) = firstn (List.length l) (List.concat (rev (blocks l))).
Proof.
  destruct l as [|b l]; [reflexivity|]. unfold bool_arrow_to_numpy, bitmap, blocks. rewrite <- rev_unpackbits.
  pose proof (@unpackbits_len (List.length (b :: l)) (b :: l) (le_n _)) as L. rewrite py_tail; [|unfold zlen; cbn [List.length] in *; lia].
  now rewrite zlen_to_nat.
Qed.

(** ** Every parser *)
Lemma strptime_usable parse f t : strptime1 parse 0 f t = strptime1 (usable parse) 0 f t.
Proof.
  unfold strptime1, usable. destruct t as [t|]; [|reflexivity]. destruct (parse f t) as [v|]; [|reflexivity]. cbv zeta.
  destruct (v <? 0) eqn:E.
  - destruct (v mod 86400000 =? 0) eqn:Z; [cbn; lia|]. now replace (v mod 86400000 <? 0) with false by (Z.div_mod_to_equations; lia).
  - destruct (v =? 0) eqn:Z; [cbn; lia|]. now rewrite E.
Qed.
Lemma mf_loop_usable parse fmts : forall arr res, mf_loop parse 0 fmts arr res = mf_loop (usable parse) 0 fmts arr res.
Proof.
  induction fmts as [|f r IH]; intros arr res; [reflexivity|]. cbn [mf_loop].
  assert (E : forall res, map (fun p => if snd p =? 0 then strptime1 parse 0 f (fst p) else snd p) (combine arr res)
                        = map (fun p => if snd p =? 0 then strptime1 (usable parse) 0 f (fst p) else snd p) (combine arr res)).
  { intro q. apply map_ext. intros [a v]. cbn [fst snd]. now rewrite strptime_usable. }
  now rewrite E, IH.
Qed.
Lemma usable_pos parse f t v : usable parse f t = Some v -> 0 < v.
Proof.
  unfold usable. destruct (parse f t) as [w|]; [|discriminate]. cbv zeta. destruct (w <? 0) eqn:E.
  - destruct (w mod 86400000 =? 0) eqn:Z; [discriminate|]. intros [= <-]. Z.div_mod_to_equations. lia.
  - destruct (w =? 0) eqn:Z; [discriminate|]. intros [= <-]. lia.
Qed.
Lemma all_some_ok {A} (l : list (option A)) : (exists r, all_some l = Some r /\ l = map Some r) \/ (all_some l = None /\ In None l).
Proof.
  induction l as [|[x|] l IH]; cbn [all_some].
  - left. now exists [].
  - destruct IH as [(r & E & ->)|[E I]]; rewrite E; [left; exists (x :: r); now split|right; split; [reflexivity|now right]].
  - right. split; [reflexivity|now left].
Qed.
Lemma mf_all parse fmts arr : mf_loop parse 0 fmts arr (map (fun _ => 0) arr)
  = match all_some (map (fp (usable parse) fmts) arr) with Some vs => Ok vs | None => Err ArrowInvalid end.
Proof.
  rewrite mf_loop_usable. destruct (@mf_loop_ok (usable parse) (@usable_pos parse) fmts [] arr) as [A B]. cbn [app] in A, B.
  replace (map (fun t => val0 (fp (usable parse) [] t)) arr) with (map (fun _ : option str => 0) arr) in A, B by (apply map_ext; intros [t|]; reflexivity).
  destruct (all_some_ok (map (fp (usable parse) fmts) arr)) as [(r & E & M)|[E I]]; rewrite E.
  - rewrite A.
    + f_equal. rewrite <- (map_map (fp (usable parse) fmts) val0), M, map_map. apply map_id.
    + intros t Ht N. assert (I : In None (map Some r)) by (rewrite <- M, <- N; now apply in_map). apply in_map_iff in I. now destruct I as (x & D & _).
  - apply B. intro P. apply in_map_iff in I. destruct I as (t & N & Ht). now apply (P t Ht).
Qed.
