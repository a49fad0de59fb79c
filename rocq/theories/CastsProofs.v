From Verif Require Import Py PyFacts Casts CastsSpec FloatFacts.
From Coq Require Import Reals Lra ZifyBool ZifyNat.
From Flocq.Core Require Import Core.
From Flocq.IEEE754 Require Import BinarySingleNaN Binary Bits.
Open Scope Z_scope.
Set Implicit Arguments.
Unset Strict Implicit.

(** ** Bit arithmetic of RK numbers *)
Lemma land_2 x : Z.land x 2 = 2 * (x / 2 mod 2).
Proof.
  assert (E : Z.land x 2 = Z.shiftl (Z.land (Z.shiftr x 1) 1) 1).
  { apply Z.bits_inj'. intros n Hn. rewrite Z.land_spec. destruct (Z.eq_dec n 0) as [->|Hn0].
    - rewrite Z.shiftl_spec_low by lia. apply andb_false_r.
    - rewrite Z.shiftl_spec by lia. rewrite Z.land_spec, Z.shiftr_spec by lia. change 2 with (Z.shiftl 1 1).
      rewrite Z.shiftl_spec by lia. f_equal. f_equal. lia. }
  rewrite E, Z.shiftl_mul_pow2, Z.shiftr_div_pow2 by lia. change 1 with (Z.ones 1) at 2.
  rewrite Z.land_ones by lia. change (2 ^ 1) with 2. lia.
Qed.
Lemma land_1 x : Z.land x 1 = x mod 2.
Proof. change 1 with (Z.ones 1). now rewrite Z.land_ones by lia. Qed.
Lemma land_hi q r : 0 <= q < 2 ^ 30 -> 0 <= r < 4 -> Z.land (4 * q + r) 0xFFFFFFFC = 4 * q.
Proof.
  intros Hq Hr. change 0xFFFFFFFC with (Z.shiftl (Z.ones 30) 2).
  assert (E : Z.land (4 * q + r) (Z.shiftl (Z.ones 30) 2) = Z.shiftl (Z.land (Z.shiftr (4 * q + r) 2) (Z.ones 30)) 2).
  { apply Z.bits_inj'. intros n Hn. rewrite Z.land_spec. destruct (Z_lt_le_dec n 2) as [L|L].
    - rewrite !Z.shiftl_spec_low by lia. apply andb_false_r.
    - rewrite !Z.shiftl_spec by lia. rewrite Z.land_spec, Z.shiftr_spec by lia. f_equal. f_equal. lia. }
  rewrite E, Z.shiftr_div_pow2, Z.land_ones, Z.shiftl_mul_pow2 by lia. change (2 ^ 2) with 4.
  rewrite (Z.mul_comm 4 q) at 1. rewrite Z.div_add_l by lia. rewrite Z.div_small by lia.
  rewrite Z.add_0_r, Z.mod_small by lia. lia.
Qed.
Lemma lor_4_2 n : Z.lor (4 * n) 2 = 4 * n + 2.
Proof.
  assert (A : Z.land (4 * n) 2 = 0).
  { rewrite land_2. Z.div_mod_to_equations. lia. }
  rewrite Z.add_nocarry_lxor by exact A. symmetry. now apply Z.lxor_lor.
Qed.

Section Rk.
  Lemma rk_parts q i c : 0 <= q < 2 ^ 30 -> 0 <= i <= 1 -> 0 <= c <= 1 ->
    rk_to_f8 (4 * q + 2 * i + c)
    = fdiv (if i =? 0 then b64_of_bits (q * 2 ^ 34) else f8_of_Z (signed30 q)) (f8_of_Z (c * 99 + 1)).
  Proof.
    intros Hq Hi Hc. unfold rk_to_f8. rewrite land_2, land_1.
    replace ((4 * q + 2 * i + c) / 2 mod 2) with i by (Z.div_mod_to_equations; lia).
    replace ((4 * q + 2 * i + c) mod 2) with c by (Z.div_mod_to_equations; lia).
    replace (4 * q + 2 * i + c) with (4 * q + (2 * i + c)) by lia. rewrite land_hi by lia.
    f_equal. replace (2 * i =? 0) with (i =? 0) by lia. destruct (i =? 0).
    - f_equal. rewrite Z.shiftl_mul_pow2 by lia. change (2 ^ 34) with (4 * 2 ^ 32). lia.
    - f_equal. rewrite Z.shiftr_div_pow2 by lia. unfold to_i32, signed30.
      change (2 ^ 2) with 4. destruct (q <? 2 ^ 29) eqn:E.
      + replace (4 * q <? 2 ^ 31) with true by lia. rewrite Z.mul_comm. now apply Z.div_mul.
      + replace (4 * q <? 2 ^ 31) with false by lia. symmetry; apply Z.div_unique with 0; lia.
  Qed.
End Rk.

Lemma i8_to_rk_val n : - 2 ^ 29 <= n < 2 ^ 29 -> i8_to_rk n = 4 * (n mod 2 ^ 30) + 2.
Proof.
  intro H. unfold i8_to_rk.
  assert (E1 : to_i32 (to_u32 n) = n).
  { unfold to_i32, to_u32. destruct (n mod 2 ^ 32 <? 2 ^ 31) eqn:E; Z.div_mod_to_equations; lia. }
  rewrite E1. unfold shl_i32. rewrite Z.shiftl_mul_pow2 by lia. change (2 ^ 2) with 4.
  assert (E2 : to_i32 (to_u32 (n * 4)) = 4 * n).
  { unfold to_i32, to_u32. destruct ((n * 4) mod 2 ^ 32 <? 2 ^ 31) eqn:E; Z.div_mod_to_equations; lia. }
  rewrite E2, lor_4_2. unfold to_u32. Z.div_mod_to_equations. lia.
Qed.
Lemma signed30_mod n : - 2 ^ 29 <= n < 2 ^ 29 -> signed30 (n mod 2 ^ 30) = n.
Proof.
  intro H. unfold signed30. destruct (n mod 2 ^ 30 <? 2 ^ 29) eqn:E; Z.div_mod_to_equations; lia.
Qed.

Lemma fdiv_1 n : Z.abs n <= 2 ^ 53 -> fdiv (f8_of_Z n) (f8_of_Z 1) = f8_of_Z n.
Proof.
  intro H. destruct (f8_of_Z_R H) as (A1 & A2 & A3). destruct (@f8_of_Z_R 1) as (B1 & B2 & B3); [lia|].
  destruct (@fdiv_R (f8_of_Z n) (f8_of_Z 1)) as (C1 & C2 & C3).
  - rewrite B1. lra.
  - rewrite A1, B1. unfold Rdiv. rewrite Rinv_1, Rmult_1_r. now apply (@IZR_bound _ 53).
  - apply f8_inj.
    + now rewrite C2.
    + exact A2.
    + rewrite C1, A1, B1. unfold Rdiv. rewrite Rinv_1, Rmult_1_r. now apply rnd_int.
    + rewrite C3.
      * rewrite B3. change (1 <? 0) with false. now destruct (Bsign 53 1024 (f8_of_Z n)).
      * assert (F : fin (fdiv (f8_of_Z n) (f8_of_Z 1)) = true) by now rewrite C2.
        revert F. now destruct (fdiv (f8_of_Z n) (f8_of_Z 1)).
Qed.

Lemma rk_i8 n : - 2 ^ 29 <= n < 2 ^ 29 -> rk_to_f8 (i8_to_rk n) = f8_of_Z n.
Proof.
  intro H. rewrite i8_to_rk_val by exact H.
  replace (4 * (n mod 2 ^ 30) + 2) with (4 * (n mod 2 ^ 30) + 2 * 1 + 0) by lia.
  rewrite rk_parts by (try lia; apply Z.mod_pos_bound; lia). cbn [Z.eqb]. rewrite signed30_mod by exact H.
  change (0 * 99 + 1) with 1. apply fdiv_1. lia.
Qed.

Lemma Rabs_div_le a b : (1 <= b)%R -> (Rabs (a / b) <= Rabs a)%R.
Proof.
  intro H. unfold Rdiv. rewrite Rabs_mult. rewrite <- (Rmult_1_r (Rabs a)) at 2.
  apply Rmult_le_compat_l; [apply Rabs_pos|]. rewrite Rabs_inv, (Rabs_pos_eq b) by lra.
  rewrite <- Rinv_1. apply Rinv_le; lra.
Qed.
Lemma rk_int_R q c : 0 <= q < 2 ^ 30 -> 0 <= c <= 1 ->
  fin (rk_to_f8 (4 * q + 2 + c)) = true /\
  B2R64 (rk_to_f8 (4 * q + 2 + c)) = rnd (IZR (signed30 q) / IZR (if c =? 1 then 100 else 1)).
Proof.
  intros Hq Hc. replace (4 * q + 2 + c) with (4 * q + 2 * 1 + c) by lia. rewrite rk_parts by lia. cbn [Z.eqb].
  assert (Hs : Z.abs (signed30 q) <= 2 ^ 29) by (unfold signed30; destruct (q <? 2 ^ 29) eqn:E; lia).
  set (k := c * 99 + 1). assert (Hk : (if c =? 1 then 100 else 1) = k) by (subst k; destruct (c =? 1) eqn:E; lia).
  rewrite Hk. assert (1 <= k <= 100) by lia.
  destruct (@f8_of_Z_R (signed30 q)) as (A1 & A2 & _); [lia|]. destruct (@f8_of_Z_R k) as (B1 & B2 & _); [lia|].
  destruct (@fdiv_R (f8_of_Z (signed30 q)) (f8_of_Z k)) as (C1 & C2 & _).
  - rewrite B1. apply not_0_IZR. lia.
  - rewrite A1, B1. apply Rle_trans with (Rabs (IZR (signed30 q))).
    + apply Rabs_div_le. apply IZR_le. lia.
    + apply (@IZR_bound _ 29); lia.
  - rewrite C1, C2, A1, B1. split; [exact A2|reflexivity].
Qed.

Lemma rk_float_R q c base : 0 <= q < 2 ^ 30 -> 0 <= c <= 1 -> bits_of_b64 base = q * 2 ^ 34 ->
  (fin base = true -> fin (rk_to_f8 (4 * q + c)) = true /\
     B2R64 (rk_to_f8 (4 * q + c)) = rnd (B2R64 base / IZR (if c =? 1 then 100 else 1))) /\
  (is_nan 53 1024 base = true -> is_nan 53 1024 (rk_to_f8 (4 * q + c)) = true) /\
  (fin base = false -> is_nan 53 1024 base = false -> rk_to_f8 (4 * q + c) = base).
Proof.
  intros Hq Hc Hb. replace (4 * q + c) with (4 * q + 2 * 0 + c) by lia. rewrite rk_parts by lia. cbn [Z.eqb].
  rewrite <- Hb. unfold b64_of_bits, bits_of_b64. rewrite binary_float_of_bits_of_binary_float.
  set (k := c * 99 + 1). assert (Hk : (if c =? 1 then 100 else 1) = k) by (subst k; destruct (c =? 1) eqn:E; lia).
  rewrite Hk. assert (Hkk : k = 1 \/ k = 100) by lia. split; [|split].
  - intro Fb. destruct (@f8_of_Z_R k) as (B1 & B2 & _); [lia|].
    assert (Hk0 : (1 <= IZR k)%R) by (apply IZR_le; lia).
    pose proof (Bdiv_correct 53 1024 eq_refl eq_refl binop_nan_pl64 mode_NE base (f8_of_Z k)) as P.
    assert (Hy : B2R64 (f8_of_Z k) <> 0%R) by (rewrite B1; lra). specialize (P Hy).
    rewrite Rlt_bool_true in P.
    + destruct P as (P1 & P2 & _). split; [etransitivity; [exact P2|exact Fb]|]. rewrite B1 in P1. exact P1.
    + change (SpecFloat.fexp 53 1024) with fexp64. cbn [round_mode].
      apply Rle_lt_trans with (Rabs (B2R64 base)); [|apply abs_B2R_lt_emax].
      apply abs_round_le_generic; [apply fexp64_valid|apply valid_rnd_N| |].
      * apply generic_format_abs. apply generic_format_B2R.
      * rewrite B1. now apply Rabs_div_le.
  - clear Hb. intro Hn. destruct base as [sb|sb|sb pl Hpl|sb m e Hm]; try discriminate.
    unfold fdiv, b64_div, Bdiv. destruct Hkk as [-> | ->]; reflexivity.
  - clear Hb. intros Hf Hn. destruct base as [sb|sb|sb pl Hpl|sb m e Hm]; try discriminate.
    unfold fdiv, b64_div, Bdiv. destruct Hkk as [-> | ->]; destruct sb; reflexivity.
Qed.

(** ** Float to RK *)
Lemma np_round2_int n : Z.abs n <= 2 ^ 46 -> fin (np_round 2 (f8_of_Z n)) = true /\ B2R64 (np_round 2 (f8_of_Z n)) = IZR n.
Proof.
  intro H. unfold np_round. change (2 =? 0) with false. change (0 <? 2) with true. cbv iota zeta.
  change (power_of_ten (Z.to_nat 2)) with (f8_of_Z 100).
  destruct (@f8_of_Z_R n) as (A1 & A2 & _); [lia|]. destruct (@f8_of_Z_R 100) as (B1 & B2 & _); [lia|].
  destruct (@fval_mul (f8_of_Z n) (f8_of_Z 100) n 100 A1 B1 A2 B2) as [C1 C2]; [lia|].
  destruct (frint_R (fmul (f8_of_Z n) (f8_of_Z 100))) as [D1 D2].
  rewrite C1, (@Zrnd_IZR ZnearestE (valid_rnd_N _)) in D1. rewrite C2 in D2.
  destruct (@fval_div (frint (fmul (f8_of_Z n) (f8_of_Z 100))) (f8_of_Z 100) n 100 D1 B1) as [E1 E2];
    [lia|exact D2|lia|]. now split.
Qed.

Lemma f8_0001_R : fin f8_0001 = true /\ (bpow radix2 (-10) <= B2R64 f8_0001 <= / 2)%R.
Proof.
  assert (E : B2R64 f8_0001 = F2R (Float radix2 4611686018427388 (-62))) by reflexivity.
  rewrite E. split; [reflexivity|]. unfold F2R. cbn [Fnum Fexp].
  replace (bpow radix2 (-62)) with (/ IZR (2 ^ 62))%R by reflexivity.
  replace (bpow radix2 (-10)) with (/ IZR (2 ^ 10))%R by reflexivity.
  split.
  - apply Rmult_le_reg_r with (IZR (2 ^ 62)); [apply IZR_lt; reflexivity|].
    rewrite Rmult_assoc, Rinv_l, Rmult_1_r by (apply not_0_IZR; discriminate).
    change (2 ^ 62) with (2 ^ 10 * 2 ^ 52). rewrite mult_IZR, <- Rmult_assoc, Rinv_l, Rmult_1_l by (apply not_0_IZR; discriminate).
    apply IZR_le. discriminate.
  - apply Rmult_le_reg_r with (IZR (2 ^ 62)); [apply IZR_lt; reflexivity|].
    rewrite Rmult_assoc, Rinv_l, Rmult_1_r by (apply not_0_IZR; discriminate).
    change (2 ^ 62) with (2 * 2 ^ 61). rewrite mult_IZR, <- Rmult_assoc, Rinv_l, Rmult_1_l by lra.
    apply IZR_le. discriminate.
Qed.

Lemma trunc_plus_0001 n : Z.abs n <= 2 ^ 29 ->
  fin (fadd (f8_of_Z n) f8_0001) = true /\
  Ztrunc (B2R64 (fadd (f8_of_Z n) f8_0001)) = if n <? 0 then n + 1 else n.
Proof.
  intro H. destruct (@f8_of_Z_R n) as (A1 & A2 & _); [lia|]. destruct f8_0001_R as [B1 [B2 B3]].
  destruct (@fadd_R (f8_of_Z n) f8_0001 A2 B1) as [C1 C2].
  { rewrite A1. apply Rle_trans with (Rabs (IZR n) + 1)%R.
    - eapply Rle_trans; [apply Rabs_triang|]. apply Rplus_le_compat_l. rewrite Rabs_pos_eq; [lra|].
      apply Rle_trans with (2 := B2). apply bpow_ge_0.
    - rewrite <- abs_IZR. replace 1%R with (IZR 1) by reflexivity. rewrite <- plus_IZR.
      rewrite <- (Rabs_pos_eq (IZR (Z.abs n + 1))) by (apply IZR_le; lia). apply (@IZR_bound _ 30); lia. }
  split; [exact C2|]. rewrite C1, A1.
  assert (L : (IZR n + bpow radix2 (-10) <= rnd (IZR n + B2R64 f8_0001))%R).
  { replace (IZR n + bpow radix2 (-10))%R with (rnd (IZR n + bpow radix2 (-10))).
    - apply rnd_le. lra.
    - replace (IZR n + bpow radix2 (-10))%R with (F2R (Float radix2 (n * 2 ^ 10 + 1) (-10))).
      + apply rnd_F2R; lia.
      + unfold F2R. cbn [Fnum Fexp]. rewrite plus_IZR, mult_IZR. replace (bpow radix2 (-10)) with (/ IZR (2 ^ 10))%R by reflexivity.
        field. apply not_0_IZR. discriminate. }
  assert (U : (rnd (IZR n + B2R64 f8_0001) <= IZR n + / 2)%R).
  { replace (IZR n + / 2)%R with (rnd (IZR n + / 2)).
    - apply rnd_le. lra.
    - replace (IZR n + / 2)%R with (F2R (Float radix2 (n * 2 + 1) (-1))).
      + apply rnd_F2R; lia.
      + unfold F2R. cbn [Fnum Fexp]. rewrite plus_IZR, mult_IZR. replace (bpow radix2 (-1)) with (/ 2)%R by reflexivity. field. }
  pose proof (bpow_gt_0 radix2 (-10)) as G. set (y := rnd (IZR n + B2R64 f8_0001)) in *.
  destruct (n <? 0) eqn:En.
  - rewrite Ztrunc_ceil by (assert (IZR n <= IZR (-1))%R by (apply IZR_le; lia); lra).
    apply Zceil_imp. rewrite plus_IZR, minus_IZR, plus_IZR. lra.
  - rewrite Ztrunc_floor by (assert (IZR 0 <= IZR n)%R by (apply IZR_le; lia); lra).
    apply Zfloor_imp. rewrite plus_IZR. lra.
Qed.

(** What a whole number becomes. *)
Lemma f8_to_rk_int oob n : - 2 ^ 29 <= n < 2 ^ 29 ->
  f8_to_rk oob (f8_of_Z n) = i8_to_rk (if n <? 0 then n + 1 else n).
Proof.
  intro H. unfold f8_to_rk. destruct (@np_round2_int n) as [R1 R2]; [lia|].
  destruct (@f8_of_Z_R n) as (A1 & A2 & _); [lia|]. destruct (ftrunc_R (f8_of_Z n)) as [T1 T2].
  rewrite A1, Ztrunc_IZR in T1. rewrite A2 in T2.
  rewrite !feqb_R by assumption. rewrite A1, R2, T1. rewrite Req_bool_true by reflexivity.
  destruct (@trunc_plus_0001 n) as [F1 F2]; [lia|].
  unfold f8_to_i32. rewrite f8_to_int_R; [|exact F1|rewrite F2; change (2 ^ (32 - 1)) with (2 ^ 31); destruct (n <? 0) eqn:E; lia].
  rewrite F2. unfold i8_to_rk.
  assert (E1 : to_i32 (to_u32 (if n <? 0 then n + 1 else n)) = if n <? 0 then n + 1 else n).
  { unfold to_i32, to_u32. destruct (n <? 0) eqn:En.
    - destruct ((n + 1) mod 2 ^ 32 <? 2 ^ 31) eqn:E; Z.div_mod_to_equations; lia.
    - destruct (n mod 2 ^ 32 <? 2 ^ 31) eqn:E; Z.div_mod_to_equations; lia. }
  now rewrite E1.
Qed.

(** ** Serial dates *)
Definition offset (x : R) : Z := if Rle_bool 1 x then if Rlt_bool x 60 then 25568 else 25569 else 0.
Lemma offset_f8 x : fin x = true ->
  let o := fmul (f8_of_bool (fgeb x (f8_of_Z 1))) (fsub (f8_of_Z 25569) (f8_of_bool (fltb x (f8_of_Z 60)))) in
  fin o = true /\ B2R64 o = IZR (offset (B2R64 x)).
Proof.
  intro Fx. cbv zeta.
  rewrite fgeb_R, fltb_R by (try assumption; apply f8_of_Z_fin; lia).
  rewrite !(@f8_of_Z_B2R _) by lia. unfold offset.
  assert (K : forall b : bool, B2R64 (f8_of_bool b) = IZR (if b then 1 else 0) /\ fin (f8_of_bool b) = true).
  { intro b. unfold f8_of_bool. destruct b; split; try (apply f8_of_Z_B2R; lia); apply f8_of_Z_fin; lia. }
  destruct (K (Rle_bool 1 (B2R64 x))) as [K1 K2]. destruct (K (Rlt_bool (B2R64 x) 60)) as [L1 L2].
  destruct (@fval_sub (f8_of_Z 25569) (f8_of_bool (Rlt_bool (B2R64 x) 60)) 25569 (if Rlt_bool (B2R64 x) 60 then 1 else 0)) as [M1 M2];
    try assumption; try (apply f8_of_Z_B2R; lia); try (apply f8_of_Z_fin; lia).
  { destruct (Rlt_bool (B2R64 x) 60); lia. }
  destruct (@fval_mul (f8_of_bool (Rle_bool 1 (B2R64 x))) (fsub (f8_of_Z 25569) (f8_of_bool (Rlt_bool (B2R64 x) 60)))
    (if Rle_bool 1 (B2R64 x) then 1 else 0) (25569 - (if Rlt_bool (B2R64 x) 60 then 1 else 0))) as [N1 N2]; try assumption.
  { destruct (Rle_bool 1 (B2R64 x)), (Rlt_bool (B2R64 x) 60); lia. }
  split; [exact N2|]. rewrite N1. f_equal. destruct (Rle_bool 1 (B2R64 x)), (Rlt_bool (B2R64 x) 60); reflexivity.
Qed.
Lemma offset_range x : 0 <= offset x <= 25569.
Proof. unfold offset. destruct (Rle_bool 1 x), (Rlt_bool x 60); lia. Qed.

Lemma bpow_IZR k : 0 <= k -> bpow radix2 k = IZR (2 ^ k).
Proof. intro H. now rewrite <- IZR_Zpower. Qed.

Lemma f8_to_ms_R oob x : fin x = true -> (Rabs (B2R64 x) <= IZR (2 ^ 30))%R ->
  f8_to_ms_win oob x = Ztrunc (rnd (rnd (B2R64 x - IZR (offset (B2R64 x))) * 86400000)).
Proof.
  intros Fx Hx. unfold f8_to_ms_win. destruct (@offset_f8 x Fx) as [O1 O2].
  set (o := fmul _ (fsub _ _)) in *. set (k := offset (B2R64 x)) in *.
  assert (Hk : 0 <= k <= 25569) by apply offset_range.
  assert (Hd : (Rabs (B2R64 x - IZR k) <= IZR (2 ^ 31))%R).
  { unfold Rminus. eapply Rle_trans; [apply Rabs_triang|]. rewrite Rabs_Ropp, <- abs_IZR.
    apply Rle_trans with (IZR (2 ^ 30) + IZR (2 ^ 30))%R; [|rewrite <- plus_IZR; apply IZR_le; lia].
    apply Rplus_le_compat; [exact Hx|]. apply IZR_le. lia. }
  destruct (@fsub_R x o Fx O1) as [S1 S2].
  { rewrite O2. eapply Rle_trans; [exact Hd|]. rewrite <- bpow_IZR by lia. apply bpow_le. lia. }
  rewrite O2 in S1.
  assert (Hs : (Rabs (B2R64 (fsub x o)) <= IZR (2 ^ 31))%R).
  { rewrite S1. unfold rnd. apply abs_round_le_generic; [apply fexp64_valid|apply valid_rnd_N| |exact Hd].
    apply format_int. lia. }
  destruct (@f8_of_Z_R 86400000) as (B1 & B2 & _); [lia|].
  assert (Hm : (Rabs (B2R64 (fsub x o) * B2R64 (f8_of_Z 86400000)) <= IZR (2 ^ 58))%R).
  { rewrite Rabs_mult, B1, <- (abs_IZR 86400000). apply Rle_trans with (IZR (2 ^ 31) * IZR (2 ^ 27))%R.
    - apply Rmult_le_compat; try apply Rabs_pos; [rewrite abs_IZR; apply Rabs_pos|exact Hs|apply IZR_le; lia].
    - rewrite <- mult_IZR. apply IZR_le. lia. }
  destruct (@fmul_R (fsub x o) (f8_of_Z 86400000) S2 B2) as [M1 M2].
  { eapply Rle_trans; [exact Hm|]. rewrite <- bpow_IZR by lia. apply bpow_le. lia. }
  assert (Hr : (Rabs (B2R64 (fmul (fsub x o) (f8_of_Z 86400000))) <= IZR (2 ^ 58))%R).
  { rewrite M1. unfold rnd. apply abs_round_le_generic; [apply fexp64_valid|apply valid_rnd_N| |exact Hm].
    rewrite <- bpow_IZR by lia. apply generic_format_bpow. unfold fexp64, FLT_exp. lia. }
  unfold f8_to_i64. rewrite f8_to_int_R.
  - rewrite M1, S1, B1. reflexivity.
  - exact M2.
  - change (2 ^ (64 - 1)) with (2 ^ 63). apply Rabs_le_inv in Hr.
    assert (U : Ztrunc (B2R64 (fmul (fsub x o) (f8_of_Z 86400000))) <= 2 ^ 58).
    { rewrite <- (Ztrunc_IZR (2 ^ 58)). apply Ztrunc_le. apply Hr. }
    assert (L : - 2 ^ 58 <= Ztrunc (B2R64 (fmul (fsub x o) (f8_of_Z 86400000)))).
    { rewrite <- (Ztrunc_IZR (- 2 ^ 58)). apply Ztrunc_le. rewrite opp_IZR. apply Hr. }
    lia.
Qed.

(** Whole days are exact. *)
Definition zoffset (n : Z) : Z := if 1 <=? n then if n <? 60 then 25568 else 25569 else 0.
Lemma offset_IZR n : offset (IZR n) = zoffset n.
Proof.
  unfold offset, zoffset. destruct (1 <=? n) eqn:E1.
  - rewrite Rle_bool_true by (apply IZR_le; lia). destruct (n <? 60) eqn:E2.
    + rewrite Rlt_bool_true by (apply IZR_lt; lia). reflexivity.
    + rewrite Rlt_bool_false by (apply IZR_le; lia). reflexivity.
  - rewrite Rle_bool_false by (apply IZR_lt; lia). reflexivity.
Qed.
Lemma f8_to_ms_day oob x n : fin x = true -> B2R64 x = IZR n -> Z.abs n <= 100000000 ->
  f8_to_ms_win oob x = (n - zoffset n) * 86400000.
Proof.
  intros Fx Hx Hn. rewrite f8_to_ms_R; [|exact Fx|rewrite Hx, <- abs_IZR; apply IZR_le; lia].
  rewrite Hx, offset_IZR. assert (Hz : 0 <= zoffset n <= 25569) by (unfold zoffset; destruct (1 <=? n), (n <? 60); lia).
  rewrite <- minus_IZR, rnd_int by lia. rewrite <- mult_IZR, rnd_int by lia. apply Ztrunc_IZR.
Qed.

(** ** Calendar *)
Lemma iter_add A (f : A -> A) m n x : Nat.iter (m + n) f x = Nat.iter m f (Nat.iter n f x).
Proof. induction m as [|m IH]; [reflexivity|]. cbn [Nat.add]. change (f (Nat.iter (m + n) f x) = f (Nat.iter m f (Nat.iter n f x))). now rewrite IH. Qed.
Lemma after_after leap d a b : 0 <= a -> 0 <= b -> after leap (after leap d a) b = after leap d (a + b).
Proof.
  intros Ha Hb. unfold after. rewrite <- iter_add. f_equal. lia.
Qed.
Definition late (d : date) : Prop :=
  let '(y, m, k) := d in 1900 < y /\ 1 <= m \/ y = 1900 /\ 3 <= m.
Lemma next_day_late d : late d -> next_day excel_leap d = next_day greg_leap d /\ late (next_day greg_leap d).
Proof.
  destruct d as [[y m] k]. unfold late, next_day. intro H.
  assert (E : month_len excel_leap y m = month_len greg_leap y m).
  { unfold month_len. destruct (m =? 2) eqn:Em; [|reflexivity]. unfold excel_leap.
    replace (y =? 1900) with false by lia. now rewrite orb_false_r. }
  rewrite E. split; [reflexivity|].
  destruct (k <? month_len greg_leap y m); [exact H|]. destruct (m <? 12) eqn:Em; lia.
Qed.
Lemma iter_late n d : late d ->
  Nat.iter n (next_day excel_leap) d = Nat.iter n (next_day greg_leap) d /\ late (Nat.iter n (next_day greg_leap) d).
Proof.
  intro H. induction n as [|n [IH1 IH2]]; [now split|].
  change (next_day excel_leap (Nat.iter n (next_day excel_leap) d) = next_day greg_leap (Nat.iter n (next_day greg_leap) d)
          /\ late (next_day greg_leap (Nat.iter n (next_day greg_leap) d))).
  rewrite IH1. now apply next_day_late.
Qed.
Lemma excel_date_late n : 61 <= n -> excel_date n = after greg_leap (1900, 3, 1) (n - 61).
Proof.
  intro H. unfold excel_date. replace (n - 1) with (60 + (n - 61)) by lia. rewrite <- after_after by lia.
  replace (after excel_leap (1900, 1, 1) 60) with ((1900, 3, 1) : date) by (vm_compute; reflexivity).
  unfold after. apply iter_late. right. lia.
Qed.
Lemma excel_date_early n : 1 <= n <= 59 -> excel_date n = after greg_leap (1900, 1, 1) (n - 1).
Proof.
  intro H. assert (E : forall k, (k < 59)%nat ->
    Nat.iter k (next_day excel_leap) (1900, 1, 1) = Nat.iter k (next_day greg_leap) (1900, 1, 1)).
  { intros k Hk. do 59 (destruct k as [|k]; [vm_compute; reflexivity|]). lia. }
  unfold excel_date, after. apply E. lia.
Qed.
Lemma excel_unix n : 1 <= n -> n <> 60 -> unix_day (n - zoffset n) (excel_date n).
Proof.
  intros H1 H60. unfold unix_day, zoffset. replace (1 <=? n) with true by lia. destruct (n <? 60) eqn:E.
  - replace (0 <=? n - 25568) with false by lia. rewrite excel_date_early by lia.
    rewrite after_after by lia. replace (n - 1 + - (n - 25568)) with 25567 by lia. vm_compute. reflexivity.
  - assert (K : after greg_leap (1900, 3, 1) 25508 = (1970, 1, 1)) by (vm_compute; reflexivity).
    rewrite excel_date_late by lia. destruct (0 <=? n - 25569) eqn:E2.
    + rewrite <- K. rewrite after_after by lia. f_equal. lia.
    + rewrite after_after by lia. replace (n - 61 + - (n - 25569)) with 25508 by lia. exact K.
Qed.

(** ** Error of the date conversion *)
Lemma format_sub x n : generic_format radix2 fexp64 x -> 0 <= n -> (IZR n <= x)%R -> (x <= IZR (2 ^ 52))%R ->
  generic_format radix2 fexp64 (x - IZR n).
Proof.
  intros Gx Hn Hx Hb. apply FLT_format_generic in Gx; [|reflexivity]. destruct Gx as [[m e] E Hm He].
  cbn [Fnum Fexp] in Hm, He. assert (Hn0 : (0 <= IZR n)%R) by (apply IZR_le; lia).
  destruct (Z_lt_le_dec e 0) as [L|L].
  - assert (E2 : (x - IZR n)%R = F2R (Float radix2 (m - n * 2 ^ (- e)) e)).
    { rewrite E. unfold F2R. cbn [Fnum Fexp]. rewrite minus_IZR, mult_IZR.
      rewrite <- (bpow_IZR (k := - e)) by lia. rewrite bpow_opp. field. apply Rgt_not_eq, bpow_gt_0. }
    rewrite E2. apply generic_format_FLT. exists (Float radix2 (m - n * 2 ^ (- e)) e); [reflexivity| |exact He].
    cbn [Fnum]. assert (P : 0 <= n * 2 ^ (- e)) by (apply Z.mul_nonneg_nonneg; [lia|apply Z.pow_nonneg; lia]).
    assert (Q : 0 <= m - n * 2 ^ (- e)).
    { apply le_IZR. apply Rmult_le_reg_r with (bpow radix2 e); [apply bpow_gt_0|]. rewrite Rmult_0_l.
      change (IZR (m - n * 2 ^ (- e)) * bpow radix2 e)%R with (F2R (Float radix2 (m - n * 2 ^ (- e)) e)).
      rewrite <- E2. lra. }
    lia.
  - assert (E2 : x = IZR (m * 2 ^ e)).
    { rewrite E. unfold F2R. cbn [Fnum Fexp]. rewrite mult_IZR, bpow_IZR by lia. reflexivity. }
    rewrite E2, <- minus_IZR. apply format_int. rewrite E2 in Hx, Hb. apply le_IZR in Hx, Hb. lia.
Qed.

Lemma sub_err (x : f8) o : 0 <= o <= 25569 -> (0 <= B2R64 x < 2958466)%R ->
  (Rabs (rnd (B2R64 x - IZR o) - (B2R64 x - IZR o)) <= bpow radix2 (-39))%R.
Proof.
  intros Ho Hx. destruct (Rle_lt_dec (IZR o) (B2R64 x)) as [L|L].
  - assert (G : generic_format radix2 fexp64 (B2R64 x - IZR o)).
    { apply format_sub; [apply generic_format_B2R|lia|exact L|]. apply Rle_trans with 2958466%R; [lra|]. apply IZR_le. lia. }
    unfold rnd. rewrite round_generic by (try apply valid_rnd_N; exact G).
    rewrite Rminus_diag_eq by reflexivity. rewrite Rabs_R0. apply bpow_ge_0.
  - change (-39) with (15 - 54). apply rnd_err; [lia|].
    assert (IZR o <= 25569)%R by (apply IZR_le; lia). rewrite Rabs_minus_sym, Rabs_pos_eq by lra.
    change (bpow radix2 15) with 32768%R. lra.
Qed.

Lemma trunc_err y : (Rabs (IZR (Ztrunc y) - y) < 1)%R.
Proof.
  destruct (Rle_lt_dec 0 y) as [L|L].
  - rewrite Ztrunc_floor by exact L. pose proof (Zfloor_lb y). pose proof (Zfloor_ub y).
    rewrite Rabs_minus_sym, Rabs_pos_eq by lra. lra.
  - rewrite Ztrunc_ceil by lra. pose proof (Zceil_ub y). pose proof (Zceil_lb y).
    rewrite Rabs_pos_eq by lra. lra.
Qed.

Lemma ms_err oob x : fin x = true -> (0 <= B2R64 x < 2958466)%R ->
  (Rabs (IZR (f8_to_ms_win oob x) - (B2R64 x - IZR (offset (B2R64 x))) * 86400000) < 1 + / 32)%R.
Proof.
  intros Fx Hx. rewrite f8_to_ms_R; [|exact Fx|].
  2: { rewrite Rabs_pos_eq by lra. apply Rle_trans with 2958466%R; [lra|]. apply IZR_le. lia. }
  set (o := offset (B2R64 x)). assert (Ho : 0 <= o <= 25569) by apply offset_range.
  pose proof (sub_err Ho Hx) as E1. set (d := (B2R64 x - IZR o)%R) in *.
  set (r := rnd d) in *. assert (B39 : bpow radix2 (-39) = (/ IZR (2 ^ 39))%R) by reflexivity.
  assert (Ho' : (0 <= IZR o <= 25569)%R) by (split; apply IZR_le; lia).
  assert (E39 : (bpow radix2 (-39) * 86400000 <= / 1000)%R).
  { rewrite B39. apply Rmult_le_reg_l with (IZR (2 ^ 39)); [apply IZR_lt; reflexivity|].
    rewrite <- Rmult_assoc, Rinv_r, Rmult_1_l by (apply not_0_IZR; discriminate).
    change (2 ^ 39) with 549755813888. lra. }
  assert (Hd : (Rabs d <= 2958466)%R) by (apply Rabs_le; unfold d; lra).
  assert (Hr : (Rabs r <= 2958466)%R).
  { unfold r, rnd. apply abs_round_le_generic; [apply fexp64_valid|apply valid_rnd_N| |exact Hd].
    apply format_int. lia. }
  assert (Hp : (Rabs (r * 86400000) <= bpow radix2 48)%R).
  { rewrite Rabs_mult, (Rabs_pos_eq 86400000) by lra. change (bpow radix2 48) with 281474976710656%R. lra. }
  assert (E2 : (Rabs (rnd (r * 86400000) - r * 86400000) <= / 64)%R).
  { eapply Rle_trans; [apply rnd_err with (k := 48); [lia|exact Hp]|]. change (bpow radix2 (48 - 54)) with (/ 64)%R. lra. }
  pose proof (trunc_err (rnd (r * 86400000))) as E3.
  set (y := rnd (r * 86400000)) in *. set (t := IZR (Ztrunc y)) in *.
  apply Rabs_def2 in E3. apply Rabs_le_inv in E1, E2. apply Rabs_def1.
  - assert ((r - d) * 86400000 <= bpow radix2 (-39) * 86400000)%R by (apply Rmult_le_compat_r; lra). lra.
  - assert (- bpow radix2 (-39) * 86400000 <= (r - d) * 86400000)%R by (apply Rmult_le_compat_r; lra). lra.
Qed.
