(** binary64 arithmetic in terms of real numbers (Flocq). *)
From Verif Require Import Py Casts.
From Coq Require Import Reals Lra.
From Flocq.Core Require Import Core.
From Flocq.IEEE754 Require Import BinarySingleNaN Binary Bits.
From Flocq.Prop Require Import Relative.
Open Scope Z_scope.
Set Implicit Arguments.
Unset Strict Implicit.

Notation B2R64 := (B2R 53 1024).
Notation fin := (is_finite 53 1024).
Definition fexp64 := FLT_exp (-1074) 53.
(** Rounding to nearest even in binary64 (unbounded exponent above). *)
Definition rnd (x : R) : R := round radix2 fexp64 ZnearestE x.

#[global] Instance fexp64_valid : Valid_exp fexp64.
Proof. apply FLT_exp_valid. reflexivity. Qed.

Lemma rnd_le x y : (x <= y)%R -> (rnd x <= rnd y)%R.
Proof. intro H. apply round_le; [apply fexp64_valid|apply valid_rnd_N|exact H]. Qed.

(** Reals that are doubles: [m * 2^e]. *)
Lemma rnd_F2R m e : Z.abs m < 2 ^ 53 -> -1074 <= e -> rnd (F2R (Float radix2 m e)) = F2R (Float radix2 m e).
Proof.
  intros Hm He. apply round_generic; [apply valid_rnd_N|]. apply generic_format_FLT.
  exists (Float radix2 m e); [reflexivity|exact Hm|exact He].
Qed.
Lemma format_int n : Z.abs n <= 2 ^ 53 -> generic_format radix2 fexp64 (IZR n).
Proof.
  intro H. destruct (Z_lt_le_dec (Z.abs n) (2 ^ 53)) as [L|L].
  - apply generic_format_FLT. exists (Float radix2 n 0); [unfold F2R; cbn; lra|exact L|cbn; lia].
  - assert (Hn : n = 2 ^ 53 \/ n = - 2 ^ 53) by lia.
    assert (B : generic_format radix2 fexp64 (IZR (2 ^ 53))).
    { change (IZR (2 ^ 53)) with (bpow radix2 53). apply generic_format_bpow. unfold fexp64, FLT_exp. lia. }
    destruct Hn as [-> | ->]; [exact B|]. rewrite opp_IZR. now apply generic_format_opp.
Qed.
Lemma rnd_int n : Z.abs n <= 2 ^ 53 -> rnd (IZR n) = IZR n.
Proof. intro H. apply round_generic; [apply valid_rnd_N|now apply format_int]. Qed.
Lemma rnd_id (x : f8) : rnd (B2R64 x) = B2R64 x.
Proof. apply round_generic; [apply valid_rnd_N|]. apply generic_format_B2R. Qed.

Lemma bpow_1024 : (bpow radix2 1000 < bpow radix2 1024)%R.
Proof. apply bpow_lt. lia. Qed.
Lemma rnd_bound x : (Rabs x <= bpow radix2 1000)%R -> (Rabs (rnd x) <= bpow radix2 1000)%R.
Proof.
  intro H. unfold rnd. apply abs_round_le_generic; [apply fexp64_valid|apply valid_rnd_N| |exact H].
  apply generic_format_bpow. unfold fexp64, FLT_exp. lia.
Qed.
Lemma rnd_ok x : (Rabs x <= bpow radix2 1000)%R ->
  Rlt_bool (Rabs (round radix2 (SpecFloat.fexp 53 1024) (round_mode mode_NE) x)) (bpow radix2 1024) = true.
Proof.
  intro H. apply Rlt_bool_true. change (SpecFloat.fexp 53 1024) with fexp64. cbn [round_mode].
  apply Rle_lt_trans with (2 := bpow_1024). now apply rnd_bound.
Qed.

Lemma fadd_R x y : fin x = true -> fin y = true -> (Rabs (B2R64 x + B2R64 y) <= bpow radix2 1000)%R ->
  B2R64 (fadd x y) = rnd (B2R64 x + B2R64 y) /\ fin (fadd x y) = true.
Proof.
  intros Fx Fy H. pose proof (Bplus_correct 53 1024 eq_refl eq_refl binop_nan_pl64 mode_NE x y Fx Fy) as P.
  rewrite rnd_ok in P by exact H. destruct P as (P1 & P2 & _). split; [exact P1|exact P2].
Qed.
Lemma fsub_R x y : fin x = true -> fin y = true -> (Rabs (B2R64 x - B2R64 y) <= bpow radix2 1000)%R ->
  B2R64 (fsub x y) = rnd (B2R64 x - B2R64 y) /\ fin (fsub x y) = true.
Proof.
  intros Fx Fy H. pose proof (Bminus_correct 53 1024 eq_refl eq_refl binop_nan_pl64 mode_NE x y Fx Fy) as P.
  rewrite rnd_ok in P by exact H. destruct P as (P1 & P2 & _). split; [exact P1|exact P2].
Qed.
Lemma fmul_R x y : fin x = true -> fin y = true -> (Rabs (B2R64 x * B2R64 y) <= bpow radix2 1000)%R ->
  B2R64 (fmul x y) = rnd (B2R64 x * B2R64 y) /\ fin (fmul x y) = true.
Proof.
  intros Fx Fy H. pose proof (Bmult_correct 53 1024 eq_refl eq_refl binop_nan_pl64 mode_NE x y) as P.
  rewrite rnd_ok in P by exact H. destruct P as (P1 & P2 & _). split; [exact P1|].
  etransitivity; [exact P2|]. now rewrite Fx, Fy.
Qed.
Lemma fdiv_R x y : B2R64 y <> 0%R -> (Rabs (B2R64 x / B2R64 y) <= bpow radix2 1000)%R ->
  B2R64 (fdiv x y) = rnd (B2R64 x / B2R64 y) /\ fin (fdiv x y) = fin x /\
  (is_nan 53 1024 (fdiv x y) = false -> Bsign 53 1024 (fdiv x y) = xorb (Bsign 53 1024 x) (Bsign 53 1024 y)).
Proof.
  intros Hy H. pose proof (Bdiv_correct 53 1024 eq_refl eq_refl binop_nan_pl64 mode_NE x y Hy) as P.
  rewrite rnd_ok in P by exact H. destruct P as (P1 & P2 & P3). split; [exact P1|]. split; [exact P2|exact P3].
Qed.

Lemma f8_of_Z_R n : Z.abs n <= 2 ^ 53 -> B2R64 (f8_of_Z n) = IZR n /\ fin (f8_of_Z n) = true /\
  Bsign 53 1024 (f8_of_Z n) = (n <? 0).
Proof.
  intro H. pose proof (binary_normalize_correct 53 1024 eq_refl eq_refl mode_NE n 0 false) as P.
  assert (E : F2R (Float radix2 n 0) = IZR n) by (unfold F2R; cbn; lra).
  rewrite E in P. rewrite rnd_ok in P.
  - destruct P as (P1 & P2 & P3). split; [|split; [exact P2|]].
    + etransitivity; [exact P1|]. now apply rnd_int.
    + etransitivity; [exact P3|]. destruct (Rcompare_spec (IZR n) 0) as [C|C|C].
      * apply lt_IZR in C. symmetry. apply Z.ltb_lt. lia.
      * apply eq_IZR in C. subst. reflexivity.
      * apply lt_IZR in C. symmetry. apply Z.ltb_ge. lia.
  - rewrite <- abs_IZR. apply Rle_trans with (IZR (2 ^ 53)); [now apply IZR_le|].
    change (IZR (2 ^ 53)) with (bpow radix2 53). apply bpow_le. lia.
Qed.
Lemma f8_of_Z_B2R n : Z.abs n <= 2 ^ 53 -> B2R64 (f8_of_Z n) = IZR n.
Proof. intro H. now apply f8_of_Z_R. Qed.
Lemma f8_of_Z_fin n : Z.abs n <= 2 ^ 53 -> fin (f8_of_Z n) = true.
Proof. intro H. now apply f8_of_Z_R. Qed.

(** Two finite doubles with the same value and sign are the same. *)
Lemma f8_inj (x y : f8) : fin x = true -> fin y = true -> B2R64 x = B2R64 y ->
  Bsign 53 1024 x = Bsign 53 1024 y -> x = y.
Proof. apply B2R_Bsign_inj. Qed.

Lemma feqb_R x y : fin x = true -> fin y = true -> feqb x y = Req_bool (B2R64 x) (B2R64 y).
Proof.
  intros Fx Fy. unfold feqb, b64_compare. rewrite Bcompare_correct by assumption.
  unfold Req_bool. now destruct (Rcompare (B2R64 x) (B2R64 y)).
Qed.
Lemma fltb_R x y : fin x = true -> fin y = true -> fltb x y = Rlt_bool (B2R64 x) (B2R64 y).
Proof.
  intros Fx Fy. unfold fltb, b64_compare. rewrite Bcompare_correct by assumption.
  unfold Rlt_bool. now destruct (Rcompare (B2R64 x) (B2R64 y)).
Qed.
Lemma fgeb_R x y : fin x = true -> fin y = true -> fgeb x y = Rle_bool (B2R64 y) (B2R64 x).
Proof.
  intros Fx Fy. unfold fgeb, b64_compare. rewrite Bcompare_correct by assumption.
  unfold Rle_bool. rewrite Rcompare_sym. now destruct (Rcompare (B2R64 y) (B2R64 x)).
Qed.

Lemma frint_R x : B2R64 (frint x) = IZR (ZnearestE (B2R64 x)) /\ fin (frint x) = fin x.
Proof.
  destruct (Bnearbyint_correct 53 1024 eq_refl unop_nan_pl64 mode_NE x) as (P1 & P2 & _).
  split; [|exact P2]. etransitivity; [exact P1|]. cbn [round_mode]. now rewrite round_FIX_IZR.
Qed.
Lemma ftrunc_R x : B2R64 (ftrunc x) = IZR (Ztrunc (B2R64 x)) /\ fin (ftrunc x) = fin x.
Proof.
  destruct (Bnearbyint_correct 53 1024 eq_refl unop_nan_pl64 mode_ZR x) as (P1 & P2 & _).
  split; [|exact P2]. etransitivity; [exact P1|]. cbn [round_mode]. now rewrite round_FIX_IZR.
Qed.
Lemma Btrunc_R x : Btrunc 53 1024 x = Ztrunc (B2R64 x).
Proof. apply eq_IZR. rewrite Btrunc_correct by reflexivity. apply round_FIX_IZR. Qed.

Lemma f8_to_int_R bits oob x : fin x = true ->
  - 2 ^ (bits - 1) <= Ztrunc (B2R64 x) < 2 ^ (bits - 1) -> f8_to_int bits oob x = Ztrunc (B2R64 x).
Proof.
  intros Fx H. unfold f8_to_int. rewrite Fx, Btrunc_R.
  replace (- 2 ^ (bits - 1) <=? Ztrunc (B2R64 x)) with true by (symmetry; apply Z.leb_le; lia).
  replace (Ztrunc (B2R64 x) <? 2 ^ (bits - 1)) with true by (symmetry; apply Z.ltb_lt; lia). reflexivity.
Qed.

(** Bounds on integers as reals. *)
Lemma IZR_bound n k : Z.abs n <= 2 ^ k -> 0 <= k <= 1000 -> (Rabs (IZR n) <= bpow radix2 1000)%R.
Proof.
  intros H Hk. rewrite <- abs_IZR. apply Rle_trans with (bpow radix2 k); [|apply bpow_le; lia].
  rewrite <- IZR_Zpower by lia. now apply IZR_le.
Qed.

(** Exact integer arithmetic. *)
Lemma fadd_Z a b : Z.abs a <= 2 ^ 52 -> Z.abs b <= 2 ^ 52 ->
  B2R64 (fadd (f8_of_Z a) (f8_of_Z b)) = IZR (a + b) /\ fin (fadd (f8_of_Z a) (f8_of_Z b)) = true.
Proof.
  intros Ha Hb. destruct (@f8_of_Z_R a) as (A1 & A2 & _); [lia|]. destruct (@f8_of_Z_R b) as (B1 & B2 & _); [lia|].
  destruct (@fadd_R (f8_of_Z a) (f8_of_Z b) A2 B2) as [C1 C2].
  - rewrite A1, B1, <- plus_IZR. apply (@IZR_bound _ 53); lia.
  - split; [|exact C2]. rewrite C1, A1, B1, <- plus_IZR. apply rnd_int. lia.
Qed.

Lemma fval_sub x y a b : B2R64 x = IZR a -> B2R64 y = IZR b -> fin x = true -> fin y = true ->
  Z.abs (a - b) <= 2 ^ 53 -> B2R64 (fsub x y) = IZR (a - b) /\ fin (fsub x y) = true.
Proof.
  intros Hx Hy Fx Fy H. destruct (@fsub_R x y Fx Fy) as [C1 C2].
  - rewrite Hx, Hy, <- minus_IZR. now apply (@IZR_bound _ 53).
  - split; [|exact C2]. rewrite C1, Hx, Hy, <- minus_IZR. now apply rnd_int.
Qed.
Lemma fval_mul x y a b : B2R64 x = IZR a -> B2R64 y = IZR b -> fin x = true -> fin y = true ->
  Z.abs (a * b) <= 2 ^ 53 -> B2R64 (fmul x y) = IZR (a * b) /\ fin (fmul x y) = true.
Proof.
  intros Hx Hy Fx Fy H. destruct (@fmul_R x y Fx Fy) as [C1 C2].
  - rewrite Hx, Hy, <- mult_IZR. now apply (@IZR_bound _ 53).
  - split; [|exact C2]. rewrite C1, Hx, Hy, <- mult_IZR. now apply rnd_int.
Qed.
(** Exact division. *)
Lemma fval_div x y a b : B2R64 x = IZR (a * b) -> B2R64 y = IZR b -> b <> 0 -> fin x = true ->
  Z.abs a <= 2 ^ 53 -> B2R64 (fdiv x y) = IZR a /\ fin (fdiv x y) = true.
Proof.
  intros Hx Hy Hb Fx H. assert (Hb' : IZR b <> 0%R) by (apply not_0_IZR; exact Hb).
  assert (E : (IZR (a * b) / IZR b = IZR a)%R) by (rewrite mult_IZR; field; exact Hb').
  destruct (@fdiv_R x y) as (C1 & C2 & _).
  - now rewrite Hy.
  - rewrite Hx, Hy, E. now apply (@IZR_bound _ 53).
  - rewrite C1, C2, Hx, Hy, E. split; [now apply rnd_int|exact Fx].
Qed.

(** Error of one rounding, for |x| <= 2^k. *)
Lemma rnd_err x k : -1021 <= k -> (Rabs x <= bpow radix2 k)%R -> (Rabs (rnd x - x) <= bpow radix2 (k - 54))%R.
Proof.
  intros Hk H. destruct (Req_dec (Rabs x) (bpow radix2 k)) as [E|E].
  - assert (G : generic_format radix2 fexp64 x).
    { apply generic_format_abs_inv. rewrite E. apply generic_format_bpow. unfold fexp64, FLT_exp. lia. }
    unfold rnd. rewrite round_generic by (try apply valid_rnd_N; exact G).
    rewrite Rminus_diag_eq by reflexivity. rewrite Rabs_R0. apply bpow_ge_0.
  - assert (L : (Rabs x < bpow radix2 k)%R) by lra.
    apply Rle_trans with (/ 2 * ulp radix2 fexp64 x)%R; [apply error_le_half_ulp; apply fexp64_valid|].
    replace (bpow radix2 (k - 54)) with (/ 2 * bpow radix2 (k - 53))%R.
    2: { replace (k - 54) with (-1 + (k - 53)) by lia. rewrite bpow_plus. reflexivity. }
    apply Rmult_le_compat_l; [lra|]. destruct (Req_dec x 0) as [->|Hx].
    + change fexp64 with (FLT_exp (-1074) 53). rewrite ulp_FLT_small by (try reflexivity; rewrite Rabs_R0; apply bpow_gt_0). apply bpow_le. lia.
    + rewrite ulp_neq_0 by exact Hx. apply bpow_le. unfold cexp, fexp64, FLT_exp.
      assert (mag radix2 x <= k) by now apply mag_le_bpow. lia.
Qed.
(** Relative error, away from underflow. *)
Lemma rnd_rel x : (bpow radix2 (-1022) <= Rabs x)%R -> (Rabs (rnd x - x) <= bpow radix2 (-53) * Rabs x)%R.
Proof.
  intro H. pose proof (@relative_error_N_FLT radix2 (-1074) 53 eq_refl (fun n => negb (Z.even n)) x) as P.
  change (-1074 + 53 - 1) with (-1022) in P. specialize (P H).
  replace (bpow radix2 (-53))%R with (/ 2 * bpow radix2 (-53 + 1))%R; [exact P|].
  change (-53 + 1) with (1 + -53). rewrite bpow_plus. change (bpow radix2 1) with 2%R. lra.
Qed.
