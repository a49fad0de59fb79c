(** Proofs about [f8_to_rk] on numbers with at most two decimals and on other doubles, and about
    its compiled variant. *)
From Verif Require Import Py PyFacts Casts CastsSpec FloatFacts CastsProofs.
From Coq Require Import Reals Lra ZifyBool ZifyNat.
From Flocq.Core Require Import Core.
From Flocq.IEEE754 Require Import BinarySingleNaN Binary Bits.
Open Scope Z_scope.
Set Implicit Arguments.
Unset Strict Implicit.

Lemma rnd_err_num x k : 0 <= k <= 53 -> (Rabs x <= IZR (2 ^ k))%R -> (Rabs (rnd x - x) <= / IZR (2 ^ (54 - k)))%R.
Proof.
  intros Hk H. assert (E : bpow radix2 (k - 54) = (/ IZR (2 ^ (54 - k)))%R).
  { replace (k - 54) with (- (54 - k)) by lia. rewrite bpow_opp. f_equal. apply bpow_IZR. lia. }
  rewrite <- E. apply rnd_err; [lia|]. now rewrite bpow_IZR by lia.
Qed.
Lemma f8_100 : B2R64 (f8_of_Z 100) = 100%R /\ fin (f8_of_Z 100) = true.
Proof. destruct (@f8_of_Z_R 100) as (A & B & _); [lia|]. now split. Qed.
Lemma big_bound x k : 0 <= k <= 1000 -> (Rabs x <= IZR (2 ^ k))%R -> (Rabs x <= bpow radix2 1000)%R.
Proof. intros Hk H. apply Rle_trans with (1 := H). rewrite <- bpow_IZR by lia. apply bpow_le. lia. Qed.

(** The truncated sum with 0.001, near an integer. *)
Lemma trunc_near (x : f8) k : fin x = true -> Z.abs k <= 2 ^ 40 -> (Rabs (B2R64 x - IZR k) <= / IZR (2 ^ 12))%R ->
  fin (fadd x f8_0001) = true /\ Ztrunc (B2R64 (fadd x f8_0001)) = if k <? 0 then k + 1 else k.
Proof.
  intros Fx Hk H. destruct f8_0001_R as [B1 [B2 B3]]. change (bpow radix2 (-10)) with (/ 1024)%R in B2. change (IZR (2 ^ 12)) with 4096%R in H.
  apply Rabs_le_inv in H. assert (Ab : (IZR (- 2 ^ 40) <= IZR k <= IZR (2 ^ 40))%R) by (split; apply IZR_le; lia).
  change (IZR (- 2 ^ 40)) with (-1099511627776)%R in Ab. change (IZR (2 ^ 40)) with 1099511627776%R in Ab.
  destruct (@fadd_R x f8_0001 Fx B1) as [C1 C2].
  { apply (@big_bound _ 41); [lia|]. change (IZR (2 ^ 41)) with 2199023255552%R. apply Rabs_le. lra. }
  split; [exact C2|]. rewrite C1.
  assert (L : (IZR k + / 2048 <= rnd (B2R64 x + B2R64 f8_0001))%R).
  { replace (IZR k + / 2048)%R with (rnd (IZR k + / 2048)); [apply rnd_le; lra|].
    replace (IZR k + / 2048)%R with (F2R (Float radix2 (k * 2 ^ 11 + 1) (-11))); [apply rnd_F2R; lia|].
    unfold F2R. cbn [Fnum Fexp]. rewrite plus_IZR, mult_IZR. change (bpow radix2 (-11)) with (/ 2048)%R. change (IZR (2 ^ 11)) with 2048%R. field. }
  assert (U : (rnd (B2R64 x + B2R64 f8_0001) <= IZR k + 3 / 4)%R).
  { replace (IZR k + 3 / 4)%R with (rnd (IZR k + 3 / 4)); [apply rnd_le; lra|].
    replace (IZR k + 3 / 4)%R with (F2R (Float radix2 (k * 4 + 3) (-2))); [apply rnd_F2R; lia|].
    unfold F2R. cbn [Fnum Fexp]. rewrite plus_IZR, mult_IZR. change (bpow radix2 (-2)) with (/ 4)%R. field. }
  set (y := rnd _) in *. destruct (k <? 0) eqn:En.
  - rewrite Ztrunc_ceil by (assert (IZR k <= IZR (-1))%R by (apply IZR_le; lia); lra).
    apply Zceil_imp. rewrite plus_IZR, minus_IZR, plus_IZR. lra.
  - rewrite Ztrunc_floor by (assert (IZR 0 <= IZR k)%R by (apply IZR_le; lia); lra).
    apply Zfloor_imp. rewrite plus_IZR. lra.
Qed.

(** A double nearest to [k] hundredths. *)
Section Hundredths.
  Context (x : f8) (k : Z) (Fx : fin x = true) (Hk : Z.abs k <= 2 ^ 36) (Hx : B2R64 x = rnd (IZR k / 100)).
  Lemma k_bound : (-68719476736 <= IZR k <= 68719476736)%R.
  Proof. split; apply IZR_le; lia. Qed.
  Lemma hundredth_err : (Rabs (B2R64 x - IZR k / 100) <= / 16777216)%R.
  Proof.
    rewrite Hx. pose proof k_bound. apply (@rnd_err_num _ 30); [lia|]. change (IZR (2 ^ 30)) with 1073741824%R. apply Rabs_le. lra.
  Qed.
  Lemma scaled : fin (fmul x (f8_of_Z 100)) = true /\ (Rabs (B2R64 (fmul x (f8_of_Z 100)) - IZR k) <= / 4096)%R.
  Proof.
    pose proof k_bound. pose proof hundredth_err as E. apply Rabs_le_inv in E. destruct f8_100 as [H1 H2].
    destruct (@fmul_R x (f8_of_Z 100) Fx H2) as [C1 C2].
    { rewrite H1. apply (@big_bound _ 37); [lia|]. change (IZR (2 ^ 37)) with 137438953472%R. apply Rabs_le. lra. }
    split; [exact C2|]. rewrite C1, H1.
    assert (D : (Rabs (rnd (B2R64 x * 100) - B2R64 x * 100) <= / 131072)%R).
    { apply (@rnd_err_num _ 37); [lia|]. change (IZR (2 ^ 37)) with 137438953472%R. apply Rabs_le. lra. }
    apply Rabs_le_inv in D. apply Rabs_le. lra.
  Qed.
  Lemma hundredth_round : fin (np_round 2 x) = true /\ B2R64 (np_round 2 x) = B2R64 x.
  Proof.
    destruct scaled as [S1 S2]. unfold np_round. change (2 =? 0) with false. change (0 <? 2) with true. cbv iota zeta.
    change (power_of_ten (Z.to_nat 2)) with (f8_of_Z 100). destruct (frint_R (fmul x (f8_of_Z 100))) as [D1 D2].
    rewrite (@Znearest_imp _ _ k) in D1 by lra. rewrite S1 in D2. destruct f8_100 as [H1 H2]. pose proof k_bound.
    destruct (@fdiv_R (frint (fmul x (f8_of_Z 100))) (f8_of_Z 100)) as (C1 & C2 & _).
    - rewrite H1. lra.
    - rewrite D1, H1. apply (@big_bound _ 36); [lia|]. change (IZR (2 ^ 36)) with 68719476736%R. apply Rabs_le. lra.
    - rewrite C1, C2, D1, H1. split; [exact D2|now rewrite Hx].
  Qed.
  Lemma hundredth_whole : feqb (ftrunc x) (np_round 2 x) = (k mod 100 =? 0).
  Proof.
    destruct hundredth_round as [R1 R2]. destruct (ftrunc_R x) as [T1 T2]. rewrite Fx in T2. rewrite feqb_R by assumption. rewrite T1, R2.
    pose proof (Z.div_mod k 100 ltac:(lia)) as DM. destruct (k mod 100 =? 0) eqn:E.
    - assert (V : B2R64 x = IZR (k / 100)).
      { rewrite Hx. replace (IZR k / 100)%R with (IZR (k / 100)); [apply rnd_int; Z.div_mod_to_equations; lia|].
        rewrite DM at 2. replace (k mod 100) with 0 by lia. rewrite Z.add_0_r, mult_IZR. field. }
      rewrite V, Ztrunc_IZR. now apply Req_bool_true.
    - apply Req_bool_false. intro V. pose proof hundredth_err as Er. rewrite <- V in Er. set (n := Ztrunc (B2R64 x)) in *.
      assert (Z.abs (100 * n - k) >= 1) by (Z.div_mod_to_equations; lia).
      assert (G : (1 <= Rabs (IZR (100 * n - k)))%R) by (rewrite <- abs_IZR; apply IZR_le; lia).
      replace (IZR (100 * n - k))%R with (100 * (IZR n - IZR k / 100))%R in G by (rewrite minus_IZR, mult_IZR; field).
      rewrite Rabs_mult, (Rabs_pos_eq 100) in G by lra. lra.
  Qed.
  Lemma hundredth_same : feqb x (np_round 2 x) = true.
  Proof. destruct hundredth_round as [R1 R2]. rewrite feqb_R by assumption. rewrite R2. now apply Req_bool_true. Qed.
End Hundredths.

Lemma rk_word v r : - 2 ^ 29 <= v <= 2 ^ 29 - 1 -> 0 <= r < 4 -> to_u32 (Z.lor (shl_i32 v 2) r) = 4 * (v mod 2 ^ 30) + r.
Proof.
  intros Hv Hr. unfold shl_i32. rewrite Z.shiftl_mul_pow2 by lia. change (2 ^ 2) with 4.
  assert (E : to_i32 (to_u32 (v * 4)) = 4 * v).
  { unfold to_i32, to_u32. destruct ((v * 4) mod 2 ^ 32 <? 2 ^ 31) eqn:E; Z.div_mod_to_equations; lia. }
  rewrite E. assert (L : Z.lor (4 * v) r = 4 * v + r).
  { assert (A : Z.land (4 * v) r = 0).
    { apply Z.bits_inj'. intros n Hn. rewrite Z.land_spec, Z.bits_0. destruct (Z_lt_le_dec n 2) as [L|L].
      - replace (4 * v) with (Z.shiftl v 2) by (rewrite Z.shiftl_mul_pow2 by lia; lia). now rewrite Z.shiftl_spec_low by lia.
      - rewrite (Z.bits_above_log2 r n); [apply andb_false_r|lia|]. destruct (Z.eq_dec r 0) as [-> | N]; [cbn; lia|].
        apply Z.log2_lt_pow2; [lia|]. apply Z.lt_le_trans with (2 ^ 2); [cbn; lia|]. apply Z.pow_le_mono_r; lia. }
    rewrite Z.add_nocarry_lxor by exact A. symmetry. now apply Z.lxor_lor. }
  rewrite L. unfold to_u32. Z.div_mod_to_equations. lia.
Qed.

(** What becomes of [k] hundredths. *)
Lemma hundredths_rk oob (x : f8) k : fin x = true -> - 2 ^ 29 <= k < 2 ^ 29 -> B2R64 x = rnd (IZR k / 100) ->
  let v := if k mod 100 =? 0 then 100 * (if k <? 0 then k / 100 + 1 else k / 100) else if k <? 0 then k + 1 else k in
  fin (rk_to_f8 (f8_to_rk oob x)) = true /\ B2R64 (rk_to_f8 (f8_to_rk oob x)) = rnd (IZR v / 100).
Proof.
  intros Fx Hk Hx. assert (Hk' : Z.abs k <= 2 ^ 36) by lia. cbv zeta. unfold f8_to_rk. rewrite (hundredth_same Fx Hk' Hx), (hundredth_whole Fx Hk' Hx).
  destruct (k mod 100 =? 0) eqn:E.
  - assert (V : (IZR k / 100 = IZR (k / 100))%R).
    { rewrite (Z.div_mod k 100) at 1 by lia. replace (k mod 100) with 0 by lia. rewrite Z.add_0_r, mult_IZR. field. }
    rewrite V, rnd_int in Hx by (Z.div_mod_to_equations; lia).
    destruct (@trunc_near x (k / 100) Fx) as [F1 F2]; [Z.div_mod_to_equations; lia|rewrite Hx, Rminus_diag_eq by reflexivity; rewrite Rabs_R0; change (IZR (2 ^ 12)) with 4096%R; lra|].
    assert (S : (k / 100 <? 0) = (k <? 0)) by (Z.div_mod_to_equations; lia). rewrite S in F2.
    set (u := if k <? 0 then k / 100 + 1 else k / 100) in *. assert (Hu : - 2 ^ 29 <= u <= 2 ^ 29 - 1) by (subst u; destruct (k <? 0) eqn:?; Z.div_mod_to_equations; lia).
    unfold f8_to_i32. rewrite f8_to_int_R; [|exact F1|rewrite F2; lia]. rewrite F2, rk_word by lia.
    replace (4 * (u mod 2 ^ 30) + 2) with (4 * (u mod 2 ^ 30) + 2 + 0) by lia.
    destruct (@rk_int_R (u mod 2 ^ 30) 0) as [G1 G2]; [apply Z.mod_pos_bound; lia|lia|]. split; [exact G1|]. rewrite G2. cbn [Z.eqb].
    rewrite signed30_mod by lia. f_equal. rewrite mult_IZR. field.
  - destruct (scaled Fx Hk' Hx) as [S1 S2].
    destruct (@trunc_near (fmul x (f8_of_Z 100)) k S1) as [F1 F2]; [lia|exact S2|].
    set (u := if k <? 0 then k + 1 else k) in *. assert (Hu : - 2 ^ 29 <= u <= 2 ^ 29 - 1) by (subst u; destruct (k <? 0) eqn:?; lia).
    unfold f8_to_i32. rewrite f8_to_int_R; [|exact F1|rewrite F2; lia]. rewrite F2, rk_word by lia.
    replace (4 * (u mod 2 ^ 30) + 3) with (4 * (u mod 2 ^ 30) + 2 + 1) by lia.
    destruct (@rk_int_R (u mod 2 ^ 30) 1) as [G1 G2]; [apply Z.mod_pos_bound; lia|lia|]. split; [exact G1|]. rewrite G2. cbn [Z.eqb].
    now rewrite signed30_mod by lia.
Qed.

(** ** Doubles that are no hundredths *)
Lemma fin_bits b : 0 <= b -> fin (b64_of_bits b) = negb ((b / 2 ^ 52) mod 2048 =? 2047).
Proof.
  intro Hb. unfold b64_of_bits, binary_float_of_bits. etransitivity; [apply is_finite_FF2B|].
  unfold binary_float_of_bits_aux, split_bits. set (m := b mod 2 ^ 52). set (e := (b / 2 ^ 52) mod 2 ^ 11).
  assert (Hm : 0 <= m < 2 ^ 52) by (apply Z.mod_pos_bound; lia). change (2 ^ 11) with 2048 in e. subst e. set (e := (b / 2 ^ 52) mod 2048).
  destruct (Zeq_bool e 0) eqn:E0.
  - apply Zeq_bool_eq in E0. rewrite E0. destruct m; [reflexivity|reflexivity|lia].
  - change (2 ^ 11 - 1) with 2047. destruct (Zeq_bool e 2047) eqn:E1.
    + apply Zeq_bool_eq in E1. rewrite E1. destruct m; reflexivity.
    + replace (e =? 2047) with false by (apply Zeq_bool_neq in E1; lia). destruct (m + 2 ^ 52) eqn:M; [lia|reflexivity|lia].
Qed.
Lemma bits_range (x : f8) : 0 <= bits_of_b64 x < 2 ^ 64.
Proof. apply (bits_of_binary_float_range 52 11); reflexivity. Qed.
Lemma bits_inv (x : f8) : b64_of_bits (bits_of_b64 x) = x.
Proof. unfold b64_of_bits, bits_of_b64. now rewrite binary_float_of_bits_of_binary_float. Qed.
(** The double with the low 34 bits cleared. *)
Definition cleared (x : f8) : f8 := b64_of_bits (bits_of_b64 x / 2 ^ 34 * 2 ^ 34).
Lemma cleared_fin x : fin x = true -> fin (cleared x) = true.
Proof.
  intro Fx. pose proof (bits_range x) as B. rewrite <- (bits_inv x), fin_bits in Fx by lia. unfold cleared. rewrite fin_bits by (Z.div_mod_to_equations; lia).
  replace (bits_of_b64 x / 2 ^ 34 * 2 ^ 34 / 2 ^ 52) with (bits_of_b64 x / 2 ^ 52); [exact Fx|].
  change (2 ^ 52) with (2 ^ 34 * 2 ^ 18). rewrite <- !Z.div_div by lia. now rewrite Z.div_mul by lia.
Qed.
Lemma fdiv_one x : fin x = true -> fdiv x (f8_of_Z 1) = x.
Proof.
  intro Fx. destruct (@f8_of_Z_R 1) as (B1 & B2 & B3); [lia|].
  pose proof (Bdiv_correct 53 1024 eq_refl eq_refl binop_nan_pl64 mode_NE x (f8_of_Z 1)) as P. rewrite B1 in P. specialize (P ltac:(lra)).
  replace (B2R64 x / 1)%R with (B2R64 x) in P by field. change (SpecFloat.fexp 53 1024) with fexp64 in P. cbn [round_mode] in P.
  fold (rnd (B2R64 x)) in P. rewrite rnd_id in P. rewrite Rlt_bool_true in P by apply abs_B2R_lt_emax. destruct P as (P1 & P2 & P3).
  assert (F : fin (fdiv x (f8_of_Z 1)) = true) by (etransitivity; [exact P2|exact Fx]).
  apply f8_inj; [exact F|exact Fx|exact P1|]. etransitivity; [apply P3; revert F; unfold fdiv, b64_div; now destruct (Bdiv _ _ _ _ _ _ _ _)|].
  rewrite B3. change (1 <? 0) with false. now destruct (Bsign 53 1024 x).
Qed.
Lemma other_rk_bits x : fin x = true -> rk_to_f8 (Z.land (Z.shiftr (bits_of_b64 x) 32) 0xFFFFFFFC) = cleared x.
Proof.
  intro Fx. pose proof (bits_range x) as B. rewrite Z.shiftr_div_pow2 by lia. set (q := bits_of_b64 x / 2 ^ 34).
  assert (E : bits_of_b64 x / 2 ^ 32 = 4 * q + (bits_of_b64 x / 2 ^ 32) mod 4).
  { subst q. change (2 ^ 34) with (2 ^ 32 * 4). rewrite <- Z.div_div by lia. apply Z.div_mod. lia. }
  rewrite E, land_hi; [|subst q; Z.div_mod_to_equations; lia|apply Z.mod_pos_bound; lia].
  replace (4 * q) with (4 * q + 2 * 0 + 0) by lia. rewrite rk_parts; [|subst q; Z.div_mod_to_equations; lia|lia|lia]. cbn [Z.eqb].
  change (0 * 99 + 1) with 1. apply fdiv_one. now apply cleared_fin.
Qed.
Lemma other_rk oob x : fin x = true -> (Rabs (B2R64 x) <= IZR (2 ^ 22))%R -> (forall k, B2R64 x <> rnd (IZR k / 100)) ->
  rk_to_f8 (f8_to_rk oob x) = cleared x.
Proof.
  intros Fx Hx N. unfold f8_to_rk. replace (feqb x (np_round 2 x)) with false; [now apply other_rk_bits|]. symmetry.
  change (IZR (2 ^ 22)) with 4194304%R in Hx. apply Rabs_le_inv in Hx. destruct f8_100 as [H1 H2].
  unfold np_round. change (2 =? 0) with false. change (0 <? 2) with true. cbv iota zeta. change (power_of_ten (Z.to_nat 2)) with (f8_of_Z 100).
  destruct (@fmul_R x (f8_of_Z 100) Fx H2) as [C1 C2].
  { rewrite H1. apply (@big_bound _ 30); [lia|]. change (IZR (2 ^ 30)) with 1073741824%R. apply Rabs_le. lra. }
  rewrite H1 in C1. assert (D : (Rabs (rnd (B2R64 x * 100) - B2R64 x * 100) <= / 16777216)%R).
  { apply (@rnd_err_num _ 30); [lia|]. change (IZR (2 ^ 30)) with 1073741824%R. apply Rabs_le. lra. }
  apply Rabs_le_inv in D. destruct (frint_R (fmul x (f8_of_Z 100))) as [D1 D2]. set (K := ZnearestE _) in D1. rewrite C2 in D2.
  assert (G : (Rabs (IZR K - rnd (B2R64 x * 100)) <= / 2)%R).
  { subst K. rewrite C1, Rabs_minus_sym. apply Znearest_half. }
  apply Rabs_le_inv in G. destruct (@fdiv_R (frint (fmul x (f8_of_Z 100))) (f8_of_Z 100)) as (E1 & E2 & _).
  - rewrite H1. lra.
  - rewrite D1, H1. apply (@big_bound _ 30); [lia|]. change (IZR (2 ^ 30)) with 1073741824%R. apply Rabs_le. lra.
  - rewrite feqb_R; [|exact Fx|now rewrite E2]. rewrite E1, D1, H1. apply Req_bool_false. apply N.
Qed.

(** ** The compiled variant *)
Lemma word_i32 v : - 2 ^ 31 <= v < 2 ^ 31 -> to_i32 (to_u32 v) = v.
Proof. intro H. unfold to_i32, to_u32. destruct (v mod 2 ^ 32 <? 2 ^ 31) eqn:E; Z.div_mod_to_equations; lia. Qed.
Lemma gu_same oob oob64 x : fin x = true -> (Rabs (B2R64 x) <= IZR (2 ^ 31 - 1))%R -> gu_f8_to_rk oob oob64 x = f8_to_rk oob x.
Proof.
  intros Fx Hx. unfold gu_f8_to_rk, f8_to_rk. destruct (feqb x _); [|reflexivity]. destruct (feqb (ftrunc x) _); [|reflexivity].
  change (IZR (2 ^ 31 - 1)) with 2147483647%R in Hx. apply Rabs_le_inv in Hx. destruct f8_0001_R as [B1 [B2 B3]]. change (bpow radix2 (-10)) with (/ 1024)%R in B2.
  destruct (@fadd_R x f8_0001 Fx B1) as [C1 C2].
  { apply (@big_bound _ 32); [lia|]. change (IZR (2 ^ 32)) with 4294967296%R. apply Rabs_le. lra. }
  assert (L : (-2147483648 <= B2R64 (fadd x f8_0001))%R).
  { rewrite C1. rewrite <- (@rnd_int (-2147483648)) by lia. apply rnd_le. lra. }
  assert (U : (B2R64 (fadd x f8_0001) <= 2147483647 + / 2)%R).
  { rewrite C1. replace (2147483647 + / 2)%R with (rnd (2147483647 + / 2)); [apply rnd_le; lra|].
    replace (2147483647 + / 2)%R with (F2R (Float radix2 (2147483647 * 2 + 1) (-1))); [apply rnd_F2R; lia|].
    unfold F2R. cbn [Fnum Fexp]. change (bpow radix2 (-1)) with (/ 2)%R. change (IZR (2147483647 * 2 + 1)) with 4294967295%R. lra. }
  assert (T : - 2 ^ 31 <= Ztrunc (B2R64 (fadd x f8_0001)) < 2 ^ 31).
  { split.
    - change (- 2 ^ 31) with (-2147483648). rewrite <- (Ztrunc_IZR (-2147483648)). apply Ztrunc_le. exact L.
    - apply Z.le_lt_trans with (Ztrunc (2147483647 + / 2)); [now apply Ztrunc_le|]. rewrite Ztrunc_floor by lra.
      assert (E : Zfloor (2147483647 + / 2) = 2147483647) by (apply Zfloor_imp; rewrite plus_IZR; lra). rewrite E. lia. }
  unfold f8_to_i32, f8_to_i64. rewrite !f8_to_int_R by (try exact C2; lia). now rewrite word_i32.
Qed.
Lemma gu_large oob oob64 n : 2 ^ 31 <= n <= 2 ^ 32 -> gu_f8_to_rk oob oob64 (f8_of_Z n) = 4 * (n mod 2 ^ 30) + 2.
Proof.
  intro H. unfold gu_f8_to_rk. destruct (@np_round2_int n) as [R1 R2]; [lia|].
  destruct (@f8_of_Z_R n) as (A1 & A2 & _); [lia|]. destruct (ftrunc_R (f8_of_Z n)) as [T1 T2].
  rewrite A1, Ztrunc_IZR in T1. rewrite A2 in T2. rewrite !feqb_R by assumption. rewrite A1, R2, T1. rewrite Req_bool_true by reflexivity.
  destruct (@trunc_near (f8_of_Z n) n A2) as [F1 F2]; [lia|rewrite A1, Rminus_diag_eq by reflexivity; rewrite Rabs_R0; change (IZR (2 ^ 12)) with 4096%R; lra|].
  replace (n <? 0) with false in F2 by lia. unfold f8_to_i64. rewrite f8_to_int_R by (try exact F1; rewrite F2; lia). rewrite F2.
  assert (S : shl_i32 (to_i32 (to_u32 n)) 2 = 4 * signed30 (n mod 2 ^ 30)).
  { unfold shl_i32. rewrite Z.shiftl_mul_pow2 by lia. change (2 ^ 2) with 4. unfold signed30, to_i32, to_u32.
    destruct (n mod 2 ^ 30 <? 2 ^ 29) eqn:E1; destruct (n mod 2 ^ 32 <? 2 ^ 31) eqn:E2.
    all: match goal with |- context [if ?a <? ?b then _ else _] => destruct (a <? b) eqn:E3 end; Z.div_mod_to_equations; lia. }
  rewrite S, lor_4_2. unfold to_u32, signed30. destruct (n mod 2 ^ 30 <? 2 ^ 29) eqn:E1; Z.div_mod_to_equations; lia.
Qed.
Lemma large_np oob n : 2 ^ 31 <= n <= 2 ^ 32 -> exists y, f8_to_rk oob (f8_of_Z n) = to_u32 (Z.lor (shl_i32 (oob y) 2) 2).
Proof.
  intro H. unfold f8_to_rk. destruct (@np_round2_int n) as [R1 R2]; [lia|].
  destruct (@f8_of_Z_R n) as (A1 & A2 & _); [lia|]. destruct (ftrunc_R (f8_of_Z n)) as [T1 T2].
  rewrite A1, Ztrunc_IZR in T1. rewrite A2 in T2. rewrite !feqb_R by assumption. rewrite A1, R2, T1. rewrite Req_bool_true by reflexivity.
  destruct (@trunc_near (f8_of_Z n) n A2) as [F1 F2]; [lia|rewrite A1, Rminus_diag_eq by reflexivity; rewrite Rabs_R0; change (IZR (2 ^ 12)) with 4096%R; lra|].
  replace (n <? 0) with false in F2 by lia. exists (fadd (f8_of_Z n) f8_0001). unfold f8_to_i32, f8_to_int. rewrite Btrunc_R, F2, F1.
  replace (n <? 2 ^ (32 - 1)) with false by lia. now rewrite andb_false_r.
Qed.

(** ** All numbers with an RK form *)
Lemma rk_word_any v r : 0 <= r < 4 -> to_u32 (Z.lor (shl_i32 v 2) r) = 4 * (v mod 2 ^ 30) + r.
Proof.
  intro Hr. set (q := v mod 2 ^ 30). assert (Hq : 0 <= q < 2 ^ 30) by (apply Z.mod_pos_bound; lia).
  assert (Hs : - 2 ^ 29 <= signed30 q <= 2 ^ 29 - 1) by (unfold signed30; destruct (q <? 2 ^ 29) eqn:E; lia).
  assert (E : shl_i32 v 2 = shl_i32 (signed30 q) 2).
  { unfold shl_i32. rewrite !Z.shiftl_mul_pow2 by lia. change (2 ^ 2) with 4. f_equal. unfold to_u32, signed30. subst q.
    destruct (v mod 2 ^ 30 <? 2 ^ 29); Z.div_mod_to_equations; lia. }
  rewrite E, rk_word by lia. f_equal. f_equal. unfold signed30. destruct (q <? 2 ^ 29); Z.div_mod_to_equations; lia.
Qed.
Lemma int_form v c : 0 <= c <= 1 -> exists s, - 2 ^ 29 <= s <= 2 ^ 29 - 1 /\
  B2R64 (rk_to_f8 (to_u32 (Z.lor (shl_i32 v 2) (2 + c)))) = rnd (IZR s / IZR (if c =? 1 then 100 else 1)).
Proof.
  intro Hc. rewrite rk_word_any by lia. set (q := v mod 2 ^ 30). assert (Hq : 0 <= q < 2 ^ 30) by (apply Z.mod_pos_bound; lia).
  exists (signed30 q). split; [unfold signed30; destruct (q <? 2 ^ 29) eqn:E; lia|]. rewrite Z.add_assoc. now apply rk_int_R.
Qed.

Lemma b64_R b : B2R64 (b64_of_bits b) = FF2R radix2 (binary_float_of_bits_aux 52 11 b).
Proof. unfold b64_of_bits, binary_float_of_bits. apply B2R_FF2B. Qed.
(** A large double whose low 34 bits are clear: an integer of at most 19 significant bits. *)
Lemma clear_R x q : fin x = true -> 0 <= q < 2 ^ 30 -> bits_of_b64 x = q * 2 ^ 34 -> (IZR (2 ^ 18) <= Rabs (B2R64 x))%R ->
  exists m e, B2R64 x = F2R (Float radix2 m e) /\ Z.abs m < 2 ^ 19 /\ 0 <= e.
Proof.
  intros Fx Hq Hb Hx. rewrite <- (bits_inv x), Hb in Hx, Fx |- *. rewrite fin_bits in Fx by lia. rewrite b64_R in *.
  unfold binary_float_of_bits_aux, split_bits in *. set (mx := (q * 2 ^ 34) mod 2 ^ 52) in *.
  assert (Em : mx = (q mod 2 ^ 18) * 2 ^ 34).
  { subst mx. change (2 ^ 52) with (2 ^ 18 * 2 ^ 34). now rewrite Z.mul_mod_distr_r by lia. }
  set (ex := (q * 2 ^ 34 / 2 ^ 52) mod 2 ^ 11) in *. change (2 ^ 11) with 2048 in ex. set (sg := Z.leb _ _) in *. clearbody sg.
  assert (Hq18 : 0 <= q mod 2 ^ 18 < 2 ^ 18) by (apply Z.mod_pos_bound; lia). set (m0 := q mod 2 ^ 18) in *. clearbody m0.
  assert (Hex : 0 <= ex < 2048) by (apply Z.mod_pos_bound; lia). change (negb (ex =? 2047) = true) in Fx. clearbody ex mx.
  assert (Small : forall m e, 0 <= m -> (Rabs (F2R (Float radix2 (cond_Zopp sg m) e)) = IZR m * bpow radix2 e)%R).
  { intros m e Hm. rewrite <- F2R_Zabs, abs_cond_Zopp, Z.abs_eq by exact Hm. reflexivity. }
  destruct (Zeq_bool ex 0) eqn:E0.
  - exfalso. destruct mx as [|p|p] eqn:Ep; [|clear Ep|lia].
    + cbn [FF2R] in Hx. rewrite Rabs_R0 in Hx. apply (le_IZR _ 0) in Hx. lia.
    + unfold FF2R in Hx. rewrite Small in Hx by lia. assert (L : (IZR (Z.pos p) * bpow radix2 (3 - 1024 - 53) <= IZR (2 ^ 52) * bpow radix2 (-1074))%R).
      { apply Rmult_le_compat_r; [apply bpow_ge_0|]. apply IZR_le. lia. }
      change (IZR (2 ^ 52)) with (bpow radix2 52) in L. rewrite <- bpow_plus in L. change (52 + -1074) with (-1022) in L.
      assert (L2 : (bpow radix2 (-1022) <= bpow radix2 0)%R) by (apply bpow_le; lia). cbn [bpow] in L2. apply Rle_trans with (1 := Hx) in L.
      apply Rle_trans with (1 := L) in L2. apply (le_IZR _ 1) in L2. lia.
  - change (2 ^ 11 - 1) with 2047 in *. destruct (Zeq_bool ex 2047) eqn:E1; [apply Zeq_bool_eq in E1; subst ex; discriminate Fx|].
    destruct (mx + 2 ^ 52) as [|p|p] eqn:Ep; [lia| |lia]. unfold FF2R in *. rewrite Small in Hx by lia. rewrite <- Ep in *.
    set (M := m0 + 2 ^ 18). assert (EM : mx + 2 ^ 52 = M * 2 ^ 34) by (subst M; lia). change (ex + (3 - 1024 - 53) - 1) with (ex + (-1074) - 1) in *.
    assert (S : forall z, F2R (Float radix2 (z * 2 ^ 34) (ex + -1074 - 1)) = F2R (Float radix2 z (ex - 1041))).
    { intro z. unfold F2R. cbn [Fnum Fexp]. rewrite mult_IZR. change (IZR (2 ^ 34)) with (bpow radix2 34). rewrite Rmult_assoc, <- bpow_plus. do 2 f_equal. lia. }
    assert (C : cond_Zopp sg (M * 2 ^ 34) = cond_Zopp sg M * 2 ^ 34) by (destruct sg; cbn [cond_Zopp]; lia).
    exists (cond_Zopp sg M), (ex - 1041). rewrite Ep, <- Ep, EM, C, S. split; [reflexivity|]. split; [rewrite abs_cond_Zopp; subst M; lia|].
    destruct (Z_lt_le_dec (ex - 1041) 0) as [L|L]; [exfalso|exact L]. rewrite EM in Hx.
    specialize (S M). unfold F2R in S. cbn [Fnum Fexp] in S. change (IZR (2 ^ 18) <= IZR (M * 2 ^ 34) * bpow radix2 (ex + -1074 - 1))%R in Hx. rewrite S in Hx.
    assert (B : (IZR M * bpow radix2 (ex - 1041) <= IZR M * bpow radix2 (-1))%R).
    { apply Rmult_le_compat_l; [apply IZR_le; subst M; lia|]. apply bpow_le. lia. }
    change (bpow radix2 (-1)) with (/ 2)%R in B. assert (HM : (IZR M <= IZR (2 ^ 19 - 1))%R) by (apply IZR_le; subst M; lia).
    change (IZR (2 ^ 19 - 1)) with 524287%R in HM. change (IZR (2 ^ 18)) with 262144%R in Hx. lra.
Qed.

Lemma fmul_R' x y : fin x = true -> fin y = true -> (Rabs (rnd (B2R64 x * B2R64 y)) < bpow radix2 1024)%R ->
  B2R64 (fmul x y) = rnd (B2R64 x * B2R64 y) /\ fin (fmul x y) = true.
Proof.
  intros Fx Fy H. pose proof (Bmult_correct 53 1024 eq_refl eq_refl binop_nan_pl64 mode_NE x y) as P.
  rewrite Rlt_bool_true in P by exact H. destruct P as (P1 & P2 & _). split; [exact P1|].
  etransitivity; [exact P2|]. now rewrite Fx, Fy.
Qed.
Lemma fdiv_R' x y : B2R64 y <> 0%R -> (Rabs (rnd (B2R64 x / B2R64 y)) < bpow radix2 1024)%R ->
  B2R64 (fdiv x y) = rnd (B2R64 x / B2R64 y) /\ fin (fdiv x y) = fin x.
Proof.
  intros Hy H. pose proof (Bdiv_correct 53 1024 eq_refl eq_refl binop_nan_pl64 mode_NE x y Hy) as P.
  rewrite Rlt_bool_true in P by exact H. destruct P as (P1 & P2 & P3). split; [exact P1|exact P2].
Qed.
(** Large multiples of a high power of two lose nothing in [np.round(x, 2)]. *)
Lemma np_round2_large x m e : fin x = true -> B2R64 x = F2R (Float radix2 m e) -> Z.abs m < 2 ^ 19 -> 0 <= e -> (Rabs (B2R64 x * 100) < bpow radix2 1024)%R ->
  feqb x (np_round 2 x) = true.
Proof.
  intros Fx Vx Hm He Hx. destruct f8_100 as [H1 H2].
  assert (V100 : (B2R64 x * 100)%R = F2R (Float radix2 (100 * m) e)).
  { rewrite Vx. unfold F2R. cbn [Fnum Fexp]. rewrite mult_IZR. ring. }
  destruct (@fmul_R' x (f8_of_Z 100) Fx H2) as [C1 C2]; [rewrite H1, V100, rnd_F2R by lia; now rewrite <- V100|]. rewrite H1, V100, rnd_F2R in C1 by lia.
  assert (I : F2R (Float radix2 (100 * m) e) = IZR (100 * m * 2 ^ e)).
  { unfold F2R. cbn [Fnum Fexp]. rewrite (mult_IZR (100 * m)), bpow_IZR by exact He. reflexivity. }
  unfold np_round. change (2 =? 0) with false. change (0 <? 2) with true. cbv iota zeta. change (power_of_ten (Z.to_nat 2)) with (f8_of_Z 100).
  destruct (frint_R (fmul x (f8_of_Z 100))) as [D1 D2]. rewrite C1, I in D1. rewrite C2 in D2.
  assert (N : ZnearestE (IZR (100 * m * 2 ^ e)) = 100 * m * 2 ^ e) by (apply Znearest_imp; rewrite Rminus_diag_eq by reflexivity; rewrite Rabs_R0; lra).
  rewrite N, <- I, <- V100 in D1.
  destruct (@fdiv_R' (frint (fmul x (f8_of_Z 100))) (f8_of_Z 100)) as (E1 & E2).
  - rewrite H1. lra.
  - rewrite D1, H1. replace (B2R64 x * 100 / 100)%R with (B2R64 x) by field. rewrite rnd_id. apply abs_B2R_lt_emax.
  - rewrite feqb_R; [|exact Fx|now rewrite E2]. rewrite E1, D1, H1. replace (B2R64 x * 100 / 100)%R with (B2R64 x) by field.
    rewrite rnd_id. now apply Req_bool_true.
Qed.
Lemma cleared_bits x : bits_of_b64 (cleared x) = bits_of_b64 x / 2 ^ 34 * 2 ^ 34.
Proof.
  pose proof (bits_range x) as R. unfold cleared, b64_of_bits, bits_of_b64 in *. rewrite bits_of_binary_float_of_bits; [reflexivity|].
  change (2 ^ (52 + 11 + 1)) with (2 ^ 64). Z.div_mod_to_equations. lia.
Qed.
(** Numbers whose hundredfold is too large are kept by their bits. *)
Lemma np_round2_over x : fin x = true -> (bpow radix2 1024 <= Rabs (B2R64 x * 100))%R -> feqb x (np_round 2 x) = false.
Proof.
  intros Fx H. destruct f8_100 as [H1 H2].
  assert (I : exists sg, fmul x (f8_of_Z 100) = B754_infinity 53 1024 sg).
  { pose proof (Bmult_correct 53 1024 eq_refl eq_refl binop_nan_pl64 mode_NE x (f8_of_Z 100)) as P.
    rewrite Rlt_bool_false in P.
    - change (Bmult 53 1024 eq_refl eq_refl binop_nan_pl64 mode_NE x (f8_of_Z 100)) with (fmul x (f8_of_Z 100)) in P.
      destruct (fmul x (f8_of_Z 100)) as [sg|sg|sg pl e0|sg m e e0]; try discriminate P. now exists sg.
    - change (B2R 53 1024 (f8_of_Z 100)) with (B2R64 (f8_of_Z 100)). rewrite H1. fold (rnd (B2R64 x * 100)).
      apply abs_round_ge_generic; try typeclasses eauto; [|exact H]. apply generic_format_bpow. vm_compute. discriminate. }
  destruct I as (sg & I). unfold np_round. change (2 =? 0) with false. change (0 <? 2) with true. cbv iota zeta. change (power_of_ten (Z.to_nat 2)) with (f8_of_Z 100). rewrite I.
  destruct x as [s0|s0|s0 pl e0|s0 m e e0]; try discriminate Fx; destruct sg; vm_compute; try reflexivity.
Qed.
(** Numbers beyond 29 bits: which survive. *)
Lemma large_exact oob x : fin x = true -> (IZR (2 ^ 29) <= B2R64 x \/ B2R64 x < - IZR (2 ^ 29))%R ->
  B2R64 (rk_to_f8 (f8_to_rk oob x)) = B2R64 x <-> (bpow radix2 1024 <= Rabs (B2R64 x * 100))%R /\ bits_of_b64 x mod 2 ^ 34 = 0.
Proof.
  intros Fx Hx. change (IZR (2 ^ 29)) with 536870912%R in Hx.
  assert (I : forall v c, 0 <= c <= 1 -> B2R64 (rk_to_f8 (to_u32 (Z.lor (shl_i32 v 2) (2 + c)))) <> B2R64 x).
  { intros v c Hc. destruct (@int_form v c Hc) as (t & Ht & E). rewrite E.
    assert (T : (-536870912 <= IZR t <= 536870911)%R) by (split; apply IZR_le; lia).
    assert (T' : (-536870912 <= IZR t / IZR (if c =? 1 then 100 else 1) <= 536870911)%R) by (destruct (c =? 1); split; lra).
    assert (L : (rnd (-536870912) <= rnd (IZR t / IZR (if c =? 1 then 100 else 1)) <= rnd 536870911)%R) by (split; apply rnd_le; lra).
    rewrite (@rnd_int (-536870912)), (@rnd_int 536870911) in L by lia. lra. }
  split.
  - unfold f8_to_rk. destruct (feqb x (np_round 2 x)) eqn:Er.
    + intro E. exfalso. revert E. destruct (feqb (ftrunc x) (np_round 2 x)); [apply (I _ 0)|apply (I _ 1)]; lia.
    + rewrite other_rk_bits by exact Fx. intro E.
      assert (V : (IZR (2 ^ 18) <= Rabs (B2R64 (cleared x)))%R).
      { rewrite E. change (IZR (2 ^ 18)) with 262144%R. destruct Hx as [Hx|Hx]; [rewrite Rabs_pos_eq|rewrite Rabs_left]; lra. }
      pose proof (bits_range x) as R.
      destruct (@clear_R (cleared x) (bits_of_b64 x / 2 ^ 34) (cleared_fin Fx)) as (m & e & Em & Hm & He); [Z.div_mod_to_equations; lia|apply cleared_bits|exact V|].
      split.
      * rewrite E in Em. destruct (Rle_lt_dec (bpow radix2 1024) (Rabs (B2R64 x * 100))) as [G|G]; [exact G|exfalso].
        rewrite (@np_round2_large x m e) in Er by assumption. discriminate.
      * assert (Z : B2R64 x <> 0%R) by lra.
        assert (St : forall y : f8, fin y = true -> B2R64 y <> 0%R -> is_finite_strict 53 1024 y = true).
        { intros y Fy Zy. destruct y; [now destruct Zy|discriminate|discriminate|reflexivity]. }
        assert (C : cleared x = x) by (apply B2R_inj; [apply St; [now apply cleared_fin|congruence]|now apply St|exact E]).
        pose proof (cleared_bits x) as B. rewrite C in B. Z.div_mod_to_equations. lia.
  - intros [G B]. unfold f8_to_rk. rewrite np_round2_over by assumption. rewrite other_rk_bits by exact Fx.
    assert (C : bits_of_b64 (cleared x) = bits_of_b64 x) by (rewrite cleared_bits; Z.div_mod_to_equations; lia).
    rewrite <- (bits_inv (cleared x)), C. now rewrite bits_inv.
Qed.
(** Whatever an RK word stands for is a multiple of 1/100, or small. *)
Lemma rk_cover w : 0 <= w < 2 ^ 32 -> fin (rk_to_f8 w) = true ->
  (exists k, B2R64 (rk_to_f8 w) = rnd (IZR k / 100)) \/ (Rabs (B2R64 (rk_to_f8 w)) <= IZR (2 ^ 18))%R.
Proof.
  intros Hw F. set (q := w / 4). set (c := w mod 2). assert (Hq : 0 <= q < 2 ^ 30) by (subst q; Z.div_mod_to_equations; lia).
  assert (Hc : 0 <= c <= 1) by (subst c; Z.div_mod_to_equations; lia).
  assert (Hund : forall n, (IZR n / IZR (if c =? 1 then 100 else 1) = IZR (if c =? 1 then n else 100 * n) / 100)%R).
  { intro n. destruct (c =? 1); [reflexivity|]. rewrite mult_IZR. field. }
  assert (W : w = 4 * q + 2 + c \/ w = 4 * q + c) by (subst q c; Z.div_mod_to_equations; lia). clearbody q c. destruct W as [-> | ->].
  - left. destruct (rk_int_R Hq Hc) as [_ E]. rewrite E, Hund. now eexists.
  - set (base := b64_of_bits (q * 2 ^ 34)).
    assert (Hb : bits_of_b64 base = q * 2 ^ 34).
    { subst base. unfold b64_of_bits, bits_of_b64. apply bits_of_binary_float_of_bits. change (2 ^ (52 + 11 + 1)) with (2 ^ 64). lia. }
    destruct (rk_float_R Hq Hc Hb) as (A & B & C).
    assert (Fb : fin base = true).
    { destruct (fin base) eqn:Fb; [reflexivity|]. destruct (is_nan 53 1024 base) eqn:Nb.
      - specialize (B eq_refl). revert F B. now destruct (rk_to_f8 _).
      - rewrite C in F by reflexivity. now rewrite Fb in F. }
    destruct (A Fb) as [_ E]. rewrite E. destruct (Rle_lt_dec (IZR (2 ^ 18)) (Rabs (B2R64 base))) as [L|L].
    + left. destruct (@clear_R base q Fb Hq Hb L) as (m & e & Em & Hm & He).
      assert (I : B2R64 base = IZR (m * 2 ^ e)) by (rewrite Em; unfold F2R; cbn [Fnum Fexp]; rewrite mult_IZR, bpow_IZR by exact He; reflexivity).
      rewrite I, Hund. now eexists.
    + right. rewrite <- (@rnd_int (2 ^ 18)) by lia. apply Rabs_le.
      assert (G : (- IZR (2 ^ 18) <= B2R64 base / IZR (if c =? 1 then 100 else 1) <= IZR (2 ^ 18))%R).
      { change (IZR (2 ^ 18)) with 262144%R in *. apply Rabs_lt_inv in L. destruct (c =? 1); lra. }
      assert (R1 : (- rnd (IZR (2 ^ 18)) = rnd (IZR (- 2 ^ 18)))%R) by (rewrite !rnd_int by lia; now rewrite <- opp_IZR).
      rewrite R1. split; apply rnd_le; [rewrite opp_IZR|]; lra.
Qed.

Lemma rnd_hundredths_lt j k : j < k -> Z.abs j <= 2 ^ 36 -> Z.abs k <= 2 ^ 36 -> (rnd (IZR j / 100) < rnd (IZR k / 100))%R.
Proof.
  intros L Hj Hk. assert (A : forall n, Z.abs n <= 2 ^ 36 -> (Rabs (rnd (IZR n / 100) - IZR n / 100) <= / 16777216)%R).
  { intros n Hn. apply (@rnd_err_num _ 30); [lia|]. change (IZR (2 ^ 30)) with 1073741824%R.
    assert (B : (-68719476736 <= IZR n <= 68719476736)%R) by (split; apply IZR_le; lia). apply Rabs_le. lra. }
  pose proof (A j Hj) as A1. pose proof (A k Hk) as A2. apply Rabs_le_inv in A1. apply Rabs_le_inv in A2.
  assert (B : (IZR j + 1 <= IZR k)%R) by (rewrite <- plus_IZR; apply IZR_le; lia). lra.
Qed.
Lemma hundredths_small k : (- IZR (2 ^ 29) <= rnd (IZR k / 100) < IZR (2 ^ 29))%R -> Z.abs k <= 2 ^ 36.
Proof.
  intros [A B]. change (IZR (2 ^ 29)) with 536870912%R in *. destruct (Z_le_gt_dec (Z.abs k) (2 ^ 36)) as [L|L]; [exact L|exfalso].
  assert (U : (536870913 <= rnd (IZR (2 ^ 36) / 100))%R).
  { rewrite <- (@rnd_int 536870913) by lia. apply rnd_le. change (IZR (2 ^ 36)) with 68719476736%R. lra. }
  assert (U' : (rnd (IZR (- 2 ^ 36) / 100) <= -536870913)%R).
  { rewrite <- (@rnd_int (-536870913)) by lia. apply rnd_le. change (IZR (- 2 ^ 36)) with (-68719476736)%R. lra. }
  destruct (Z_le_gt_dec 0 k) as [S|S].
  - assert (M : (rnd (IZR (2 ^ 36) / 100) <= rnd (IZR k / 100))%R) by (apply rnd_le; assert (IZR (2 ^ 36) <= IZR k)%R by (apply IZR_le; lia); lra). lra.
  - assert (M : (rnd (IZR k / 100) <= rnd (IZR (- 2 ^ 36) / 100))%R) by (apply rnd_le; assert (IZR k <= IZR (- 2 ^ 36))%R by (apply IZR_le; lia); lra). lra.
Qed.
(** Multiples of 1/100 within 29 bits: which survive. *)
Lemma mid_lost oob x k : fin x = true -> B2R64 x = rnd (IZR k / 100) -> (- IZR (2 ^ 29) <= B2R64 x < IZR (2 ^ 29))%R ->
  B2R64 (rk_to_f8 (f8_to_rk oob x)) = B2R64 x -> 0 <= k /\ (k < 2 ^ 29 \/ k mod 100 = 0 /\ B2R64 x = IZR (k / 100) /\ k / 100 < 2 ^ 29).
Proof.
  intros Fx Hx Hr E. rewrite Hx in Hr. pose proof (hundredths_small Hr) as Hk. unfold f8_to_rk in E.
  rewrite (hundredth_same Fx Hk Hx), (hundredth_whole Fx Hk Hx) in E. destruct (k mod 100 =? 0) eqn:W.
  - assert (V : (IZR k / 100 = IZR (k / 100))%R).
    { rewrite (Z.div_mod k 100) at 1 by lia. replace (k mod 100) with 0 by lia. rewrite Z.add_0_r, mult_IZR. field. }
    rewrite V, rnd_int in Hx, Hr by (Z.div_mod_to_equations; lia).
    assert (Hn : - 2 ^ 29 <= k / 100 < 2 ^ 29) by (destruct Hr as [R1 R2]; rewrite <- opp_IZR in R1; apply le_IZR in R1; apply lt_IZR in R2; lia).
    destruct (@trunc_near x (k / 100) Fx) as [F1 F2]; [lia|rewrite Hx, Rminus_diag_eq by reflexivity; rewrite Rabs_R0; change (IZR (2 ^ 12)) with 4096%R; lra|].
    set (u := if k / 100 <? 0 then k / 100 + 1 else k / 100) in *. assert (Hu : - 2 ^ 29 <= u <= 2 ^ 29 - 1) by (subst u; destruct (k / 100 <? 0) eqn:?; lia).
    unfold f8_to_i32 in E. rewrite f8_to_int_R in E; [|exact F1|rewrite F2; lia]. rewrite F2, rk_word in E by lia.
    replace (4 * (u mod 2 ^ 30) + 2) with (4 * (u mod 2 ^ 30) + 2 + 0) in E by lia.
    destruct (@rk_int_R (u mod 2 ^ 30) 0) as [G1 G2]; [apply Z.mod_pos_bound; lia|lia|]. rewrite G2 in E. cbn [Z.eqb] in E.
    rewrite signed30_mod in E by lia. unfold Rdiv in E. rewrite Rinv_1, Rmult_1_r, rnd_int, Hx in E by lia. apply eq_IZR in E.
    subst u. destruct (k / 100 <? 0) eqn:S; [lia|]. split; [Z.div_mod_to_equations; lia|]. right. split; [lia|]. split; [exact Hx|lia].
  - destruct (@int_form (f8_to_i32 oob (fadd (fmul x (f8_of_Z 100)) f8_0001)) 1) as (t & Ht & Et); [lia|]. change (2 + 1) with 3 in Et.
    rewrite E in Et. change (if 1 =? 1 then 100 else 1) with 100 in Et. rewrite Hx in Et.
    assert (K : k = t).
    { destruct (Z.lt_trichotomy k t) as [L|[L|L]]; [exfalso|exact L|exfalso].
      - pose proof (@rnd_hundredths_lt k t L Hk ltac:(lia)). lra.
      - pose proof (@rnd_hundredths_lt t k L ltac:(lia) Hk). lra. }
    subst t. split; [|lia]. destruct (Z_lt_le_dec k 0) as [L|L]; [exfalso|exact L].
    destruct (@trunc_near (fmul x (f8_of_Z 100)) k) as [F1 F2]; [apply (scaled Fx Hk Hx)|lia|apply (scaled Fx Hk Hx)|].
    replace (k <? 0) with true in F2 by lia. unfold f8_to_i32 in E. rewrite f8_to_int_R in E; [|exact F1|rewrite F2; lia]. rewrite F2, rk_word in E by lia.
    replace (4 * ((k + 1) mod 2 ^ 30) + 3) with (4 * ((k + 1) mod 2 ^ 30) + 2 + 1) in E by lia.
    destruct (@rk_int_R ((k + 1) mod 2 ^ 30) 1) as [G1 G2]; [apply Z.mod_pos_bound; lia|lia|]. rewrite G2 in E. change (if 1 =? 1 then 100 else 1) with 100 in E.
    rewrite signed30_mod in E by lia. rewrite Hx in E.
    pose proof (@rnd_hundredths_lt k (k + 1) ltac:(lia) Hk ltac:(lia)). lra.
Qed.

Lemma whole_rk oob x n : fin x = true -> B2R64 x = IZR n -> 0 <= n < 2 ^ 29 -> B2R64 (rk_to_f8 (f8_to_rk oob x)) = B2R64 x.
Proof.
  intros Fx Hx Hn. assert (Hh : B2R64 x = rnd (IZR (100 * n) / 100)).
  { rewrite Hx, mult_IZR. replace (100 * IZR n / 100)%R with (IZR n) by field. now rewrite rnd_int by lia. }
  assert (Hk : Z.abs (100 * n) <= 2 ^ 36) by lia. unfold f8_to_rk. rewrite (hundredth_same Fx Hk Hh), (hundredth_whole Fx Hk Hh).
  replace ((100 * n) mod 100 =? 0) with true by (Z.div_mod_to_equations; lia).
  destruct (@trunc_near x n Fx) as [F1 F2]; [lia|rewrite Hx, Rminus_diag_eq by reflexivity; rewrite Rabs_R0; change (IZR (2 ^ 12)) with 4096%R; lra|].
  replace (n <? 0) with false in F2 by lia. unfold f8_to_i32. rewrite f8_to_int_R; [|exact F1|rewrite F2; lia]. rewrite F2, rk_word by lia.
  replace (4 * (n mod 2 ^ 30) + 2) with (4 * (n mod 2 ^ 30) + 2 + 0) by lia.
  destruct (@rk_int_R (n mod 2 ^ 30) 0) as [G1 G2]; [apply Z.mod_pos_bound; lia|lia|]. rewrite G2. cbn [Z.eqb].
  rewrite signed30_mod by lia. unfold Rdiv. now rewrite Rinv_1, Rmult_1_r, rnd_int by lia.
Qed.
