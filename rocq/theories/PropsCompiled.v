(** C108: the compiled integer test and RK encoder.  C39: how far a narrowed number can be off. *)
From Verif Require Import Py PyFacts Casts CastsSpec FloatFacts CastsProofs CastsProofs2 RkProofs Compiled.
From Coq Require Import Reals Lra ZifyBool ZifyNat.
From Flocq.Core Require Import Core.
From Flocq.IEEE754 Require Import BinarySingleNaN Binary Bits.
Open Scope Z_scope.
Set Implicit Arguments. Unset Strict Implicit.

(** The scaled form of [x] is not a finite double. *)
Definition too_large (p : Z) (x : f8) : Prop := fin x = true /\ (bpow radix2 1024 <= Rabs (rnd (B2R64 x * IZR (10 ^ p))))%R.
Lemma fmul_one x : fin x = true -> fmul x (f8_of_Z 1) = x.
Proof.
  intro Fx. destruct (@f8_of_Z_R 1) as (B1 & B2 & B3); [lia|].
  pose proof (Bmult_correct 53 1024 eq_refl eq_refl binop_nan_pl64 mode_NE x (f8_of_Z 1)) as P. rewrite B1 in P.
  rewrite Rmult_1_r in P. change (SpecFloat.fexp 53 1024) with fexp64 in P. cbn [round_mode] in P.
  fold (rnd (B2R64 x)) in P. rewrite rnd_id in P. rewrite Rlt_bool_true in P by apply abs_B2R_lt_emax. destruct P as (P1 & P2 & P3).
  assert (F : fin (fmul x (f8_of_Z 1)) = true) by (etransitivity; [exact P2|now rewrite Fx, B2]).
  apply f8_inj; [exact F|exact Fx|exact P1|]. etransitivity; [apply P3; revert F; unfold fmul, b64_mult; now destruct (Bmult _ _ _ _ _ _ _ _)|].
  rewrite B3. change (1 <? 0) with false. now destruct (Bsign 53 1024 x).
Qed.
Lemma fmul_over x y : (bpow radix2 1024 <= Rabs (rnd (B2R64 x * B2R64 y)))%R -> exists sg, fmul x y = B754_infinity 53 1024 sg.
Proof.
  intro H. pose proof (Bmult_correct 53 1024 eq_refl eq_refl binop_nan_pl64 mode_NE x y) as P. rewrite Rlt_bool_false in P by exact H.
  change (Bmult 53 1024 eq_refl eq_refl binop_nan_pl64 mode_NE x y) with (fmul x y) in P. destruct (fmul x y) as [sg|sg|sg pl e0|sg m e e0]; try discriminate P. now exists sg.
Qed.
Lemma ten_R p : 0 <= p <= 22 -> fin (power_of_ten (Z.to_nat p)) = true /\ B2R64 (power_of_ten (Z.to_nat p)) = IZR (10 ^ p).
Proof. intro H. destruct (@power_of_ten_R (Z.to_nat p)) as [A B]; [lia|]. split; [exact A|]. rewrite B. f_equal. f_equal. lia. Qed.
Lemma ten_ge p : 0 <= p -> (1 <= IZR (10 ^ p))%R.
Proof. intro H. apply IZR_le. assert (0 < 10 ^ p) by (apply Z.pow_pos_nonneg; lia). lia. Qed.
Lemma inf_div sg y : fin y = true -> B2R64 y <> 0%R -> exists s, fdiv (frint (B754_infinity 53 1024 sg)) y = B754_infinity 53 1024 s.
Proof. intros F N. destruct y as [s0|s0|s0 pl e0|s0 m e e0]; try discriminate F; [now destruct N|]. cbn. now eexists. Qed.
Lemma round_cases p x : 0 <= p <= 22 -> fin x = true ->
  (~ too_large p x /\ nb_round p x = np_round p x) \/ (too_large p x /\ nb_round p x = x /\ exists sg, np_round p x = B754_infinity 53 1024 sg).
Proof.
  intros Hp Fx. destruct (ten_R Hp) as [F10 V10]. pose proof (ten_ge (proj1 Hp)) as G10. unfold nb_round. rewrite Fx. replace (22 <? p) with false by lia. cbv zeta.
  destruct (Rle_lt_dec (bpow radix2 1024) (Rabs (rnd (B2R64 x * IZR (10 ^ p))))) as [L|L].
  - right. split; [now split|]. rewrite <- V10 in L. destruct (fmul_over L) as (sg & E). rewrite E. split; [now destruct sg|]. unfold np_round.
    destruct (p =? 0) eqn:P0; [|replace (0 <? p) with true by lia; rewrite E; apply inf_div; [exact F10|rewrite V10; lra]].
    exfalso. apply Z.eqb_eq in P0. subst p. rewrite V10 in L. change (10 ^ 0) with 1 in L. rewrite Rmult_1_r, rnd_id in L. pose proof (abs_B2R_lt_emax 53 1024 x). lra.
  - left. split; [intros [_ H]; lra|]. rewrite <- V10 in L. destruct (@fmul_R' x (power_of_ten (Z.to_nat p)) Fx F10 L) as [_ Fy]. rewrite fmul_one by exact Fy.
    destruct (frint_R (fmul x (power_of_ten (Z.to_nat p)))) as [_ Fr]. rewrite fdiv_one by congruence. replace (is_inf _) with false by (clear -Fy; now destruct (fmul x _)).
    unfold np_round. destruct (p =? 0) eqn:P0; [|now replace (0 <? p) with true by lia].
    apply Z.eqb_eq in P0. subst p. change (power_of_ten (Z.to_nat 0)) with (f8_of_Z 1) in *. rewrite fmul_one by exact Fx. apply fdiv_one. now destruct (frint_R x) as [_ ->].
Qed.
Lemma large_whole p x : 0 <= p <= 22 -> too_large p x -> (IZR (2 ^ 64) <= Rabs (B2R64 x))%R.
Proof.
  intros Hp [Fx H]. destruct (Rle_lt_dec (IZR (2 ^ 64)) (Rabs (B2R64 x))) as [L|L]; [exact L|]. exfalso.
  assert (B : (Rabs (B2R64 x * IZR (10 ^ p)) <= bpow radix2 1000)%R).
  { rewrite Rabs_mult. rewrite (Rabs_pos_eq (IZR (10 ^ p))) by (pose proof (ten_ge (proj1 Hp)); lra).
    assert (T : (IZR (10 ^ p) <= IZR (2 ^ 100))%R) by (apply IZR_le; apply Z.le_trans with (10 ^ 22); [apply Z.pow_le_mono_r; lia|vm_compute; discriminate]).
    apply Rle_trans with (IZR (2 ^ 64) * IZR (2 ^ 100))%R; [apply Rmult_le_compat; try lra; [apply Rabs_pos|pose proof (ten_ge (proj1 Hp)); lra]|].
    rewrite <- mult_IZR. change (2 ^ 64 * 2 ^ 100) with (2 ^ 164). rewrite <- bpow_IZR by lia. apply bpow_le. lia. }
  apply rnd_bound in B. pose proof bpow_1024. lra.
Qed.
Lemma large_trunc (x : f8) : (IZR (2 ^ 64) <= Rabs (B2R64 x))%R -> exists n, B2R64 x = IZR n.
Proof.
  intro H. destruct x as [s0|s0|s0 pl e0|s0 m e e0]; [exists 0; reflexivity|exists 0; reflexivity|exists 0; reflexivity|].
  assert (E : 0 <= e).
  { destruct (Z_lt_le_dec e 0) as [L|L]; [|exact L]. exfalso. cbn [B2R] in H. rewrite <- F2R_Zabs in H. replace (Z.abs (SpecFloat.cond_Zopp s0 (Z.pos m))) with (Z.pos m) in H by now destruct s0.
    unfold F2R in H. cbn [Fnum Fexp] in H.
    assert (M : Z.pos m < 2 ^ 53).
    { unfold SpecFloat.bounded in e0. apply andb_prop in e0 as [C _]. unfold SpecFloat.canonical_mantissa in C. apply Zeq_bool_eq in C. unfold SpecFloat.fexp, SpecFloat.emin in C.
      assert (D : Z.pos (SpecFloat.digits2_pos m) <= 53) by lia. rewrite Zpos_digits2_pos in D. apply (Zpower_gt_Zdigits radix2 53 (Z.pos m)) in D. exact D. }
    assert (B : (bpow radix2 e <= 1)%R) by (change 1%R with (bpow radix2 0); apply bpow_le; lia). pose proof (bpow_gt_0 radix2 e) as B0. apply IZR_lt in M.
    assert (X : (IZR (Z.pos m) * bpow radix2 e <= IZR (Z.pos m) * 1)%R) by (apply Rmult_le_compat_l; [apply IZR_le; lia|exact B]).
    change (IZR (2 ^ 53)) with 9007199254740992%R in M. change (IZR (2 ^ 64)) with 18446744073709551616%R in H. lra. }
  exists (SpecFloat.cond_Zopp s0 (Z.pos m) * 2 ^ e). cbn [B2R]. unfold F2R. cbn [Fnum Fexp]. rewrite mult_IZR, bpow_IZR by exact E. reflexivity.
Qed.
Lemma large_self p x : 0 <= p <= 22 -> too_large p x -> feqb (ftrunc x) x = true.
Proof.
  intros Hp H. destruct (large_trunc (large_whole Hp H)) as (n & E). destruct H as [Fx _]. destruct (ftrunc_R x) as [T1 T2].
  rewrite feqb_R by congruence. rewrite T1, E, Ztrunc_IZR. now apply Req_bool_true.
Qed.
Lemma one_test p x : 0 <= p <= 22 -> (feqb (ftrunc x) (nb_round p x) = true <-> f8_is_i8 [x] p = true \/ too_large p x).
Proof.
  intro Hp. unfold f8_is_i8. cbn [existsb]. rewrite orb_false_r, Bool.negb_involutive. destruct (fin x) eqn:Fx.
  - destruct (@round_cases p x Hp Fx) as [[N ->]|(L & -> & sg & E)]; [tauto|]. rewrite (large_self Hp L). tauto.
  - unfold nb_round. rewrite Fx. destruct (ten_R Hp) as [F10 V10]. pose proof (ten_ge (proj1 Hp)) as G10.
    assert (N : ~ too_large p x) by (intros [H _]; congruence).
    destruct x as [s0|s0|s0 pl e0|s0 m e e0]; try discriminate Fx.
    + enough (E : np_round p (B754_infinity 53 1024 s0) = B754_infinity 53 1024 s0) by (rewrite E; tauto). unfold np_round. destruct (p =? 0) eqn:P0; [destruct s0; vm_compute; reflexivity|]. replace (0 <? p) with true by lia.
      destruct (power_of_ten (Z.to_nat p)) as [sg|sg|sg pl e0|sg m e e0]; try discriminate F10; [cbn [B2R] in V10; lra|]. destruct sg; [|now destruct s0]. exfalso. cbn [B2R SpecFloat.cond_Zopp] in V10.
      assert (F2R (Float radix2 (- Z.pos m) e) < 0)%R by now apply F2R_lt_0. lra.
    + split; [discriminate|]. intros [H|H]; [discriminate H|now destruct N].
Qed.

(** ** C108 *)
(** Full claim: the compiled test and encoder give what the numpy ones give.  Exactly when the test
    passes: every number passes numpy's, or is too large for numba's rounding. *)
Theorem C108_test arr p : 0 <= p <= 22 -> nb_f8_is_i8 arr p = true <-> (forall x, In x arr -> f8_is_i8 [x] p = true \/ too_large p x).
Proof.
  intro Hp. unfold nb_f8_is_i8. rewrite Bool.negb_true_iff. split.
  - intros H x Hx. apply (@one_test p x Hp). destruct (feqb (ftrunc x) (nb_round p x)) eqn:E; [reflexivity|]. rewrite <- H. apply existsb_exists. exists x. split; [exact Hx|now rewrite E].
  - intro H. apply Bool.not_true_iff_false. intro X. apply existsb_exists in X as (x & Hx & E). apply Bool.negb_true_iff in E. specialize (H x Hx). apply (@one_test p x Hp) in H. congruence.
Qed.
Print Assumptions C108_test.
Lemma np_test arr p : f8_is_i8 arr p = true <-> forall x, In x arr -> f8_is_i8 [x] p = true.
Proof.
  split; [intros H x Hx; now apply (@f8_is_i8_all arr p H)|]. intro H. unfold f8_is_i8. apply Bool.negb_true_iff. apply Bool.not_true_iff_false. intro X. apply existsb_exists in X as (x & Hx & E).
  specialize (H x Hx). unfold f8_is_i8 in H. cbn [existsb] in H. rewrite orb_false_r, Bool.negb_involutive in H. now rewrite H in E.
Qed.
Theorem C108_same_partial arr p : 0 <= p <= 22 -> (forall x, In x arr -> ~ too_large p x) -> nb_f8_is_i8 arr p = f8_is_i8 arr p.
Proof.
  intros Hp H. apply Bool.eq_iff_eq_true. rewrite (@C108_test arr p Hp), (np_test arr p). split; intros G x Hx; [destruct (G x Hx) as [E|E]; [exact E|now destruct (H x Hx)]|left; now apply G].
Qed.
Print Assumptions C108_same_partial.
(** A number that is too large passes the compiled test only, alone and in every column of whole
    numbers; its integer is then what the machine makes of an out-of-range conversion. *)
Theorem C108_refuted oob p x : 0 <= p <= 22 -> too_large p x ->
  nb_f8_is_i8 [x] p = true /\ f8_is_i8 [x] p = false /\ f8_to_i64 oob x = oob x.
Proof.
  intros Hp H. split; [apply (@C108_test [x] p Hp); intros y [<-|[]]; now right|]. split.
  - destruct (@round_cases p x Hp (proj1 H)) as [[N _]|(_ & _ & sg & E)]; [now destruct N|]. unfold f8_is_i8. cbn [existsb]. rewrite E, orb_false_r, Bool.negb_involutive.
    destruct (feqb (ftrunc x) (B754_infinity 53 1024 sg)) eqn:F; [|reflexivity]. apply feqb_fin in F; [now destruct F|]. destruct (ftrunc_R x) as [_ ->]. apply H.
  - pose proof (large_whole Hp H) as L. unfold f8_to_i64, f8_to_int. rewrite Btrunc_R. destruct (large_trunc L) as (n & E). rewrite E in *. rewrite Ztrunc_IZR.
    rewrite <- abs_IZR in L. apply le_IZR in L. replace (_ && _) with false; [reflexivity|]. symmetry. change (2 ^ (64 - 1)) with (2 ^ 63). destruct (fin x); cbn [andb]; lia.
Qed.
Print Assumptions C108_refuted.
(** 1e305 in a column with 2 and 3, six digits. *)
Definition d1e305 : f8 := b64_of_bits 0x7F4C7B1F3CAC7433.
Example C108_example : nb_f8_is_i8 [f8_of_Z 2; d1e305; f8_of_Z 3] 6 = true /\ f8_is_i8 [f8_of_Z 2; d1e305; f8_of_Z 3] 6 = false /\
  nb_f8_is_i8 [f8_of_Z 2; f8_of_Z 3] 6 = true /\ nb_f8_is_i8 [f8_of_Z 2; b64_of_bits 0x3FF8000000000000] 6 = false.
Proof. repeat (apply conj); vm_compute; reflexivity. Qed.
Example C108_large_example : too_large 6 d1e305 /\ ~ too_large 6 (f8_of_Z 2).
Proof.
  split.
  - destruct (@round_cases 6 d1e305 ltac:(lia) eq_refl) as [[_ H]|[H _]]; [|exact H]. exfalso. assert (E : bits_of_b64 (nb_round 6 d1e305) = bits_of_b64 (np_round 6 d1e305)) by now rewrite H.
    vm_compute in E. discriminate E.
  - intro H. apply (@large_whole 6) in H; [|lia]. rewrite f8_of_Z_B2R in H by lia. rewrite <- abs_IZR in H. apply le_IZR in H. lia.
Qed.
(** The encoder: the same word for numbers whose hundredfold is a double; for others an integer form
    instead of the high bits. *)
Theorem C108_encoder_partial oob oob64 x : fin x = true -> ~ too_large 2 x -> nb_gu_f8_to_rk oob oob64 x = gu_f8_to_rk oob oob64 x /\ nb_f8_to_rk oob x = f8_to_rk oob x.
Proof. intros Fx H. unfold nb_gu_f8_to_rk, gu_f8_to_rk, nb_f8_to_rk, f8_to_rk. destruct (@round_cases 2 x ltac:(lia) Fx) as [[_ ->]|[L _]]; [now split|now destruct H]. Qed.
Print Assumptions C108_encoder_partial.
Lemma not_kept x q : too_large 2 x -> 0 <= q < 2 ^ 30 -> B2R64 (rk_to_f8 (4 * q + 2)) <> B2R64 x.
Proof.
  intros H Hq X. replace (4 * q + 2) with (4 * q + 2 + 0) in X by lia. destruct (@rk_int_R q 0 Hq ltac:(lia)) as [_ V]. pose proof (@large_whole 2 x ltac:(lia) H) as L. rewrite <- X in L.
  rewrite V in L. change (IZR (if 0 =? 1 then 100 else 1)) with 1%R in L. unfold Rdiv in L. rewrite Rinv_1, Rmult_1_r in L.
  assert (S : Z.abs (signed30 q) <= 2 ^ 29) by (unfold signed30; destruct (q <? 2 ^ 29) eqn:Q; lia). rewrite rnd_int in L by lia. rewrite <- abs_IZR in L. apply le_IZR in L. lia.
Qed.
Theorem C108_encoder_refuted oob oob64 x : too_large 2 x ->
  B2R64 (rk_to_f8 (nb_gu_f8_to_rk oob oob64 x)) <> B2R64 x /\ B2R64 (rk_to_f8 (nb_f8_to_rk oob x)) <> B2R64 x /\ f8_to_rk oob x = bits_of_b64 x / 2 ^ 34 * 4.
Proof.
  intro H. pose proof (proj1 H) as Fx. destruct (@round_cases 2 x ltac:(lia) Fx) as [[N _]|(_ & E & sg & E')]; [now destruct N|].
  assert (Ex : feqb x x = true) by (rewrite feqb_R by exact Fx; now apply Req_bool_true). pose proof (@large_self 2 x ltac:(lia) H) as Et.
  split; [|split].
  - unfold nb_gu_f8_to_rk. rewrite E. cbv zeta. rewrite Ex, Et, rk_word_any by lia. apply not_kept; [exact H|]. apply Z.mod_pos_bound. lia.
  - unfold nb_f8_to_rk. rewrite E. cbv zeta. rewrite Ex, Et, rk_word_any by lia. apply not_kept; [exact H|]. apply Z.mod_pos_bound. lia.
  - unfold f8_to_rk. rewrite E'. replace (feqb x (B754_infinity 53 1024 sg)) with false.
    + pose proof (bits_range x) as R. rewrite Z.shiftr_div_pow2 by lia. set (h := bits_of_b64 x / 2 ^ 32).
      assert (Hh : 0 <= h < 2 ^ 32) by (unfold h; split; [apply Z.div_pos; lia|apply Z.div_lt_upper_bound; lia]).
      replace h with (4 * (h / 4) + h mod 4) at 1 by (Z.div_mod_to_equations; lia). rewrite land_hi by (Z.div_mod_to_equations; lia). unfold h. change (2 ^ 34) with (2 ^ 32 * 4). rewrite <- Z.div_div by lia. lia.
    + destruct (feqb x (B754_infinity 53 1024 sg)) eqn:F; [|reflexivity]. apply feqb_fin in F; [now destruct F|exact Fx].
Qed.
Print Assumptions C108_encoder_refuted.
Example C108_encoder_example : too_large 2 (b64_of_bits 0x7FD0000000000000) /\
  nb_gu_f8_to_rk (fun _ => 0) (fun _ => - 2 ^ 63) (b64_of_bits 0x7FD0000000000000) = 2 /\ gu_f8_to_rk (fun _ => 0) (fun _ => - 2 ^ 63) (b64_of_bits 0x7FD0000000000000) = 0x7FD00000.
Proof.
  split; [|split; vm_compute; reflexivity]. destruct (@round_cases 2 (b64_of_bits 0x7FD0000000000000) ltac:(lia) eq_refl) as [[_ H]|[H _]]; [|exact H]. exfalso.
  assert (E : bits_of_b64 (nb_round 2 (b64_of_bits 0x7FD0000000000000)) = bits_of_b64 (np_round 2 (b64_of_bits 0x7FD0000000000000))) by now rewrite H. vm_compute in E. discriminate E.
Qed.

(** ** C39: every narrowed number *)
(** Whatever its size, a finite number that passes the test differs from its integer part by at most
    half a unit of the last digit asked for plus two units of the last bit. *)
Theorem C39_error arr p x : 0 <= p <= 22 -> f8_is_i8 arr p = true -> In x arr -> fin x = true ->
  (Rabs (B2R64 x - IZR (Ztrunc (B2R64 x))) <= / (2 * IZR (10 ^ p)) + Rabs (B2R64 x) * bpow radix2 (-51))%R.
Proof.
  intros Hp H Hx Fx. pose proof (proj1 (@np_test arr p) H x Hx) as T. clear H Hx arr. pose proof (ten_ge (proj1 Hp)) as Q. destruct (ten_R Hp) as [F10 V10]. set (q := IZR (10 ^ p)) in *.
  pose proof (Rabs_pos (B2R64 x)) as Px. pose proof (bpow_gt_0 radix2 (-51)) as P51.
  unfold f8_is_i8 in T. cbn [existsb] in T. rewrite orb_false_r, Bool.negb_involutive in T. destruct (ftrunc_R x) as [T1 T2]. apply feqb_fin in T; [|congruence]. destruct T as [Fr Er]. rewrite T1 in Er.
  set (t := Ztrunc (B2R64 x)) in *. assert (At : (Rabs (IZR t) <= Rabs (B2R64 x))%R).
  { unfold t. rewrite <- abs_IZR, <- Ztrunc_abs. rewrite Ztrunc_floor by apply Rabs_pos. apply Zfloor_lb. }
  destruct (Z.eq_dec p 0) as [P0|P0].
  { subst p. unfold np_round in Er. cbn [Z.eqb] in Er. destruct (frint_R x) as [R1 _]. rewrite R1 in Er. change (10 ^ 0) with 1 in q. pose proof (Znearest_half (fun n => negb (Z.even n)) (B2R64 x)) as Z. rewrite <- Er in Z.
    assert (q = 1%R) as -> by reflexivity. replace (/ (2 * 1))%R with (/ 2)%R by field. pose proof (Rmult_le_pos _ _ Px (Rlt_le _ _ P51)). lra. }
  unfold np_round in Fr, Er. replace (p =? 0) with false in * by lia. replace (0 <? p) with true in * by lia. cbv zeta in Fr, Er.
  set (P := power_of_ten (Z.to_nat p)) in *.
  destruct (Rle_lt_dec (bpow radix2 1024) (Rabs (rnd (B2R64 x * q)))) as [L|L].
  { exfalso. rewrite <- V10 in L. destruct (fmul_over L) as (sg & E). rewrite E in Fr. destruct (@inf_div sg P F10) as (s1 & E1); [rewrite V10; lra|]. rewrite E1 in Fr. discriminate Fr. }
  rewrite <- V10 in L. destruct (@fmul_R' x P Fx F10 L) as [Y1 Y2]. rewrite V10 in Y1. set (y := fmul x P) in *. destruct (frint_R y) as [R1 R2]. set (n := ZnearestE (B2R64 y)) in *.
  assert (Hn : (Rabs (B2R64 y - IZR n) <= / 2)%R) by apply Znearest_half.
  assert (D : B2R64 (fdiv (frint y) P) = rnd (IZR n / q)).
  { pose proof (Bdiv_correct 53 1024 eq_refl eq_refl binop_nan_pl64 mode_NE (frint y) P) as B. rewrite V10 in B. specialize (B ltac:(lra)). rewrite R1 in B.
    destruct (Rle_lt_dec (bpow radix2 1024) (Rabs (rnd (IZR n / q)))) as [Lq|Lq].
    - exfalso. rewrite Rlt_bool_false in B by exact Lq. change (Bdiv 53 1024 eq_refl eq_refl binop_nan_pl64 mode_NE (frint y) P) with (fdiv (frint y) P) in B.
      destruct (fdiv (frint y) P); try discriminate Fr; discriminate B.
    - rewrite Rlt_bool_true in B by exact Lq. apply B. }
  rewrite D in Er. clear D Fr L.
  (* the number, its scaled form, the nearest integer, and back *)
  set (X := B2R64 x) in *. set (e53 := bpow radix2 (-53)). assert (E53 : bpow radix2 (-51) = (4 * e53)%R) by (unfold e53; change (-51) with (2 + -53); rewrite bpow_plus; reflexivity). rewrite E53. pose proof (bpow_gt_0 radix2 (-53)) as P53. fold e53 in P53.
  assert (B53 : (e53 <= / 1024)%R) by (unfold e53; change (/ 1024)%R with (bpow radix2 (-10)); apply bpow_le; lia).
  destruct (Z.eq_dec n 0) as [N0|N0].
  { rewrite N0 in *. unfold Rdiv in Er. rewrite Rmult_0_l, rnd_int in Er by lia. rewrite Er. rewrite Rminus_0_r in *. rewrite Y1 in Hn.
    destruct (Rle_lt_dec (Rabs (X * q)) (/ 2)) as [S|S].
    - rewrite Rabs_mult, (Rabs_pos_eq q) in S by lra. assert (Rabs X <= / (2 * q))%R.
      { apply Rmult_le_reg_r with q; [lra|]. replace (/ (2 * q) * q)%R with (/ 2)%R by (field; lra). exact S. }
      pose proof (Rmult_le_pos _ _ Px (Rlt_le _ _ P53)). lra.
    - assert (G : (Rabs (rnd (X * q) - X * q) <= e53 * Rabs (X * q))%R) by (apply rnd_rel; apply Rle_trans with (/ 2)%R; [change (/ 2)%R with (bpow radix2 (-1)); apply bpow_le; lia|lra]).
      assert (K : (Rabs (X * q) <= / 2 + e53 * Rabs (X * q))%R).
      { replace (X * q)%R with (rnd (X * q) - (rnd (X * q) - X * q))%R at 1 by ring. eapply Rle_trans; [apply Rabs_triang|]. rewrite Rabs_Ropp. lra. }
      rewrite Rabs_mult, (Rabs_pos_eq q) in K by lra. apply Rmult_le_reg_r with q; [lra|]. replace ((/ (2 * q) + Rabs X * (4 * e53)) * q)%R with (/ 2 + 4 * (e53 * (Rabs X * q)))%R by (field; lra).
      pose proof (Rmult_le_pos _ _ (Rlt_le _ _ P53) (Rmult_le_pos _ _ Px (Rlt_le _ _ (Rlt_le_trans _ _ _ Rlt_0_1 Q)))). lra. }
  assert (An : (1 <= Rabs (IZR n))%R) by (rewrite <- abs_IZR; apply IZR_le; lia).
  assert (Qle : (q <= IZR (2 ^ 100))%R) by (unfold q; apply IZR_le; apply Z.le_trans with (10 ^ 22); [apply Z.pow_le_mono_r; lia|vm_compute; discriminate]).
  assert (Big : (bpow radix2 (-1022) <= Rabs (IZR n / q))%R).
  { unfold Rdiv. rewrite Rabs_mult, Rabs_inv, (Rabs_pos_eq q) by lra. apply Rle_trans with (/ q)%R; [|rewrite <- (Rmult_1_l (/ q)) at 1; apply Rmult_le_compat_r; [left; apply Rinv_0_lt_compat; lra|exact An]].
    apply Rle_trans with (/ IZR (2 ^ 100))%R; [rewrite <- bpow_IZR by lia; rewrite <- bpow_opp; apply bpow_le; lia|]. apply Rinv_le; lra. }
  pose proof (rnd_rel Big) as E4. rewrite <- Er in E4. fold e53 in E4.
  assert (Ynz : (/ 2 <= Rabs (B2R64 y))%R).
  { replace (IZR n) with (B2R64 y - (B2R64 y - IZR n))%R in An by ring. pose proof (Rabs_triang (B2R64 y) (- (B2R64 y - IZR n))) as Tr. rewrite Rabs_Ropp in Tr.
    replace (B2R64 y + - (B2R64 y - IZR n))%R with (B2R64 y - (B2R64 y - IZR n))%R in Tr by ring. lra. }
  assert (Bx : (bpow radix2 (-1022) <= Rabs (X * q))%R).
  { destruct (Rle_lt_dec (bpow radix2 (-2)) (Rabs (X * q))) as [G|G]; [eapply Rle_trans; [|exact G]; apply bpow_le; lia|]. exfalso. rewrite Y1 in Ynz.
    assert (Rabs (rnd (X * q)) <= bpow radix2 (-2))%R by (unfold rnd; apply abs_round_le_generic; [apply fexp64_valid|apply valid_rnd_N|apply generic_format_bpow; vm_compute; discriminate|lra]).
    change (bpow radix2 (-2)) with (/ 4)%R in *. lra. }
  pose proof (rnd_rel Bx) as E1. rewrite <- Y1 in E1. fold e53 in E1.
  (* |n / q| in terms of |t| *)
  assert (Nq : (Rabs (IZR n / q) <= Rabs (IZR t) + e53 * Rabs (IZR n / q))%R).
  { replace (IZR n / q)%R with (IZR t - (IZR t - IZR n / q))%R at 1 by ring. eapply Rle_trans; [apply Rabs_triang|]. rewrite Rabs_Ropp. lra. }
  assert (Nq2 : (Rabs (IZR n / q) <= 2 * Rabs (IZR t))%R).
  { assert (e53 * Rabs (IZR n / q) <= / 1024 * Rabs (IZR n / q))%R by (apply Rmult_le_compat_r; [apply Rabs_pos|exact B53]). pose proof (Rabs_pos (IZR t)). lra. }
  apply Rmult_le_reg_r with q; [lra|]. rewrite <- (Rabs_pos_eq q) at 1 by lra. rewrite <- Rabs_mult.
  replace ((/ (2 * q) + Rabs X * (4 * e53)) * q)%R with (/ 2 + 4 * (e53 * (Rabs X * q)))%R by (field; lra).
  replace ((X - IZR t) * q)%R with (- (B2R64 y - X * q) + (B2R64 y - IZR n) - (IZR t - IZR n / q) * q)%R by (field; lra).
  assert (E5 : (Rabs ((IZR t - IZR n / q) * q) <= 2 * (e53 * (Rabs X * q)))%R).
  { rewrite Rabs_mult, (Rabs_pos_eq q) by lra. replace (2 * (e53 * (Rabs X * q)))%R with (2 * (e53 * Rabs X) * q)%R by ring. apply Rmult_le_compat_r; [lra|].
    eapply Rle_trans; [exact E4|]. replace (2 * (e53 * Rabs X))%R with (e53 * (2 * Rabs X))%R by ring. apply Rmult_le_compat_l; lra. }
  rewrite (Rabs_mult X q), (Rabs_pos_eq q) in E1 by lra.
  pose proof (Rmult_le_pos _ _ (Rlt_le _ _ P53) (Rmult_le_pos _ _ Px (Rlt_le _ _ (Rlt_le_trans _ _ _ Rlt_0_1 Q)))) as Pos.
  apply Rabs_le_inv in E1, E5, Hn. apply Rabs_le. lra.
Qed.
Print Assumptions C39_error.
(** The converse side: a number that is whole, with a scaled form below 2^53, passes. *)
Theorem C39_whole arr p : 0 <= p <= 22 -> (forall x, In x arr -> fin x = true /\ exists n, B2R64 x = IZR n /\ Z.abs n * 10 ^ p <= 2 ^ 53) -> f8_is_i8 arr p = true.
Proof.
  intros Hp H. apply np_test. intros x Hx. destruct (H x Hx) as (Fx & n & E & B). clear H Hx. pose proof (ten_ge (proj1 Hp)) as Q. destruct (ten_R Hp) as [F10 V10].
  unfold f8_is_i8. cbn [existsb]. rewrite orb_false_r, Bool.negb_involutive. destruct (ftrunc_R x) as [T1 T2]. rewrite E, Ztrunc_IZR in T1.
  unfold np_round. destruct (p =? 0) eqn:P0.
  { destruct (frint_R x) as [R1 R2]. rewrite feqb_R by congruence. apply Req_bool_true. rewrite T1, R1, E. f_equal. symmetry. apply Znearest_imp. rewrite Rminus_diag_eq by reflexivity. rewrite Rabs_R0. lra. }
  replace (0 <? p) with true by lia. cbv zeta. set (P := power_of_ten (Z.to_nat p)) in *.
  assert (A : Z.abs (n * 10 ^ p) <= 2 ^ 53) by (rewrite Z.abs_mul, (Z.abs_eq (10 ^ p)) by (apply Z.pow_nonneg; lia); exact B).
  destruct (@fmul_R' x P Fx F10) as [Y1 Y2].
  { rewrite E, V10, <- mult_IZR, rnd_int by exact A. rewrite <- abs_IZR. apply Rle_lt_trans with (IZR (2 ^ 53)); [now apply IZR_le|]. rewrite <- bpow_IZR by lia. apply bpow_lt. lia. }
  rewrite E, V10, <- mult_IZR, rnd_int in Y1 by exact A. destruct (frint_R (fmul x P)) as [R1 R2]. rewrite Y1 in R1. rewrite (Znearest_imp _ _ (n * 10 ^ p)) in R1 by (rewrite Rminus_diag_eq by reflexivity; rewrite Rabs_R0; lra).
  assert (N : (IZR (n * 10 ^ p) / IZR (10 ^ p))%R = IZR n) by (rewrite mult_IZR; field; lra).
  destruct (@fdiv_R' (frint (fmul x P)) P) as [D1 D2]; [rewrite V10; lra| |].
  { rewrite R1, V10, N, <- E, rnd_id. apply abs_B2R_lt_emax. }
  rewrite R1, V10, N, <- E, rnd_id in D1. rewrite feqb_R by congruence. apply Req_bool_true. now rewrite T1, D1.
Qed.
Print Assumptions C39_whole.
(** 10223501449417 + 1/512 is narrowed with six digits: 1/512 is more than 10^-6 and within the bound. *)
Example C39_error_example : let x := b64_of_bits 0x42A298B058319201 in
  f8_is_i8 [f8_of_Z 2; x] 6 = true /\ fin x = true /\ B2R64 x = (IZR 10223501449417 + / 512)%R /\ (/ 512 <= / (2 * IZR (10 ^ 6)) + Rabs (B2R64 x) * bpow radix2 (-51))%R.
Proof.
  cbv zeta. split; [vm_compute; reflexivity|]. split; [reflexivity|].
  assert (E : B2R64 (b64_of_bits 0x42A298B058319201) = (IZR 10223501449417 + / 512)%R).
  { change (B2R64 (b64_of_bits 0x42A298B058319201)) with (F2R (Float radix2 5234432742101505 (-9))). unfold F2R. cbn [Fnum Fexp]. change (bpow radix2 (-9)) with (/ 512)%R. lra. }
  split; [exact E|]. rewrite E, Rabs_pos_eq by lra. change (bpow radix2 (-51)) with (/ IZR (2 ^ 51))%R. change (2 ^ 51) with 2251799813685248. change (10 ^ 6) with 1000000. lra.
Qed.
