(** Claim C80 for whole numbers of every size: exactly where the compiled RK encoder and the numpy
    one give different words. *)
From Verif Require Import Py PyFacts Casts CastsSpec FloatFacts CastsProofs CastsProofs2 RkProofs PropsRk.
From Coq Require Import Reals Lra ZifyBool ZifyNat.
From Flocq.Core Require Import Core.
From Flocq.IEEE754 Require Import BinarySingleNaN Binary Bits.
Open Scope Z_scope.

(** ** Specification *)
(** [n] survives rounding to two decimals (times 100, to the nearest whole number, divided by 100). *)
Definition survives_cents (n : Z) : Prop := rnd (IZR (ZnearestE (rnd (IZR n * 100))) / 100) = IZR n.
(** The whole number left after 0.001 has been added and the fraction dropped: from 2^44 on the
    0.001 is lost in rounding. *)
Definition nudged (n : Z) : Z := if (- 2 ^ 44 <=? n) && (n <? 0) then n + 1 else n.

(** ** Proofs *)
Lemma rnd_nearest x f : generic_format radix2 fexp64 f -> (Rabs (rnd x - x) <= Rabs (f - x))%R.
Proof. intro F. destruct (round_N_pt radix2 fexp64 (fun z => negb (Z.even z)) x) as [_ N]. apply N. exact F. Qed.

Lemma f8_0001_near : (/ 1024 < B2R64 f8_0001 < 9 / 8 * / 1024)%R.
Proof.
  assert (E : B2R64 f8_0001 = F2R (Float radix2 4611686018427388 (-62))) by reflexivity.
  rewrite E. unfold F2R. cbn [Fnum Fexp]. change (bpow radix2 (-62)) with (/ 4611686018427387904)%R. lra.
Qed.

Lemma nudge_R x n : fin x = true -> B2R64 x = IZR n -> Z.abs n <= 2 ^ 70 ->
  fin (fadd x f8_0001) = true /\ Ztrunc (B2R64 (fadd x f8_0001)) = nudged n.
Proof.
  intros Fx Vx Hn. destruct f8_0001_R as [B1 _]. pose proof f8_0001_near as B2. set (c := B2R64 f8_0001) in *.
  assert (Ab : (IZR (- 2 ^ 70) <= IZR n <= IZR (2 ^ 70))%R) by (split; apply IZR_le; lia).
  change (IZR (- 2 ^ 70)) with (-1180591620717411303424)%R in Ab. change (IZR (2 ^ 70)) with 1180591620717411303424%R in Ab.
  destruct (@fadd_R x f8_0001 Fx B1) as [C1 C2].
  { fold c. rewrite Vx. apply (@big_bound _ 71); [lia|]. change (IZR (2 ^ 71)) with 2361183241434822606848%R. apply Rabs_le. lra. }
  split; [exact C2|]. rewrite C1. fold c. rewrite Vx.
  assert (G : generic_format radix2 fexp64 (IZR n)) by (rewrite <- Vx; apply generic_format_B2R).
  pose proof (rnd_nearest (IZR n + c) _ G) as N. replace (IZR n - (IZR n + c))%R with (- c)%R in N by ring. rewrite Rabs_Ropp, (Rabs_pos_eq c) in N by lra.
  apply Rabs_le_inv in N.
  assert (L : (IZR n <= rnd (IZR n + c))%R).
  { rewrite <- (@round_generic radix2 fexp64 ZnearestE _ (IZR n) G) at 1. apply rnd_le. lra. }
  unfold nudged. destruct (n <? 0) eqn:En.
  2:{ replace ((- 2 ^ 44 <=? n) && false) with false by (symmetry; apply andb_false_r).
      rewrite Ztrunc_floor by (assert (IZR 0 <= IZR n)%R by (apply IZR_le; lia); lra). apply Zfloor_imp. rewrite plus_IZR. lra. }
  assert (En' : (IZR n <= IZR (-1))%R) by (apply IZR_le; lia).
  destruct (- 2 ^ 44 <=? n) eqn:E44; cbn [andb].
  - rewrite Ztrunc_ceil by lra.
    assert (F : generic_format radix2 fexp64 (IZR n + / 512)).
    { replace (IZR n + / 512)%R with (F2R (Float radix2 (n * 2 ^ 9 + 1) (-9))).
      - rewrite <- rnd_F2R by lia. apply generic_format_round; typeclasses eauto.
      - unfold F2R. cbn [Fnum Fexp]. rewrite plus_IZR, mult_IZR. change (bpow radix2 (-9)) with (/ 512)%R. change (IZR (2 ^ 9)) with 512%R. field. }
    pose proof (rnd_nearest (IZR n + c) _ F) as N2. replace (IZR n + / 512 - (IZR n + c))%R with (/ 512 - c)%R in N2 by ring.
    rewrite (Rabs_pos_eq (/ 512 - c)) in N2 by lra. apply Rabs_le_inv in N2.
    apply Zceil_imp. rewrite minus_IZR, plus_IZR. lra.
  - (* the sum lies within 2^-8 of a number of at least 2^44 *)
    assert (Q : rnd (IZR n + c) = IZR n).
    { set (y := rnd (IZR n + c)) in *. assert (Gy : generic_format radix2 fexp64 y) by (apply generic_format_round; typeclasses eauto).
      assert (Hn' : (IZR n <= IZR (- 2 ^ 44 - 1))%R) by (apply IZR_le; lia). rewrite minus_IZR in Hn'.
      change (IZR (- 2 ^ 44)) with (- IZR (2 ^ 44))%R in Hn'. change (IZR (2 ^ 44)) with 17592186044416%R in Hn'.
      assert (X : -8 <= cexp radix2 fexp64 y).
      { unfold cexp, fexp64, FLT_exp. assert (M : 45 <= mag radix2 y).
        { assert (44 < mag radix2 y); [|lia]. apply mag_gt_bpow. change (bpow radix2 44) with 17592186044416%R. rewrite Rabs_left by lra. lra. }
        lia. }
      unfold generic_format in Gy. set (m := Ztrunc _) in Gy. set (e := cexp radix2 fexp64 y) in *.
      assert (Z1 : exists k, y = (IZR k * / 256)%R).
      { exists (m * 2 ^ (e + 8)). rewrite Gy. unfold F2R. cbn [Fnum Fexp]. rewrite mult_IZR.
        change 2 with (radix_val radix2) at 1. rewrite IZR_Zpower by lia. rewrite bpow_plus. change (bpow radix2 8) with 256%R. field. }
      destruct Z1 as [k Hk]. assert (K : k = n * 256).
      { assert (K1 : (IZR (n * 256) <= IZR k)%R) by (rewrite mult_IZR; change (IZR 256) with 256%R; lra).
        assert (K2 : (IZR k < IZR (n * 256 + 1))%R) by (rewrite plus_IZR, mult_IZR; change (IZR 256) with 256%R; lra).
        apply le_IZR in K1. apply lt_IZR in K2. lia. }
      rewrite Hk, K, mult_IZR. change (IZR 256) with 256%R. field. }
    rewrite Q. apply Ztrunc_IZR.
Qed.

Lemma cents_R x n : fin x = true -> B2R64 x = IZR n -> Z.abs n <= 2 ^ 70 ->
  fin (np_round 2 x) = true /\ B2R64 (np_round 2 x) = rnd (IZR (ZnearestE (rnd (IZR n * 100))) / 100).
Proof.
  intros Fx Vx Hn. unfold np_round. change (2 =? 0) with false. change (0 <? 2) with true. cbv iota zeta.
  change (power_of_ten (Z.to_nat 2)) with (f8_of_Z 100). destruct (@f8_of_Z_R 100) as (B1 & B2 & _); [lia|].
  assert (H1 : (Rabs (IZR n * 100) <= bpow radix2 80)%R).
  { rewrite Rabs_mult, <- abs_IZR, (Rabs_pos_eq 100) by lra. apply IZR_le in Hn. change (IZR (2 ^ 70)) with 1180591620717411303424%R in Hn.
    change (bpow radix2 80) with 1208925819614629174706176%R. lra. }
  destruct (@fmul_R x (f8_of_Z 100) Fx B2) as [C1 C2].
  { rewrite Vx, B1. eapply Rle_trans; [exact H1|]. apply bpow_le. lia. }
  rewrite Vx, B1 in C1. destruct (frint_R (fmul x (f8_of_Z 100))) as [D1 D2]. rewrite C1 in D1.
  assert (H2 : (Rabs (rnd (IZR n * 100)) <= bpow radix2 80)%R).
  { apply abs_round_le_generic; try typeclasses eauto; [|exact H1]. apply generic_format_bpow. unfold fexp64, FLT_exp. lia. }
  assert (H3 : (Rabs (IZR (ZnearestE (rnd (IZR n * 100)))) <= bpow radix2 81)%R).
  { pose proof (Znearest_half (fun z => negb (Z.even z)) (rnd (IZR n * 100))) as T. apply Rabs_le_inv in T. apply Rabs_le_inv in H2.
    change (bpow radix2 80) with 1208925819614629174706176%R in H2. change (bpow radix2 81) with 2417851639229258349412352%R. apply Rabs_le. lra. }
  destruct (@fdiv_R (frint (fmul x (f8_of_Z 100))) (f8_of_Z 100)) as (E1 & E2 & _).
  - rewrite B1. lra.
  - rewrite D1, B1. unfold Rdiv. rewrite Rabs_mult, (Rabs_pos_eq (/ 100)) by lra. eapply Rle_trans; [|apply (bpow_le radix2 81 1000); lia].
    pose proof (Rabs_pos (IZR (ZnearestE (rnd (IZR n * 100))))). lra.
  - split; [rewrite E2; congruence|]. rewrite E1, D1, B1. reflexivity.
Qed.

(** Numbers beyond 2^70 are outside int64 whatever is added. *)
Lemma huge_oob bits oob x n : 0 < bits <= 64 -> fin x = true -> B2R64 x = IZR n -> 2 ^ 70 < Z.abs n ->
  f8_to_int bits oob (fadd x f8_0001) = oob (fadd x f8_0001).
Proof.
  intros Hb Fx Vx Hn. destruct f8_0001_R as [B1 _]. pose proof f8_0001_near as B2.
  unfold f8_to_int. destruct (fin (fadd x f8_0001)) eqn:F; [|reflexivity]. rewrite Btrunc_R.
  pose proof (Bplus_correct 53 1024 eq_refl eq_refl binop_nan_pl64 mode_NE x f8_0001 Fx B1) as P.
  change (Bplus 53 1024 eq_refl eq_refl binop_nan_pl64 mode_NE x f8_0001) with (fadd x f8_0001) in P.
  destruct (Rlt_bool _ _) in P.
  2:{ destruct P as [P _]. destruct (fadd x f8_0001); cbn in F, P; try discriminate. }
  destruct P as (P & _). set (c := B2R64 f8_0001) in *.
  assert (P' : B2R64 (fadd x f8_0001) = rnd (IZR n + c)) by (rewrite P, Vx; reflexivity). rewrite P'. clear P P'.
  assert (I : rnd (IZR (2 ^ 70)) = IZR (2 ^ 70)) by (change (IZR (2 ^ 70)) with (bpow radix2 70); apply round_generic; [typeclasses eauto|]; apply generic_format_bpow; unfold fexp64, FLT_exp; lia).
  assert (I' : rnd (- IZR (2 ^ 69)) = (- IZR (2 ^ 69))%R) by (change (IZR (2 ^ 69)) with (bpow radix2 69); apply round_generic; [typeclasses eauto|]; apply generic_format_opp, generic_format_bpow; unfold fexp64, FLT_exp; lia).
  assert (Hp : 2 ^ (bits - 1) <= 2 ^ 63) by (apply Z.pow_le_mono_r; lia).
  destruct (Z_lt_ge_dec n 0) as [N|N].
  - assert (L : (IZR n <= IZR (- 2 ^ 70))%R) by (apply IZR_le; lia). change (IZR (- 2 ^ 70)) with (-1180591620717411303424)%R in L.
    assert (U : (rnd (IZR n + c) <= - IZR (2 ^ 69))%R) by (rewrite <- I'; apply rnd_le; change (IZR (2 ^ 69)) with 590295810358705651712%R; lra).
    rewrite <- opp_IZR in U. apply Ztrunc_le in U. rewrite Ztrunc_IZR in U.
    replace (- 2 ^ (bits - 1) <=? Ztrunc (rnd (IZR n + c))) with false by lia. cbn [andb]. reflexivity.
  - assert (L : (IZR (2 ^ 70) <= IZR n)%R) by (apply IZR_le; lia).
    assert (U : (IZR (2 ^ 70) <= rnd (IZR n + c))%R) by (rewrite <- I; apply rnd_le; lra).
    apply Ztrunc_le in U. rewrite Ztrunc_IZR in U.
    replace (Ztrunc (rnd (IZR n + c)) <? 2 ^ (bits - 1)) with false by lia. now rewrite andb_false_r.
Qed.

(** ** C80 *)
(** For every double that is a whole number, of any size (with [C80_not_whole]: for every finite
    double), where out-of-range conversions give the least integer of the target type: the two
    encoders agree exactly if the number does not survive rounding to two decimals (both then keep
    the float form), or the nudged number fits into int32, or has its low 30 bits clear, or does not
    fit into int64. *)
Theorem C80_exact x n : fin x = true -> B2R64 x = IZR n ->
  let oob := fun _ : f8 => - 2 ^ 31 in let oob64 := fun _ : f8 => - 2 ^ 63 in
  (gu_f8_to_rk oob oob64 x = f8_to_rk oob x <->
   ~ survives_cents n \/ - 2 ^ 31 <= nudged n < 2 ^ 31 \/ nudged n mod 2 ^ 30 = 0 \/ ~ (- 2 ^ 63 <= nudged n < 2 ^ 63)).
Proof.
  intros Fx Vx. cbv zeta. unfold gu_f8_to_rk, f8_to_rk.
  assert (W : forall v, to_i32 (to_u32 v) mod 2 ^ 30 = v mod 2 ^ 30).
  { intro v. unfold to_i32, to_u32. destruct (v mod 2 ^ 32 <? 2 ^ 31); Z.div_mod_to_equations; lia. }
  destruct (Z_le_gt_dec (Z.abs n) (2 ^ 70)) as [S|S].
  - destruct (@cents_R x n Fx Vx S) as [R1 R2]. destruct (@nudge_R x n Fx Vx S) as [F1 F2].
    destruct (ftrunc_R x) as [T1 T2]. rewrite Vx, Ztrunc_IZR in T1. rewrite Fx in T2.
    rewrite !feqb_R by assumption. rewrite R2, T1, Vx. unfold survives_cents.
    destruct (Req_bool_spec (IZR n) (rnd (IZR (ZnearestE (rnd (IZR n * 100))) / 100))) as [E|E].
    2:{ split; [intros _; left; congruence|reflexivity]. }
    rewrite !rk_word_any by lia. rewrite W. unfold f8_to_i64, f8_to_i32, f8_to_int. rewrite Btrunc_R, F2, F1. cbn [andb].
    change (2 ^ (32 - 1)) with (2 ^ 31). change (2 ^ (64 - 1)) with (2 ^ 63). set (v := nudged n) in *.
    destruct ((- 2 ^ 31 <=? v) && (v <? 2 ^ 31)) eqn:E1.
    + replace ((- 2 ^ 63 <=? v) && (v <? 2 ^ 63)) with true by lia. split; [intros _; right; left; lia|reflexivity].
    + change (- 2 ^ 31 mod 2 ^ 30) with 0. destruct ((- 2 ^ 63 <=? v) && (v <? 2 ^ 63)) eqn:E2.
      * split; [intro K; right; right; left; lia|]. intros [K|[K|[K|K]]]; [now symmetry in E|lia|lia|lia].
      * change (- 2 ^ 63 mod 2 ^ 30) with 0. split; [intros _; right; right; right; lia|reflexivity].
  - unfold f8_to_i64, f8_to_i32. rewrite !(@huge_oob 32 _ x n), !(@huge_oob 64 _ x n) by (try assumption; lia). split.
    + intros _. right; right; right. unfold nudged. destruct ((- 2 ^ 44 <=? n) && (n <? 0)) eqn:E; lia.
    + intros _. reflexivity.
Qed.
Print Assumptions C80_exact.

(** 2^45 + 1 differs, its negative too (the 0.001 is lost), - 2^43 - 1 does not (it becomes - 2^43),
    nor do 2^45, 2^63 and numbers beyond. *)
Example C80_exact_example :
  let oob := fun _ : f8 => - 2 ^ 31 in let oob64 := fun _ : f8 => - 2 ^ 63 in
  map (fun n => gu_f8_to_rk oob oob64 (f8_of_Z n) =? f8_to_rk oob (f8_of_Z n)) [2 ^ 45 + 1; - 2 ^ 45 - 1; - 2 ^ 43 - 1; 2 ^ 45; 2 ^ 63; - 2 ^ 63 - 2 ^ 40; 2 ^ 50 + 3]
  = [false; false; true; true; true; true; false] /\
  map nudged [- 2 ^ 45 - 1; - 2 ^ 43 - 1; 2 ^ 45 + 1] = [- 2 ^ 45 - 1; - 2 ^ 43; 2 ^ 45 + 1].
Proof. split; vm_compute; reflexivity. Qed.
