(** Claims C79 and C80: which numbers survive the RK form, and the compiled encoder. *)
From Verif Require Import Py PyFacts Casts CastsSpec FloatFacts CastsProofs CastsProofs2 RkProofs.
From Coq Require Import Reals Lra ZifyBool ZifyNat Classical_Prop.
From Flocq.Core Require Import Core.
From Flocq.IEEE754 Require Import BinarySingleNaN Binary Bits.
Open Scope Z_scope.

(** ** C79 *)
(** Numbers with at most two decimals, 0 to 5368709.11. *)
Theorem C79_hundredths_partial oob x k : fin x = true -> 0 <= k < 2 ^ 29 -> B2R64 x = rnd (IZR k / 100) ->
  fin (rk_to_f8 (f8_to_rk oob x)) = true /\ B2R64 (rk_to_f8 (f8_to_rk oob x)) = B2R64 x.
Proof.
  intros Fx Hk Hx. destruct (@hundredths_rk oob x k Fx ltac:(lia) Hx) as [A B]. split; [exact A|]. rewrite B, Hx. f_equal. f_equal. f_equal.
  replace (k <? 0) with false by lia. destruct (k mod 100 =? 0) eqn:E; [|reflexivity]. Z.div_mod_to_equations. lia.
Qed.
Print Assumptions C79_hundredths_partial.
(** Other doubles up to 2^22: exactly those with an RK float form (low 34 bits clear) survive. *)
Theorem C79_other_partial oob x : fin x = true -> (Rabs (B2R64 x) <= IZR (2 ^ 22))%R -> (forall k, B2R64 x <> rnd (IZR k / 100)) ->
  bits_of_b64 (rk_to_f8 (f8_to_rk oob x)) = bits_of_b64 x - bits_of_b64 x mod 2 ^ 34 /\
  (rk_to_f8 (f8_to_rk oob x) = x <-> bits_of_b64 x mod 2 ^ 34 = 0).
Proof.
  intros Fx Hx N. rewrite other_rk by assumption. pose proof (bits_range x) as R.
  assert (E : bits_of_b64 (cleared x) = bits_of_b64 x - bits_of_b64 x mod 2 ^ 34).
  { unfold cleared, b64_of_bits, bits_of_b64 in *. rewrite bits_of_binary_float_of_bits; [Z.div_mod_to_equations; lia|].
    change (2 ^ (52 + 11 + 1)) with (2 ^ 64). Z.div_mod_to_equations. lia. }
  split; [exact E|]. split; intro H.
  - rewrite H in E. lia.
  - rewrite <- (bits_inv (cleared x)), E, H, Z.sub_0_r. apply bits_inv.
Qed.
Print Assumptions C79_other_partial.
(** Every negative number with at most two decimals comes back larger: by one for whole numbers,
    by one hundredth for others. *)
Theorem C79_negative_refuted oob x k : fin x = true -> - 2 ^ 29 <= k < 0 -> B2R64 x = rnd (IZR k / 100) ->
  B2R64 (rk_to_f8 (f8_to_rk oob x)) = rnd (IZR (k + if k mod 100 =? 0 then 100 else 1) / 100) /\
  (B2R64 x < B2R64 (rk_to_f8 (f8_to_rk oob x)))%R.
Proof.
  intros Fx Hk Hx. destruct (@hundredths_rk oob x k Fx ltac:(lia) Hx) as [_ B].
  assert (E : (if k mod 100 =? 0 then 100 * (if k <? 0 then k / 100 + 1 else k / 100) else if k <? 0 then k + 1 else k) = k + if k mod 100 =? 0 then 100 else 1).
  { replace (k <? 0) with true by lia. destruct (k mod 100 =? 0) eqn:E; [|reflexivity]. Z.div_mod_to_equations. lia. }
  rewrite E in B. split; [exact B|]. rewrite B, Hx. set (d := if k mod 100 =? 0 then 100 else 1).
  assert (Hd : 1 <= d <= 100) by (subst d; destruct (k mod 100 =? 0); lia).
  assert (K : (-536870912 <= IZR k <= 0)%R) by (split; apply IZR_le; lia). assert (D : (1 <= IZR d <= 100)%R) by (split; apply IZR_le; lia).
  assert (A1 : (Rabs (rnd (IZR k / 100) - IZR k / 100) <= / 2147483648)%R).
  { apply (@rnd_err_num _ 23); [lia|]. change (IZR (2 ^ 23)) with 8388608%R. apply Rabs_le. lra. }
  assert (A2 : (Rabs (rnd (IZR (k + d) / 100) - IZR (k + d) / 100) <= / 2147483648)%R).
  { apply (@rnd_err_num _ 23); [lia|]. rewrite plus_IZR. change (IZR (2 ^ 23)) with 8388608%R. apply Rabs_le. lra. }
  apply Rabs_le_inv in A1. apply Rabs_le_inv in A2. rewrite plus_IZR in *. lra.
Qed.
Print Assumptions C79_negative_refuted.
(** Whole numbers from 2^29 on have 30 bits too many: 2^30, which has an RK form, comes back as 0. *)
Theorem C79_large_refuted oob :
  rk_to_f8 0x41D00000 = f8_of_Z (2 ^ 30) /\ rk_to_f8 (f8_to_rk oob (f8_of_Z (2 ^ 30))) = f8_of_Z 0.
Proof.
  split; [rewrite <- (bits_inv (rk_to_f8 _)), <- (bits_inv (f8_of_Z _)); apply f_equal; vm_compute; reflexivity|].
  replace (f8_to_rk oob (f8_of_Z (2 ^ 30))) with 2 by (vm_compute; reflexivity).
  rewrite <- (bits_inv (rk_to_f8 _)), <- (bits_inv (f8_of_Z _)). apply f_equal. vm_compute. reflexivity.
Qed.
Print Assumptions C79_large_refuted.
(** No number from 2^29 on, or below -2^29, survives, whatever the platform makes of out-of-range
    conversions, unless its hundredfold is too large for a double. *)
Theorem C79_beyond_refuted oob x : fin x = true -> (IZR (2 ^ 29) <= B2R64 x \/ B2R64 x < - IZR (2 ^ 29))%R -> (Rabs (B2R64 x * 100) < bpow radix2 1024)%R ->
  B2R64 (rk_to_f8 (f8_to_rk oob x)) <> B2R64 x.
Proof. intros F H L E. apply large_exact in E as [E _]; [|exact F|exact H]. lra. Qed.
Print Assumptions C79_beyond_refuted.
Lemma over_large x : (bpow radix2 1024 <= Rabs (B2R64 x * 100))%R -> (IZR (2 ^ 29) <= B2R64 x \/ B2R64 x < - IZR (2 ^ 29))%R.
Proof.
  intro G. assert (P : (bpow radix2 36 <= bpow radix2 1024)%R) by (apply bpow_le; lia). change (bpow radix2 36) with 68719476736%R in P. change (IZR (2 ^ 29)) with 536870912%R.
  assert (A : (68719476736 <= Rabs (B2R64 x * 100))%R) by lra. clear G P. unfold Rabs in A. destruct (Rcase_abs (B2R64 x * 100)); lra.
Qed.
(** All together: of the numbers RK words stand for, exactly these survive: hundredths from 0 to
    5368709.11, whole numbers from 0 to 2^29 - 1, numbers that are no hundredths and have low 34 bits
    clear, and of those with low 34 bits clear the ones whose hundredfold is too large for a double. *)
Theorem C79_exact oob w : 0 <= w < 2 ^ 32 -> let x := rk_to_f8 w in fin x = true ->
  B2R64 (rk_to_f8 (f8_to_rk oob x)) = B2R64 x <->
  (exists k, 0 <= k < 2 ^ 29 /\ B2R64 x = rnd (IZR k / 100)) \/
  (exists n, 0 <= n < 2 ^ 29 /\ B2R64 x = IZR n) \/
  (((forall k, B2R64 x <> rnd (IZR k / 100)) \/ (bpow radix2 1024 <= Rabs (B2R64 x * 100))%R) /\ bits_of_b64 x mod 2 ^ 34 = 0).
Proof.
  cbv zeta. intros Hw F. set (x := rk_to_f8 w) in *.
  assert (Other : (forall k, B2R64 x <> rnd (IZR k / 100)) -> B2R64 (rk_to_f8 (f8_to_rk oob x)) = B2R64 x <-> bits_of_b64 x mod 2 ^ 34 = 0).
  { intro N. assert (S : (Rabs (B2R64 x) <= IZR (2 ^ 22))%R).
    { destruct (rk_cover Hw F) as [(k & E)|S]; [now destruct (N k)|]. fold x in S. change (IZR (2 ^ 18)) with 262144%R in S. change (IZR (2 ^ 22)) with 4194304%R. lra. }
    destruct (C79_other_partial oob x F S N) as [A B]. split; intro H; [|now apply B in H; rewrite H].
    apply B. rewrite other_rk in * by assumption. 
    assert (Z : B2R64 x <> 0%R).
    { intro Z. destruct (N 0). rewrite Z. replace (0 / 100)%R with (IZR 0) by (cbn; lra). now rewrite rnd_int by lia. }
    assert (St : forall y : f8, fin y = true -> B2R64 y <> 0%R -> is_finite_strict 53 1024 y = true).
    { intros y Fy Zy. destruct y; [now destruct Zy|discriminate|discriminate|reflexivity]. }
    apply B2R_inj; [apply St; [now apply cleared_fin|congruence]|now apply St|exact H]. }
  destruct (Classical_Prop.classic (exists k, B2R64 x = rnd (IZR k / 100))) as [(k & K)|N].
  - split.
    + intro E. destruct (Rle_lt_dec (IZR (2 ^ 29)) (B2R64 x)) as [L|L]; [apply large_exact in E as [G B]; [right; right; split; [now right|exact B]|exact F|now left]|].
      destruct (Rlt_le_dec (B2R64 x) (- IZR (2 ^ 29))) as [L'|L']; [apply large_exact in E as [G B]; [right; right; split; [now right|exact B]|exact F|now right]|].
      destruct (mid_lost F K (conj L' L) E) as [P [Q|(Q1 & Q2 & Q3)]]; [left; exists k; split; [lia|exact K]|].
      right; left. exists (k / 100). split; [|exact Q2]. Z.div_mod_to_equations. lia.
    + intros [(j & J & E)|[(n & Hn & E)|[[N|G] B]]].
      * now apply (C79_hundredths_partial oob x j).
      * now apply whole_rk with n.
      * now destruct (N k).
      * apply large_exact; [exact F|now apply over_large|now split].
  - assert (N' : forall k, B2R64 x <> rnd (IZR k / 100)) by (intros k K; apply N; now exists k). rewrite (Other N'). split.
    + intro H. right; right. split; [now left|exact H].
    + intros [(j & _ & E)|[(n & Hn & E)|[_ H]]]; [now destruct (N' j)| |exact H].
      destruct (N' (100 * n)). rewrite E, mult_IZR. replace (100 * IZR n / 100)%R with (IZR n) by field. now rewrite rnd_int by lia.
Qed.
Print Assumptions C79_exact.
(** One word for each case, and two that are lost: 12.34, 1048576, 0.1875, 2^1022; 0.005 (float
    form of 0.5, in hundredths), 2^1013. *)
Example C79_exact_example :
  map (fun w => (bits_of_b64 (rk_to_f8 w), bits_of_b64 (rk_to_f8 (f8_to_rk (fun _ => 0) (rk_to_f8 w))))) [4 * 1234 + 3; 0x41300000; 0x3FC80000; 0x7FD00000; 0x3FE00001; 0x7F400000]
  = [(0x4028AE147AE147AE, 0x4028AE147AE147AE); (0x4130000000000000, 0x4130000000000000); (0x3FC8000000000000, 0x3FC8000000000000);
     (0x7FD0000000000000, 0x7FD0000000000000); (0x3F747AE147AE147B, 0x3F747AE000000000); (0x7F40000000000000, 0)].
Proof. vm_compute. reflexivity. Qed.
(** 12.34, -12.34, and 0.1875 (no hundredth). *)
Definition d1234 : f8 := b64_of_bits 0x4028AE147AE147AE.
Example C79_example : bits_of_b64 (rk_to_f8 (f8_to_rk (fun _ => 0) d1234)) = 0x4028AE147AE147AE /\
  f8_to_rk (fun _ => 0) d1234 = 4 * 1234 + 3 /\
  f8_to_rk (fun _ => 0) (b64_of_bits 0xC028AE147AE147AE) = 2 ^ 32 - 4 * 1233 + 3 /\
  bits_of_b64 (rk_to_f8 (f8_to_rk (fun _ => 0) (b64_of_bits 0x3FC8000000000000))) = 0x3FC8000000000000.
Proof. split; [|split; [|split]]; vm_compute; reflexivity. Qed.
Example C79_example_hyps : fin d1234 = true /\ B2R64 d1234 = rnd (IZR 1234 / 100).
Proof.
  split; [vm_compute; reflexivity|]. destruct (@f8_of_Z_R 1234) as (A1 & A2 & _); [lia|]. destruct f8_100 as [B1 B2].
  destruct (@fdiv_R (f8_of_Z 1234) (f8_of_Z 100)) as (C1 & _).
  - rewrite B1. lra.
  - rewrite A1, B1. apply (@big_bound _ 20); [lia|]. change (IZR (2 ^ 20)) with 1048576%R. apply Rabs_le. lra.
  - rewrite A1, B1 in C1. rewrite <- C1. replace (fdiv (f8_of_Z 1234) (f8_of_Z 100)) with d1234; [reflexivity|].
    rewrite <- (bits_inv (fdiv _ _)). unfold d1234. apply f_equal. vm_compute. reflexivity.
Qed.

(** 0.1875 is no hundredth. *)
Definition d1875 : f8 := b64_of_bits 0x3FC8000000000000.
Example C79_other_example_hyps : fin d1875 = true /\ (Rabs (B2R64 d1875) <= IZR (2 ^ 22))%R /\ (forall k, B2R64 d1875 <> rnd (IZR k / 100)) /\
  bits_of_b64 d1875 mod 2 ^ 34 = 0.
Proof.
  assert (V : B2R64 d1875 = (3 / 16)%R).
  { assert (E : B2R64 d1875 = F2R (Float radix2 6755399441055744 (-55))) by reflexivity. rewrite E. unfold F2R. cbn [Fnum Fexp].
    replace (bpow radix2 (-55)) with (/ IZR (2 ^ 55))%R by reflexivity. change (2 ^ 55) with 36028797018963968. lra. }
  rewrite V. split; [vm_compute; reflexivity|]. split; [apply Rabs_le; change (IZR (2 ^ 22)) with 4194304%R; lra|]. split; [|vm_compute; reflexivity].
  intros k H. assert (B : forall n, (Rabs (IZR n / 100) <= IZR (2 ^ 0))%R -> (Rabs (rnd (IZR n / 100) - IZR n / 100) <= / 1024)%R).
  { intros n Hn. eapply Rle_trans; [apply (@rnd_err_num _ 0); [lia|exact Hn]|]. change (2 ^ (54 - 0)) with 18014398509481984. lra. }
  destruct (Z_le_gt_dec k 18) as [L|L].
  - assert (G : (rnd (IZR k / 100) <= rnd (IZR 18 / 100))%R) by (apply rnd_le; apply IZR_le in L; lra).
    assert (E : (Rabs (rnd (IZR 18 / 100) - IZR 18 / 100) <= / 1024)%R) by (apply B; apply Rabs_le; change (IZR (2 ^ 0)) with 1%R; lra).
    apply Rabs_le_inv in E. lra.
  - assert (G : (rnd (IZR 19 / 100) <= rnd (IZR k / 100))%R) by (apply rnd_le; assert (H19 : 19 <= k) by lia; apply IZR_le in H19; lra).
    assert (E : (Rabs (rnd (IZR 19 / 100) - IZR 19 / 100) <= / 1024)%R) by (apply B; apply Rabs_le; change (IZR (2 ^ 0)) with 1%R; lra).
    apply Rabs_le_inv in E. lra.
Qed.

(** ** C80 *)
Theorem C80_variants_partial oob oob64 x : fin x = true -> (Rabs (B2R64 x) <= IZR (2 ^ 31 - 1))%R ->
  gu_f8_to_rk oob oob64 x = f8_to_rk oob x.
Proof. apply gu_same. Qed.
Print Assumptions C80_variants_partial.
(** Above, the compiled variant keeps the low 30 bits; numpy gives one and the same word for all
    (where out-of-range conversions give INT32_MIN). *)
Theorem C80_large_refuted oob64 n : 2 ^ 31 <= n <= 2 ^ 32 -> n mod 2 ^ 30 <> 0 ->
  let oob := fun _ : f8 => - 2 ^ 31 in
  f8_to_rk oob (f8_of_Z n) = 2 /\ gu_f8_to_rk oob oob64 (f8_of_Z n) = 4 * (n mod 2 ^ 30) + 2 /\
  gu_f8_to_rk oob oob64 (f8_of_Z n) <> f8_to_rk oob (f8_of_Z n).
Proof.
  intros H N. cbv zeta. destruct (@large_np (fun _ => - 2 ^ 31) n H) as (y & E). change (to_u32 _) with 2 in E. rewrite E, gu_large by exact H.
  split; [reflexivity|]. split; [reflexivity|]. lia.
Qed.
Print Assumptions C80_large_refuted.
(** Exactly where the two differ.  Not on doubles that are no whole number, of any size; on the
    whole numbers up to 2^40 (where out-of-range conversions give INT32_MIN): outside int32, unless
    the low 30 bits are zero.  The 0.001 added first moves a negative number one up. *)
Theorem C80_not_whole oob oob64 x : fin x = true -> (forall n, B2R64 x <> IZR n) ->
  gu_f8_to_rk oob oob64 x = f8_to_rk oob x.
Proof.
  intros Fx N. unfold gu_f8_to_rk, f8_to_rk. destruct (feqb x (np_round 2 x)) eqn:E1; [|reflexivity].
  destruct (feqb (ftrunc x) (np_round 2 x)) eqn:E2; [|reflexivity]. exfalso.
  destruct (feqb_fin E1 Fx) as [F1 V1]. destruct (ftrunc_R x) as [T1 T2]. rewrite Fx in T2.
  destruct (feqb_fin E2 T2) as [_ V2]. apply (N (Ztrunc (B2R64 x))). congruence.
Qed.
Print Assumptions C80_not_whole.
Theorem C80_whole oob64 n : Z.abs n <= 2 ^ 40 ->
  let oob := fun _ : f8 => - 2 ^ 31 in
  (gu_f8_to_rk oob oob64 (f8_of_Z n) = f8_to_rk oob (f8_of_Z n) <->
   - 2 ^ 31 - 1 <= n < 2 ^ 31 \/ (if n <? 0 then n + 1 else n) mod 2 ^ 30 = 0).
Proof.
  intro H. cbv zeta. unfold gu_f8_to_rk, f8_to_rk. destruct (@np_round2_int n) as [R1 R2]; [lia|].
  destruct (@f8_of_Z_R n) as (A1 & A2 & _); [lia|]. destruct (ftrunc_R (f8_of_Z n)) as [T1 T2].
  rewrite A1, Ztrunc_IZR in T1. rewrite A2 in T2. rewrite !feqb_R by assumption. rewrite A1, R2, T1. rewrite Req_bool_true by reflexivity.
  destruct (@trunc_near (f8_of_Z n) n A2) as [F1 F2]; [lia|rewrite A1, Rminus_diag_eq by reflexivity; rewrite Rabs_R0; change (IZR (2 ^ 12)) with 4096%R; lra|].
  set (v := if n <? 0 then n + 1 else n) in *. assert (Hv : Z.abs v <= 2 ^ 40) by (subst v; destruct (n <? 0) eqn:E; lia).
  rewrite !rk_word_any by lia. unfold f8_to_i64. rewrite f8_to_int_R by (try exact F1; rewrite F2; lia). rewrite F2.
  assert (W : to_i32 (to_u32 v) mod 2 ^ 30 = v mod 2 ^ 30).
  { unfold to_i32, to_u32. destruct (v mod 2 ^ 32 <? 2 ^ 31); Z.div_mod_to_equations; lia. }
  rewrite W. unfold f8_to_i32, f8_to_int. rewrite Btrunc_R, F2, F1. cbn [andb].
  assert (I : - 2 ^ 31 <= v < 2 ^ 31 <-> - 2 ^ 31 - 1 <= n < 2 ^ 31) by (subst v; destruct (n <? 0) eqn:E; lia).
  destruct ((- 2 ^ (32 - 1) <=? v) && (v <? 2 ^ (32 - 1))) eqn:E.
  - split; [intros _; left; lia|reflexivity].
  - change (- 2 ^ 31 mod 2 ^ 30) with 0. split; [intro K; right; lia|intros [K|K]; lia].
Qed.
Print Assumptions C80_whole.
Example C80_whole_example :
  let oob := fun _ : f8 => - 2 ^ 31 in
  map (fun n => gu_f8_to_rk oob (fun _ => 0) (f8_of_Z n) =? f8_to_rk oob (f8_of_Z n)) [2 ^ 31 - 1; 2 ^ 31; 2 ^ 31 + 1; - 2 ^ 31 - 1; - 2 ^ 31 - 2; 2 ^ 40; 2 ^ 40 - 1]
  = [true; true; false; true; false; true; false].
Proof. vm_compute. reflexivity. Qed.
Example C80_example : gu_f8_to_rk (fun _ => - 2 ^ 31) (fun _ => 0) (f8_of_Z (2 ^ 31 + 5)) = 22 /\
  f8_to_rk (fun _ => - 2 ^ 31) (f8_of_Z (2 ^ 31 + 5)) = 2 /\ gu_f8_to_rk (fun _ => 0) (fun _ => 0) d1234 = 4 * 1234 + 3.
Proof. split; [|split]; vm_compute; reflexivity. Qed.
