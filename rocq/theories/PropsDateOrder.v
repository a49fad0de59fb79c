(** C86 continued: all inversions, distinct moments, and the way back. *)
From Verif Require Import Py PyFacts Casts CastsSpec FloatFacts CastsProofs CastsProofs2.
From Coq Require Import Reals Lra ZifyBool ZifyNat.
From Flocq.Core Require Import Core.
From Flocq.IEEE754 Require Import BinarySingleNaN Binary Bits.
Open Scope Z_scope.
Set Implicit Arguments. Unset Strict Implicit.

Lemma rnd_mono x y : (x <= y)%R -> (rnd x <= rnd y)%R.
Proof. apply round_le; [apply fexp64_valid|apply valid_rnd_N]. Qed.
(** Times of day; January and February 1900; the rest. *)
Definition same_period (x y : R) : Prop := (x < 1 /\ y < 1 \/ 1 <= x < 60 /\ 1 <= y < 60 \/ 60 <= x /\ 60 <= y)%R.
Lemma same_offset x y : same_period x y -> offset x = offset y.
Proof.
  unfold offset. intros [H|[H|H]].
  - now rewrite !Rle_bool_false by lra.
  - now rewrite !Rle_bool_true, !Rlt_bool_true by lra.
  - now rewrite !Rle_bool_true, !Rlt_bool_false by lra.
Qed.
Lemma order_kept oob x y : fin x = true -> fin y = true ->
  (Rabs (B2R64 x) <= IZR (2 ^ 30))%R -> (Rabs (B2R64 y) <= IZR (2 ^ 30))%R ->
  same_period (B2R64 x) (B2R64 y) -> (B2R64 x <= B2R64 y)%R -> f8_to_ms_win oob x <= f8_to_ms_win oob y.
Proof.
  intros Fx Fy Bx By P L. rewrite !f8_to_ms_R by assumption. rewrite (same_offset P). apply Ztrunc_le, rnd_mono.
  apply Rmult_le_compat_r; [lra|]. apply rnd_mono. lra.
Qed.

Lemma ms_bounds oob x : fin x = true -> (0 <= B2R64 x < 2958466)%R ->
  let e := ((B2R64 x - IZR (offset (B2R64 x))) * 86400000)%R in (e - 2 < IZR (f8_to_ms_win oob x) < e + 2)%R.
Proof. intros Fx H e. pose proof (@ms_err oob x Fx H) as E. fold e in E. apply Rabs_def2 in E. lra. Qed.
(** Three milliseconds are told apart. *)
Theorem C86_distinct_partial oob x y : fin x = true -> fin y = true -> (0 <= B2R64 x)%R -> (B2R64 y < 2958466)%R ->
  same_period (B2R64 x) (B2R64 y) -> (B2R64 x + 3 / 86400000 <= B2R64 y)%R -> f8_to_ms_win oob x < f8_to_ms_win oob y.
Proof.
  intros Fx Fy H0 H1 P L. apply lt_IZR. pose proof (@ms_err oob x Fx) as A. pose proof (@ms_err oob y Fy) as B.
  rewrite (same_offset P) in A. assert (A' := A ltac:(lra)). assert (B' := B ltac:(lra)). clear A B. apply Rabs_def2 in A', B'. lra.
Qed.
Print Assumptions C86_distinct_partial.
(** A time of day comes after every date before 1970. *)
Theorem C86_times_refuted oob x y : fin x = true -> fin y = true -> (0 <= B2R64 x < 1)%R -> (1 <= B2R64 y <= 25568)%R ->
  (B2R64 x < B2R64 y)%R /\ f8_to_ms_win oob y < f8_to_ms_win oob x.
Proof.
  intros Fx Fy Hx Hy. split; [lra|]. apply lt_IZR. pose proof (@ms_bounds oob x Fx ltac:(lra)) as A. pose proof (@ms_bounds oob y Fy ltac:(lra)) as B. cbv zeta in *.
  assert (Ox : offset (B2R64 x) = 0) by (unfold offset; now rewrite Rle_bool_false by lra). rewrite Ox in A.
  unfold offset in B. rewrite Rle_bool_true in B by lra. revert B. case Rlt_bool_spec; intros; lra.
Qed.
Print Assumptions C86_times_refuted.
(** Every moment of serial 59 comes after the moments of serial 60 up to the same time of day. *)
Theorem C86_february_refuted oob x y : fin x = true -> fin y = true -> (59 <= B2R64 x < 60)%R ->
  (60 <= B2R64 y <= B2R64 x + 1 - 4 / 86400000)%R ->
  (B2R64 x < B2R64 y)%R /\ f8_to_ms_win oob y < f8_to_ms_win oob x.
Proof.
  intros Fx Fy Hx Hy. split; [lra|]. apply lt_IZR. pose proof (@ms_bounds oob x Fx ltac:(lra)) as A. pose proof (@ms_bounds oob y Fy ltac:(lra)) as B. cbv zeta in *.
  unfold offset in A, B. rewrite Rle_bool_true in A, B by lra. rewrite Rlt_bool_true in A by lra. rewrite Rlt_bool_false in B by lra. lra.
Qed.
Print Assumptions C86_february_refuted.
(** These are all the inversions. *)
Theorem C86_exact oob x y : fin x = true -> fin y = true -> (0 <= B2R64 x <= B2R64 y)%R -> (B2R64 y < 2958466)%R ->
  f8_to_ms_win oob y < f8_to_ms_win oob x ->
  (B2R64 x < 1 /\ 1 <= B2R64 y < 25571)%R \/ (59 - 4 / 86400000 < B2R64 x < 60 /\ 60 <= B2R64 y < 61 + 4 / 86400000)%R.
Proof.
  intros Fx Fy H H1 I.
  destruct (Rlt_le_dec (B2R64 x) 1) as [X1|X1].
  - left. split; [exact X1|]. destruct (Rlt_le_dec (B2R64 y) 1) as [Y1|Y1].
    { exfalso. assert (f8_to_ms_win oob x <= f8_to_ms_win oob y); [|lia]. apply order_kept; try assumption; [| |left; lra|lra];
        rewrite Rabs_pos_eq by lra; apply Rle_trans with 2958466%R; try lra; apply IZR_le; lia. }
    split; [exact Y1|]. apply IZR_lt in I. pose proof (@ms_bounds oob x Fx ltac:(lra)) as A. pose proof (@ms_bounds oob y Fy ltac:(lra)) as B. cbv zeta in *.
    assert (Ox : offset (B2R64 x) = 0) by (unfold offset; now rewrite Rle_bool_false by lra). rewrite Ox in A.
    unfold offset in B. rewrite Rle_bool_true in B by lra. revert B. case Rlt_bool_spec; intros; lra.
  - right. assert (Y1 : ~ same_period (B2R64 x) (B2R64 y)).
    { intro P. assert (f8_to_ms_win oob x <= f8_to_ms_win oob y); [|lia]. apply order_kept; try assumption; [| |lra];
        rewrite Rabs_pos_eq by lra; apply Rle_trans with 2958466%R; try lra; apply IZR_le; lia. }
    assert (X2 : (B2R64 x < 60)%R) by (destruct (Rlt_le_dec (B2R64 x) 60) as [C|C]; [exact C|exfalso; apply Y1; right; right; lra]).
    assert (Y2 : (60 <= B2R64 y)%R) by (destruct (Rlt_le_dec (B2R64 y) 60) as [C|C]; [exfalso; apply Y1; right; left; lra|exact C]).
    apply IZR_lt in I. pose proof (@ms_bounds oob x Fx ltac:(lra)) as A. pose proof (@ms_bounds oob y Fy ltac:(lra)) as B. cbv zeta in *.
    unfold offset in A, B. rewrite Rle_bool_true in A, B by lra. rewrite Rlt_bool_true in A by lra. rewrite Rlt_bool_false in B by lra. lra.
Qed.
Print Assumptions C86_exact.
(** Back to serials the order is kept, and different moments stay different. *)
Definition back_sum (t : Z) : Z := if 86400000 <=? t then t + 2209161600000 else t.
Lemma back_R t : Z.abs t <= 2 ^ 48 -> B2R64 (ms_to_f8_win t) = rnd (IZR (back_sum t) / 86400000) /\ Z.abs (back_sum t) <= 2 ^ 49.
Proof.
  intro H. unfold ms_to_f8_win, back_sum.
  replace (t + (if 86400000 <=? t then 2209075200000 + (if -2203891200000 <=? t then 86400000 else 0) else 0))
    with (if 86400000 <=? t then t + 2209161600000 else t).
  2: { destruct (86400000 <=? t) eqn:E; [replace (-2203891200000 <=? t) with true by lia; lia|lia]. }
  set (u := if 86400000 <=? t then t + 2209161600000 else t). assert (U : Z.abs u <= 2 ^ 49) by (unfold u; destruct (86400000 <=? t); lia).
  split; [|exact U]. destruct (@f8_of_Z_R u) as (A & _); [lia|]. destruct (@f8_of_Z_R 86400000) as (B & _); [lia|].
  destruct (@fdiv_R (f8_of_Z u) (f8_of_Z 86400000)) as (D & _).
  - rewrite B. lra.
  - rewrite A, B. eapply Rle_trans; [apply Rabs_div_le; lra|]. rewrite <- abs_IZR. apply Rle_trans with (IZR (2 ^ 49)); [now apply IZR_le|].
    rewrite <- bpow_IZR by lia. apply bpow_le. lia.
  - now rewrite D, A, B.
Qed.
Theorem C86_back t u : Z.abs t <= 2 ^ 48 -> Z.abs u <= 2 ^ 48 -> t < u -> (B2R64 (ms_to_f8_win t) < B2R64 (ms_to_f8_win u))%R.
Proof.
  intros T U L. destruct (back_R T) as [A A']. destruct (back_R U) as [B B']. rewrite A, B.
  assert (S : (IZR (back_sum t) + 1 <= IZR (back_sum u))%R).
  { rewrite <- (plus_IZR _ 1). apply IZR_le. unfold back_sum. destruct (86400000 <=? t) eqn:E1, (86400000 <=? u) eqn:E2; lia. }
  assert (E : forall v, Z.abs v <= 2 ^ 49 -> (Rabs (rnd (IZR v / 86400000) - IZR v / 86400000) <= bpow radix2 (-31))%R).
  { intros v V. change (-31) with (23 - 54). apply rnd_err; [lia|]. unfold Rdiv. rewrite Rabs_mult, <- abs_IZR, (Rabs_pos_eq (/ 86400000)) by lra.
    apply IZR_le in V. change (2 ^ 49) with 562949953421312 in V. change (bpow radix2 23) with 8388608%R. lra. }
  pose proof (E _ A') as E1. pose proof (E _ B') as E2. apply Rabs_le_inv in E1, E2. change (bpow radix2 (-31)) with (/ 2147483648)%R in E1, E2. lra.
Qed.
Print Assumptions C86_back.
(** 28 February 1900, noon, serial 60, and 1 March 1900; 1 January 2020 and the day after. *)
Definition half_past (n : Z) : f8 := fdiv (f8_of_Z (2 * n + 1)) (f8_of_Z 2).
Example C86_inversions_example oob :
  f8_to_ms_win oob (half_past 59) = -25508 * 86400000 - 43200000 /\ f8_to_ms_win oob (f8_of_Z 60) = -25509 * 86400000 /\
  f8_to_ms_win oob (f8_of_Z 61) = -25508 * 86400000 /\
  f8_to_ms_win oob (half_past 0) = 43200000 /\ f8_to_ms_win oob (f8_of_Z 1) = -25567 * 86400000 /\
  f8_to_ms_win oob (f8_of_Z 43831) = 18262 * 86400000 /\ f8_to_ms_win oob (f8_of_Z 43832) = 18263 * 86400000.
Proof. repeat (apply conj); vm_compute; reflexivity. Qed.
