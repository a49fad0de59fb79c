(** Claims C86 and C87: order of serial dates, timestamps to serials and back. *)
From Verif Require Import Py PyFacts Casts CastsSpec FloatFacts CastsProofs CastsProofs2.
From Coq Require Import Reals Lra ZifyBool.
From Flocq.Core Require Import Core.
From Flocq.IEEE754 Require Import BinarySingleNaN Binary Bits.
Open Scope Z_scope.

(** ** C86: later serials are not converted to earlier timestamps *)
(** The three stretches of the serial line: times of day (and before), January and February
    1900, and from there on. *)
Definition same_stretch (x y : R) : Prop := (y < 1 \/ 1 <= x /\ y < 60 \/ 60 <= x)%R.
Theorem C86_order_partial oob x y : fin x = true -> fin y = true ->
  (- IZR (2 ^ 30) <= B2R64 x <= B2R64 y)%R -> (B2R64 y <= IZR (2 ^ 30))%R -> same_stretch (B2R64 x) (B2R64 y) ->
  f8_to_ms_win oob x <= f8_to_ms_win oob y.
Proof.
  intros Fx Fy Hx Hy Sx. assert (0 <= IZR (2 ^ 30))%R by (apply IZR_le; lia).
  rewrite !f8_to_ms_R; [|exact Fy|apply Rabs_le; lra|exact Fx|apply Rabs_le; lra].
  assert (E : offset (B2R64 x) = offset (B2R64 y)).
  { unfold offset. destruct Sx as [S|[S|S]].
    - now rewrite !Rle_bool_false by lra.
    - now rewrite !Rle_bool_true, !Rlt_bool_true by lra.
    - now rewrite !Rle_bool_true, !Rlt_bool_false by lra. }
  rewrite E. apply Ztrunc_le, rnd_le. apply Rmult_le_compat_r; [lra|]. apply rnd_le. lra.
Qed.
Print Assumptions C86_order_partial.
(** Across the seams the order is lost: noon of serial 59 is later than serial 60, and noon of
    day 0 is later than the whole of 1900. *)
Theorem C86_order_refuted oob :
  let noon n := fadd (f8_of_Z n) (fdiv (f8_of_Z 1) (f8_of_Z 2)) in
  fltb (noon 59) (f8_of_Z 60) = true /\ f8_to_ms_win oob (f8_of_Z 60) < f8_to_ms_win oob (noon 59) /\
  fltb (noon 0) (f8_of_Z 1) = true /\ f8_to_ms_win oob (f8_of_Z 366) < f8_to_ms_win oob (noon 0).
Proof. cbv zeta. repeat (apply conj); vm_compute; reflexivity. Qed.
Print Assumptions C86_order_refuted.
Example C86_example : f8_to_ms_win (fun _ => 0) (f8_of_Z 43831) = 1577836800000 /\ f8_to_ms_win (fun _ => 0) (f8_of_Z 43832) = 1577923200000 /\
  same_stretch 43831 43832.
Proof. split; [vm_compute; reflexivity|]. split; [vm_compute; reflexivity|]. right. right. lra. Qed.

(** ** C87: a timestamp written as a serial and read back *)
Lemma near_trunc y t : (Rabs (y - IZR t) < / 2)%R -> (if 0 <=? t then t - 1 <= Ztrunc y <= t else t <= Ztrunc y <= t + 1).
Proof.
  intro H. apply Rabs_def2 in H. destruct (Z.leb_spec 0 t) as [P|P].
  - destruct (Z.eq_dec t 0) as [->|N].
    + assert (E : Ztrunc y = 0); [|lia]. destruct (Rle_lt_dec 0 y).
      * rewrite Ztrunc_floor by lra. apply Zfloor_imp. cbn. lra.
      * rewrite Ztrunc_ceil by lra. apply Zceil_imp. cbn. lra.
    + assert (1 <= IZR t)%R by (apply IZR_le; lia). rewrite Ztrunc_floor by lra. split.
      * apply Zfloor_lub. rewrite minus_IZR. lra.
      * apply Z.lt_succ_r, lt_IZR. rewrite succ_IZR. pose proof (Zfloor_lb y). lra.
  - assert (IZR t <= -1)%R by (apply IZR_le; lia). rewrite Ztrunc_ceil by lra. split.
    + apply Z.lt_succ_r, lt_IZR. rewrite succ_IZR. pose proof (Zceil_ub y). lra.
    + apply Zceil_glb. rewrite plus_IZR. lra.
Qed.
Lemma back_trip oob t : -2208988800000 <= t <= 253402300799999 ->
  exists y, f8_to_ms_win oob (ms_to_f8_win t) = Ztrunc y /\ (Rabs (y - IZR t) < / 2)%R.
Proof.
  intros H. unfold ms_to_f8_win.
  set (d := if 86400000 <=? t then 25569 else 0).
  assert (Ea : t + (if 86400000 <=? t then 2209075200000 + (if -2203891200000 <=? t then 86400000 else 0) else 0) = t + d * 86400000).
  { unfold d. destruct (86400000 <=? t) eqn:E; [|lia]. replace (-2203891200000 <=? t) with true by lia. lia. }
  rewrite Ea. set (a := t + d * 86400000). assert (Ha : Z.abs a <= 255611462399999) by (unfold a, d; destruct (86400000 <=? t); lia).
  destruct (@f8_of_Z_R a) as (A1 & A2 & _); [lia|]. destruct (@f8_of_Z_R 86400000) as (B1 & B2 & _); [lia|].
  set (q := (IZR a / IZR 86400000)%R).
  assert (Hq : (Rabs q <= 2958466)%R).
  { unfold q, Rdiv. rewrite Rabs_mult, <- abs_IZR. rewrite (Rabs_pos_eq (/ _)) by (left; apply Rinv_0_lt_compat; lra). apply IZR_le in Ha. lra. }
  destruct (@fdiv_R (f8_of_Z a) (f8_of_Z 86400000)) as (D & Df & _).
  { rewrite B1. lra. }
  { rewrite A1, B1. fold q. eapply Rle_trans; [exact Hq|]. change 2958466%R with (IZR 2958466). eapply Rle_trans; [apply Rle_abs|]. apply IZR_bound with (k := 30); lia. }
  rewrite A1, B1 in D. fold q in D. rewrite A2 in Df. set (f := fdiv (f8_of_Z a) (f8_of_Z 86400000)) in *.
  assert (Hx : (Rabs (B2R64 f) <= 2958466)%R).
  { rewrite D. unfold rnd. apply abs_round_le_generic; [apply fexp64_valid|apply valid_rnd_N| |exact Hq]. apply format_int. lia. }
  assert (E1 : (Rabs (B2R64 f - q) <= / IZR (2 ^ 32))%R).
  { rewrite D. eapply Rle_trans; [apply rnd_err with (k := 22); [lia|]|apply Rle_refl]. eapply Rle_trans; [exact Hq|]. rewrite bpow_IZR by lia. apply IZR_le. lia. }
  assert (O : offset (B2R64 f) = d /\ rnd (B2R64 f - IZR d) = (B2R64 f - IZR d)%R).
  { unfold d. unfold a, d in q. destruct (Z.leb_spec 86400000 t) as [L|L].
    - assert (Q : (25570 <= q)%R).
      { unfold q. rewrite plus_IZR, mult_IZR. apply IZR_le in L. lra. }
      assert (X : (25570 <= B2R64 f)%R) by (rewrite D, <- (@rnd_int 25570) by lia; now apply rnd_le).
      split; [unfold offset; now rewrite Rle_bool_true, Rlt_bool_false by lra|].
      apply round_generic; [apply valid_rnd_N|]. apply format_sub; [apply generic_format_B2R|lia|lra|].
      apply Rabs_le_inv in Hx. apply Rle_trans with 2958466%R; [lra|apply IZR_le; lia].
    - assert (Q : (q <= 1 - / IZR (2 ^ 27))%R).
      { unfold q. rewrite plus_IZR. assert (T : t <= 86399999) by lia. apply IZR_le in T. change (2 ^ 27) with 134217728. change (IZR (0 * 86400000)) with 0%R. lra. }
      assert (X : (B2R64 f <= 1 - / IZR (2 ^ 27))%R).
      { rewrite D. replace (1 - / IZR (2 ^ 27))%R with (F2R (Float radix2 134217727 (-27))) in Q |- * by (unfold F2R; cbn; lra).
        rewrite <- (@rnd_F2R 134217727 (-27)) by lia. now apply rnd_le. }
      assert (P27 : (0 < / IZR (2 ^ 27))%R) by (apply Rinv_0_lt_compat, IZR_lt; lia).
      split; [unfold offset; now rewrite Rle_bool_false by lra|]. rewrite Rminus_0_r. apply rnd_id. }
  destruct O as [O1 O2].
  exists (rnd ((B2R64 f - IZR d) * 86400000)). split.
  { rewrite f8_to_ms_R; [now rewrite O1, O2|exact Df|]. eapply Rle_trans; [exact Hx|]. apply IZR_le. lia. }
  set (p := ((B2R64 f - IZR d) * 86400000)%R).
  assert (E2 : (Rabs (p - IZR t) <= / 32)%R).
  { replace (p - IZR t)%R with ((B2R64 f - q) * 86400000)%R by (unfold p, q, a; rewrite plus_IZR, mult_IZR; field).
    rewrite Rabs_mult, (Rabs_pos_eq 86400000) by lra. change (2 ^ 32) with 4294967296 in E1. lra. }
  assert (Hp : (Rabs p <= bpow radix2 48)%R).
  { replace p with ((p - IZR t) + IZR t)%R by ring. eapply Rle_trans; [apply Rabs_triang|]. rewrite <- abs_IZR.
    assert (T : Z.abs t <= 253402300799999) by lia. apply IZR_le in T. change (bpow radix2 48) with 281474976710656%R. lra. }
  pose proof (@rnd_err p 48 ltac:(lia) Hp) as E3. change (bpow radix2 (48 - 54)) with (/ 64)%R in E3.
  replace (rnd p - IZR t)%R with ((rnd p - p) + (p - IZR t))%R by ring. eapply Rle_lt_trans; [apply Rabs_triang|]. lra.
Qed.
(** From 1900 to 9999 the timestamp read back is the one written or the millisecond next to it
    on the side of 1970. *)
Theorem C87_back oob t : -2208988800000 <= t <= 253402300799999 ->
  let u := f8_to_ms_win oob (ms_to_f8_win t) in
  if 0 <=? t then t - 1 <= u <= t else t <= u <= t + 1.
Proof.
  intros H u. destruct (@back_trip oob t H) as (y & E & Y).
  unfold u. rewrite E. now apply near_trunc.
Qed.
Print Assumptions C87_back.
(** One millisecond can be lost: 1 January 2020 00:00:02. *)
Theorem C87_not_exact oob : exists t, 0 <= t <= 253402300799999 /\ f8_to_ms_win oob (ms_to_f8_win t) = t - 1.
Proof. exists 1577836802000. split; [lia|]. vm_compute. reflexivity. Qed.
Print Assumptions C87_not_exact.
Example C87_example : f8_to_ms_win (fun _ => 0) (ms_to_f8_win 1577836801000) = 1577836801000 /\
  f8_to_ms_win (fun _ => 0) (ms_to_f8_win (-12345)) = -12345.
Proof. split; vm_compute; reflexivity. Qed.
