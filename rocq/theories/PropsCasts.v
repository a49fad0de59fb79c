(** Claims C39 and C43 to C51, C65: the numeric and date conversions of chunk/casts.py. *)
From Verif Require Import Py PyFacts Casts CastsSpec FloatFacts CastsProofs CastsProofs2.
From Coq Require Import Reals Lra ZifyBool ZifyNat.
From Flocq.Core Require Import Core.
From Flocq.IEEE754 Require Import BinarySingleNaN Binary Bits.
Open Scope Z_scope.

(** ** C39 *)
(** Column test and conversion, for columns whose scaled values stay within 2^51. *)
Theorem C39_narrowing_partial oob arr p : 0 <= p <= 22 -> f8_is_i8 arr p = true ->
  (forall x, In x arr -> fin x = true /\ (Rabs (B2R64 x) * IZR (10 ^ p) <= IZR (2 ^ 51))%R) ->
  forall x, In x arr -> f8_to_i64 oob x = Ztrunc (B2R64 x) /\
    (Rabs (B2R64 x - IZR (f8_to_i64 oob x)) < / IZR (10 ^ p))%R.
Proof.
  intros Hp H Hb x Hx. destruct (Hb x Hx) as [Fx Bx].
  assert (Q1 : (1 <= IZR (10 ^ p))%R) by (apply IZR_le; assert (0 < 10 ^ p) by (apply Z.pow_pos_nonneg; lia); lia).
  assert (Bx2 : (Rabs (B2R64 x) <= IZR (2 ^ 51))%R).
  { eapply Rle_trans; [|exact Bx]. rewrite <- (Rmult_1_r (Rabs (B2R64 x))) at 1.
    apply Rmult_le_compat_l; [apply Rabs_pos|exact Q1]. }
  assert (E : f8_to_i64 oob x = Ztrunc (B2R64 x)).
  { apply f8_to_int_R; [exact Fx|]. pose proof (trunc_err (B2R64 x)) as T.
    apply Rabs_le_inv in Bx2. apply Rabs_def2 in T. change (- 2 ^ (64 - 1)) with (-9223372036854775808). change (2 ^ (64 - 1)) with 9223372036854775808.
    change (2 ^ 51) with 2251799813685248 in Bx2. split; [apply le_IZR|apply lt_IZR]; lra. }
  split; [exact E|]. rewrite E. destruct (Z.eq_dec p 0) as [->|Hp0].
  - change (IZR (10 ^ 0)) with 1%R. rewrite Rinv_1, Rabs_minus_sym. apply trunc_err.
  - apply is_i8_close; [lia|exact Fx|exact Bx|]. now apply f8_is_i8_all with (arr := arr).
Qed.
(** 10223501449417.001953125: the column is narrowed although the value is not within 10^-6 of
    the integer (default precision 6). *)
Definition ex_lossy : f8 := b64_of_bits 0x42A298B058319201.
Theorem C39_lossless_refuted oob : fin ex_lossy = true /\ f8_is_i8 [ex_lossy] 6 = true /\
  f8_to_i64 oob ex_lossy = 10223501449417 /\
  B2R64 ex_lossy = (IZR 10223501449417 + / 512)%R /\
  (/ IZR (10 ^ 6) < Rabs (B2R64 ex_lossy - IZR (f8_to_i64 oob ex_lossy)))%R.
Proof.
  assert (E : B2R64 ex_lossy = (IZR 10223501449417 + / 512)%R).
  { change (B2R64 ex_lossy) with (F2R (Float radix2 5234432742101505 (-9))). unfold F2R. cbn [Fnum Fexp].
    change (bpow radix2 (-9)) with (/ 512)%R. lra. }
  assert (T : f8_to_i64 oob ex_lossy = 10223501449417) by (vm_compute; reflexivity).
  split; [reflexivity|]. split; [vm_compute; reflexivity|]. split; [exact T|]. split; [exact E|].
  rewrite T, E. replace (10223501449417 + / 512 - 10223501449417)%R with (/ 512)%R by ring.
  rewrite Rabs_pos_eq by lra. change (10 ^ 6) with 1000000. lra.
Qed.
(** Infinite or too large values pass the test too; what is delivered is then whatever the
    machine's out-of-range conversion gives. *)
Theorem C39_out_of_range_refuted oob :
  f8_is_i8 [B754_infinity 53 1024 false] 6 = true /\
  f8_to_i64 oob (B754_infinity 53 1024 false) = oob (B754_infinity 53 1024 false) /\
  f8_is_i8 [f8_of_Z (2 ^ 63)] 6 = true /\ f8_to_i64 oob (f8_of_Z (2 ^ 63)) = oob (f8_of_Z (2 ^ 63)).
Proof.
  assert (K : forall x, (is_finite 53 1024 x && (- 2 ^ (64 - 1) <=? Btrunc 53 1024 x) && (Btrunc 53 1024 x <? 2 ^ (64 - 1)))%bool = false ->
    f8_to_i64 oob x = oob x).
  { intros x H. unfold f8_to_i64, f8_to_int. now rewrite H. }
  split; [vm_compute; reflexivity|]. split; [apply K; vm_compute; reflexivity|].
  split; [vm_compute; reflexivity|]. apply K. vm_compute. reflexivity.
Qed.
(** A column with a NaN is never narrowed. *)
Theorem C39_nan arr p x : In x arr -> is_nan 53 1024 x = true -> f8_is_i8 arr p = false.
Proof.
  intros Hx Hn. destruct (f8_is_i8 arr p) eqn:E; [|reflexivity].
  pose proof (f8_is_i8_nonan (f8_is_i8_all E Hx)). congruence.
Qed.
Example C39_example : f8_is_i8 (map f8_of_Z [1; -7; 1000000]) 6 = true /\
  f8_is_i8 [f8_of_Z 1; b64_of_bits 0x3FF8000000000000] 6 = false /\
  f8_to_i64 (fun _ => 0) (b64_of_bits 0x400FFFFFFFFFFFFF) = 3.
Proof. repeat (apply conj); vm_compute; reflexivity. Qed.

(** ** C43: an RK value is [4 q + 2 fInt + fX100] with 30 bits [q]. *)
Theorem C43_integer q x100 : 0 <= q < 2 ^ 30 -> 0 <= x100 <= 1 ->
  fin (rk_to_f8 (4 * q + 2 + x100)) = true /\
  B2R64 (rk_to_f8 (4 * q + 2 + x100)) = rnd (IZR (signed30 q) / IZR (if x100 =? 1 then 100 else 1)).
Proof. apply rk_int_R. Qed.
Theorem C43_float q x100 base : 0 <= q < 2 ^ 30 -> 0 <= x100 <= 1 -> bits_of_b64 base = q * 2 ^ 34 ->
  (fin base = true -> fin (rk_to_f8 (4 * q + x100)) = true /\
     B2R64 (rk_to_f8 (4 * q + x100)) = rnd (B2R64 base / IZR (if x100 =? 1 then 100 else 1))) /\
  (is_nan 53 1024 base = true -> is_nan 53 1024 (rk_to_f8 (4 * q + x100)) = true) /\
  (fin base = false -> is_nan 53 1024 base = false -> rk_to_f8 (4 * q + x100) = base).
Proof. apply rk_float_R. Qed.
(** Every 32-bit value is of one of the two shapes. *)
Theorem C43_cover v : 0 <= v < 2 ^ 32 -> exists q x100, 0 <= q < 2 ^ 30 /\ 0 <= x100 <= 1 /\
  (v = 4 * q + 2 + x100 \/ v = 4 * q + x100 /\ exists base, bits_of_b64 base = q * 2 ^ 34).
Proof.
  intro H. exists (v / 4), (v mod 2). split; [Z.div_mod_to_equations; lia|]. split; [Z.div_mod_to_equations; lia|].
  destruct (Z.eq_dec (v / 2 mod 2) 1) as [E|E].
  - left. Z.div_mod_to_equations. lia.
  - right. split; [Z.div_mod_to_equations; lia|]. exists (b64_of_bits (v / 4 * 2 ^ 34)).
    apply bits_of_binary_float_of_bits. change (2 ^ (52 + 11 + 1)) with (2 ^ 64). Z.div_mod_to_equations. lia.
Qed.
Example C43_example :
  bits_of_b64 (rk_to_f8 (4 * 12345 + 2 + 1)) = 0x405EDCCCCCCCCCCD /\ (* 123.45 *)
  bits_of_b64 (rk_to_f8 0xFFFFFFFE) = 0xBFF0000000000000 /\           (* -1 *)
  bits_of_b64 (rk_to_f8 0x3FF80000) = 0x3FF8000000000000.             (* 1.5 *)
Proof. repeat (apply conj); vm_compute; reflexivity. Qed.

(** ** C44 *)
Theorem C44_integer_round_trip n : - 2 ^ 29 <= n < 2 ^ 29 -> rk_to_f8 (i8_to_rk n) = f8_of_Z n /\
  B2R64 (f8_of_Z n) = IZR n.
Proof. intro H. split; [now apply rk_i8|apply f8_of_Z_B2R; lia]. Qed.
Example C44_example : i8_to_rk (-536870912) = 0x80000002 /\ i8_to_rk 536870911 = 0x7FFFFFFE.
Proof. split; vm_compute; reflexivity. Qed.

(** ** C45 *)
Theorem C45_nonnegative_partial oob n : 0 <= n < 2 ^ 29 -> rk_to_f8 (f8_to_rk oob (f8_of_Z n)) = f8_of_Z n.
Proof.
  intro H. rewrite f8_to_rk_int by lia. replace (n <? 0) with false by lia. apply rk_i8. lia.
Qed.
(** Every negative integer comes back one too large. *)
Theorem C45_negative_refuted oob n : - 2 ^ 29 <= n < 0 ->
  B2R64 (f8_of_Z n) = IZR n /\ B2R64 (rk_to_f8 (f8_to_rk oob (f8_of_Z n))) = IZR (n + 1).
Proof.
  intro H. split; [apply f8_of_Z_B2R; lia|]. rewrite f8_to_rk_int by lia. replace (n <? 0) with true by lia.
  rewrite rk_i8 by lia. apply f8_of_Z_B2R. lia.
Qed.
Example C45_example : bits_of_b64 (rk_to_f8 (f8_to_rk (fun _ => 0) (f8_of_Z (-5)))) = bits_of_b64 (f8_of_Z (-4)).
Proof. vm_compute. reflexivity. Qed.

(** ** C46 *)
Theorem C46_whole_days_partial oob n : 1 <= n <= 2958465 -> n <> 60 ->
  exists k, f8_to_ms_win oob (f8_of_Z n) = k * 86400000 /\ unix_day k (excel_date n).
Proof.
  intros H H60. exists (n - zoffset n). split; [|apply excel_unix; lia].
  apply f8_to_ms_day; [apply f8_of_Z_fin; lia|apply f8_of_Z_B2R; lia|lia].
Qed.
(** Serial 60 (29 February 1900, which does not exist) is delivered as 28 February, the same day
    as serial 59; serial 0 (shown as 0 January 1900) as 1 January 1970. *)
Theorem C46_boundaries_refuted oob :
  excel_date 60 = (1900, 2, 29) /\
  f8_to_ms_win oob (f8_of_Z 60) = f8_to_ms_win oob (f8_of_Z 59) /\ excel_date 59 = (1900, 2, 28) /\
  f8_to_ms_win oob (f8_of_Z 0) = 0 /\ unix_day 0 (1970, 1, 1) /\ unix_day (-25568) (1899, 12, 31).
Proof. repeat (apply conj); vm_compute; reflexivity. Qed.
Example C46_example : excel_date 1 = (1900, 1, 1) /\ excel_date 43831 = (2020, 1, 1) /\
  excel_date 2958465 = (9999, 12, 31) /\ f8_to_ms_win (fun _ => 0) (f8_of_Z 43831) = 1577836800000.
Proof. repeat (apply conj); vm_compute; reflexivity. Qed.

(** ** C47 *)
Theorem C47_within_a_millisecond_partial oob x : fin x = true ->
  let ms := IZR (f8_to_ms_win oob x) in
  ((61 <= B2R64 x < 2958466)%R -> (Rabs (ms - (B2R64 x - 25569) * 86400000) < 1 + / 32)%R) /\
  ((1 <= B2R64 x < 60)%R -> (Rabs (ms - (B2R64 x - 25568) * 86400000) < 1 + / 32)%R) /\
  ((0 <= B2R64 x < 1)%R -> (Rabs (ms - B2R64 x * 86400000) < 1 + / 32)%R).
Proof.
  intros Fx ms. split; [|split]; intro H.
  - pose proof (@ms_err oob x Fx) as P. unfold offset in P.
    rewrite Rle_bool_true, Rlt_bool_false in P by lra. apply P. lra.
  - pose proof (@ms_err oob x Fx) as P. unfold offset in P.
    rewrite Rle_bool_true, Rlt_bool_true in P by lra. apply P. lra.
  - pose proof (@ms_err oob x Fx) as P. unfold offset in P.
    rewrite Rle_bool_false in P by lra. rewrite Rminus_0_r in P. apply P. lra.
Qed.
(** Two seconds past midnight, 1 January 2020: the double nearest to that serial is delivered
    one millisecond early. *)
Definition ex_two_seconds : f8 := fdiv (f8_of_Z (43831 * 86400 + 2)) (f8_of_Z 86400).
Theorem C47_whole_seconds_refuted oob :
  B2R64 ex_two_seconds = rnd (IZR (43831 * 86400 + 2) / IZR 86400) /\
  f8_to_ms_win oob ex_two_seconds = (43831 - 25569) * 86400000 + 2 * 1000 - 1.
Proof.
  split; [|vm_compute; reflexivity]. unfold ex_two_seconds.
  destruct (@fdiv_R (f8_of_Z (43831 * 86400 + 2)) (f8_of_Z 86400)) as (D & _).
  - rewrite f8_of_Z_B2R by lia. apply not_0_IZR. discriminate.
  - rewrite !f8_of_Z_B2R by lia. eapply Rle_trans; [apply Rabs_div_le; apply IZR_le; lia|].
    apply IZR_bound with (k := 60); lia.
  - rewrite D. rewrite !f8_of_Z_B2R by lia. reflexivity.
Qed.
Example C47_example : f8_to_ms_win (fun _ => 0) (b64_of_bits 0x40E566F000000000) = 1577836800000 + 43200000.
Proof. vm_compute. reflexivity. Qed.

(** ** C48 *)
Theorem C48_round_trip oob d : -25568 <= d <= 2958465 - 25569 ->
  f8_to_ms_win oob (ms_to_f8_win (d * 86400000)) = d * 86400000.
Proof. intro H. apply ms_round_trip. lia. Qed.
Example C48_example : f8_to_ms_win (fun _ => 0) (ms_to_f8_win (18262 * 86400000)) = 18262 * 86400000.
Proof. vm_compute. reflexivity. Qed.

(** ** C65 *)
Theorem C65_serial_partial d : 1 <= d <= 2958465 - 25569 ->
  exists n, B2R64 (ms_to_f8_win (d * 86400000)) = IZR n /\ unix_day d (excel_date n).
Proof.
  intro H. exists (d + 25569). split.
  - destruct (@ms_to_f8_day d) as [_ E]; [lia|]. rewrite E. now replace (1 <=? d) with true by lia.
  - pose proof (@excel_unix (d + 25569)) as P. unfold zoffset in P. replace (1 <=? d + 25569) with true in P by lia.
    replace (d + 25569 <? 60) with false in P by lia. replace (d + 25569 - 25569) with d in P by lia. apply P; lia.
Qed.
(** Every day up to 1 January 1970 (Excel serial [d + 25569], from March 1900 on) gives [d] itself. *)
Theorem C65_before_1970_refuted d : 61 - 25569 <= d <= 0 ->
  B2R64 (ms_to_f8_win (d * 86400000)) = IZR d /\ unix_day d (excel_date (d + 25569)).
Proof.
  intro H. split.
  - destruct (@ms_to_f8_day d) as [_ E]; [lia|]. rewrite E. now replace (1 <=? d) with false by lia.
  - pose proof (@excel_unix (d + 25569)) as P. unfold zoffset in P. replace (1 <=? d + 25569) with true in P by lia.
    replace (d + 25569 <? 60) with false in P by lia. replace (d + 25569 - 25569) with d in P by lia. apply P; lia.
Qed.
Example C65_example : bits_of_b64 (ms_to_f8_win (18262 * 86400000)) = bits_of_b64 (f8_of_Z 43831) /\
  bits_of_b64 (ms_to_f8_win (-365 * 86400000)) = bits_of_b64 (f8_of_Z (-365)).
Proof. split; vm_compute; reflexivity. Qed.

(** ** C49 *)
(** [first_match parse fmts t]: the value of the first format that parses [t]. *)
Definition first_match (parse : str -> str -> option Z) (fmts : list str) (t : str) : option Z :=
  match List.find (fun f => match parse f t with Some _ => true | None => false end) fmts with
  | Some f => parse f t
  | None => None
  end.
Lemma first_match_fp parse fmts t : first_match parse fmts t = first_parse parse fmts t.
Proof.
  unfold first_match. induction fmts as [|f r IH]; [reflexivity|]. cbn [find first_parse].
  destruct (parse f t) eqn:E; [exact E|exact IH].
Qed.
(** Where every value the parser gives is positive, and null slots read as 0. *)
Theorem C49_first_format_partial parse polars fmts ts : fmts <> [] ->
  (forall f t v, parse f t = Some v -> 0 < v) ->
  (forall vs, Forall2 (fun t v => first_match parse fmts t = Some v) ts vs ->
     mf_strptime parse 0 polars (Some fmts) (map Some ts) = Ok vs) /\
  ((exists t, In t ts /\ first_match parse fmts t = None) ->
     mf_strptime parse 0 polars (Some fmts) (map Some ts) = Err ArrowInvalid).
Proof.
  intros Hf Hp. unfold mf_strptime. destruct fmts as [|f r]; [congruence|].
  replace (map (fun _ : option str => 0) (map Some ts)) with (map (fun t => val0 (fp parse [] t)) (map Some ts)).
  2: { rewrite !map_map. apply map_ext. reflexivity. }
  destruct (mf_loop_ok Hp (f :: r) [] (map Some ts)) as [A B]. cbn [app] in A, B. split.
  - intros vs H. rewrite A.
    + f_equal. rewrite map_map. clear -H. induction H as [|t v ts vs H1 _ IH]; [reflexivity|]. cbn [map].
      rewrite IH. f_equal. unfold fp. rewrite <- first_match_fp, H1. reflexivity.
    + intros t Ht. apply in_map_iff in Ht. destruct Ht as (u & <- & Hu). unfold fp. rewrite <- first_match_fp.
      clear -H Hu. induction H as [|t v ts vs H1 _ IH]; [destruct Hu|]. destruct Hu as [->|Hu]; [congruence|now apply IH].
  - intros (t & Ht & N). apply B. intro C. apply (C (Some t)); [now apply in_map|]. unfold fp. now rewrite <- first_match_fp.
Qed.
(** The epoch itself is taken for a failure: a string that a format parses to 0 raises. *)
Theorem C49_epoch_refuted parse polars f t : parse f t = Some 0 ->
  first_match parse [f] t = Some 0 /\ mf_strptime parse 0 polars (Some [f]) [Some t] = Err ArrowInvalid.
Proof.
  intro H. split; [unfold first_match; cbn; now rewrite H|].
  unfold mf_strptime. cbn [map mf_loop combine fst snd Z.eqb]. unfold strptime1. rewrite H. reflexivity.
Qed.
(** Dates before 1970 lose their date part, or raise at midnight. *)
Theorem C49_before_1970_refuted parse polars f t v : parse f t = Some v -> v < 0 ->
  mf_strptime parse 0 polars (Some [f]) [Some t]
  = if v mod 86400000 =? 0 then Err ArrowInvalid else Ok [v mod 86400000].
Proof.
  intros H Hv. unfold mf_strptime. cbn [map mf_loop combine fst snd Z.eqb]. unfold strptime1. rewrite H.
  replace (v <? 0) with true by lia.
  destruct (v mod 86400000 =? 0) eqn:E; cbn.
  - replace (0 <? v mod 86400000) with false by lia. cbn. now rewrite E.
  - replace (0 <? v mod 86400000) with true by (Z.div_mod_to_equations; lia). reflexivity.
Qed.
(** In full, for every parser, format list and array (null elements included, where null slots
    read as 0): the usable value of the first format that has one, or an error if some element has
    none. *)
Definition first_usable (parse : str -> str -> option Z) (fmts : list str) (t : option str) : option Z :=
  match t with Some t => first_match (usable parse) fmts t | None => None end.
Theorem C49_exact parse polars formats arr :
  let fmts := match formats with Some (f :: r) => f :: r | _ => default_formats polars end in
  mf_strptime parse 0 polars formats arr
  = match all_some (map (first_usable parse fmts) arr) with Some vs => Ok vs | None => Err ArrowInvalid end.
Proof.
  cbv zeta. unfold mf_strptime.
  assert (E : forall fmts, map (first_usable parse fmts) arr = map (fp (usable parse) fmts) arr).
  { intro fmts. apply map_ext. intros [t|]; [apply first_match_fp|reflexivity]. }
  destruct formats as [[|f r]|]; rewrite mf_all, E; reflexivity.
Qed.
Definition ex_parse (f t : str) : option Z :=
  if str_eqb f (s "%Y") && str_eqb t (s "2020") then Some 1577836800000
  else if str_eqb f (s "%d") then Some 86400000 else None.
Example C49_example :
  mf_strptime ex_parse 0 true (Some [s "%Y"; s "%d"]) [Some (s "2020"); Some (s "2")] = Ok [1577836800000; 86400000] /\
  mf_strptime ex_parse 0 true (Some [s "%Y"]) [Some (s "2020"); Some (s "2")] = Err ArrowInvalid.
Proof. split; vm_compute; reflexivity. Qed.

Definition ex_parse_old (f t : str) : option Z := if str_eqb f (s "%Y") then Some (-1000) else if str_eqb t (s "x") then Some 5 else None.
Example C49_exact_example :
  mf_strptime ex_parse_old 0 true (Some [s "%d"; s "%Y"]) [Some (s "x"); Some (s "y")] = Ok [5; 86399000] /\
  mf_strptime ex_parse_old 0 true (Some [s "%d"; s "%Y"]) [Some (s "x"); None] = Err ArrowInvalid.
Proof. split; vm_compute; reflexivity. Qed.

(** ** C50 *)
Theorem C50_time_part arr : dt_has_t arr = true <-> exists t, In t arr /\ t mod 86400000 <> 0.
Proof. apply dt_has_t_iff. Qed.
Theorem C50_date_part_partial arr : (forall t, In t arr -> 0 <= t /\ t <> 86400000) ->
  (dt_has_d arr = true <-> exists t, In t arr /\ t / 86400000 <> 0).
Proof.
  intro H. rewrite dt_has_d_iff. split; intros (t & Ht & K); exists t; (split; [exact Ht|]);
    pose proof (H t Ht); Z.div_mod_to_equations; lia.
Qed.
(** 2 January 1970, and every day before 1970, count as having no date. *)
Theorem C50_date_part_refuted t : t < 0 \/ t = 86400000 -> dt_has_d [t] = false /\ t / 86400000 <> 0.
Proof.
  intro H. split; [|Z.div_mod_to_equations; lia]. destruct (dt_has_d [t]) eqn:E; [|reflexivity].
  apply dt_has_d_iff in E. destruct E as (u & [<-|[]] & K). lia.
Qed.
(** Exactly when the answer is right: some value is after 2 January 1970, 00:00, or no value is
    before 1970 or at that instant. *)
Theorem C50_exact arr :
  (dt_has_d arr = true <-> exists t, In t arr /\ t / 86400000 <> 0) <->
  (exists t, In t arr /\ 86400000 < t) \/ (forall t, In t arr -> 0 <= t /\ t <> 86400000).
Proof.
  split.
  - intros [_ H]. destruct (dt_has_d arr) eqn:E; [left; now apply dt_has_d_iff|]. right. intros t Ht.
    assert (N : ~ (exists t, In t arr /\ t / 86400000 <> 0)) by (intro K; discriminate (H K)).
    destruct (Z.eq_dec (t / 86400000) 0) as [D|D]; [|exfalso; apply N; now exists t]. Z.div_mod_to_equations. lia.
  - intros [(t & Ht & K)|H]; [|now apply C50_date_part_partial]. split; intros _; [|apply dt_has_d_iff; now exists t].
    exists t. split; [exact Ht|]. Z.div_mod_to_equations. lia.
Qed.
Example C50_exact_example : dt_has_d [-1; 86400001] = true /\ dt_has_d [86400000; 0] = false.
Proof. split; vm_compute; reflexivity. Qed.
Example C50_example : dt_has_t [86400000; 3600000] = true /\ dt_has_t [0; 86400000] = false /\
  dt_has_d [3600000; 172800000] = true /\ dt_has_d [3600000] = false.
Proof. repeat (apply conj); vm_compute; reflexivity. Qed.

(** ** C51 *)
Theorem C51_one_byte_partial l : (List.length l <= 8)%nat -> bool_arrow_to_numpy (bitmap l) (zlen l) = l.
Proof. intro H. destruct l as [|b l]; [reflexivity|]. apply bool_short. cbn in *. lia. Qed.
(** In general: the bytes come in reverse order, each in its right bit order, and the unused bits
    of the last byte count as values. *)
Theorem C51_exact l : bool_arrow_to_numpy (bitmap l) (zlen l) = firstn (List.length l) (List.concat (rev (blocks l))).
Proof. apply bool_all. Qed.
(** Nine values: the second byte comes first. *)
Definition ex_nine : list bool := [true; false; false; false; false; false; false; false; false].
Theorem C51_nine_refuted :
  bool_arrow_to_numpy (bitmap ex_nine) 9 = [false; false; false; false; false; false; false; false; true].
Proof. vm_compute. reflexivity. Qed.
Example C51_example : bitmap [true; false; true] = [5] /\ bool_arrow_to_numpy [5] 3 = [true; false; true].
Proof. split; vm_compute; reflexivity. Qed.

Print Assumptions C39_narrowing_partial.
Print Assumptions C39_lossless_refuted.
Print Assumptions C39_out_of_range_refuted.
Print Assumptions C39_nan.
Print Assumptions C43_integer.
Print Assumptions C43_float.
Print Assumptions C43_cover.
Print Assumptions C44_integer_round_trip.
Print Assumptions C45_nonnegative_partial.
Print Assumptions C45_negative_refuted.
Print Assumptions C46_whole_days_partial.
Print Assumptions C46_boundaries_refuted.
Print Assumptions C47_within_a_millisecond_partial.
Print Assumptions C47_whole_seconds_refuted.
Print Assumptions C48_round_trip.
Print Assumptions C65_serial_partial.
Print Assumptions C65_before_1970_refuted.
Print Assumptions C49_first_format_partial.
Print Assumptions C49_exact.
Print Assumptions C49_epoch_refuted.
Print Assumptions C49_before_1970_refuted.
Print Assumptions C50_time_part.
Print Assumptions C50_date_part_partial.
Print Assumptions C50_date_part_refuted.
Print Assumptions C50_exact.
Print Assumptions C51_one_byte_partial.
Print Assumptions C51_exact.
Print Assumptions C51_nine_refuted.
