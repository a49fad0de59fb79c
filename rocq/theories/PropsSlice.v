(** Claim C36, further: slices of null runs with every step. *)
From Verif Require Import Py PyFacts PyText Cell Chunk ChunkSpec ChunkProofs PropsChunk.
From Coq Require Import ZifyBool.
Set Implicit Arguments. Unset Strict Implicit.

(** Python's rule: bounds are clipped to the list, then the steps are counted. *)
Lemma slice_count n a b k : 0 <= n -> list_slice_len n (mkS a b k)
  = let st := match k with None => 1 | Some k => k end in
    if st =? 0 then Err ValueError else Ok (slice_len (slice_start n st a) (slice_stop n st b) st).
Proof.
  intro Hn. unfold list_slice_len, slice_list, slice_indices. cbn [sl_start sl_stop sl_step]. cbv zeta.
  assert (L : zlen (repeat tt (Z.to_nat n)) = n) by (unfold zlen; rewrite repeat_length; lia). rewrite L.
  set (st := match k with None => 1 | Some k => k end). destruct (st =? 0) eqn:E0; [reflexivity|]. cbn [bind].
  set (A := slice_start n st a). set (B := slice_stop n st b).
  assert (HA : (if st <? 0 then -1 <= A <= n - 1 else 0 <= A <= n)) by (unfold A, slice_start; destruct a as [a|]; repeat match goal with |- context [if ?c then _ else _] => destruct c eqn:? end; lia).
  assert (HB : (if st <? 0 then -1 <= B <= n - 1 else 0 <= B <= n)) by (unfold B, slice_stop; destruct b as [b|]; repeat match goal with |- context [if ?c then _ else _] => destruct c eqn:? end; lia).
  rewrite pick_all.
  - rewrite zlen_map. unfold zlen. rewrite seq_length. f_equal. unfold slice_len.
    repeat match goal with |- context [if ?c then _ else _] => destruct c eqn:? end; try lia.
    + pose proof (Z.div_pos (A - B - 1) (- st)). lia.
    + pose proof (Z.div_pos (B - A - 1) st). lia.
  - intros i Hi. rewrite L. apply in_map_iff in Hi. destruct Hi as (j & <- & Hj). apply in_seq in Hj. unfold slice_len in Hj.
    destruct (st <? 0) eqn:Es.
    + destruct (B <? A) eqn:E; [|lia]. assert (Z.of_nat j <= (A - B - 1) / (- st)) by lia.
      assert (Z.of_nat j * (- st) <= (A - B - 1) / (- st) * (- st)) by (apply Z.mul_le_mono_nonneg_r; lia).
      pose proof (Z.mul_div_le (A - B - 1) (- st)). lia.
    + destruct (A <? B) eqn:E; [|lia]. assert (Z.of_nat j <= (B - A - 1) / st) by lia.
      assert (Z.of_nat j * st <= (B - A - 1) / st * st) by (apply Z.mul_le_mono_nonneg_r; lia).
      pose proof (Z.mul_div_le (B - A - 1) st). lia.
Qed.
Lemma or_some a d : or_ (Some a) d = if a =? 0 then d else a.
Proof. now destruct a. Qed.

(** With step 1 (or none): right exactly when the slice is empty or lies within the run; a stop
    of 0 is taken for none. *)
Theorem C36_step_one_exact n a b : 0 < n ->
  let pos i := if i <? 0 then n + i else i in
  let from := match a with None => 0 | Some a => pos a end in
  let to := match b with None => n | Some b => pos b end in
  list_slice_len n (mkS a b None) = Ok (null_slice n (mkS a b None)) <->
  (if match b with Some 0 => true | _ => false end then n <= from else to <= from \/ 0 <= from /\ to <= n).
Proof.
  intros Hn pos from to. rewrite slice_count by lia. cbv zeta. change (1 =? 0) with false. cbv iota. unfold null_slice, slice_len, slice_start, slice_stop. cbn [sl_start sl_stop sl_step].
  change (1 <? 0) with false. cbv iota. replace (n =? 0) with false by lia. change (or_ None 1) with 1. cbv zeta. change (1 <? 0) with false. cbv iota.
  assert (N : forall x y, (if x <=? y then 0 else (x - y) / 1 + (if (x - y) mod 1 =? 0 then 0 else 1)) = Z.max 0 (x - y)).
  { intros x y. destruct (x <=? y) eqn:E; [lia|]. rewrite Z.div_1_r, Z.mod_1_r. change (0 =? 0) with true. cbv iota. lia. }
  rewrite N. rewrite Z.div_1_r. subst from to pos. cbv beta.
  assert (OK : forall x y : Z, Ok x = Ok y <-> x = y) by (intros x y; split; congruence). rewrite OK.
  assert (ZB : (match b with Some 0 => true | _ => false end) = match b with Some b => b =? 0 | None => false end) by (destruct b as [[]|]; reflexivity). rewrite ZB.
  destruct a as [a|], b as [b|]; rewrite ?or_some; change (or_ None 0) with 0; change (or_ None n) with n;
    repeat match goal with |- context [if ?c then _ else _] => match c with context [if _ then _ else _] => fail 1 | _ => destruct c eqn:? end end; lia.
Qed.
Print Assumptions C36_step_one_exact.
(** Backward slices: right when both bounds are given, start within the run, stop not 0 and not
    before the run. *)
Theorem C36_backward_partial n a b k : 0 <= n -> k < 0 -> - n <= a < n -> b <> 0 -> - n <= b ->
  list_slice_len n (mkS (Some a) (Some b) (Some k)) = Ok (null_slice n (mkS (Some a) (Some b) (Some k))).
Proof.
  intros Hn Hk Ha Hb Hb2. rewrite slice_count by lia. cbv zeta. replace (k =? 0) with false by lia. apply f_equal.
  unfold null_slice, slice_len, slice_start, slice_stop. cbn [sl_start sl_stop sl_step]. replace (n =? 0) with false by lia. rewrite !or_some.
  replace (k =? 0) with false by lia. replace (k <? 0) with true by lia. cbv zeta iota beta. replace (b =? 0) with false by lia.
  set (A := if (if a =? 0 then 0 else a) <? 0 then n + (if a =? 0 then 0 else a) else (if a =? 0 then 0 else a)). set (B := if b <? 0 then n + b else b).
  assert (EA : (if a <? 0 then if n + a <? 0 then -1 else n + a else if n <=? a then n - 1 else a) = A) by (subst A; repeat match goal with |- context [if ?c then _ else _] => destruct c eqn:? end; lia).
  rewrite EA. assert (EB : (if b <? 0 then if n + b <? 0 then -1 else n + b else if n <=? b then n - 1 else b) = B \/ n <= B /\ (if b <? 0 then if n + b <? 0 then -1 else n + b else if n <=? b then n - 1 else b) = n - 1)
    by (subst B; repeat match goal with |- context [if ?c then _ else _] => destruct c eqn:? end; lia).
  assert (RA : 0 <= A < n) by (subst A; repeat match goal with |- context [if ?c then _ else _] => destruct c eqn:? end; lia).
  destruct EB as [-> | [E ->]].
  - destruct (B <? A) eqn:E.
    + replace (A <=? B) with false by lia. apply ceil_div; lia.
    + replace (A <=? B) with true by lia. reflexivity.
  - replace (n - 1 <? A) with false by lia. replace (A <=? B) with true by lia. reflexivity.
Qed.
Print Assumptions C36_backward_partial.
(** Elsewhere it is wrong: a backward slice that reaches the first element needs the stop to be
    left out or before the run, and then nothing, or too much, is counted; left-out starts; and a
    step of 0 is no error. *)
Theorem C36_general_refuted n a b k : 0 < n -> k < 0 ->
  (0 <= a < n -> exists l, list_slice_len n (mkS (Some a) None (Some k)) = Ok l /\ 0 < l /\ null_slice n (mkS (Some a) None (Some k)) = 0) /\
  (0 <= b < n - 1 -> exists l, list_slice_len n (mkS None (Some b) (Some k)) = Ok l /\ 0 < l /\ null_slice n (mkS None (Some b) (Some k)) = 0) /\
  (0 < a < n -> exists l, list_slice_len n (mkS (Some a) (Some 0) (Some k)) = Ok l /\ 0 < l /\ null_slice n (mkS (Some a) (Some 0) (Some k)) = 0) /\
  list_slice_len n (mkS (Some a) (Some b) (Some 0)) = Err ValueError.
Proof.
  intros Hn Hk.
  assert (P : forall x, 0 <= x -> 0 < x / (- k) + 1) by (intros x Hx; pose proof (Z.div_pos x (- k)); lia).
  repeat (apply conj).
  - intro H. rewrite slice_count by lia. cbv zeta. replace (k =? 0) with false by lia. eexists. split; [reflexivity|].
    unfold slice_len, slice_start, slice_stop, null_slice. cbn [sl_start sl_stop sl_step]. rewrite !or_some. change (or_ None n) with n.
    replace (k =? 0) with false by lia. replace (k <? 0) with true by lia. replace (n =? 0) with false by lia. cbv zeta iota beta.
    replace (a <? 0) with false by lia. replace (n <=? a) with false by lia. replace (-1 <? a) with true by lia. split; [apply P; lia|].
    destruct (a =? 0) eqn:E; cbn; [replace (n <? 0) with false by lia; replace (0 <=? n) with true by lia; reflexivity|].
    replace (a <? 0) with false by lia. replace (n <? 0) with false by lia. replace (a <=? n) with true by lia. reflexivity.
  - intro H. rewrite slice_count by lia. cbv zeta. replace (k =? 0) with false by lia. eexists. split; [reflexivity|].
    unfold slice_len, slice_start, slice_stop, null_slice. cbn [sl_start sl_stop sl_step]. rewrite !or_some. change (or_ None 0) with 0. change (0 <? 0) with false.
    replace (k =? 0) with false by lia. replace (k <? 0) with true by lia. replace (n =? 0) with false by lia. cbv zeta iota beta.
    replace (b <? 0) with false by lia. replace (n <=? b) with false by lia. replace (b <? n - 1) with true by lia. split; [apply P; lia|].
    destruct (b =? 0) eqn:E; [replace (n <? 0) with false by lia; replace (0 <=? n) with true by lia; reflexivity|].
    replace (b <? 0) with false by lia. replace (0 <=? b) with true by lia. reflexivity.
  - intro H. rewrite slice_count by lia. cbv zeta. replace (k =? 0) with false by lia. eexists. split; [reflexivity|].
    unfold slice_len, slice_start, slice_stop, null_slice. cbn [sl_start sl_stop sl_step]. rewrite !or_some. change (0 <? 0) with false. change (0 =? 0) with true. cbv iota.
    replace (k =? 0) with false by lia. replace (k <? 0) with true by lia. replace (n =? 0) with false by lia. cbv zeta iota beta.
    replace (a <? 0) with false by lia. replace (n <=? a) with false by lia. replace (n <=? 0) with false by lia. replace (0 <? a) with true by lia. split; [apply P; lia|].
    replace (a =? 0) with false by lia. replace (a <? 0) with false by lia. replace (n <? 0) with false by lia. replace (a <=? n) with true by lia. reflexivity.
  - rewrite slice_count by lia. reflexivity.
Qed.
Print Assumptions C36_general_refuted.
Example C36_further_example :
  list_slice_len 10 (mkS (Some 8) (Some (-9)) (Some (-3))) = Ok 3 /\ null_slice 10 (mkS (Some 8) (Some (-9)) (Some (-3))) = 3 /\
  null_slice 10 (mkS (Some 3) (Some 12) None) = 9 /\ list_slice_len 10 (mkS (Some 3) (Some 12) None) = Ok 7.
Proof. repeat (apply conj); vm_compute; reflexivity. Qed.
