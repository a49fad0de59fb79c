(** Claims about chunks and windows (C33-C38, C40-C42, C66, C67). *)
From Verif Require Import Py PyFacts PyText Cell Casts Chunk ChunkSpec ChunkProofs ChunkWindow ChunkRun ChunkClosed ChunkConcat.
From Coq Require Import ZifyBool ZifyNat.
From Flocq Require Import IEEE754.Bits.
Set Implicit Arguments. Unset Strict Implicit.

(** Result of a read, column after it. *)
Definition read o cf store off len idx : res array := snd (concatenate o cf store off len idx).
Definition column_after o cf store off len idx : list chunk := fst (concatenate o cf store off len idx).

(** *** Example data *)
Definition ex_parse_f (t : str) : option f8 :=
  if str_eqb t (s "7") || str_eqb t (s "007") then Some (f8_of_Z 7) else if str_eqb t (s "2.5") then Some (b64_of_bits 0x4004000000000000) else None.
Definition ex_strptime (fmt t : str) : option Z :=
  if str_eqb fmt (s "%Y-%m-%d") && str_eqb t (s "2020-01-01") then Some 1577836800000 else None.
Definition ex_o : oracle :=
  mkO (fun _ => None) ex_parse_f (fun x => dec (f8_to_i64 (fun _ => 0) x)) (fun m => dec m ++ s "ms") dec ex_strptime true 0
      (f8_of_Z 0) (fun _ => 0).
Definition mode_no := mkConf false false None 6.
Definition mode_numeric := mkConf false true None 6.
Definition mode_temporal := mkConf true false (Some [s "%Y-%m-%d"]) 6.
Definition mode_all := mkConf true true (Some [s "%Y-%m-%d"]) 6.
Definition ex_table : list (option str) := [Some (s "a"); None; Some (s "007"); Some (s "2020-01-01")].
(** Two nulls, shared strings, a gap, RK numbers. *)
Definition ex_column : list chunk :=
  [nulls 2; mkC (DIdx [0; 2; 1]) 0x11 3 ex_table; nulls 1; mkC (DRk [0x2A; 0x6]) 0x21 2 []].
Example ex_column_ok : column ex_column = true.
Proof. vm_compute. reflexivity. Qed.
(** Arrays with floats shown by their bits. *)
Definition show_aval (v : aval) : str + Z :=
  match v with AS t => inl t | AF x => inr (bits_of_b64 x) | AI n => inr n | AT m => inr m end.
Definition show (r : res array) : res (dtype * list (option (str + Z))) :=
  a <- r ;; Ok (a_type a, map (option_map show_aval) (a_vals a)).

(** ** Common part *)
Lemma sel_length o store off len : 0 <= len -> zlen (window tnull (cells o store) off len) = len.
Proof. intro H. now apply window_length. Qed.
Lemma Forall2_zlen A B (P : A -> B -> Prop) l l' : Forall2 P l l' -> zlen l = zlen l'.
Proof. intro H. unfold zlen. f_equal. induction H; [reflexivity|]. cbn. now f_equal. Qed.

Lemma mapM_Forall2 A B (f : A -> res B) l vs : mapM f l = Ok vs -> Forall2 (fun x y => f x = Ok y) l vs.
Proof.
  revert vs. induction l as [|x l IH]; intros vs H; cbn in H; [inversion H; constructor|].
  destruct (f x) as [y|e] eqn:E; cbn in H; [|discriminate]. destruct (mapM f l) as [ys|e]; cbn in H; [|discriminate].
  inversion H; subst. constructor; [exact E|now apply IH].
Qed.
(** Reads that meet no unresolved shared strings in temporal resolution succeed and deliver,
    for every selected cell, a form of that cell. *)
Theorem read_delivers o cf store off len idx : column store = true -> request off len idx = true ->
  blocked cf (selection o store off len idx) = false ->
  exists t vs, read o cf store off len idx = Ok (mkA t vs) /\
    Forall2 (delivers o cf t) (selection o store off len idx) vs.
Proof.
  intros C R B. destruct (concatenate_run o cf C R) as (ds & W & Ne & E & P). unfold read. rewrite P, <- E in *.
  destruct (resolving cf (all_tags ds)) eqn:Rs.
  - unfold resolving in Rs. destruct (has_T (all_tags ds)) eqn:T.
    + apply andb_prop in Rs. destruct Rs as [D _]. pose proof (@run_temporal o cf ds W Ne T D) as Q.
      unfold blocked in B. unfold has_T in T. rewrite D, T in B. cbn [andb] in B. rewrite B in Q.
      destruct Q as (vs & Q1 & Q2). eauto.
    + apply andb_prop in Rs. destruct Rs as [D Rs]. apply andb_prop in Rs. destruct Rs as [R1 R2].
      destruct (@run_numeric o cf ds W Ne T R1 R2 D) as (vs & Q1 & Q2). eauto.
  - destruct (@run_plain o cf ds W Ne Rs) as (vs & Q1 & Q2). eexists. exists vs. split; [exact Q1|].
    apply mapM_Forall2 in Q2. apply (proj1 (@Forall2_map_l _ _ _ _ _ _ _)) in Q2.
    eapply Forall2_impl_in; [|exact Q2]. cbn. intros x a _ _ H. exists (t_val x). split; [constructor|exact H].
Qed.
(** Without conversions: exactly the values. *)
Theorem read_plain o cf store off len idx : column store = true -> request off len idx = true ->
  let sel := selection o store off len idx in
  resolving cf sel = false ->
  exists vs, read o cf store off len idx = Ok (mkA (type_of o cf sel) vs) /\
    Forall2 (fun x a => render o (type_of o cf sel) (t_val x) = Ok a) sel vs.
Proof.
  intros C R sel Rs. destruct (concatenate_run o cf C R) as (ds & W & Ne & E & P). unfold read, sel in *. rewrite P, <- E in *.
  destruct (@run_plain o cf ds W Ne Rs) as (vs & Q1 & Q2). exists vs. split; [exact Q1|].
  apply mapM_Forall2 in Q2. now apply (proj1 (@Forall2_map_l _ _ _ _ _ _ _)) in Q2.
Qed.

(** ** C33: windows *)
(** Full claim: every read of [len > 0] rows returns [len] elements, the i-th one being the
    value at row [off + i].  Missing: columns with dates and unresolved shared strings in the
    temporal modes raise (C41); the value may be a converted form when conflicts are resolved
    (relation [delivers]). *)
Theorem C33_window_partial o cf store off len : column store = true -> 0 <= off -> 0 < len ->
  blocked cf (window tnull (cells o store) off len) = false ->
  exists t vs, read o cf store off len None = Ok (mkA t vs) /\ zlen vs = len /\
    forall i, (i < Z.to_nat len)%nat ->
      exists a, nth_error vs i = Some a /\ delivers o cf t (nth (Z.to_nat off + i) (cells o store) tnull) a.
Proof.
  intros C Ho Hl B. assert (R : request off len None = true) by (cbn; lia).
  assert (S : selection o store off len None = window tnull (cells o store) off len).
  { cbn. now replace (len =? 0) with false by lia; rewrite andb_false_r. }
  rewrite <- S in B. destruct (read_delivers C R B) as (t & vs & E & F). exists t, vs. split; [exact E|]. rewrite S in F.
  pose proof (Forall2_zlen F) as L. rewrite sel_length in L by lia. split; [now symmetry|].
  intros i Hi. unfold window in F. apply (proj1 (@Forall2_map_l _ _ _ _ _ _ _)) in F.
  assert (G : forall (P : nat -> option aval -> Prop) a n vs, Forall2 P (seq a n) vs -> forall i, (i < n)%nat -> exists x, nth_error vs i = Some x /\ P (a + i)%nat x).
  { clear. intros P a n. revert a. induction n as [|n IH]; intros a vs H i Hi; [lia|]. cbn in H. inversion H; subst.
    destruct i as [|i]; [exists y; split; [reflexivity|now rewrite Nat.add_0_r]|].
    destruct (IH (S a) l' H4 i) as (x & X1 & X2); [lia|]. exists x. split; [exact X1|]. now replace (a + S i)%nat with (S a + i)%nat by lia. }
  destruct (G _ _ _ _ F i Hi) as (a & A1 & A2). exists a. split; [exact A1|exact A2].
Qed.
Print Assumptions C33_window_partial.
(** In mode "no" the value itself. *)
Theorem C33_exact o cf store off len : column store = true -> 0 <= off -> 0 < len ->
  cf_datetime cf = false -> cf_numerics cf = false ->
  exists t vs, read o cf store off len None = Ok (mkA t vs) /\ zlen vs = len /\
    Forall2 (fun x a => render o t (t_val x) = Ok a) (window tnull (cells o store) off len) vs.
Proof.
  intros C Ho Hl D N. assert (R : request off len None = true) by (cbn; lia).
  assert (S : selection o store off len None = window tnull (cells o store) off len).
  { cbn. now replace (len =? 0) with false by lia; rewrite andb_false_r. }
  destruct (@read_plain o cf store off len None C R) as (vs & E & F).
  { unfold resolving. rewrite D, N. now destruct (has_T _). }
  eexists. exists vs. split; [exact E|]. rewrite S in *. split; [|exact F].
  pose proof (Forall2_zlen F) as L. rewrite sel_length in L by lia. now symmetry.
Qed.
Print Assumptions C33_exact.
Example C33_example :
  show (read ex_o mode_no ex_column 1 8 None)
  = Ok (TUtf8, [None; Some (inl (s "a")); Some (inl (s "007")); None; None; Some (inl (s "10")); Some (inl (s "1")); None]).
Proof. vm_compute. reflexivity. Qed.

(** ** C34: masks *)
Theorem C34_mask_partial o cf store off len m : column store = true -> 0 <= off -> 0 < true_count m ->
  blocked cf (masked (window tnull (cells o store) off (zlen m)) m) = false ->
  exists t vs, read o cf store off len (Some m) = Ok (mkA t vs) /\ zlen vs = true_count m /\
    Forall2 (delivers o cf t) (masked (window tnull (cells o store) off (zlen m)) m) vs.
Proof.
  intros C Ho Hm B. assert (R : request off len (Some m) = true) by (cbn; lia).
  destruct (@read_delivers o cf store off len (Some m) C R B) as (t & vs & E & F). exists t, vs. split; [exact E|]. split; [|exact F].
  rewrite <- (Forall2_zlen F). cbn [selection].
  assert (L : List.length (window tnull (cells o store) off (zlen m)) = List.length m).
  { unfold window. rewrite map_length, seq_length. unfold zlen. lia. }
  revert L. generalize (window tnull (cells o store) off (zlen m)) as w. clear.
  unfold masked, true_count, zlen. induction m as [|b m IH]; intros [|x w] L; cbn in *; try lia.
  destruct b; cbn; specialize (IH w); lia.
Qed.
Print Assumptions C34_mask_partial.
Theorem C34_exact o cf store off len m : column store = true -> 0 <= off -> 0 < true_count m ->
  cf_datetime cf = false -> cf_numerics cf = false ->
  exists t vs, read o cf store off len (Some m) = Ok (mkA t vs) /\
    Forall2 (fun x a => render o t (t_val x) = Ok a) (masked (window tnull (cells o store) off (zlen m)) m) vs.
Proof.
  intros C Ho Hm D N. assert (R : request off len (Some m) = true) by (cbn; lia).
  destruct (@read_plain o cf store off len (Some m) C R) as (vs & E & F).
  { unfold resolving. rewrite D, N. now destruct (has_T _). }
  eexists. exists vs. split; [exact E|exact F].
Qed.
Print Assumptions C34_exact.
Example C34_example :
  show (read ex_o mode_no ex_column 1 0 (Some [false; true; false; false; true; true; true; true]))
  = Ok (TUtf8, [Some (inl (s "a")); None; Some (inl (s "10")); Some (inl (s "1")); None]).
Proof. vm_compute. reflexivity. Qed.

(** ** C35: reads do not change the column *)
Definition req := (Z * Z * option (list bool))%type.
Definition after_reads o cf store (l : list req) : list chunk :=
  fold_left (fun st r => column_after o cf st (fst (fst r)) (snd (fst r)) (snd r)) l store.
(** Full claim: for every history of reads.  Missing: reads of the whole column without a
    window when they convert runs; columns where temporal resolution meets shared strings. *)
Definition harmless o cf store (r : req) : bool :=
  let '(off, len, idx) := r in
  request off len idx && (windowed off len idx || negb (resolving cf (cells o store))).
Lemma cells_eqv_kinds o st st' k : Forall2 (eqv o) st st' -> some_kind k (cells o st') = some_kind k (cells o st).
Proof.
  intro F. unfold some_kind, cells. induction F as [|a b st st' R F IH]; [reflexivity|]. cbn [flat_map].
  rewrite !existsb_app, IH. f_equal. destruct R as (_ & _ & R3 & R4 & _). unfold cells_of. rewrite R3, R4.
  generalize (den o a) as l. intro l. induction l as [|v l IHl]; [reflexivity|]. cbn. unfold t_kind. cbn [fst]. now f_equal.
Qed.
Lemma after_eqv o cf store l : column store = true -> (forall r, In r l -> harmless o cf store r = true) ->
  Forall2 (eqv o) store (after_reads o cf store l).
Proof.
  intros C H. unfold after_reads.
  assert (G : forall st, Forall2 (eqv o) store st ->
    Forall2 (eqv o) store (fold_left (fun st r => column_after o cf st (fst (fst r)) (snd (fst r)) (snd r)) l st)).
  { induction l as [|r l IH]; intros st F; [exact F|]. cbn [fold_left]. apply IH; [intros; apply H; now right|].
    assert (Cs : column st = true) by (eapply column_eqv; [exact F|exact C]).
    assert (Hr : harmless o cf store r = true) by (apply H; now left). destruct r as [[off len] idx]. cbn [fst snd]. unfold harmless in Hr.
    apply andb_prop in Hr. destruct Hr as [Hr1 Hr2].
    assert (F2 : Forall2 (eqv o) st (column_after o cf st off len idx)).
    { unfold column_after. destruct (windowed off len idx) eqn:W; [now apply concatenate_windowed|]. cbn [orb] in Hr2.
      assert (E : off = 0 /\ len = 0 /\ idx = None).
      { unfold windowed in W. destruct idx; [rewrite orb_true_r in W; discriminate|]. repeat split; lia. }
      destruct E as (-> & -> & ->). apply concatenate_whole; [exact Cs|].
      unfold resolving, has_T, has_N, has_S in *. rewrite !(cells_eqv_kinds _ F). now apply negb_true_iff in Hr2. }
    clear -F F2. revert F2. generalize (column_after o cf st off len idx) as st2. induction F as [|a b store st R F IH]; intros st2 F2; inversion F2; subst; constructor.
    - now apply eqv_trans with b.
    - now apply IH. }
  apply G. destruct (column_ok C) as [_ Hs]. clear -Hs. induction store as [|c l IH]; constructor.
  - apply eqv_refl, Hs. now left.
  - apply IH. intros; apply Hs. now right.
Qed.
Theorem C35_reads_partial o cf store l off len idx : column store = true ->
  (forall r, In r l -> harmless o cf store r = true) -> request off len idx = true ->
  blocked cf (selection o store off len idx) = false ->
  read o cf (after_reads o cf store l) off len idx = read o cf store off len idx.
Proof. intros C H R B. apply concatenate_eqv; try assumption. now apply after_eqv. Qed.
Print Assumptions C35_reads_partial.
(** In mode "no": every history of reads. *)
Theorem C35_mode_no o cf store l off len idx : column store = true -> cf_datetime cf = false -> cf_numerics cf = false ->
  (forall r, In r l -> request (fst (fst r)) (snd (fst r)) (snd r) = true) -> request off len idx = true ->
  read o cf (after_reads o cf store l) off len idx = read o cf store off len idx.
Proof.
  intros C D N H R. apply C35_reads_partial; try assumption.
  - intros [[a b] c] Hr. specialize (H _ Hr). unfold harmless. cbn in H. rewrite H. unfold resolving. rewrite D, N. cbn. destruct (has_T _); apply orb_true_r.
  - unfold blocked. now rewrite D.
Qed.
Print Assumptions C35_mode_no.
(** A read of the whole column replaces converted runs by runs of recorded size 0: a window
    read afterwards loses them. *)
Definition ex_mixed : list chunk := [mkC (DStr [Some (s "7")]) 0x18 1 []; mkC (DF [f8_of_Z 1]) 0x28 1 []].
Theorem C35_whole_read_refuted :
  column ex_mixed = true /\
  show (read ex_o mode_numeric ex_mixed 0 2 None) = Ok (TI8, [Some (inr 7); Some (inr 1)]) /\
  show (read ex_o mode_numeric (column_after ex_o mode_numeric ex_mixed 0 0 None) 0 2 None) = Ok (TI8, [Some (inr 1); None]).
Proof. repeat (apply conj); vm_compute; reflexivity. Qed.
Print Assumptions C35_whole_read_refuted.
(** A window read changes the outcome of a later one from an exception to a result. *)
Definition ex_dates : list chunk := [mkC (DF [f8_of_Z 43831]) 0x24 1 []; mkC (DIdx [3]) 0x11 1 ex_table].
Theorem C35_history_refuted :
  column ex_dates = true /\
  show (read ex_o mode_temporal ex_dates 0 2 None) = Err ArrowNotImplemented /\
  show (read ex_o mode_temporal (column_after ex_o mode_temporal ex_dates 1 1 None) 0 2 None)
  = Ok (TMs, [Some (inr 1577836800000); Some (inr 1577836800000)]).
Proof. repeat (apply conj); vm_compute; reflexivity. Qed.
Print Assumptions C35_history_refuted.
Example C35_example : forallb (harmless ex_o mode_numeric ex_column) [(0, 3, None); (2, 1, Some [true; false])] = true /\
  column_after ex_o mode_numeric ex_column 0 6 None <> ex_column.
Proof. split; [vm_compute; reflexivity|]. intro H. apply (f_equal (map k_type)) in H. vm_compute in H. discriminate. Qed.

(** ** C36: slices of null runs *)
(** Length of [([None] * n)[start:stop:step]]. *)
Definition list_slice_len (n : Z) (x : pslice) : res Z :=
  l <- slice_list (repeat tt (Z.to_nat n)) x ;; Ok (zlen l).
Lemma pick_all A (l : list A) is : (forall i, In i is -> 0 <= i < zlen l) -> zlen (pick l is) = zlen is.
Proof.
  unfold zlen. induction is as [|i is IH]; intro H; [reflexivity|]. cbn [pick].
  destruct (nth_error l (Z.to_nat i)) eqn:E.
  - cbn [List.length]. specialize (IH (fun j Hj => H j (or_intror Hj))). lia.
  - apply nth_error_None in E. specialize (H i (or_introl eq_refl)). lia.
Qed.
Lemma ceil_div i k : 0 < i -> 0 < k -> (i - 1) / k + 1 = i / k + (if i mod k =? 0 then 0 else 1).
Proof.
  intros Hi Hk. pose proof (Z.div_mod i k) as E. specialize (E ltac:(lia)). pose proof (Z.mod_pos_bound i k Hk) as B.
  destruct (i mod k =? 0) eqn:E0.
  - assert (i / k - 1 = (i - 1) / k) as <-; [|lia]. apply (Z.div_unique_pos (i - 1) k (i / k - 1) (k - 1)); lia.
  - assert (i / k = (i - 1) / k) as <-; [|lia]. apply (Z.div_unique_pos (i - 1) k (i / k) (i mod k - 1)); lia.
Qed.
(** Full claim: for every start, stop and step.  Holds for forward slices with start not before
    the list and stop within it and not 0. *)
Theorem C36_forward_partial n a b k : 0 <= n ->
  match a with None => True | Some a => - n <= a end ->
  match b with None => True | Some b => 1 <= b <= n \/ - n <= b < 0 end ->
  match k with None => True | Some k => 0 < k end ->
  list_slice_len n (mkS a b k) = Ok (null_slice n (mkS a b k)).
Proof.
  intros Hn Ha Hb Hk. unfold list_slice_len, slice_list, slice_indices, null_slice. cbn [sl_start sl_stop sl_step].
  assert (L : zlen (repeat tt (Z.to_nat n)) = n) by (unfold zlen; rewrite repeat_length; lia). rewrite L.
  set (kk := match k with None => 1 | Some k => k end). assert (K : 0 < kk) by (unfold kk; destruct k; lia).
  assert (Ek : or_ k 1 = kk) by (unfold kk, or_; destruct k as [[]|]; lia). rewrite Ek.
  replace (kk =? 0) with false by lia. cbn [bind].
  set (A := slice_start n kk a). set (B := slice_stop n kk b).
  assert (EA : 0 <= A <= n /\ (let st := or_ a 0 in (if st <? 0 then n + st else st) = A \/ n <= A /\ A <= (if st <? 0 then n + st else st))).
  { unfold A, slice_start. replace (kk <? 0) with false by lia. destruct a as [a|]; cbn [or_].
    - assert (Eo : (match a with 0 => 0 | _ => a end) = a) by now destruct a. rewrite Eo.
      destruct (a <? 0) eqn:E1; [replace (n + a <? 0) with false by lia; lia|]. destruct (n <=? a) eqn:E2; lia.
    - cbn. lia. }
  assert (EB : 0 <= B <= n /\ (0 < n -> let st := or_ b n in (if st <? 0 then n + st else st) = B)).
  { unfold B, slice_stop. replace (kk <? 0) with false by lia. destruct b as [b|]; cbn [or_].
    - assert (Eo : b <> 0 -> (match b with 0 => n | _ => b end) = b) by now destruct b.
      destruct Hb as [Hb|Hb]; rewrite Eo by lia.
      + replace (b <? 0) with false by lia. destruct (n <=? b) eqn:E2; lia.
      + replace (b <? 0) with true by lia. replace (n + b <? 0) with false by lia. lia.
    - cbn. replace (n <? 0) with false by lia. lia. }
  destruct EA as [A1 A2]. destruct EB as [B1 B2]. cbn zeta in A2, B2.
  rewrite pick_all.
  2: { intros i Hi. rewrite L. apply in_map_iff in Hi. destruct Hi as (j & <- & Hj). apply in_seq in Hj.
       unfold slice_len in Hj. replace (kk <? 0) with false in Hj by lia. destruct (A <? B) eqn:E; [|lia].
       assert (Z.of_nat j <= (B - A - 1) / kk) by lia.
       assert (Z.of_nat j * kk <= (B - A - 1) / kk * kk) by (apply Z.mul_le_mono_nonneg_r; lia).
       pose proof (Z.mul_div_le (B - A - 1) kk K). lia. }
  rewrite zlen_map. unfold zlen. rewrite seq_length. f_equal. unfold slice_len. replace (kk <? 0) with false by lia.
  destruct (n =? 0) eqn:E0.
  - replace (A <? B) with false by lia. reflexivity.
  - rewrite B2 by lia. set (st := if or_ a 0 <? 0 then n + or_ a 0 else or_ a 0) in *.
    destruct (A <? B) eqn:E.
    + assert (st = A) as -> by lia. replace (B <=? A) with false by lia.
      rewrite (@ceil_div (B - A) kk) by lia. pose proof (Z.div_pos (B - A) kk). destruct (_ mod kk =? 0); lia.
    + replace (B <=? st) with true by lia. reflexivity.
Qed.
Print Assumptions C36_forward_partial.
Theorem C36_refuted :
  list_slice_len 3 (mkS None (Some 0) None) = Ok 0 /\ null_slice 3 (mkS None (Some 0) None) = 3 /\
  list_slice_len 3 (mkS None (Some 5) None) = Ok 3 /\ null_slice 3 (mkS None (Some 5) None) = 5 /\
  list_slice_len 3 (mkS (Some (-5)) None None) = Ok 3 /\ null_slice 3 (mkS (Some (-5)) None None) = 5 /\
  list_slice_len 3 (mkS None None (Some (-1))) = Ok 3 /\ null_slice 3 (mkS None None (Some (-1))) = 0 /\
  list_slice_len 3 (mkS None None (Some 0)) = Err ValueError /\ null_slice 3 (mkS None None (Some 0)) = 3.
Proof. repeat (apply conj); vm_compute; reflexivity. Qed.
Print Assumptions C36_refuted.
Example C36_example : list_slice_len 10 (mkS (Some (-7)) (Some (-1)) (Some 4)) = Ok 2 /\ null_slice 10 (mkS (Some (-7)) (Some (-1)) (Some 4)) = 2.
Proof. split; vm_compute; reflexivity. Qed.

(** ** C37: column types *)
(** Number of texts and times the texts of the window stand for. *)
Definition all_times o cf (l : list tag) : bool :=
  forallb (fun x => if kind_eqb (t_kind x) KStr then negb (time_of o cf (t_val x) =? 0) else true) l.
Definition some_unreadable o cf (l : list tag) : bool :=
  existsb (fun x => kind_eqb (t_kind x) KStr && (time_of o cf (t_val x) =? 0) &&
                    negb (cf_numerics cf && isSome (number_of o (t_val x)))) l.
Definition num_type o cf (l : list tag) : dtype := if integral o cf l then TI8 else TF8.
(** Full claim: with the row for dates and strings exact for every column.  It is exact when
    all texts match a format or one text matches nothing; in between the type depends on how
    the cells are grouped (C67).  [blocked] reads raise (C41). *)
Theorem C37_table_partial o cf store off len idx : column store = true -> request off len idx = true ->
  let sel := selection o store off len idx in
  let T := some_kind KTemp sel in let N := some_kind KNum sel in let S := some_kind KStr sel in
  blocked cf sel = false ->
  exists t vs, read o cf store off len idx = Ok (mkA t vs) /\
    (T = false -> N = false -> t = TUtf8) /\
    (T = true -> N = false -> S = false -> t = TMs) /\
    (T = true -> N || S = true -> cf_datetime cf = false -> t = TUtf8) /\
    (T = true -> S = false -> cf_datetime cf = true -> t = TMs) /\
    (T = true -> S = true -> cf_datetime cf = true ->
       (t = TMs \/ t = TUtf8) /\ (all_times o cf sel = true -> t = TMs) /\ (some_unreadable o cf sel = true -> t = TUtf8)) /\
    (T = false -> N = true -> S = false -> t = num_type o cf sel) /\
    (T = false -> N = true -> S = true -> cf_numerics cf = false -> t = TUtf8) /\
    (T = false -> N = true -> S = true -> cf_numerics cf = true ->
       t = if all_parse o sel then num_type o cf sel else TUtf8).
Proof.
  intros C R sel T N S B. destruct (concatenate_run o cf C R) as (ds & W & Ne & E & P). unfold read, sel in *.
  unfold T, N, S. clear T N S. rewrite P, <- E in *. clear P E.
  destruct (resolving cf (all_tags ds)) eqn:Rs.
  - unfold resolving in Rs. destruct (has_T (all_tags ds)) eqn:Ht.
    + apply andb_prop in Rs. destruct Rs as [D Rs]. pose proof (@run_temporal o cf ds W Ne Ht D) as Q.
      unfold has_T, has_N, has_S in *.
      unfold blocked in B. rewrite D, Ht in B. cbn [andb] in B. rewrite B in Q. destruct Q as (vs & Q1 & _).
      eexists. exists vs. split; [exact Q1|]. rewrite Ht in *. destruct (@fails_sufficient o cf ds W) as [F1 F2].
      split; [discriminate|]. split; [intros _ A1 A2; rewrite A1, A2 in Rs; discriminate|]. split; [congruence|].
      split.
      { intros _ A2 _. rewrite F1; [reflexivity|]. apply forallb_forall. intros x Hx.
        destruct (kind_eqb (t_kind x) KStr) eqn:Kx; [|reflexivity].
        assert (some_kind KStr (all_tags ds) = true); [|congruence]. unfold some_kind. apply existsb_exists. now exists x. }
      split; [intros _ A2 _; split; [destruct (existsb _ ds); auto|]; split; [intro A3; now rewrite F1|intro A3; now rewrite F2]|].
      repeat split; discriminate.
    + apply andb_prop in Rs. destruct Rs as [D Rs]. apply andb_prop in Rs. destruct Rs as [R1 R2].
      destruct (@run_numeric o cf ds W Ne Ht R1 R2 D) as (vs & Q1 & _). eexists. exists vs. split; [exact Q1|].
      unfold has_T, has_N, has_S in *. rewrite Ht, R1, R2, D. repeat split; try discriminate; reflexivity.
  - destruct (@run_plain o cf ds W Ne Rs) as (vs & Q1 & _). eexists. exists vs. split; [exact Q1|].
    unfold type_of, conflict, resolving, has_T, has_N, has_S in *.
    destruct (some_kind KTemp (all_tags ds)), (some_kind KNum (all_tags ds)), (some_kind KStr (all_tags ds)); cbn [andb orb] in *;
      rewrite ?andb_true_r in Rs; try rewrite Rs; repeat split; try discriminate; try reflexivity; try congruence; auto.
Qed.
Print Assumptions C37_table_partial.
Example C37_example :
  let rk := mkC (DRk [0x6]) 0x21 1 [] in let date := mkC (DF [f8_of_Z 43831]) 0x24 1 [] in
  let half := mkC (DF [b64_of_bits 0x3FE0000000000000]) 0x28 1 [] in
  let txt t := mkC (DStr [Some t]) 0x18 1 [] in
  let ty cf st := (a <- read ex_o cf st 0 4 None ;; Ok (a_type a)) in
  ty mode_all [nulls 3] = Ok TUtf8 /\ ty mode_all [date] = Ok TMs /\ ty mode_numeric [date; rk] = Ok TUtf8 /\
  ty mode_all [date; rk] = Ok TMs /\ ty mode_all [date; txt (s "2020-01-01")] = Ok TMs /\ ty mode_all [date; txt (s "x")] = Ok TUtf8 /\
  ty mode_no [rk] = Ok TI8 /\ ty mode_no [rk; half] = Ok TF8 /\ ty mode_no [rk; txt (s "7")] = Ok TUtf8 /\
  ty mode_all [rk; txt (s "7")] = Ok TI8 /\ ty mode_all [rk; txt (s "2.5")] = Ok TF8 /\ ty mode_all [rk; txt (s "x")] = Ok TUtf8.
Proof. cbv zeta. repeat (apply conj); vm_compute; reflexivity. Qed.

(** ** C38: conflict-free columns keep their values *)
Definition one_kind (l : list tag) : bool :=
  let T := some_kind KTemp l in let N := some_kind KNum l in let S := some_kind KStr l in
  negb (T && N) && negb (T && S) && negb (N && S).
Theorem C38_values o cf store off len idx : column store = true -> request off len idx = true ->
  let sel := selection o store off len idx in
  one_kind sel = true ->
  exists t vs, read o cf store off len idx = Ok (mkA t vs) /\
    Forall2 (fun x a => match t_val x with
                        | CNull => a = None
                        | CText y => a = Some (AS y)
                        | CTime m => a = Some (AT m)
                        | CNum y => if integral o cf sel then t = TI8 /\ a = Some (AI (f8_to_i64 (o_oob o) y))
                                    else t = TF8 /\ a = Some (AF y)
                        end) sel vs.
Proof.
  intros C R sel K.
  assert (Rs : resolving cf sel = false).
  { unfold one_kind in K. unfold resolving, has_T, has_N, has_S. destruct (some_kind KTemp sel), (some_kind KNum sel), (some_kind KStr sel); cbn in *; try discriminate; apply andb_false_r. }
  destruct (concatenate_run o cf C R) as (ds & W & _ & Ed & _).
  destruct (read_plain C R Rs) as (vs & Q1 & Q2). fold sel in Q1, Q2. exists (type_of o cf sel), vs. split; [exact Q1|].
  eapply Forall2_impl_in; [|exact Q2]. cbn beta. intros x a Hx _ H.
  assert (Tx : typed (t_kind x) (t_val x) = true /\ some_kind (t_kind x) sel = true).
  { split.
    - unfold sel in Hx. rewrite <- Ed in Hx. unfold all_tags in Hx. apply in_flat_map in Hx. destruct Hx as (d & Hd & Hx).
      unfold tags in Hx. apply in_map_iff in Hx. destruct Hx as (v & <- & Hv). destruct (W d Hd) as (W1 & W2 & _).
      unfold t_kind, t_val. cbn [fst snd]. rewrite W1. now apply (typed_in W2).
    - unfold some_kind. apply existsb_exists. exists x. split; [exact Hx|]. now destruct (t_kind x). }
  destruct Tx as [T1 T2]. unfold type_of, conflict, has_T, has_N, has_S, one_kind in *.
  destruct x as [[k r] v]. unfold t_val, t_kind in *. cbn [fst snd] in *.
  destruct k, v; try discriminate T1; cbn in H; try congruence; rewrite T2 in *;
    destruct (some_kind KTemp sel), (some_kind KNum sel), (some_kind KStr sel); try discriminate; cbn in *; try congruence;
    destruct (integral o cf sel); cbn in *; split; congruence.
Qed.
Print Assumptions C38_values.
Example C38_example :
  one_kind (selection ex_o ex_column 0 5 None) = true /\
  show (read ex_o mode_all ex_column 0 5 None) = Ok (TUtf8, [None; None; Some (inl (s "a")); Some (inl (s "007")); None]) /\
  show (read ex_o mode_all ex_column 5 3 None) = Ok (TI8, [None; Some (inr 10); Some (inr 1)]) /\
  show (read ex_o mode_all [mkC (DF [f8_of_Z 43831]) 0x24 1 []] 0 2 None) = Ok (TMs, [Some (inr 1577836800000); None]).
Proof. repeat (apply conj); vm_compute; reflexivity. Qed.

(** Reads over the runs they pick. *)
Lemma read_runs o cf store off len idx es : column store = true -> request off len idx = true ->
  picked store off len idx = Ok es -> read o cf store off len idx = p_run o cf (map (fun e => desc_of o (snd e)) es).
Proof.
  intros C R P. destruct (picked_ok o C R) as (es' & P1 & P2 & _). rewrite P in P1. inversion P1; subst es'.
  unfold read. rewrite concatenate_eq, P. cbn [bind]. destruct (@run_new o cf es) as [_ ->]; [|reflexivity].
  intros e He. apply stored_shape. now apply P2.
Qed.

(** ** C40: fallback to text *)
(** Full claim: for every unresolved conflict.  Holds when the mode does not try to resolve it. *)
Theorem C40_plain_partial o cf store off len idx : column store = true -> request off len idx = true ->
  let sel := selection o store off len idx in
  let T := some_kind KTemp sel in let N := some_kind KNum sel in let S := some_kind KStr sel in
  (T = true /\ N || S = true /\ cf_datetime cf = false) \/ (T = false /\ N = true /\ S = true /\ cf_numerics cf = false) ->
  exists vs, read o cf store off len idx = Ok (mkA TUtf8 vs) /\
    Forall2 (fun x a => a = match t_val x with
                            | CNull => None
                            | CText y => Some (AS y)
                            | CNum y => Some (AS (o_show_f o y))
                            | CTime m => Some (AS (o_show_t o m))
                            end) sel vs.
Proof.
  intros C R sel T N S H.
  assert (Rs : resolving cf sel = false /\ type_of o cf sel = TUtf8).
  { unfold resolving, type_of, conflict, has_T, has_N, has_S. fold T N S. destruct H as [(-> & Hn & ->)|(-> & -> & -> & ->)]; [|now split].
    rewrite Hn. now split. }
  destruct Rs as [Rs Ty]. destruct (read_plain C R Rs) as (vs & Q1 & Q2). fold sel in Q1, Q2. rewrite Ty in *.
  exists vs. split; [exact Q1|]. eapply Forall2_impl_in; [|exact Q2]. cbn beta. intros x a _ _ E. destruct (t_val x); cbn in E; congruence.
Qed.
Print Assumptions C40_plain_partial.
(** Mode "numeric": texts of runs converted before the conversion of another run failed are
    shown as numbers, for every text whose number is shown differently. *)
Theorem C40_numeric_refuted o t u x y : o_parse o t = Some x -> o_show_f o x <> t -> o_parse o u = None ->
  let store := [mkC (DStr [Some t]) 0x18 1 []; mkC (DF [y]) 0x28 1 []; mkC (DStr [Some u]) 0x18 1 []] in
  column store = true /\
  exists v, read o mode_numeric store 0 3 None = Ok (mkA TUtf8 [Some (AS v); Some (AS (o_show_f o y)); Some (AS u)]) /\ v <> t.
Proof.
  intros P Q U store. split; [reflexivity|]. exists (o_show_f o x). split; [|exact Q].
  unfold store. erewrite read_runs; [|reflexivity|reflexivity|vm_compute; reflexivity].
  cbn [map snd]. unfold desc_of, p_run, p_resolve. cbn. rewrite P. cbn. rewrite U. cbn. reflexivity.
Qed.
Print Assumptions C40_numeric_refuted.
(** Mode "temporal": numbers are turned into dates before the conversion of a text fails, and
    are shown as dates. *)
Theorem C40_temporal_refuted o cf t x y : cf_datetime cf = true -> cf_numerics cf = false -> time_of o cf (CText t) = 0 ->
  let store := [mkC (DF [x]) 0x28 1 []; mkC (DF [y]) 0x24 1 []; mkC (DStr [Some t]) 0x18 1 []] in
  column store = true /\
  read o cf store 0 3 None = Ok (mkA TUtf8 [Some (AS (o_show_t o (ms_of o x))); Some (AS (o_show_t o (ms_of o y))); Some (AS t)]).
Proof.
  intros D N Z0 store. split; [reflexivity|].
  assert (C : column store = true) by reflexivity.
  assert (R : request 0 3 None = true) by reflexivity.
  unfold store. erewrite read_runs; [|reflexivity|reflexivity|vm_compute; reflexivity].
  change (map _ _) with [mkD KNum KNum false [CNum x]; mkD KTemp KTemp false [CTime (ms_of o y)]; mkD KStr KStr false [CText t]].
  unfold p_run, p_resolve.
  change (p_has KTemp _) with true. rewrite D, pwalk_nums. cbn [bind]. rewrite pwalk_temporal.
  cbn [map conv_nums d_kind kind_eqb d_raw existsb andb orb d_vals].
  assert (Bf : by_format o cf (mkD KStr KStr false [CText t]) = false).
  { unfold by_format. cbn [d_vals existsb]. rewrite Z0. reflexivity. }
  unfold fails, conv_temporal. cbn [d_kind kind_eqb andb orb]. rewrite Bf, N. reflexivity.
Qed.
Print Assumptions C40_temporal_refuted.
Example C40_example :
  show (read ex_o mode_numeric [mkC (DStr [Some (s "007")]) 0x18 1 []; mkC (DF [f8_of_Z 1]) 0x28 1 []; mkC (DStr [Some (s "x")]) 0x18 1 []] 0 3 None)
  = Ok (TUtf8, [Some (inl (s "7")); Some (inl (s "1")); Some (inl (s "x"))]) /\
  show (read ex_o mode_temporal [mkC (DF [f8_of_Z 43831]) 0x28 1 []; mkC (DF [f8_of_Z 43831]) 0x24 1 []; mkC (DStr [Some (s "x")]) 0x18 1 []] 0 3 None)
  = Ok (TUtf8, [Some (inl (s "1577836800000ms")); Some (inl (s "1577836800000ms")); Some (inl (s "x"))]) /\
  show (read ex_o mode_no (ex_dates ++ [mkC (DF [f8_of_Z 3]) 0x28 1 []]) 0 4 None)
  = Ok (TUtf8, [Some (inl (s "1577836800000ms")); Some (inl (s "2020-01-01")); Some (inl (s "3")); None]).
Proof. repeat (apply conj); vm_compute; reflexivity. Qed.

(** ** C41: temporal resolution and shared strings *)
(** Every read that selects dates and unresolved shared strings raises. *)
Theorem C41_shared_strings_refuted o cf store off len idx : column store = true -> request off len idx = true ->
  let sel := selection o store off len idx in
  cf_datetime cf = true -> some_kind KTemp sel = true -> some_raw sel = true ->
  read o cf store off len idx = Err ArrowNotImplemented.
Proof.
  intros C R sel D T Rw. destruct (concatenate_run o cf C R) as (ds & W & Ne & E & P). unfold read, sel in *. rewrite P. rewrite <- E in *.
  pose proof (@run_temporal o cf ds W Ne T D) as Q. now rewrite Rw in Q.
Qed.
Print Assumptions C41_shared_strings_refuted.
(** Strings already resolved: converted, or shown as text. *)
Theorem C41_resolved_partial o cf store off len idx : column store = true -> request off len idx = true ->
  let sel := selection o store off len idx in
  cf_datetime cf = true -> some_kind KTemp sel = true -> some_raw sel = false ->
  exists t vs, read o cf store off len idx = Ok (mkA t vs) /\ (t = TMs \/ t = TUtf8).
Proof.
  intros C R sel D T Rw. destruct (concatenate_run o cf C R) as (ds & W & Ne & E & P). unfold read, sel in *. rewrite P. rewrite <- E in *.
  pose proof (@run_temporal o cf ds W Ne T D) as Q. rewrite Rw in Q. destruct Q as (vs & Q1 & _).
  eexists. exists vs. split; [exact Q1|]. destruct (existsb _ ds); auto.
Qed.
Print Assumptions C41_resolved_partial.
Example C41_example :
  show (read ex_o mode_all ex_dates 0 2 None) = Err ArrowNotImplemented /\
  show (read ex_o mode_all [mkC (DF [f8_of_Z 43831]) 0x24 1 []; mkC (DStr [Some (s "2020-01-01")]) 0x18 1 []] 0 2 None)
  = Ok (TMs, [Some (inr 1577836800000); Some (inr 1577836800000)]).
Proof. split; vm_compute; reflexivity. Qed.

(** ** C42: lookups of shared strings *)
Theorem C42_lookups_partial o l size sref : forallb (in_table sref) l = true ->
  exists v, prepare o (mkC (DIdx l) 0x11 size sref) = Ok (mkC (DStr v) 0x18 size sref) /\
    Forall2 (fun i t => nth_error sref (Z.to_nat i) = Some t) l v.
Proof.
  intro H. unfold prepare. cbn [k_data k_type k_size k_sref].
  change (flag 17 REPR_PREPARED) with false. change (flag 17 TYPE_STRING) with true. cbv iota.
  assert (E : exists v, take_shared sref l = Ok v /\ Forall2 (fun i t => nth_error sref (Z.to_nat i) = Some t) l v).
  { induction l as [|i l IH]; [exists []; split; [reflexivity|constructor]|]. cbn [forallb] in H. apply andb_prop in H. destruct H as [H1 H2].
    destruct (IH H2) as (v & V1 & V2). unfold in_table, zlen in H1. cbn [take_shared]. replace (i <? 0) with false by lia.
    destruct (nth_error sref (Z.to_nat i)) as [t|] eqn:En; [|apply nth_error_None in En; lia].
    rewrite V1. exists (t :: v). split; [reflexivity|]. now constructor. }
  destruct E as (v & V1 & V2). rewrite V1. exists v. now split.
Qed.
Print Assumptions C42_lookups_partial.
(** Nothing checks the indices of the sheet: any index outside the table is read. *)
Theorem C42_refuted o l size sref : forallb (in_table sref) l = false ->
  prepare o (mkC (DIdx l) 0x11 size sref) = Err Undefined.
Proof.
  intro H. unfold prepare. cbn [k_data k_type k_size k_sref].
  change (flag 17 REPR_PREPARED) with false. change (flag 17 TYPE_STRING) with true. cbv iota.
  assert (E : take_shared sref l = Err Undefined); [|now rewrite E].
  induction l as [|i l IH]; [discriminate|]. cbn [forallb] in H. cbn [take_shared].
  destruct (in_table sref i) eqn:Ei.
  - rewrite (IH H). destruct (if i <? 0 then None else nth_error sref (Z.to_nat i)); reflexivity.
  - unfold in_table, zlen in Ei. destruct (i <? 0) eqn:E0; [reflexivity|].
    destruct (nth_error sref (Z.to_nat i)) as [t|] eqn:En; [|reflexivity].
    assert (nth_error sref (Z.to_nat i) <> None) by congruence. apply nth_error_Some in H0. lia.
Qed.
Print Assumptions C42_refuted.
Example C42_example : prepare ex_o (mkC (DIdx [3; 0; 1]) 0x11 3 ex_table) = Ok (mkC (DStr [Some (s "2020-01-01"); Some (s "a"); None]) 0x18 3 ex_table) /\
  prepare ex_o (mkC (DIdx [3; 4]) 0x11 2 ex_table) = Err Undefined.
Proof. split; reflexivity. Qed.

(** ** C66: null strings under numeric resolution *)
(** A null string next to numbers becomes a number: whatever the value buffer holds. *)
Theorem C66_null_string_refuted o prec x : feqb (ftrunc x) (np_round prec x) = false ->
  let store := [mkC (DF [x]) 0x28 1 []; mkC (DIdx [0]) 0x11 1 [None]] in
  column store = true /\ t_val (nth 1 (cells o store) tnull) = CNull /\
  read o (mkConf false true None prec) store 0 2 None = Ok (mkA TF8 [Some (AF x); Some (AF (o_null_f o))]).
Proof.
  intros I store. split; [reflexivity|]. split; [reflexivity|].
  unfold store. erewrite read_runs; [|reflexivity|reflexivity|vm_compute; reflexivity].
  cbn [map snd]. unfold desc_of, p_run, p_resolve. cbn -[ftrunc np_round feqb f8_is_i8].
  unfold p_finish, p_type. cbn -[ftrunc np_round feqb f8_is_i8]. rewrite f8_is_i8_eq. cbn [forallb nums_of num_of flat_map app]. rewrite I. reflexivity.
Qed.
Print Assumptions C66_null_string_refuted.
(** Nulls stay null whenever no conversion takes place, and null cells of no type always. *)
Theorem C66_nulls_partial o cf store off len idx : column store = true -> request off len idx = true ->
  let sel := selection o store off len idx in
  blocked cf sel = false ->
  exists t vs, read o cf store off len idx = Ok (mkA t vs) /\
    Forall2 (fun x a => t_val x = CNull -> t_kind x = KNull \/ resolving cf sel = false -> a = None) sel vs.
Proof.
  intros C R sel B. destruct (resolving cf sel) eqn:Rs.
  - destruct (read_delivers C R B) as (t & vs & Q1 & Q2). exists t, vs. split; [exact Q1|].
    eapply Forall2_impl_in; [|exact Q2]. cbn beta. intros x a _ _ (v & V1 & V2) Hx [Hk|Hk]; [|discriminate].
    destruct V1; unfold t_kind in Hk; cbn in Hk; try discriminate. rewrite Hx in V2. cbn in V2. congruence.
  - destruct (read_plain C R Rs) as (vs & Q1 & Q2). eexists. exists vs. split; [exact Q1|].
    eapply Forall2_impl_in; [|exact Q2]. cbn beta. intros x a _ _ H Hx _. rewrite Hx in H. cbn in H. congruence.
Qed.
Print Assumptions C66_nulls_partial.
Example C66_example : show (read ex_o mode_numeric ex_column 2 6 None)
  = Ok (TUtf8, [Some (inl (s "a")); Some (inl (s "007")); None; None; Some (inl (s "10")); Some (inl (s "1"))]) /\
  show (read ex_o mode_numeric ex_column 3 5 None) = Ok (TI8, [Some (inr 7); Some (inr 0); None; Some (inr 10); Some (inr 1)]).
Proof. split; vm_compute; reflexivity. Qed.

(** ** C67: grouping of cells into runs *)
(** Full claim: two columns with the same cells give the same results.  Holds when no
    conversion takes place. *)
Theorem C67_grouping_partial o cf st st' off len idx : column st = true -> column st' = true -> request off len idx = true ->
  cells o st = cells o st' -> resolving cf (selection o st off len idx) = false ->
  read o cf st off len idx = read o cf st' off len idx.
Proof.
  intros C C' R E Rs.
  assert (Es : selection o st' off len idx = selection o st off len idx) by (unfold selection; now rewrite E).
  destruct (read_plain C R Rs) as (vs & Q1 & Q2). rewrite <- Es in Rs. destruct (read_plain C' R Rs) as (vs' & Q1' & Q2').
  rewrite Es in *. rewrite Q1, Q1'. f_equal. f_equal.
  clear -Q2 Q2'. revert Q2 Q2'. generalize (type_of o cf (selection o st off len idx)) as t. intros t Q2 Q2'.
  revert vs' Q2'. induction Q2 as [|x a l l' Rr F IH]; intros vs' Q; inversion Q; subst; [reflexivity|].
  f_equal; [congruence|]. now apply IH.
Qed.
Print Assumptions C67_grouping_partial.
(** The texts "007" and "x" beside a number: one run, or two (as after a blank row between). *)
Theorem C67_grouping_refuted :
  let n := mkC (DF [f8_of_Z 1]) 0x28 1 [] in
  let one := [mkC (DStr [Some (s "007"); Some (s "x")]) 0x18 2 []; n] in
  let two := [mkC (DStr [Some (s "007")]) 0x18 1 []; mkC (DStr [Some (s "x")]) 0x18 1 []; n] in
  column one = true /\ column two = true /\ cells ex_o one = cells ex_o two /\
  show (read ex_o mode_numeric one 0 3 None) = Ok (TUtf8, [Some (inl (s "007")); Some (inl (s "x")); Some (inl (s "1"))]) /\
  show (read ex_o mode_numeric two 0 3 None) = Ok (TUtf8, [Some (inl (s "7")); Some (inl (s "x")); Some (inl (s "1"))]).
Proof.
  cbv zeta. apply conj; [reflexivity|]. apply conj; [reflexivity|]. apply conj; [unfold cells, flat_map; reflexivity|].
  apply conj; vm_compute; reflexivity.
Qed.
Print Assumptions C67_grouping_refuted.
(** Even the type: a date text and a number text, with a date cell. *)
Theorem C67_type_refuted :
  let d := mkC (DF [f8_of_Z 43831]) 0x24 1 [] in
  let one := [mkC (DStr [Some (s "2020-01-01"); Some (s "7")]) 0x18 2 []; d] in
  let two := [mkC (DStr [Some (s "2020-01-01")]) 0x18 1 []; mkC (DStr [Some (s "7")]) 0x18 1 []; d] in
  column one = true /\ column two = true /\ cells ex_o one = cells ex_o two /\
  (a <- read ex_o mode_all one 0 3 None ;; Ok (a_type a)) = Ok TUtf8 /\
  (a <- read ex_o mode_all two 0 3 None ;; Ok (a_type a)) = Ok TMs.
Proof.
  cbv zeta. apply conj; [reflexivity|]. apply conj; [reflexivity|]. apply conj; [unfold cells, flat_map; reflexivity|].
  apply conj; vm_compute; reflexivity.
Qed.
Print Assumptions C67_type_refuted.
Example C67_example : cells ex_o [mkC (DStr [Some (s "a"); Some (s "b")]) 0x18 2 []] =
  cells ex_o [mkC (DStr [Some (s "a")]) 0x18 1 []; mkC (DStr [Some (s "b")]) 0x18 1 []].
Proof. reflexivity. Qed.
