(** Claim C88: what a read of a column returns, without restriction on mode, window and runs.
    [chosen_runs] are the runs of cells cut down to the requested rows, [expected] what becomes
    of them (ReadSpec.v). *)
From Verif Require Import Py PyFacts PyText Cell Casts Chunk ChunkSpec ChunkProofs ChunkWindow ChunkRun ChunkClosed ChunkConcat ReadSpec ReadProofs ReadState PropsChunk.
From Coq Require Import ZifyBool ZifyNat.
From Flocq Require Import IEEE754.Bits.
Set Implicit Arguments. Unset Strict Implicit.

(** ** C88: a read returns exactly the expected array *)
Theorem C88_complete o cf store off len idx : column store = true ->
  read o cf store off len idx = expected o cf (chosen_runs (map (cells_of o) store) off len idx).
Proof. exact (@concatenate_expected o cf store off len idx). Qed.
Print Assumptions C88_complete.

(** Nothing chosen is an error; otherwise the chosen runs go through the resolution. *)
Lemma read_run o cf store off len idx : column store = true ->
  exists ds, (forall d, In d ds -> wf d) /\ map tags ds = chosen_runs (map (cells_of o) store) off len idx /\
    (ds <> [] -> read o cf store off len idx = p_run o cf ds).
Proof.
  intro C. destruct (@picked_any o store off len idx C) as (es & _ & P2 & P3 & _). exists (map (fun e => desc_of o (snd e)) es).
  assert (W : forall d, In d (map (fun e => desc_of o (snd e)) es) -> wf d).
  { intros d Hd. apply in_map_iff in Hd. destruct Hd as (e & <- & He). now apply desc_wf; apply P2. }
  assert (T : map tags (map (fun e => desc_of o (snd e)) es) = chosen_runs (map (cells_of o) store) off len idx).
  { rewrite <- P3. unfold runs_of. rewrite map_map. reflexivity. }
  split; [exact W|]. split; [exact T|]. intro Ne. unfold read. rewrite concatenate_expected by exact C. rewrite <- T. symmetry. now apply run_expected.
Qed.
Lemma expected_delivers o cf ds : (forall d, In d ds -> wf d) -> ds <> [] -> blocked cf (all_tags ds) = false ->
  exists t vs, p_run o cf ds = Ok (mkA t vs) /\ Forall2 (delivers o cf t) (all_tags ds) vs.
Proof.
  intros W Ne B. destruct (resolving cf (all_tags ds)) eqn:Rs.
  - unfold resolving in Rs. destruct (has_T (all_tags ds)) eqn:T.
    + apply andb_prop in Rs. destruct Rs as [D _]. pose proof (@run_temporal o cf ds W Ne T D) as Q.
      unfold blocked in B. unfold has_T in T. rewrite D, T in B. cbn [andb] in B. rewrite B in Q.
      destruct Q as (vs & Q1 & Q2). eauto.
    + apply andb_prop in Rs. destruct Rs as [D Rs]. apply andb_prop in Rs. destruct Rs as [R1 R2].
      destruct (@run_numeric o cf ds W Ne T R1 R2 D) as (vs & Q1 & Q2). eauto.
  - destruct (@run_plain o cf ds W Ne Rs) as (vs & Q1 & Q2). eexists. exists vs. split; [exact Q1|].
    apply mapM_Forall2 in Q2. apply (proj1 (@Forall2_map_l _ _ _ _ _ _ _)) in Q2.
    eapply Forall2_impl_in; [|exact Q2]. cbn. intros x a _ _ H. exists (t_val x). split; [constructor|exact H].
Qed.
(** It raises exactly when nothing is chosen, or dates meet unresolved shared strings in a
    temporal mode. *)
Theorem C88_raises o cf store off len idx : column store = true ->
  let rs := chosen_runs (map (cells_of o) store) off len idx in
  (exists e, read o cf store off len idx = Err e) <->
  rs = [] \/ cf_datetime cf = true /\ some_kind KTemp (List.concat rs) = true /\ some_raw (List.concat rs) = true.
Proof.
  intros C rs. destruct (@read_run o cf store off len idx C) as (ds & W & T & P). fold rs in T. split.
  - intros (e & E). destruct ds as [|d0 ds0]; [now left|right]. rewrite P in E by discriminate.
    assert (A : List.concat rs = all_tags (d0 :: ds0)) by (rewrite <- T; symmetry; apply flat_map_concat_map). rewrite A.
    destruct (blocked cf (all_tags (d0 :: ds0))) eqn:B.
    + unfold blocked in B. destruct (cf_datetime cf), (some_kind KTemp (all_tags (d0 :: ds0))), (some_raw (all_tags (d0 :: ds0))); now try discriminate.
    + destruct (@expected_delivers o cf _ W ltac:(discriminate) B) as (t & vs & E' & _). congruence.
  - unfold read. rewrite concatenate_expected by exact C. fold rs. intros [->|(D & K & Rw)]; [now eexists|].
    destruct rs as [|r0 rs0]; [now eexists|]. unfold expected. rewrite D, K, Rw. now eexists.
Qed.
Print Assumptions C88_raises.
(** Otherwise it returns one element for each chosen row, and the type depends on the runs. *)
Theorem C88_returns o cf store off len idx : column store = true ->
  let rs := chosen_runs (map (cells_of o) store) off len idx in
  rs <> [] -> cf_datetime cf && some_kind KTemp (List.concat rs) && some_raw (List.concat rs) = false ->
  exists vs, read o cf store off len idx = Ok (mkA (snd (expected_cells o cf rs)) vs) /\ zlen vs = zlen (List.concat rs) /\
    Forall2 (fun v a => render o (snd (expected_cells o cf rs)) v = Ok a) (fst (expected_cells o cf rs)) vs.
Proof.
  intros C rs Ne B. destruct (@read_run o cf store off len idx C) as (ds & W & T & P). fold rs in T.
  assert (Nd : ds <> []) by (intros ->; now apply Ne). specialize (P Nd).
  assert (A : List.concat rs = all_tags ds) by (rewrite <- T; symmetry; apply flat_map_concat_map).
  assert (B' : blocked cf (all_tags ds) = false) by (unfold blocked; now rewrite <- A).
  destruct (@expected_delivers o cf ds W Nd B') as (t & vs & E & F). rewrite <- P in E.
  pose proof E as E2. rewrite (@C88_complete o cf store off len idx C) in E2. fold rs in E2. unfold expected in E2. rewrite B in E2.
  destruct rs as [|r0 rs0]; [now elim Ne|]. set (rs := r0 :: rs0) in *. destruct (expected_cells o cf rs) as [vals t']. cbn [fst snd].
  destruct (mapM (render o t') vals) as [vs'|] eqn:M; [|discriminate]. cbn [bind] in E2. injection E2 as -> ->. exists vs. split; [exact E|]. split.
  - rewrite A. symmetry. exact (Forall2_zlen F).
  - now apply mapM_Forall2.
Qed.
Print Assumptions C88_returns.
(** The chosen cells are those of the requested rows, for a request of some row. *)
Theorem C88_rows o store off len idx : column store = true -> request off len idx = true ->
  List.concat (chosen_runs (map (cells_of o) store) off len idx) = selection o store off len idx.
Proof.
  intros C R. destruct (picked_ok o C R) as (es & P1 & _ & P3 & _). rewrite <- (@picked_runs o store off len idx es C R P1), concat_runs. exact P3.
Qed.
Print Assumptions C88_rows.

(** Afterwards the column holds the same runs; those taken as a whole have their shared strings
    looked up, which is all a later read may notice. *)
Theorem C88_after o cf store off len idx a : column store = true -> windowed off len idx = true -> read o cf store off len idx = Ok a ->
  let st := fst (concatenate o cf store off len idx) in
  column st = true /\
  map (cells_of o) st = match idx with None => runs_after 0 (map (cells_of o) store) off len | Some _ => map (cells_of o) store end.
Proof. exact (@read_state o cf store off len idx a). Qed.
Print Assumptions C88_after.

(** Numbers and strings: the first string run becomes numbers, the second stops the conversion,
    the third is left alone. *)
Definition ex_three : list chunk :=
  [mkC (DStr [Some (s "7"); Some (s "007")]) 0x18 2 []; mkC (DF [f8_of_Z 1]) 0x28 1 []; mkC (DStr [Some (s "x")]) 0x18 1 [];
   mkC (DF [f8_of_Z 2]) 0x28 1 []; mkC (DStr [Some (s "007")]) 0x18 1 []].
Example C88_example :
  column ex_three = true /\ request 1 6 None = true /\
  map (map (fun x => match t_val x with CText t => inl t | CNum y => inr (bits_of_b64 y) | _ => inr 0 end)) (chosen_runs (map (cells_of ex_o) ex_three) 1 3 (Some [true; false; true; true]))
  = [[inl (s "007")]; [inl (s "x")]; [inr 0x4000000000000000]] /\
  show (read ex_o mode_numeric ex_three 1 6 None)
  = Ok (TUtf8, [Some (inl (s "7")); Some (inl (s "1")); Some (inl (s "x")); Some (inl (s "2")); Some (inl (s "007")); None]) /\
  show (expected ex_o mode_numeric (chosen_runs (map (cells_of ex_o) ex_three) 1 6 None))
  = Ok (TUtf8, [Some (inl (s "7")); Some (inl (s "1")); Some (inl (s "x")); Some (inl (s "2")); Some (inl (s "007")); None]) /\
  show (expected ex_o mode_all (chosen_runs (map (cells_of ex_o) [mkC (DF [f8_of_Z 43831]) 0x24 1 []; mkC (DStr [Some (s "2020-01-01"); None]) 0x18 2 []; mkC (DStr [Some (s "2020-01-01")]) 0x18 1 []]) 0 4 None))
  = Ok (TUtf8, [Some (inl (s "1577836800000ms")); Some (inl (s "2020-01-01")); None; Some (inl (s "1577836800000ms"))]) /\
  (* no row asked for: the rest of a run comes; two rows fewer than none: nothing is left *)
  show (read ex_o mode_numeric ex_three 1 0 None) = Ok (TUtf8, [Some (inl (s "007"))]) /\
  show (read ex_o mode_numeric ex_three 0 (-1) None) = Ok (TUtf8, [Some (inl (s "7"))]) /\
  show (read ex_o mode_numeric ex_three 0 (-2) None) = Err ValueError /\
  chosen_runs (map (cells_of ex_o) ex_three) 0 (-2) None = [].
Proof. repeat (apply conj); vm_compute; reflexivity. Qed.

(** ** C89: a single element *)
(** The element at an index, negative ones counted from the end. *)
Definition element {A} (l : list A) (i : Z) : list A :=
  let k := if i <? 0 then zlen l + i else i in
  if k <? 0 then [] else firstn 1 (skipn (Z.to_nat k) l).
(** Full claim: for every index.  -1 gives nothing. *)
Theorem C89_data_partial A (l : list A) e i : i <> -1 -> take_list e l (IInt i) = Ok (element l i).
Proof.
  intro Hi. unfold take_list, slice_list, slice_indices, element. cbn [sl_start sl_stop sl_step]. change (1 =? 0) with false. cbv iota. cbn [bind]. f_equal.
  pose proof (zlen_nonneg l) as Hn. set (n := zlen l) in *.
  assert (P : forall k, 0 <= k -> pick l [k] = firstn 1 (skipn (Z.to_nat k) l)).
  { intros k _. cbn [pick]. generalize (Z.to_nat k) as j. clear. induction l as [|x l IH]; intros [|j]; try reflexivity. cbn [nth_error skipn]. apply IH. }
  unfold slice_start, slice_stop. change (1 <? 0) with false. cbv iota. unfold slice_len. change (1 <? 0) with false. cbv iota. rewrite !Z.div_1_r.
  assert (One : forall a b, b = a + 1 -> 0 <= a -> pick l (map (fun k => a + Z.of_nat k * 1) (seq 0 (Z.to_nat (if a <? b then b - a - 1 + 1 else 0)))) = firstn 1 (skipn (Z.to_nat a) l)).
  { intros a b -> Ha. replace (a <? a + 1) with true by lia. replace (a + 1 - a - 1 + 1) with 1 by lia. change (Z.to_nat 1) with 1%nat. cbn [seq map]. cbn beta.
    replace (a + Z.of_nat 0 * 1) with a by lia. now apply P. }
  assert (Nil : forall a b, b <= a -> pick l (map (fun k => a + Z.of_nat k * 1) (seq 0 (Z.to_nat (if a <? b then b - a - 1 + 1 else 0)))) = []).
  { intros a b H. now replace (a <? b) with false by lia. }
  destruct (i <? 0) eqn:E0.
  - replace (i + 1 <? 0) with true by lia. destruct (n + i <? 0) eqn:E1.
    + destruct (n + (i + 1) <? 0) eqn:E2; apply Nil; lia.
    + replace (n + (i + 1) <? 0) with false by lia. apply One; lia.
  - replace (i + 1 <? 0) with false by lia. rewrite E0. destruct (n <=? i) eqn:E1.
    + replace (n <=? i + 1) with true by lia. rewrite Nil by lia. rewrite skipn_all2 by (unfold n, zlen in *; lia). reflexivity.
    + destruct (n <=? i + 1) eqn:E2; apply One; lia.
Qed.
Print Assumptions C89_data_partial.
Theorem C89_last_refuted A (l : list A) e : take_list e l (IInt (-1)) = Ok [].
Proof.
  unfold take_list, slice_list, slice_indices. cbn [sl_start sl_stop sl_step]. change (1 =? 0) with false. cbv iota. cbn [bind]. f_equal.
  pose proof (zlen_nonneg l) as Hn. set (n := zlen l) in *.
  unfold slice_start, slice_stop, slice_len. change (1 <? 0) with false. change (-1 <? 0) with true. change (-1 + 1) with 0. change (0 <? 0) with false. cbv iota.
  replace ((if n + -1 <? 0 then 0 else n + -1) <? (if n <=? 0 then n else 0)) with false; [reflexivity|].
  destruct (n + -1 <? 0) eqn:E1, (n <=? 0) eqn:E2; lia.
Qed.
Print Assumptions C89_last_refuted.
(** A null chunk: one null for every index before the end, however negative. *)
Theorem C89_nulls n i : 0 <= n ->
  exists c, take_chunk (nulls n) (IInt i) = Ok c /\
    (zlen (element (repeat tt (Z.to_nat n)) i) = k_size c <-> 0 <= i \/ - n <= i).
Proof.
  intro Hn. eexists. split; [reflexivity|]. unfold element. cbn [k_size nulls].
  assert (L : zlen (repeat tt (Z.to_nat n)) = n) by (unfold zlen; rewrite repeat_length; lia). rewrite L.
  assert (F : forall k, 0 <= k -> zlen (firstn 1 (skipn (Z.to_nat k) (repeat tt (Z.to_nat n)))) = if k <? n then 1 else 0).
  { intros k Hk. unfold zlen. rewrite firstn_length, skipn_length, repeat_length. destruct (k <? n) eqn:E; lia. }
  destruct (i <? 0) eqn:E0.
  - destruct (n + i <? 0) eqn:E1.
    + replace (i <? n) with true by lia. cbn. lia.
    + rewrite F by lia. replace (n + i <? n) with true by lia. replace (i <? n) with true by lia. lia.
  - replace (i <? 0) with false by lia. rewrite F by lia. lia.
Qed.
Print Assumptions C89_nulls.
Example C89_example : take_list IndexError [5; 6; 7] (IInt (-2)) = Ok [6] /\ take_list IndexError [5; 6; 7] (IInt 2) = Ok [7] /\
  take_list IndexError [5; 6; 7] (IInt (-1)) = Ok [] /\ take_list IndexError [5; 6; 7] (IInt 3) = Ok [] /\ element [5; 6; 7] (-1) = [7].
Proof. repeat (apply conj); reflexivity. Qed.
