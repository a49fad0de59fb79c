From Verif Require Import Py PyFacts Biff BiffSpec.
From Coq Require Import ZifyBool ZifyNat.
Ltac Zify.zify_post_hook ::= Z.div_mod_to_equations.
Set Implicit Arguments.

Lemma or80 x : Z.lor (Z.land x 0x7F) 0x80 = x mod 128 + 128.
Proof.
  change 0x7F with (2 ^ 7 - 1). rewrite land_low by lia.
  change 0x80 with (1 * 2 ^ 7). rewrite lor_disjoint; [reflexivity|lia|].
  apply Z.mod_pos_bound. lia.
Qed.

Lemma shr x n : 0 <= n -> Z.shiftr x n = x / 2 ^ n.
Proof. intro. now apply Z.shiftr_div_pow2. Qed.

(** Closed form of [dump_sz] on the encodable range. *)
Lemma dump_sz_eq i : 0 <= i < 2 ^ 29 ->
  dump_sz i = Ok (if i <? 2 ^ 7 then [i]
                  else if i <? 2 ^ 14 then [i mod 128 + 128; i / 2 ^ 7]
                  else if i <? 2 ^ 21 then
                    [i mod 128 + 128; (i / 2 ^ 7) mod 128 + 128; i / 2 ^ 14]
                  else [i mod 128 + 128; (i / 2 ^ 7) mod 128 + 128;
                        (i / 2 ^ 14) mod 128 + 128; i / 2 ^ 21]).
Proof.
  intro Hi. unfold dump_sz.
  change 0x4000 with (2 ^ 14). change 0x200000 with (2 ^ 21).
  replace (i <? 0x80) with (i <? 2 ^ 7) by reflexivity.
  rewrite !or80, !shr by lia. unfold pack_B.
  change (2 ^ 8) with 256. change (2 ^ 7) with 128. change (2 ^ 14) with 16384.
  change (2 ^ 21) with 2097152. change (2 ^ 29) with 536870912 in Hi.
  destruct (i <? 128) eqn:E1.
  { replace ((0 <=? i) && (i <? 256)) with true by lia. reflexivity. }
  destruct (i <? 16384) eqn:E2.
  { replace ((0 <=? i mod 128 + 128) && (i mod 128 + 128 <? 256)) with true by lia.
    cbn [bind]. replace ((0 <=? i / 128) && (i / 128 <? 256)) with true by lia. reflexivity. }
  destruct (i <? 2097152) eqn:E3.
  { replace ((0 <=? i mod 128 + 128) && (i mod 128 + 128 <? 256)) with true by lia.
    replace ((0 <=? (i / 128) mod 128 + 128) && ((i / 128) mod 128 + 128 <? 256)) with true by lia.
    cbn [bind]. replace ((0 <=? i / 16384) && (i / 16384 <? 256)) with true by lia. reflexivity. }
  replace ((0 <=? i mod 128 + 128) && (i mod 128 + 128 <? 256)) with true by lia.
  replace ((0 <=? (i / 128) mod 128 + 128) && ((i / 128) mod 128 + 128 <? 256)) with true by lia.
  replace ((0 <=? (i / 16384) mod 128 + 128) && ((i / 16384) mod 128 + 128 <? 256)) with true by lia.
  cbn [bind]. replace ((0 <=? i / 2097152) && (i / 2097152 <? 256)) with true by lia. reflexivity.
Qed.

Lemma dump_sz_err i : (i < 0 \/ 2 ^ 29 <= i) -> dump_sz i = Err StructError.
Proof.
  intro Hi. unfold dump_sz. rewrite !or80, !shr by lia. unfold pack_B.
  change (2 ^ 8) with 256. change (2 ^ 7) with 128. change (2 ^ 14) with 16384.
  change (2 ^ 21) with 2097152. change (2 ^ 29) with 536870912 in Hi.
  change 0x80 with 128. change 0x4000 with 16384. change 0x200000 with 2097152.
  destruct (i <? 128) eqn:E1.
  { replace ((0 <=? i) && (i <? 256)) with false by lia. reflexivity. }
  destruct (i <? 16384) eqn:E2; [lia|]. destruct (i <? 2097152) eqn:E3; [lia|].
  replace ((0 <=? i mod 128 + 128) && (i mod 128 + 128 <? 256)) with true by lia.
  replace ((0 <=? (i / 128) mod 128 + 128) && ((i / 128) mod 128 + 128 <? 256)) with true by lia.
  replace ((0 <=? (i / 16384) mod 128 + 128) && ((i / 16384) mod 128 + 128 <? 256)) with true by lia.
  cbn [bind]. replace ((0 <=? i / 2097152) && (i / 2097152 <? 256)) with false by lia. reflexivity.
Qed.

Lemma dump_sz_spec i l : dump_sz i = Ok l ->
  base128 l = i /\ continued 0 l = true /\ List.length l = groups i /\ bytes_ok l = true.
Proof.
  intro H.
  assert (Hi : 0 <= i < 2 ^ 29).
  { destruct (Z_lt_le_dec i 0); [rewrite dump_sz_err in H by lia; discriminate|].
    destruct (Z_lt_le_dec i (2 ^ 29)); [lia|]. rewrite dump_sz_err in H by lia; discriminate. }
  rewrite dump_sz_eq in H by lia. apply Ok_inj in H. subst l. unfold groups.
  change (2 ^ 7) with 128. change (2 ^ 14) with 16384.
  change (2 ^ 21) with 2097152. change (2 ^ 29) with 536870912 in Hi.
  assert (M : forall x, (x mod 128 + 128) mod 128 = x mod 128) by (intro; lia).
  assert (D1 : i / 16384 = i / 128 / 128) by (rewrite Z.div_div by lia; reflexivity).
  assert (D2 : i / 2097152 = i / 128 / 128 / 128) by (rewrite !Z.div_div by lia; reflexivity).
  destruct (i <? 128) eqn:E1;
    [|destruct (i <? 16384) eqn:E2; [|destruct (i <? 2097152) eqn:E3]];
    cbn [base128 continued List.length bytes_ok forallb Nat.eqb]; unfold byte_ok;
    rewrite ?M; (split; [|split; [|split]]); try reflexivity;
    rewrite ?D2, ?D1; clear D1 D2 M; lia.
Qed.

Lemma land80 x : (Z.land x 0x80 =? 0) = negb (Z.odd (x / 128)).
Proof. change 0x80 with (2 ^ 7). rewrite land_pow2_zero by lia. reflexivity. Qed.

Lemma land80_byte x : 0 <= x < 256 -> (Z.land x 0x80 =? 0) = (x <? 128).
Proof.
  intro H. rewrite land80. destruct (x <? 128) eqn:E.
  - replace (x / 128) with 0 by lia. reflexivity.
  - replace (x / 128) with 1 by lia. reflexivity.
Qed.

Lemma land_bit x n : 0 <= n -> 0 <= x < 2 ^ (n + 1) -> (Z.land x (2 ^ n) =? 0) = (x <? 2 ^ n).
Proof.
  intros Hn Hx. rewrite land_pow2_zero by lia.
  destruct (x <? 2 ^ n) eqn:E.
  - rewrite odd_div_small by lia. reflexivity.
  - rewrite odd_div_top by lia. reflexivity.
Qed.

Lemma lor_shl a b n : 0 <= n -> 0 <= a < 2 ^ n -> Z.lor a (Z.shiftl b n) = a + b * 2 ^ n.
Proof. intros. rewrite Z.shiftl_mul_pow2 by lia. now apply lor_disjoint. Qed.

Lemma xor_top x n m : m = 2 ^ n -> 0 <= n -> 2 ^ n <= x < 2 ^ (n + 1) -> Z.lxor x m = x - m.
Proof. intros -> Hn Hx. now apply lxor_top. Qed.

(** Reading back a size prefix. *)
Lemma scan_sz_dump i l rest : dump_sz i = Ok l -> scan_sz (l ++ rest) = Ok (i, rest).
Proof.
  intro H.
  assert (Hi : 0 <= i < 2 ^ 29).
  { destruct (Z_lt_le_dec i 0); [rewrite dump_sz_err in H by lia; discriminate|].
    destruct (Z_lt_le_dec i (2 ^ 29)); [lia|]. rewrite dump_sz_err in H by lia; discriminate. }
  rewrite dump_sz_eq in H by lia. apply Ok_inj in H. subst l.
  change (2 ^ 29) with 536870912 in Hi.
  change (2 ^ 7) with 128. change (2 ^ 14) with 16384. change (2 ^ 21) with 2097152.
  unfold scan_sz.
  destruct (i <? 128) eqn:E1.
  { cbn [app read1 bind]. rewrite land80_byte, E1 by lia. reflexivity. }
  assert (B0 : (Z.land (i mod 128 + 128) 0x80 =? 0) = false)
    by (rewrite land80_byte by lia; lia).
  assert (X0 : Z.lxor (i mod 128 + 128) 0x80 = i mod 128).
  { rewrite (@xor_top _ 7) by (try reflexivity; change (2 ^ 7) with 128; change (2 ^ (7 + 1)) with 256; lia). lia. }
  destruct (i <? 16384) eqn:E2.
  { cbn [app read1 bind]. rewrite B0, X0. cbn [app read1 bind].
    rewrite lor_shl by (change (2 ^ 7) with 128; lia). change (2 ^ 7) with 128.
    change 0x4000 with (2 ^ 14). rewrite land_bit by (change (2 ^ (14 + 1)) with 32768; lia).
    change (2 ^ 14) with 16384. replace (i mod 128 + i / 128 * 128 <? 16384) with true by lia.
    do 2 f_equal. lia. }
  destruct (i <? 2097152) eqn:E3.
  { cbn [app read1 bind]. rewrite B0, X0. cbn [app read1 bind].
    rewrite lor_shl by (change (2 ^ 7) with 128; lia). change (2 ^ 7) with 128.
    change 0x4000 with (2 ^ 14). rewrite land_bit by (change (2 ^ (14 + 1)) with 32768; lia).
    change (2 ^ 14) with 16384.
    replace (i mod 128 + ((i / 128) mod 128 + 128) * 128 <? 16384) with false by lia.
    cbn [app read1 bind].
    rewrite (@xor_top _ 14) by (try reflexivity; change (2 ^ 14) with 16384; change (2 ^ (14 + 1)) with 32768; lia).
    rewrite lor_shl by (change (2 ^ 14) with 16384; lia). change (2 ^ 14) with 16384.
    change 0x200000 with (2 ^ 21). rewrite land_bit by (change (2 ^ (21 + 1)) with 4194304; lia).
    change (2 ^ 21) with 2097152.
    replace (i mod 128 + ((i / 128) mod 128 + 128) * 128 - 16384 + i / 16384 * 16384 <? 2097152)
      with true by lia.
    do 2 f_equal. lia. }
  cbn [app read1 bind]. rewrite B0, X0. cbn [app read1 bind].
  rewrite lor_shl by (change (2 ^ 7) with 128; lia). change (2 ^ 7) with 128.
  change 0x4000 with (2 ^ 14). rewrite land_bit by (change (2 ^ (14 + 1)) with 32768; lia).
  change (2 ^ 14) with 16384.
  replace (i mod 128 + ((i / 128) mod 128 + 128) * 128 <? 16384) with false by lia.
  cbn [app read1 bind].
  rewrite (@xor_top _ 14) by (try reflexivity; change (2 ^ 14) with 16384; change (2 ^ (14 + 1)) with 32768; lia).
  rewrite lor_shl by (change (2 ^ 14) with 16384; lia). change (2 ^ 14) with 16384.
  change 0x200000 with (2 ^ 21). rewrite land_bit by (change (2 ^ (21 + 1)) with 4194304; lia).
  change (2 ^ 21) with 2097152.
  replace (i mod 128 + ((i / 128) mod 128 + 128) * 128 - 16384 + ((i / 16384) mod 128 + 128) * 16384 <? 2097152)
    with false by lia.
  cbn [app read1 bind].
  rewrite (@xor_top _ 21) by (try reflexivity; change (2 ^ 21) with 2097152; change (2 ^ (21 + 1)) with 4194304; lia).
  rewrite lor_shl by (change (2 ^ 21) with 2097152; lia). change (2 ^ 21) with 2097152.
  do 2 f_equal. lia.
Qed.

(** Record ids. *)
Definition enc_id (id : Z) : res bytes :=
  if Z.land id 0x80 =? 0 then pack_B id else pack_H id.

Lemma id_encodable_cases id : id_encodable id = true ->
  (0 <= id < 128 /\ (Z.land id 0x80 =? 0) = true)
  \/ (0 <= id < 65536 /\ (Z.land id 0x80 =? 0) = false).
Proof.
  unfold id_encodable. intro H. apply orb_prop in H as [H|H].
  - left. split; [lia|]. rewrite land80_byte by lia. lia.
  - right. apply andb_prop in H as [H T]. split; [lia|].
    rewrite land80. rewrite Z.testbit_odd, Z.shiftr_div_pow2 in T by lia.
    change (2 ^ 7) with 128 in T. now rewrite T.
Qed.

Lemma enc_id_ok id : id_encodable id = true ->
  exists h, enc_id id = Ok h /\ (1 <= List.length h)%nat /\ bytes_ok h = true
    /\ forall rest, scan_id (h ++ rest) = Ok (id, rest).
Proof.
  intro H. unfold enc_id. destruct (id_encodable_cases _ H) as [[R E]|[R E]]; rewrite E.
  - exists [id]. unfold pack_B. change (2 ^ 8) with 256.
    replace ((0 <=? id) && (id <? 256)) with true by lia.
    repeat split; [cbn; lia|unfold bytes_ok, byte_ok; cbn [forallb]; lia|].
    intro rest. unfold scan_id. cbn [app read1 bind]. now rewrite E.
  - exists [id mod 256; id / 256]. unfold pack_H. change (2 ^ 16) with 65536.
    replace ((0 <=? id) && (id <? 65536)) with true by lia.
    repeat split; [cbn; lia|unfold bytes_ok, byte_ok; cbn [forallb]; lia|].
    intro rest. unfold scan_id. cbn [app read1 bind].
    assert (E' : (Z.land (id mod 256) 0x80 =? 0) = false).
    { rewrite land80 in *. replace ((id mod 256) / 128) with (id / 128 - 2 * (id / 256)) by lia.
      rewrite Z.odd_sub, Z.odd_mul. cbn [Z.odd andb]. rewrite xorb_false_r. exact E. }
    rewrite E'. cbn [app read1 bind]. rewrite lor_shl by (change (2 ^ 8) with 256; lia).
    change (2 ^ 8) with 256. do 2 f_equal. lia.
Qed.

Lemma rec_ok_inv r : rec_ok r = true ->
  id_encodable (rec_id r) = true /\ bytes_ok (rec_data r) = true /\ 0 <= zlen (rec_data r) < 2 ^ 29.
Proof.
  unfold rec_ok. intro H. apply andb_prop in H as [H1 H3]. apply andb_prop in H1 as [H1 H2].
  repeat split; auto; [apply zlen_nonneg | lia].
Qed.

Lemma as_binary_ok r : rec_ok r = true ->
  exists h z, as_binary r = Ok (h ++ z ++ rec_data r) /\ enc_id (rec_id r) = Ok h
    /\ dump_sz (zlen (rec_data r)) = Ok z
    /\ (2 <= List.length (h ++ z))%nat /\ bytes_ok (h ++ z ++ rec_data r) = true
    /\ forall rest, scan_hdr (h ++ z ++ rest) = Ok (rec_id r, zlen (rec_data r), rest).
Proof.
  intro H. apply rec_ok_inv in H as (Hid & Hb & Hs).
  destruct (enc_id_ok _ Hid) as (h & Eh & Lh & Bh & Sh).
  assert (exists z, dump_sz (zlen (rec_data r)) = Ok z) as (z & Ez)
    by (rewrite dump_sz_eq by lia; eexists; reflexivity).
  exists h, z. unfold as_binary. fold (enc_id (rec_id r)). rewrite Eh. cbn [bind].
  unfold rec_sz. rewrite Ez. cbn [bind].
  pose proof (dump_sz_spec _ Ez) as (_ & _ & Lz & Bz).
  repeat split; auto.
  - rewrite app_length, Lz. unfold groups. destruct (_ <? _); [lia|]. destruct (_ <? _); [lia|].
    destruct (_ <? _); lia.
  - now rewrite !bytes_ok_app, Bh, Bz, Hb.
  - intro rest. unfold scan_hdr. rewrite Sh. cbn [bind].
    rewrite (scan_sz_dump _ _ Ez). reflexivity.
Qed.

(** Header scanning only looks at a prefix. *)
Lemma read1_app b x r q : read1 b = Ok (x, r) -> read1 (b ++ q) = Ok (x, r ++ q).
Proof. destruct b; cbn; intro H; [discriminate|]. now injection H as <- <-. Qed.

Ltac rd H b q :=
  match type of H with
  | context [bind (read1 b) _] =>
    let x := fresh "x" in let r := fresh "r" in let E := fresh "E" in
    destruct (read1 b) as [[x r]|] eqn:E; [|discriminate H];
    rewrite (read1_app _ q E); cbn [bind] in H |- *
  end.

Lemma scan_id_app b id r q : scan_id b = Ok (id, r) -> scan_id (b ++ q) = Ok (id, r ++ q).
Proof.
  unfold scan_id. intro H. rd H b q.
  destruct (Z.land x 0x80 =? 0); [injection H as <- <-; reflexivity|].
  rd H r0 q. injection H as <- <-. reflexivity.
Qed.

Lemma scan_sz_app b z r q : scan_sz b = Ok (z, r) -> scan_sz (b ++ q) = Ok (z, r ++ q).
Proof.
  unfold scan_sz. intro H. rd H b q.
  destruct (Z.land x 0x80 =? 0); [injection H as <- <-; reflexivity|].
  rd H r0 q. destruct (Z.land _ 0x4000 =? 0); [injection H as <- <-; reflexivity|].
  rd H r1 q. destruct (Z.land _ 0x200000 =? 0); [injection H as <- <-; reflexivity|].
  rd H r2 q. injection H as <- <-. reflexivity.
Qed.

Lemma scan_hdr_app b id sz r q :
  scan_hdr b = Ok (id, sz, r) -> scan_hdr (b ++ q) = Ok (id, sz, r ++ q).
Proof.
  unfold scan_hdr. intro H. apply bind_ok in H as ((i & b1) & H1 & H).
  apply bind_ok in H as ((z & b2) & H2 & H). injection H as <- <- <-.
  rewrite (scan_id_app _ q H1). cbn [bind]. rewrite (scan_sz_app _ q H2). reflexivity.
Qed.

Lemma read1_shorter b x r : read1 b = Ok (x, r) -> List.length b = S (List.length r).
Proof. destruct b; cbn; intro H; [discriminate|]. now injection H as <- <-. Qed.
Lemma scan_id_shorter b id r : scan_id b = Ok (id, r) -> (List.length r < List.length b)%nat.
Proof.
  unfold scan_id. intro H. destruct (read1 b) as [[x r0]|] eqn:E; [|discriminate]. cbn [bind] in H.
  apply read1_shorter in E. destruct (_ =? 0); [injection H as <- <-; lia|].
  destruct (read1 r0) as [[y r1]|] eqn:E1; [|discriminate]. apply read1_shorter in E1.
  cbn [bind] in H. injection H as <- <-. lia.
Qed.
Lemma scan_sz_shorter b z r : scan_sz b = Ok (z, r) -> (List.length r < List.length b)%nat.
Proof.
  unfold scan_sz. intro H. destruct (read1 b) as [[x r0]|] eqn:E; [|discriminate]. cbn [bind] in H.
  apply read1_shorter in E. destruct (_ =? 0); [injection H as <- <-; lia|].
  destruct (read1 r0) as [[y r1]|] eqn:E1; [|discriminate]. apply read1_shorter in E1. cbn [bind] in H.
  destruct (_ =? 0); [injection H as <- <-; lia|].
  destruct (read1 r1) as [[y2 r2]|] eqn:E2; [|discriminate]. apply read1_shorter in E2. cbn [bind] in H.
  destruct (_ =? 0); [injection H as <- <-; lia|].
  destruct (read1 r2) as [[y3 r3]|] eqn:E3; [|discriminate]. apply read1_shorter in E3. cbn [bind] in H.
  injection H as <- <-. lia.
Qed.
Lemma scan_hdr_shorter b id z r : scan_hdr b = Ok (id, z, r) -> (List.length r + 2 <= List.length b)%nat.
Proof.
  unfold scan_hdr. intro H. apply bind_ok in H as ((i & b1) & H1 & H).
  apply bind_ok in H as ((z' & b2) & H2 & H). injection H as <- <- <-.
  apply scan_id_shorter in H1. apply scan_sz_shorter in H2. lia.
Qed.

(** Enough fuel: the scanner always terminates. *)
Lemma scan_fuel_total f only b : (List.length b < f)%nat -> exists rs, scan_fuel f only b = Some rs.
Proof.
  revert b; induction f as [|f IH]; intros b Hf; [lia|]. cbn [scan_fuel].
  destruct (scan_hdr b) as [[[id sz] r]|] eqn:E; [|eexists; reflexivity].
  apply scan_hdr_shorter in E.
  assert (Hs : (List.length (skipn (Z.to_nat sz) r) < f)%nat) by (rewrite skipn_length; lia).
  destruct (wanted only id).
  - destruct (sz =? 0).
    + destruct (IH r) as (rs & ->); [lia|]. eexists; reflexivity.
    + destruct (zlen _ =? sz); [|eexists; reflexivity].
      destruct (IH _ Hs) as (rs & ->). eexists; reflexivity.
  - apply IH; exact Hs.
Qed.

Lemma scan_fuel_mono f g only b rs :
  scan_fuel f only b = Some rs -> (f <= g)%nat -> scan_fuel g only b = Some rs.
Proof.
  revert g b rs; induction f as [|f IH]; intros g b rs H Hg; [discriminate|].
  destruct g as [|g]; [lia|]. cbn [scan_fuel] in *.
  destruct (scan_hdr b) as [[[id sz] r]|]; [|exact H].
  destruct (wanted only id).
  - destruct (sz =? 0).
    + destruct (scan_fuel f only r) as [rs'|] eqn:E; [|discriminate].
      rewrite (IH g _ _ E) by lia. exact H.
    + destruct (zlen _ =? sz); [|exact H].
      destruct (scan_fuel f only _) as [rs'|] eqn:E; [|discriminate].
      rewrite (IH g _ _ E) by lia. exact H.
  - apply IH; [exact H|lia].
Qed.

Lemma scan_biff_fuel f only b : (List.length b < f)%nat -> scan_fuel f only b = scan_biff only b.
Proof.
  intro Hf. unfold scan_biff. destruct (@scan_fuel_total (S (List.length b)) only b) as (rs & E); [lia|].
  rewrite E. apply scan_fuel_mono with (S (List.length b)); [exact E|lia].
Qed.

(** One complete record at the front of the stream. *)
Definition keep (only : option (list Z)) (rs : list record) : list record :=
  filter (fun r => wanted only (rec_id r)) rs.

Lemma scan_biff_record only r b rest :
  rec_ok r = true -> as_binary r = Ok b ->
  scan_biff only (b ++ rest) =
    match scan_biff only rest with
    | None => None
    | Some rs => Some (if wanted only (rec_id r) then r :: rs else rs)
    end.
Proof.
  intros Hr Eb. destruct (as_binary_ok _ Hr) as (h & z & Eb' & _ & _ & Lhz & _ & Sc).
  rewrite Eb' in Eb. apply Ok_inj in Eb. subst b.
  set (d := rec_data r) in *.
  unfold scan_biff at 1. cbn [scan_fuel].
  replace ((h ++ z ++ d) ++ rest) with (h ++ z ++ (d ++ rest)) by now rewrite <- !app_assoc.
  rewrite Sc. rewrite zlen_to_nat.
  assert (L : (List.length rest < List.length (h ++ z ++ d ++ rest))%nat)
    by (rewrite app_assoc, !app_length in *; lia).
  destruct (wanted only (rec_id r)).
  - destruct (zlen d =? 0) eqn:E0.
    + apply Z.eqb_eq in E0. apply zlen_0 in E0. rewrite E0 in *. cbn [app] in *.
      rewrite scan_biff_fuel by exact L. destruct (scan_biff only rest); [|reflexivity].
      destruct r as [i dd]; cbn in *; subst d dd. reflexivity.
    + rewrite firstn_app_exact, skipn_app_exact, Z.eqb_refl.
      rewrite scan_biff_fuel by exact L. destruct (scan_biff only rest); [|reflexivity].
      destruct r; reflexivity.
  - rewrite skipn_app_exact, scan_biff_fuel by exact L.
    destruct (scan_biff only rest); reflexivity.
Qed.

Lemma scan_biff_nil only : scan_biff only [] = Some [].
Proof. reflexivity. Qed.

Lemma scan_biff_stream only rs b rest :
  forallb rec_ok rs = true -> dump_all rs = Ok b ->
  scan_biff only (b ++ rest) =
    match scan_biff only rest with None => None | Some l => Some (keep only rs ++ l) end.
Proof.
  revert b; induction rs as [|r rs IH]; intros b Hok Hb.
  - apply Ok_inj in Hb. subst b. cbn [app keep filter]. now destruct (scan_biff only rest).
  - cbn [forallb] in Hok. apply andb_prop in Hok as [Hr Hok].
    cbn [dump_all] in Hb. apply bind_ok in Hb as (b1 & E1 & Hb).
    apply bind_ok in Hb as (b2 & E2 & Hb). apply Ok_inj in Hb. subst b.
    rewrite <- app_assoc, (@scan_biff_record _ _ _ _ Hr E1), (IH _ Hok E2).
    destruct (scan_biff only rest); [|reflexivity].
    unfold keep. cbn [filter]. now destruct (wanted only (rec_id r)).
Qed.

Lemma dump_all_ok rs : forallb rec_ok rs = true -> exists b, dump_all rs = Ok b.
Proof.
  induction rs as [|r rs IH]; intro H; [eexists; reflexivity|].
  cbn [forallb] in H. apply andb_prop in H as [Hr H]. destruct (IH H) as (b & Eb).
  destruct (as_binary_ok _ Hr) as (h & z & E & _). cbn [dump_all]. rewrite E. cbn [bind].
  rewrite Eb. eexists; reflexivity.
Qed.

Lemma keep_all rs : keep None rs = rs.
Proof. induction rs as [|r rs IH]; [reflexivity|]. cbn. f_equal. exact IH. Qed.

(** C01 *)
Lemma biff_round_trip rs : forallb rec_ok rs = true ->
  exists b, dump_all rs = Ok b /\ scan_biff None b = Some rs.
Proof.
  intro H. destruct (dump_all_ok _ H) as (b & E). exists b. split; [exact E|].
  rewrite <- (app_nil_r b), (@scan_biff_stream _ _ _ [] H E), scan_biff_nil, app_nil_r, keep_all.
  reflexivity.
Qed.

Lemma keep_only_ids i ids rs : keep (Some (i :: ids)) rs = only_ids (i :: ids) rs.
Proof.
  unfold keep, only_ids. apply filter_ext. intro r. unfold wanted.
  destruct (in_dec Z.eq_dec (rec_id r) (i :: ids)) as [Hin|Hin].
  - now apply mem_Z_In.
  - destruct (mem_Z _ _) eqn:E; [|reflexivity]. apply mem_Z_In in E. contradiction.
Qed.

(** C02 *)
Lemma biff_filtered rs i ids : forallb rec_ok rs = true ->
  exists b, dump_all rs = Ok b /\ scan_biff (Some (i :: ids)) b = Some (only_ids (i :: ids) rs).
Proof.
  intro H. destruct (dump_all_ok _ H) as (b & E). exists b. split; [exact E|].
  rewrite <- (app_nil_r b), (@scan_biff_stream _ _ _ [] H E), scan_biff_nil, app_nil_r, keep_only_ids.
  reflexivity.
Qed.

(** A cut inside one record. *)
Lemma scan_biff_cut only r b k :
  rec_ok r = true -> as_binary r = Ok b -> (k < List.length b)%nat ->
  scan_biff only (firstn k b) = Some [].
Proof.
  intros Hr Eb Hk. destruct (as_binary_ok _ Hr) as (h & z & Eb' & _ & _ & _ & _ & Sc).
  rewrite Eb' in Eb. apply Ok_inj in Eb. subst b.
  unfold scan_biff. cbn [scan_fuel].
  destruct (scan_hdr (firstn k _)) as [[[id sz] rest]|e] eqn:E; [|reflexivity].
  pose proof (scan_hdr_app _ (skipn k (h ++ z ++ rec_data r)) E) as E2.
  rewrite firstn_skipn, Sc in E2. injection E2 as <- <- Ed.
  assert (Ls : (0 < List.length (skipn k (h ++ z ++ rec_data r)))%nat) by (rewrite skipn_length; lia).
  assert (Ld : List.length (rec_data r) =
    (List.length rest + List.length (skipn k (h ++ z ++ rec_data r)))%nat).
  { rewrite <- app_length. f_equal. exact Ed. }
  destruct (wanted only (rec_id r)).
  - destruct (zlen (rec_data r) =? 0) eqn:E0.
    + exfalso. unfold zlen in *. lia.
    + rewrite zlen_to_nat. rewrite firstn_all2 by lia.
      destruct (zlen rest =? zlen (rec_data r)) eqn:E1; [|reflexivity].
      exfalso. unfold zlen in *. lia.
  - rewrite zlen_to_nat, skipn_all2 by lia.
    rewrite scan_biff_fuel; [apply scan_biff_nil|].
    apply scan_hdr_shorter in E. cbn [List.length]. lia.
Qed.

Lemma enc_id_bytes id h : id_encodable id = true -> enc_id id = Ok h -> h = id_bytes id.
Proof.
  intros H E. unfold enc_id, pack_B, pack_H, id_bytes in *.
  destruct (id_encodable_cases _ H) as [[R L]|[R L]]; rewrite L in E.
  - destruct (_ && _) in E; [|discriminate]. apply Ok_inj in E. subst h.
    replace (id <? 128) with true by lia. reflexivity.
  - destruct (_ && _) in E; [|discriminate]. apply Ok_inj in E. subst h.
    destruct (id <? 128) eqn:El; [|reflexivity].
    exfalso. rewrite land80_byte in L by lia. lia.
Qed.

Lemma as_binary_layout r b : rec_ok r = true -> as_binary r = Ok b ->
  exists z, b = id_bytes (rec_id r) ++ z ++ rec_data r
    /\ base128 z = zlen (rec_data r) /\ continued 0 z = true
    /\ List.length z = groups (zlen (rec_data r)).
Proof.
  intros Hr E. destruct (as_binary_ok _ Hr) as (h & z & Eb & Eh & Ez & _).
  rewrite Eb in E. apply Ok_inj in E. subst b. exists z.
  destruct (dump_sz_spec _ Ez) as (B1 & B2 & B3 & _).
  apply rec_ok_inv in Hr as (Hid & _). rewrite (enc_id_bytes _ Hid Eh). auto.
Qed.

Lemma as_binary_size r b : rec_ok r = true -> as_binary r = Ok b -> disk_size r = zlen b.
Proof.
  intros Hr E. destruct (as_binary_layout _ Hr E) as (z & -> & _ & _ & L).
  unfold disk_size. rewrite !zlen_app. rewrite <- L. unfold zlen. lia.
Qed.

(** C03 *)
Lemma biff_truncated rs b only k : forallb rec_ok rs = true -> dump_all rs = Ok b ->
  scan_biff only (firstn k b) = Some (keep only (fitting (Z.of_nat k) rs)).
Proof.
  revert b k; induction rs as [|r rs IH]; intros b k Hok Hb.
  - apply Ok_inj in Hb. subst b. now rewrite firstn_nil.
  - cbn [forallb] in Hok. apply andb_prop in Hok as [Hr Hok].
    cbn [dump_all] in Hb. apply bind_ok in Hb as (b1 & E1 & Hb).
    apply bind_ok in Hb as (b2 & E2 & Hb). apply Ok_inj in Hb. subst b.
    cbn [fitting]. rewrite (as_binary_size _ Hr E1). destruct (zlen b1 <=? Z.of_nat k) eqn:Ek.
    + assert (List.length b1 <= k)%nat by (unfold zlen in *; lia).
      rewrite firstn_app, (firstn_all2 b1) by lia.
      rewrite (@scan_biff_record _ _ _ _ Hr E1), (IH _ _ Hok E2).
      unfold keep. cbn [filter].
      replace (Z.of_nat (k - List.length b1)) with (Z.of_nat k - zlen b1) by (unfold zlen; lia).
      now destruct (wanted only (rec_id r)).
    + assert (k < List.length b1)%nat by (unfold zlen in *; lia).
      rewrite firstn_app. replace (k - List.length b1)%nat with 0%nat by lia.
      cbn [firstn]. rewrite app_nil_r. now apply scan_biff_cut with r.
Qed.

(** C07 *)
Lemma repr_number_disk n d : 0 <= n < 2 ^ 14 -> repr_number (mkRec (disk_id n) d) = n.
Proof.
  change (2 ^ 14) with 16384. intro H. unfold repr_number, disk_id. cbn [rec_id].
  destruct (n <? 128) eqn:E.
  - rewrite land80_byte by lia. rewrite E. reflexivity.
  - rewrite land80.
    replace ((n mod 128 + 128 + 256 * (n / 128)) / 128) with (1 + 2 * (n / 128)) by lia.
    rewrite Z.odd_add_mul_2. cbn [Z.odd negb].
    change 0x7F with (2 ^ 7 - 1). rewrite land_low by lia. change (2 ^ 7) with 128.
    replace ((n mod 128 + 128 + 256 * (n / 128)) mod 128) with (n mod 128) by lia.
    rewrite shr by lia. change (2 ^ 1) with 2.
    assert (L : Z.land (n mod 128 + 128 + 256 * (n / 128)) 0x7F00 = 256 * (n / 128)).
    { change 0x7F00 with (Z.shiftl (2 ^ 7 - 1) 8).
      apply Z.bits_inj'. intros k Hk. rewrite Z.land_spec.
      replace (256 * (n / 128)) with (Z.shiftl (n / 128) 8)
        by (rewrite Z.shiftl_mul_pow2 by lia; change (2 ^ 8) with 256; lia).
      destruct (Z.ltb_spec k 8).
      - rewrite !Z.shiftl_spec_low by lia. apply andb_false_r.
      - rewrite !Z.shiftl_spec by lia.
        replace (Z.testbit (n mod 128 + 128 + Z.shiftl (n / 128) 8) k)
          with (Z.testbit (n / 128) (k - 8)).
        + rewrite <- Z.land_spec, land_low by lia. f_equal.
          change (2 ^ 7) with 128. apply Z.mod_small. lia.
        + replace k with ((k - 8) + 8) at 2 by lia. rewrite <- Z.shiftr_spec by lia.
          f_equal. rewrite Z.shiftr_div_pow2, Z.shiftl_mul_pow2 by lia. change (2 ^ 8) with 256. lia. }
    rewrite L. replace (256 * (n / 128) / 2) with ((n / 128) * 2 ^ 7)
      by (change (2 ^ 7) with 128; lia).
    rewrite lor_disjoint; [change (2 ^ 7) with 128; lia|lia|].
    change (2 ^ 7) with 128. lia.
Qed.
