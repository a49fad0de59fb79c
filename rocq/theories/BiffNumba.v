(** Proofs about the block-buffered (numba) scanner. *)
From Verif Require Import Py PyFacts Biff BiffSpec BiffProofs.
From Coq Require Import ZifyBool ZifyNat.
Ltac Zify.zify_post_hook ::= Z.div_mod_to_equations.
Set Implicit Arguments.
Unset Strict Implicit.

Lemma read1_byte b x r : bytes_ok b = true -> read1 b = Ok (x, r) ->
  0 <= x < 256 /\ bytes_ok r = true.
Proof.
  destruct b as [|y b]; cbn [read1]; intros Hb H; [discriminate|].
  injection H as <- <-. unfold bytes_ok in *. cbn [forallb] in Hb.
  apply andb_prop in Hb as [Hb ?]. apply byte_ok_range in Hb. auto.
Qed.

Lemma top_bits x n : 0 <= n -> 0 <= x < 2 ^ (n + 1) -> (Z.land x (2 ^ n) =? 0) = false ->
  Z.lxor x (2 ^ n) = Z.land x (2 ^ n - 1) /\ 0 <= Z.land x (2 ^ n - 1) < 2 ^ n.
Proof.
  intros Hn Hx Hl. rewrite land_pow2_zero in Hl by lia.
  rewrite Z.pow_add_r in Hx by lia. change (2 ^ 1) with 2 in Hx.
  assert (Hp : 0 < 2 ^ n) by (apply Z.pow_pos_nonneg; lia).
  assert (2 ^ n <= x).
  { destruct (Z.lt_ge_cases x (2 ^ n)); [|lia].
    rewrite Z.div_small in Hl by lia. discriminate. }
  rewrite lxor_top by (rewrite ?Z.pow_add_r by lia; change (2 ^ 1) with 2; lia).
  rewrite land_low by lia. split.
  - apply Z.mod_unique with 1; [left; lia|lia].
  - apply Z.mod_pos_bound. lia.
Qed.

Lemma lor_shl_range a x n m : 0 <= n -> 0 <= m -> 0 <= a < 2 ^ n -> 0 <= x < 2 ^ m ->
  0 <= Z.lor a (Z.shiftl x n) < 2 ^ (n + m).
Proof.
  intros. rewrite Z.shiftl_mul_pow2, lor_disjoint by lia. rewrite Z.pow_add_r by lia.
  assert (0 < 2 ^ n) by (apply Z.pow_pos_nonneg; lia). nia.
Qed.

Lemma nb_sz_scan b : bytes_ok b = true -> nb_sz b = scan_sz b.
Proof.
  intro Hb. unfold nb_sz, scan_sz.
  destruct (read1 b) as [[x b1]|] eqn:E0; cbn [bind]; [|reflexivity].
  destruct (read1_byte Hb E0) as (Hx & Hb1).
  destruct (Z.land x 0x80 =? 0) eqn:L0; [reflexivity|].
  destruct (@top_bits x 7) as (T & R0); [lia|lia|exact L0|]. change (2 ^ 7 - 1) with 0x7F in *. change (2 ^ 7) with 0x80 in T. rewrite T. clear T.
  destruct (read1 b1) as [[x1 b2]|] eqn:E1; cbn [bind]; [|reflexivity].
  destruct (read1_byte Hb1 E1) as (Hx1 & Hb2).
  destruct (Z.land _ 0x4000 =? 0) eqn:L1; [reflexivity|].
  pose proof (@lor_shl_range _ x1 7 8 ltac:(lia) ltac:(lia) R0 Hx1) as Q1.
  destruct (@top_bits _ 14 ltac:(lia) Q1 L1) as (T & R1). change (2 ^ 14 - 1) with 0x3FFF in *. change (2 ^ 14) with 0x4000 in T. rewrite T. clear T.
  destruct (read1 b2) as [[x2 b3]|] eqn:E2; cbn [bind]; [|reflexivity].
  destruct (read1_byte Hb2 E2) as (Hx2 & Hb3).
  destruct (Z.land _ 0x200000 =? 0) eqn:L2; [reflexivity|].
  pose proof (@lor_shl_range _ x2 14 8 ltac:(lia) ltac:(lia) R1 Hx2) as Q2.
  destruct (@top_bits _ 21 ltac:(lia) Q2 L2) as (T & R2). change (2 ^ 21 - 1) with 0x1FFFFF in *. change (2 ^ 21) with 0x200000 in T. rewrite T. clear T.
  reflexivity.
Qed.

Lemma scan_id_bytes b id r : bytes_ok b = true -> scan_id b = Ok (id, r) -> bytes_ok r = true.
Proof.
  intros Hb. unfold scan_id.
  destruct (read1 b) as [[x b1]|] eqn:E0; cbn [bind]; [|discriminate].
  destruct (read1_byte Hb E0) as (Hx & Hb1).
  destruct (_ =? 0); [intro H; injection H as <- <-; exact Hb1|].
  destruct (read1 b1) as [[x1 b2]|] eqn:E1; cbn [bind]; [|discriminate].
  destruct (read1_byte Hb1 E1) as (_ & Hb2). intro H; injection H as <- <-; auto.
Qed.

Lemma wrap16_small i : -2 ^ 15 <= i < 2 ^ 15 -> wrap16 i = i.
Proof. unfold wrap16. change (2 ^ 16) with 65536. change (2 ^ 15) with 32768. lia. Qed.

Lemma nb_hdr_scan b : bytes_ok b = true ->
  nb_hdr b = (' (id, sz, r) <- scan_hdr b ;; Ok (wrap16 id, sz, r)).
Proof.
  intro Hb. unfold nb_hdr, scan_hdr.
  assert (E : nb_id b = (' (id, r) <- scan_id b ;; Ok (wrap16 id, r))).
  { unfold nb_id, scan_id.
    destruct (read1 b) as [[x b1]|] eqn:E0; cbn [bind]; [|reflexivity].
    destruct (read1_byte Hb E0) as (Hx & _).
    destruct (_ =? 0); cbn [bind].
    - rewrite wrap16_small by lia. reflexivity.
    - destruct (read1 b1) as [[x1 b2]|]; reflexivity. }
  rewrite E. destruct (scan_id b) as [[id r]|] eqn:Ei; cbn [bind]; [|reflexivity].
  rewrite nb_sz_scan by (eapply scan_id_bytes; eauto).
  destruct (scan_sz r) as [[z r2]|]; reflexivity.
Qed.

(** A stream is stuck when no prefix of it holds a complete record. *)
Definition stuck (t : bytes) : Prop :=
  forall j f only pre, scan_chunk_fuel (S f) only pre (firstn j t) = Some [(-1, pre, [])].

Lemma firstn_bytes_ok j b : bytes_ok b = true -> bytes_ok (firstn j b) = true.
Proof.
  intro H. unfold bytes_ok in *. rewrite forallb_forall in *. intros x Hx. apply H.
  rewrite <- (firstn_skipn j b). apply in_or_app. now left.
Qed.

Lemma stuck_cut r b k : rec_ok r = true -> as_binary r = Ok b -> (k < List.length b)%nat ->
  stuck (firstn k b).
Proof.
  intros Hr Eb Hk j f only pre. rewrite firstn_firstn. set (m := Nat.min j k).
  assert (Hm : (m < List.length b)%nat) by lia. clearbody m. clear k j Hk.
  destruct (as_binary_ok _ Hr) as (h & z & Eb' & _ & _ & _ & Bb & Sc).
  rewrite Eb' in Eb. apply Ok_inj in Eb. subst b.
  cbn [scan_chunk_fuel]. rewrite nb_hdr_scan by now apply firstn_bytes_ok.
  destruct (scan_hdr (firstn m _)) as [[[id sz] rest]|e] eqn:E; [|reflexivity].
  cbn [bind].
  pose proof (scan_hdr_app _ (skipn m (h ++ z ++ rec_data r)) E) as E2.
  rewrite firstn_skipn, Sc in E2. injection E2 as <- <- Ed.
  assert (Ls : (0 < List.length (skipn m (h ++ z ++ rec_data r)))%nat) by (rewrite skipn_length; lia).
  assert (Ld : List.length (rec_data r) =
    (List.length rest + List.length (skipn m (h ++ z ++ rec_data r)))%nat).
  { rewrite <- app_length. f_equal. exact Ed. }
  destruct (zlen rest <? zlen (rec_data r)) eqn:El; [reflexivity|].
  unfold zlen in El. lia.
Qed.

Lemma stuck_nil : stuck [].
Proof. intros j f only pre. now rewrite firstn_nil. Qed.

Definition nb_ok (r : record) : bool := rec_ok r && (rec_id r <? 2 ^ 15).

Lemma nb_ok_rec r : nb_ok r = true -> rec_ok r = true /\ 0 <= rec_id r < 2 ^ 15.
Proof.
  unfold nb_ok. intro H. apply andb_prop in H as [H1 H2]. split; [exact H1|].
  apply rec_ok_inv in H1 as (Hi & _). destruct (id_encodable_cases _ Hi) as [[? _]|[? _]]; lia.
Qed.

Definition nb_keep (only : option (list Z)) (rs : list record) : list record :=
  filter (fun r => nb_wanted only (rec_id r)) rs.
Definition triple (r : record) : Z * Z * bytes := (rec_id r, zlen (rec_data r), rec_data r).

Lemma scan_chunk_prefix rs : forall b tail k f only pre,
  forallb nb_ok rs = true -> dump_all rs = Ok b -> stuck tail ->
  (k <= List.length (b ++ tail))%nat -> (k < f)%nat ->
  exists rs1 rs2 b1 b2, rs = rs1 ++ rs2 /\ dump_all rs1 = Ok b1 /\ dump_all rs2 = Ok b2 /\ b = b1 ++ b2
    /\ (List.length b1 <= k)%nat
    /\ (k = List.length (b ++ tail) -> rs2 = [])
    /\ scan_chunk_fuel f only pre (firstn k (b ++ tail))
       = Some (map triple (nb_keep only rs1) ++ [(-1, pre + zlen b1, [])]).
Proof.
  induction rs as [|r rs IH]; intros b tail k f only pre Hok Hb Ht Hk Hf.
  - apply Ok_inj in Hb. subst b. exists [], [], [], []. cbn [app] in *.
    repeat split; auto; [cbn; lia|].
    destruct f; [lia|]. rewrite Ht. rewrite zlen_nil, Z.add_0_r. reflexivity.
  - cbn [forallb] in Hok. apply andb_prop in Hok as [Hr Hok]. apply nb_ok_rec in Hr as (Hr & Hid).
    cbn [dump_all] in Hb. apply bind_ok in Hb as (b0 & E0 & Hb).
    apply bind_ok in Hb as (b' & E' & Hb). apply Ok_inj in Hb. subst b.
    rewrite <- app_assoc in *.
    destruct (le_lt_dec (List.length b0) k) as [Hle|Hlt].
    + destruct (as_binary_ok _ Hr) as (h & z & Eb' & _ & _ & Lhz & Bb & Sc).
      pose proof E0 as E0'. rewrite Eb' in E0. apply Ok_inj in E0. subst b0.
      set (b0 := h ++ z ++ rec_data r) in *.
      assert (Lb0 : (2 <= List.length b0)%nat).
      { unfold b0. rewrite app_assoc, app_length. lia. }
      destruct f as [|f]; [lia|].
      destruct (IH b' tail (k - List.length b0)%nat f only (pre + zlen b0)) as
        (rs1 & rs2 & b1 & b2 & -> & D1 & D2 & -> & L1 & Full & S1); auto;
        [revert Hk; rewrite !app_length; lia|lia|].
      exists (r :: rs1), rs2, (b0 ++ b1), b2.
      repeat split; auto.
      * cbn [dump_all]. rewrite Eb'. cbn [bind]. rewrite D1. reflexivity.
      * now rewrite app_assoc.
      * rewrite app_length. lia.
      * intro Hke. apply Full. rewrite Hke, app_length. lia.
      * rewrite firstn_app, (firstn_all2 b0) by lia.
        set (t := firstn (k - List.length b0) ((b1 ++ b2) ++ tail)) in *.
        cbn [scan_chunk_fuel].
        assert (Hh : nb_hdr (b0 ++ t) = Ok (rec_id r, zlen (rec_data r), rec_data r ++ t)).
        { unfold b0. rewrite <- !app_assoc.
          pose proof (Sc (rec_data r ++ t)) as Sc'.
          destruct (enc_id_ok (rec_id r)) as (h' & Eh & _ & Bh & Sh).
          { now apply rec_ok_inv in Hr as (? & _). }
          (* header does not look at bytes after it *)
          assert (Hx : nb_hdr ((h ++ z) ++ []) = Ok (rec_id r, zlen (rec_data r), [])).
          { rewrite nb_hdr_scan.
            - rewrite <- app_assoc, Sc. cbn [bind]. rewrite wrap16_small by lia. reflexivity.
            - rewrite app_nil_r. unfold b0 in Bb; rewrite app_assoc, bytes_ok_app in Bb.
              now apply andb_prop in Bb as [? _]. }
          rewrite app_nil_r in Hx.
          assert (Happ : forall q, nb_hdr ((h ++ z) ++ q) = Ok (rec_id r, zlen (rec_data r), q)).
          { intro q. clear - Hx. unfold nb_hdr in *.
            apply bind_ok in Hx as ((i & r1) & Hi & Hx).
            apply bind_ok in Hx as ((sz & r2) & Hs & Hx). injection Hx as -> -> ->.
            assert (A : nb_id ((h ++ z) ++ q) = Ok (rec_id r, r1 ++ q)).
            { unfold nb_id in *. rd Hi (h ++ z) q.
              destruct (Z.land x 0x80 =? 0); [injection Hi as <- <-; reflexivity|].
              rd Hi r0 q. injection Hi as <- <-. reflexivity. }
            rewrite A. cbn [bind].
            assert (B : nb_sz (r1 ++ q) = Ok (zlen (rec_data r), q)).
            { unfold nb_sz in *. rd Hs r1 q.
              destruct (Z.land x 0x80 =? 0); [injection Hs as <- ->; reflexivity|].
              rd Hs r0 q. destruct (Z.land _ 0x4000 =? 0); [injection Hs as <- ->; reflexivity|].
              rd Hs r2 q. destruct (Z.land _ 0x200000 =? 0); [injection Hs as <- ->; reflexivity|].
              rd Hs r3 q. injection Hs as <- ->. reflexivity. }
            rewrite B. reflexivity. }
          rewrite app_assoc. apply Happ. }
        rewrite Hh. replace (zlen (rec_data r ++ t) <? zlen (rec_data r)) with false
          by (rewrite zlen_app; pose proof (zlen_nonneg t); lia).
        rewrite zlen_to_nat, skipn_app_exact, firstn_app_exact.
        replace (zlen (b0 ++ t) - zlen t) with (zlen b0) by (rewrite zlen_app; lia).
        rewrite S1. unfold nb_keep. cbn [filter].
        rewrite zlen_app, Z.add_assoc.
        destruct (nb_wanted only (rec_id r)); reflexivity.
    + exists [], (r :: rs), [], (b0 ++ b'). repeat split; auto.
      * cbn [dump_all]. rewrite E0. cbn [bind]. rewrite E'. reflexivity.
      * cbn; lia.
      * intro Hke. rewrite app_length in Hke. lia.
      * rewrite firstn_app. replace (k - List.length b0)%nat with 0%nat by lia.
        cbn [firstn]. rewrite app_nil_r. destruct f; [lia|].
        pose proof (@stuck_cut r b0 k Hr E0 Hlt k f only pre) as Hs.
        rewrite firstn_firstn, Nat.min_id in Hs. rewrite Hs.
        rewrite zlen_nil, Z.add_0_r. reflexivity.
Qed.

Lemma nb_consume_triples rs o chunk :
  forallb (fun r => 0 <=? rec_id r) rs = true ->
  nb_consume (map triple rs ++ [(-1, o, [])]) chunk = (rs, skipn (Z.to_nat o) chunk).
Proof.
  induction rs as [|r rs IH]; intro H; [reflexivity|].
  cbn [forallb] in H. apply andb_prop in H as [H0 H]. cbn [map app nb_consume triple].
  replace (rec_id r <? 0) with false by lia. rewrite IH by exact H.
  destruct r; reflexivity.
Qed.

Lemma nb_keep_nonneg only rs : forallb nb_ok rs = true ->
  forallb (fun r => 0 <=? rec_id r) (nb_keep only rs) = true.
Proof.
  intro H. rewrite forallb_forall in *. intros r Hin. unfold nb_keep in Hin.
  apply filter_In in Hin as [Hin _]. apply H, nb_ok_rec in Hin. lia.
Qed.

Lemma firstn_plus A n m (l : list A) : firstn (n + m) l = firstn n l ++ firstn m (skipn n l).
Proof.
  revert l; induction n; intro l; [reflexivity|]. destruct l; cbn; [now rewrite firstn_nil|].
  now rewrite IHn.
Qed.

(** One iteration of the outer loop, started with [chunk ++ rest] equal to
    complete records [rs] followed by a stuck tail. *)
Lemma nb_step rs b tail bsz only chunk rest :
  forallb nb_ok rs = true -> dump_all rs = Ok b -> stuck tail ->
  chunk ++ rest = b ++ tail ->
  chunk ++ firstn bsz rest <> [] ->
  exists rs1 rs2 b2 chunk',
    rs = rs1 ++ rs2 /\ dump_all rs2 = Ok b2 /\ forallb nb_ok rs2 = true
    /\ chunk' ++ skipn bsz rest = b2 ++ tail
    /\ (skipn bsz rest = [] -> rs2 = [])
    /\ forall fuel, nb_scan_loop (S fuel) bsz only chunk rest =
         match nb_scan_loop fuel bsz only chunk' (skipn bsz rest) with
         | None => None
         | Some rs' => Some (nb_keep only rs1 ++ rs')
         end.
Proof.
  intros Hok Hb Ht Hcr Hne.
  set (c := chunk ++ firstn bsz rest) in *.
  assert (Hc : c = firstn (List.length c) (b ++ tail)).
  { rewrite <- Hcr. replace (chunk ++ rest) with (c ++ skipn bsz rest)
      by (unfold c; rewrite <- app_assoc; now rewrite firstn_skipn).
    now rewrite firstn_app_exact. }
  assert (Hlen : (List.length c <= List.length (b ++ tail))%nat).
  { rewrite Hc. rewrite firstn_length. lia. }
  destruct (@scan_chunk_prefix rs b tail (List.length c) (S (List.length c)) only 0 Hok Hb Ht Hlen)
    as (rs1 & rs2 & b1 & b2 & -> & D1 & D2 & -> & L1 & Full & S1); [lia|].
  rewrite forallb_app in Hok. apply andb_prop in Hok as [Hok1 Hok2].
  rewrite <- Hc in S1.
  exists rs1, rs2, b2, (skipn (List.length b1) c).
  assert (Hall : c ++ skipn bsz rest = (b1 ++ b2) ++ tail).
  { unfold c. rewrite <- app_assoc, firstn_skipn. exact Hcr. }
  repeat split; auto.
  - assert (Hb1 : c = b1 ++ skipn (List.length b1) c).
    { rewrite <- (firstn_skipn (List.length b1) c) at 1. f_equal.
      transitivity (firstn (List.length b1) (c ++ skipn bsz rest)).
      - rewrite firstn_app. replace (List.length b1 - List.length c)%nat with 0%nat by lia.
        cbn [firstn]. now rewrite app_nil_r.
      - rewrite Hall, <- app_assoc. apply firstn_app_exact. }
    rewrite Hb1, <- !app_assoc in Hall. now apply app_inv_head in Hall.
  - intro Hr. apply Full. rewrite <- Hall, Hr, app_nil_r. reflexivity.
  - intro fuel. cbn [nb_scan_loop]. fold c. unfold scan_chunk. rewrite S1.
    rewrite nb_consume_triples by now apply nb_keep_nonneg.
    rewrite Z.add_0_l, zlen_to_nat.
    destruct c as [|c0 cc] eqn:Ec; [congruence|]. rewrite <- Ec. reflexivity.
Qed.

Lemma nb_keep_app only a b : nb_keep only (a ++ b) = nb_keep only a ++ nb_keep only b.
Proof. unfold nb_keep. apply filter_app. Qed.

(** Complete stream: the loop terminates with the kept records. *)
Lemma nb_complete bsz only : (0 < bsz)%nat -> forall n rest chunk rs fuel,
  (List.length rest <= n)%nat -> (n + 2 <= fuel)%nat ->
  forallb nb_ok rs = true -> dump_all rs = Ok (chunk ++ rest) ->
  nb_scan_loop fuel bsz only chunk rest = Some (nb_keep only rs).
Proof.
  intro Hbsz. induction n as [n IH] using lt_wf_ind; intros rest chunk rs fuel Hn Hf Hok Hb.
  destruct fuel as [|fuel]; [lia|].
  assert (Hnil : chunk ++ rest = [] -> rs = []).
  { intro Hz. rewrite Hz in Hb. destruct rs as [|r rs]; [reflexivity|].
    cbn [forallb] in Hok. apply andb_prop in Hok as [Hr _]. apply nb_ok_rec in Hr as (Hr & _).
    destruct (as_binary_ok _ Hr) as (h & z & E & _ & _ & L & _). cbn [dump_all] in Hb.
    rewrite E in Hb. cbn [bind] in Hb. apply bind_ok in Hb as (b2 & _ & Hb).
    apply Ok_inj in Hb. apply (f_equal (@List.length Z)) in Hb.
    rewrite !app_length in *. cbn [List.length] in Hb. lia. }
  destruct (chunk ++ firstn bsz rest) as [|c0 cc] eqn:Ec.
  - cbn [nb_scan_loop]. rewrite Ec. apply app_eq_nil in Ec as [-> Ef].
    assert (rest = []) by (destruct rest, bsz; [reflexivity|reflexivity|lia|discriminate]).
    subst rest. rewrite Hnil by reflexivity. reflexivity.
  - destruct (@nb_step rs (chunk ++ rest) [] bsz only chunk rest Hok Hb stuck_nil)
      as (rs1 & rs2 & b2 & chunk' & -> & D2 & Hok2 & Hcr & Full & Hstep);
      [now rewrite app_nil_r|rewrite Ec; discriminate|].
    rewrite Hstep, nb_keep_app. rewrite app_nil_r in Hcr. subst b2.
    destruct (skipn bsz rest) as [|x xs] eqn:Es.
    + rewrite Full in * by reflexivity. apply Ok_inj in D2. apply app_eq_nil in D2 as [-> _].
      destruct fuel; [lia|]. cbn [nb_scan_loop app]. rewrite firstn_nil. reflexivity.
    + assert (Hlt : (List.length (x :: xs) < n)%nat).
      { rewrite <- Es, skipn_length. assert (List.length (skipn bsz rest) > 0)%nat by (rewrite Es; cbn; lia).
        rewrite skipn_length in *. lia. }
      rewrite (IH (List.length (x :: xs)) Hlt (x :: xs) chunk' rs2 fuel); auto. lia.
Qed.

(** Truncated stream: the loop never finishes. *)
Lemma nb_truncated_loops bsz only tail : stuck tail -> tail <> [] -> (0 < bsz)%nat ->
  forall fuel rs b chunk rest, forallb nb_ok rs = true -> dump_all rs = Ok b ->
  chunk ++ rest = b ++ tail -> nb_scan_loop fuel bsz only chunk rest = None.
Proof.
  intros Ht Hne Hbsz. induction fuel as [|fuel IH]; intros rs b chunk rest Hok Hb Hcr; [reflexivity|].
  destruct (@nb_step rs b tail bsz only chunk rest Hok Hb Ht Hcr)
    as (rs1 & rs2 & b2 & chunk' & -> & D2 & Hok2 & Hcr2 & _ & Hstep).
  - intro Hz. apply app_eq_nil in Hz as [-> Hf].
    assert (rest = []) by (destruct rest, bsz; [reflexivity|reflexivity|lia|discriminate]).
    subst rest. symmetry in Hcr. apply app_eq_nil in Hcr as [_ ?]. contradiction.
  - rewrite Hstep. now rewrite (IH _ _ _ _ Hok2 D2 Hcr2).
Qed.

(** Packaged results. *)
Lemma biff_resync rs b rest : forallb rec_ok rs = true -> dump_all rs = Ok b ->
  scan_biff None (b ++ rest) =
    match scan_biff None rest with None => None | Some l => Some (rs ++ l) end.
Proof. intros H E. rewrite (@scan_biff_stream _ _ _ rest H E). now rewrite keep_all. Qed.

Lemma biff_truncated_all rs b k : forallb rec_ok rs = true -> dump_all rs = Ok b ->
  scan_biff None (firstn k b) = Some (fitting (Z.of_nat k) rs).
Proof. intros H E. rewrite (@biff_truncated rs b None k H E). now rewrite keep_all. Qed.

Lemma biff_truncated_filtered rs b k i ids : forallb rec_ok rs = true -> dump_all rs = Ok b ->
  scan_biff (Some (i :: ids)) (firstn k b) = Some (only_ids (i :: ids) (fitting (Z.of_nat k) rs)).
Proof. intros H E. rewrite (@biff_truncated rs b _ k H E). now rewrite keep_only_ids. Qed.

Lemma scan_biff_total only b : exists rs, scan_biff only b = Some rs.
Proof. unfold scan_biff. apply scan_fuel_total. lia. Qed.

Lemma size_prefix i l : dump_sz i = Ok l ->
  base128 l = i /\ continued 0 l = true /\ List.length l = groups i /\ bytes_ok l = true
  /\ forall rest, scan_sz (l ++ rest) = Ok (i, rest).
Proof.
  intro H. destruct (dump_sz_spec _ H) as (H1 & H2 & H3 & H4).
  repeat split; auto. intro rest. now apply scan_sz_dump.
Qed.

Lemma size_prefix_domain i : (exists l, dump_sz i = Ok l) <-> 0 <= i < 2 ^ 29.
Proof.
  split.
  - intros (l & H). destruct (Z.lt_ge_cases i 0) as [Hn|Hn].
    + rewrite dump_sz_err in H by lia. discriminate.
    + destruct (Z.lt_ge_cases i (2 ^ 29)); [lia|].
      rewrite dump_sz_err in H by lia. discriminate.
  - intro H. rewrite dump_sz_eq by exact H. eexists; reflexivity.
Qed.

Lemma nb_ok_all rs : forallb nb_ok rs = true -> forallb rec_ok rs = true.
Proof.
  intro H. rewrite forallb_forall in *. intros r Hin. now apply H, nb_ok_rec in Hin.
Qed.

Lemma nb_keep_keep i ids rs : nb_keep (Some (i :: ids)) rs = keep (Some (i :: ids)) rs.
Proof. reflexivity. Qed.

Lemma scanners_agree rs b bsz i ids fuel :
  forallb nb_ok rs = true -> dump_all rs = Ok b -> (0 < bsz)%nat -> (List.length b + 2 <= fuel)%nat ->
  nb_scan_biff fuel bsz (Some (i :: ids)) b = scan_biff (Some (i :: ids)) b
  /\ nb_scan_biff fuel bsz None b = scan_biff None b.
Proof.
  intros Hok Hb Hbsz Hf. unfold nb_scan_biff.
  assert (A : forall only, nb_scan_loop fuel bsz only [] b = Some (nb_keep only rs)).
  { intro only. apply nb_complete with (List.length b); auto. }
  rewrite !A.
  assert (B : forall only, scan_biff only b = Some (keep only rs)).
  { intro only. rewrite <- (app_nil_r b).
    rewrite (@scan_biff_stream only rs b [] (nb_ok_all Hok) Hb), scan_biff_nil, app_nil_r. reflexivity. }
  rewrite !B. split; reflexivity.
Qed.

Lemma truncated_never_ends rs b r br k bsz only :
  forallb nb_ok rs = true -> dump_all rs = Ok b ->
  rec_ok r = true -> as_binary r = Ok br -> (0 < k < List.length br)%nat -> (0 < bsz)%nat ->
  (forall fuel, nb_scan_biff fuel bsz only (b ++ firstn k br) = None)
  /\ exists l, scan_biff only (b ++ firstn k br) = Some l.
Proof.
  intros Hok Hb Hr Er Hk Hbsz. split; [|apply scan_biff_total].
  intro fuel. unfold nb_scan_biff.
  apply nb_truncated_loops with (firstn k br) rs b; auto.
  - apply stuck_cut with r; auto. lia.
  - intro Hz. apply (f_equal (@List.length Z)) in Hz. rewrite firstn_length in Hz. cbn in Hz. lia.
Qed.

Lemma empty_filter_refuted : exists r b, nb_ok r = true /\ dump_all [r] = Ok b
  /\ scan_biff (Some []) b = Some [r]
  /\ forall bsz fuel, (0 < bsz)%nat -> nb_scan_biff fuel bsz (Some []) b <> Some [r].
Proof.
  exists (mkRec 7 [1]), [7; 1; 1]. repeat split; try reflexivity.
  intros bsz fuel Hbsz Hc. unfold nb_scan_biff in Hc.
  pose proof (@nb_complete bsz (Some []) Hbsz 3 [7; 1; 1] [] [mkRec 7 [1]] (fuel + 5)) as H.
  assert (M : forall f g only c r l, nb_scan_loop f bsz only c r = Some l -> (f <= g)%nat ->
    nb_scan_loop g bsz only c r = Some l).
  { induction f as [|f IH]; intros g only c r l Hl Hg; [discriminate|].
    destruct g as [|g]; [lia|]. cbn [nb_scan_loop] in *.
    destruct (c ++ firstn bsz r); [exact Hl|].
    destruct (scan_chunk only _) as [t|]; [|discriminate].
    destruct (nb_consume t _) as [rs1 c1].
    destruct (nb_scan_loop f bsz only c1 _) as [l'|] eqn:E; [|discriminate].
    rewrite (IH g _ _ _ _ E) by lia. exact Hl. }
  apply M with (g := (fuel + 5)%nat) in Hc; [|lia].
  rewrite H in Hc by (cbn; auto; lia). discriminate.
Qed.

Lemma high_ids_refuted : exists r b, rec_ok r = true /\ dump_all [r] = Ok b
  /\ scan_biff None b = Some [r]
  /\ forall bsz fuel, (List.length b <= bsz)%nat -> nb_scan_biff fuel bsz None b <> Some [r].
Proof.
  exists (mkRec 0x8080 []), [0x80; 0x80; 0]. repeat split; try reflexivity.
  intros bsz fuel Hbsz. cbn [List.length] in Hbsz. unfold nb_scan_biff.
  destruct fuel as [|fuel]; [discriminate|].
  cbn [nb_scan_loop app]. rewrite (firstn_all2 [128; 128; 0]) by (cbn; lia).
  rewrite (skipn_all2 [128; 128; 0]) by (cbn; lia).
  replace (scan_chunk None [128; 128; 0]) with (Some [(-32640, 0, @nil Z); (-1, 3, [])]) by reflexivity.
  cbn [nb_consume Z.ltb Z.compare Z.to_nat skipn Pos.to_nat Pos.iter_op Nat.add].
  destruct fuel as [|fuel]; [discriminate|]. cbn [nb_scan_loop app]. rewrite firstn_nil. discriminate.
Qed.
