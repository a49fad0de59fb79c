(** Windows over lists of chunks. *)
From Verif Require Import Py PyFacts PyText Cell Casts Chunk ChunkSpec ChunkProofs.
From Coq Require Import ZifyBool ZifyNat.
Set Implicit Arguments. Unset Strict Implicit.

Section Window.
  Context (o : oracle).
  (** Values tagged with the kind of their chunk and whether it still holds shared indices. *)
  Definition tden (c : chunk) : list tag := map (pair (kind_of c, raw c)) (ChunkSpec.den o c).
  Local Notation den := tden.
  Lemma stored_len c : stored c = true -> zlen (den c) = k_size c.
  Proof. intro S. unfold tden. rewrite zlen_map. now apply (@ChunkProofs.stored_len o). Qed.
  Lemma take_from c k : stored c = true -> 0 < k < k_size c ->
    exists c', take_chunk c (from k) = Ok c' /\ stored c' = true /\ den c' = skipn (Z.to_nat k) (den c) /\
      k_size c' = k_size c - k.
  Proof.
    intros S H. destruct (@ChunkProofs.take_from o c k S H) as (c' & T1 & T2 & T3 & T4 & T5 & T6).
    exists c'. repeat (split; [assumption|]). split; [|exact T6]. unfold tden. now rewrite T3, T4, T5, map_skipn.
  Qed.
  Lemma take_upto c k : stored c = true -> 0 < k <= k_size c ->
    exists c', take_chunk c (upto k) = Ok c' /\ stored c' = true /\ den c' = firstn (Z.to_nat k) (den c) /\ k_size c' = k.
  Proof.
    intros S H. destruct (@ChunkProofs.take_upto o c k S H) as (c' & T1 & T2 & T3 & T4 & T5 & T6).
    exists c'. repeat (split; [assumption|]). split; [|exact T6]. unfold tden. now rewrite T3, T4, T5, firstn_map.
  Qed.
  Lemma take_mask c m : stored c = true -> zlen m = k_size c ->
    exists c', take_chunk c (IMask m) = Ok c' /\ stored c' = true /\ den c' = mask_list (den c) m /\ k_size c' = true_count m.
  Proof.
    intros S H. destruct (@ChunkProofs.take_mask o c m S H) as (c' & T1 & T2 & T3 & T4 & T5 & T6).
    exists c'. repeat (split; [assumption|]). split; [|exact T6]. unfold tden. now rewrite T3, T4, T5, map_mask_list.
  Qed.

  Definition dens (l : list entry) : list tag := flat_map (fun e => den (snd e)) l.
  Definition all_stored (l : list entry) : Prop := forall e, In e l -> stored (snd e) = true.
  Lemma dens_app a b : dens (a ++ b) = dens a ++ dens b.
  Proof. apply flat_map_app. Qed.
  Lemma dens_cons s c l : dens ((s, c) :: l) = den c ++ dens l.
  Proof. reflexivity. Qed.
  Lemma size_nonneg c : stored c = true -> 0 <= k_size c.
  Proof. intro S. rewrite <- (@stored_len c S). apply zlen_pos. Qed.

  Lemma skipn_plus A (l : list A) a b : skipn b (skipn a l) = skipn (a + b) l.
  Proof. revert l. induction a as [|a IH]; intros [|x l]; cbn; try reflexivity; [apply skipn_nil|apply IH]. Qed.
  Lemma skipn_app_le A (a b : list A) n : (n <= List.length a)%nat -> skipn n (a ++ b) = skipn n a ++ b.
  Proof. intro H. rewrite skipn_app. replace (n - List.length a)%nat with 0%nat by lia. reflexivity. Qed.
  Lemma skipn_app_ge A (a b : list A) n : (List.length a <= n)%nat -> skipn n (a ++ b) = skipn (n - List.length a) b.
  Proof. intro H. rewrite skipn_app, skipn_all2 by exact H. reflexivity. Qed.

  (** Each entry of the result: an untouched object of the input, or a new stored chunk. *)
  Definition derived (src : list entry) (e : entry) : Prop :=
    In e src \/ fst e = None.

  Lemma over_len_ok l : forall off len cum, all_stored l -> 0 <= off -> 0 <= cum < len ->
    exists r cum', over_len l off len cum = Ok (r, cum') /\ all_stored r /\
      dens r = firstn (Z.to_nat (len - cum)) (skipn (Z.to_nat off) (dens l)) /\
      Z.min len cum' = Z.min len (cum + zlen (skipn (Z.to_nat off) (dens l))) /\
      (forall e, In e r -> derived l e) /\ (forall e, In e r -> k_size (snd e) <> 0).
  Proof.
    induction l as [|[src c] l IH]; intros off len cum S Ho Hc.
    - exists [], cum. cbn [over_len dens flat_map]. rewrite skipn_nil, firstn_nil. unfold zlen. cbn [List.length].
      repeat split; try easy. lia.
    - assert (Sc : stored c = true) by (apply (S (src, c)); now left).
      assert (Sl : all_stored l) by (intros e He; apply S; now right).
      pose proof (size_nonneg Sc) as Hz. pose proof (@stored_len c Sc) as Lz.
      assert (Lz' : List.length (den c) = Z.to_nat (k_size c)) by (unfold zlen in Lz; lia).
      assert (Dw : forall r, (forall e, In e r -> derived l e) -> forall e, In e r -> derived ((src, c) :: l) e).
      { intros r Hr e He. destruct (Hr e He) as [H|H]; [left; now right|now right]. }
      cbn [over_len]. destruct ((0 <? off) && (k_size c <=? off)) eqn:E.
      + destruct (IH (off - k_size c) len cum Sl) as (r & cum' & R1 & R2 & R3 & R4 & R5 & R6); [lia|lia|].
        exists r, cum'. rewrite R1. cbn [dens flat_map snd]. change (flat_map (fun e => den (snd e)) l) with (dens l).
        rewrite skipn_app_ge by lia. replace (Z.to_nat off - List.length (den c))%nat with (Z.to_nat (off - k_size c)) by lia.
        split; [reflexivity|]. split; [exact R2|]. split; [exact R3|]. split; [exact R4|]. split; [now apply Dw|exact R6].
      + (* the chunk contains row [off] *)
        assert (P : exists src1 c1, (if 0 <? off then c <- take_chunk c (from off) ;; Ok (None, c) else Ok (src, c)) = Ok (src1, c1) /\
          stored c1 = true /\ den c1 = skipn (Z.to_nat off) (den c) /\ k_size c1 = k_size c - off /\
          ((src1, c1) = (src, c) \/ src1 = None)).
        { destruct (0 <? off) eqn:E0.
          - destruct (@take_from c off Sc) as (c1 & T1 & T2 & T3 & T6); [lia|]. exists None, c1. rewrite T1. cbn [bind].
            repeat split; try assumption. now right.
          - exists src, c. replace off with 0 by lia. cbn [Z.to_nat skipn]. repeat split; try assumption; try lia. now left. }
        destruct P as (src1 & c1 & P1 & P2 & P3 & P4 & P5). rewrite P1. cbn [bind].
        replace (if 0 <? off then 0 else off) with 0 by (destruct (0 <? off) eqn:E0; lia).
        assert (L1 : List.length (den c1) = Z.to_nat (k_size c1)).
        { pose proof (@stored_len c1 P2). unfold zlen in *. lia. }
        pose proof (size_nonneg P2) as Hz1.
        destruct (negb (len =? 0) && (len <? cum + k_size c1)) eqn:E2.
        * (* the window ends inside *)
          destruct (@take_upto c1 (k_size c1 + len - (cum + k_size c1)) P2) as (c2 & T1 & T2 & T3 & T6); [lia|].
          rewrite T1. cbn [bind]. replace (len <=? cum + k_size c1) with true by lia.
          replace (k_size c2 =? 0) with false by lia.
          exists [(None, c2)], (cum + k_size c1). split; [reflexivity|].
          split; [intros e [<-|[]]; exact T2|]. split.
          -- cbn [dens flat_map snd]. rewrite app_nil_r. change (flat_map (fun e => den (snd e)) l) with (dens l).
             rewrite skipn_app_le by lia. rewrite T3, <- P3. replace (k_size c1 + len - (cum + k_size c1)) with (len - cum) by lia.
             rewrite firstn_app. replace (Z.to_nat (len - cum) - List.length (den c1))%nat with 0%nat by lia.
             cbn [firstn]. now rewrite app_nil_r.
          -- split; [|split; [intros e [<-|[]]; now right|intros e [<-|[]]; cbn [snd]; lia]].
             cbn [dens flat_map snd]. change (flat_map (fun e => den (snd e)) l) with (dens l).
             rewrite skipn_app_le by lia. rewrite <- P3. unfold zlen. rewrite app_length. lia.
        * cbn [bind]. destruct (len <=? cum + k_size c1) eqn:E3.
          -- (* the window ends at the end of this chunk *)
             assert (Hl : k_size c1 = len - cum) by lia. replace (k_size c1 =? 0) with false by lia.
             exists [(src1, c1)], (cum + k_size c1). split; [reflexivity|].
             split; [intros e [<-|[]]; exact P2|]. split.
             ++ cbn [dens flat_map snd]. rewrite app_nil_r. change (flat_map (fun e => den (snd e)) l) with (dens l).
                rewrite skipn_app_le by lia. rewrite <- P3. rewrite firstn_app.
                replace (Z.to_nat (len - cum) - List.length (den c1))%nat with 0%nat by lia.
                rewrite firstn_all2 by lia. cbn [firstn]. now rewrite app_nil_r.
             ++ split; [|split; [|intros e [<-|[]]; cbn [snd]; lia]].
                ** cbn [dens flat_map snd]. change (flat_map (fun e => den (snd e)) l) with (dens l).
                   rewrite skipn_app_le by lia. rewrite <- P3. unfold zlen. rewrite app_length. lia.
                ** intros e [<-|[]]. destruct P5 as [-> | ->]; [left; now left|now right].
          -- destruct (IH 0 len (cum + k_size c1) Sl) as (r & cum' & R1 & R2 & R3 & R4 & R5 & R6); [lia|lia|].
             rewrite R1. cbn [bind]. exists ((if k_size c1 =? 0 then [] else [(src1, c1)]) ++ r), cum'.
             split; [reflexivity|].
             assert (D0 : dens (if k_size c1 =? 0 then [] else [(src1, c1)]) = den c1).
             { destruct (k_size c1 =? 0) eqn:E4; cbn; [|apply app_nil_r]. symmetry. apply length_zero_iff_nil. lia. }
             split; [|split; [|split; [|split]]].
             ++ intros e He. apply in_app_or in He. destruct He as [He|He]; [|now apply R2].
                destruct (k_size c1 =? 0); [destruct He|destruct He as [<-|[]]; exact P2].
             ++ transitivity (den c1 ++ dens r); [etransitivity; [apply dens_app|]; f_equal; exact D0|].
                rewrite R3, dens_cons.
                rewrite skipn_app_le by lia. rewrite <- P3. cbn [Z.to_nat skipn].
                rewrite firstn_app. rewrite (firstn_all2 (den c1)) by lia. f_equal. f_equal. lia.
             ++ cbn [dens flat_map snd]. change (flat_map (fun e => den (snd e)) l) with (dens l).
                rewrite skipn_app_le by lia. rewrite <- P3. unfold zlen in *. rewrite app_length.
                cbn [Z.to_nat skipn] in R4. lia.
             ++ intros e He. apply in_app_or in He. destruct He as [He|He]; [|now apply (Dw r)].
                destruct (k_size c1 =? 0); [destruct He|destruct He as [<-|[]]]. destruct P5 as [-> | ->]; [left; now left|now right].
             ++ intros e He. apply in_app_or in He. destruct He as [He|He]; [|now apply R6].
                destruct (k_size c1 =? 0) eqn:E4; [destruct He|destruct He as [<-|[]]]. cbn [snd]. lia.
  Qed.

  Lemma map_nth_seq A (d : A) l n : map (fun i => nth i l d) (seq 0 n) = firstn n l ++ repeat d (n - List.length l).
  Proof.
    revert n. induction l as [|x l IH]; intro n.
    - rewrite firstn_nil. cbn [app List.length]. rewrite Nat.sub_0_r.
      assert (E : forall a, map (fun i => nth i [] d) (seq a n) = repeat d n).
      { induction n as [|n IHn]; intro a; [reflexivity|]. cbn [seq map repeat]. rewrite IHn. now destruct a. }
      apply E.
    - destruct n as [|n]; [reflexivity|]. cbn [seq map nth firstn app List.length Nat.sub]. f_equal.
      rewrite <- seq_shift, map_map. cbn [nth]. apply IH.
  Qed.
  Lemma nth_skipn A (d : A) l a i : nth i (skipn a l) d = nth (a + i) l d.
  Proof. revert l. induction a as [|a IH]; intros [|x l]; cbn; try reflexivity; [now destruct i|apply IH]. Qed.
  Lemma window_eq A (null : A) vals off len :
    window null vals off len
    = firstn (Z.to_nat len) (skipn (Z.to_nat off) vals)
      ++ repeat null (Z.to_nat len - List.length (skipn (Z.to_nat off) vals)).
  Proof.
    unfold window. rewrite <- map_nth_seq. apply map_ext. intro i. symmetry. apply nth_skipn.
  Qed.
  Lemma window_length A (null : A) vals off len : 0 <= len -> zlen (window null vals off len) = len.
  Proof. intro H. unfold window, zlen. rewrite map_length, seq_length. lia. Qed.

  Lemma dens_nulls n : 0 <= n -> dens [(None, nulls n)] = repeat tnull (Z.to_nat n) /\ stored (nulls n) = true.
  Proof.
    intro H. split.
    - cbn [dens flat_map snd]. rewrite app_nil_r. unfold tden, nulls, ChunkSpec.den. cbn [k_data].
      change (kind_of _, raw _) with (KNull, false). induction (Z.to_nat n) as [|k IH]; [reflexivity|].
      cbn [repeat map]. now rewrite IH.
    - unfold stored, shape, nulls. cbn. rewrite Z.eqb_refl. lia.
  Qed.

  (** [take_over] with a positive length. *)
  Lemma take_over_len l off len : all_stored l -> 0 <= off -> 0 < len ->
    exists r, take_over l off len None = Ok r /\ all_stored r /\ dens r = window tnull (dens l) off len /\
      (forall e, In e r -> derived l e) /\ (forall e, In e r -> k_size (snd e) <> 0) /\ r <> [].
  Proof.
    intros S Ho Hl. unfold take_over. destruct (@over_len_ok l off len 0 S) as (r & cum & R1 & R2 & R3 & R4 & R5 & R6); [lia|lia|].
    rewrite R1. cbn [bind]. rewrite window_eq. replace (len - 0) with len in R3 by lia. rewrite <- R3.
    set (tl := skipn (Z.to_nat off) (dens l)) in *. replace (negb (len =? 0)) with true by lia. cbn [andb].
    assert (NE : zlen (dens r ++ repeat tnull (Z.to_nat len - List.length tl)) = len).
    { rewrite R3. unfold zlen in *. rewrite app_length, firstn_length, repeat_length. lia. }
    destruct (cum <? len) eqn:E.
    - exists (r ++ [(None, nulls (len - cum))]). destruct (@dens_nulls (len - cum)) as [D1 D2]; [lia|].
      split; [reflexivity|]. split; [|split; [|split]].
      + intros e He. apply in_app_or in He. destruct He as [He|[<-|[]]]; [now apply R2|exact D2].
      + rewrite dens_app, D1. f_equal. f_equal. unfold zlen in *. lia.
      + intros e He. apply in_app_or in He. destruct He as [He|[<-|[]]]; [now apply R5|now right].
      + split; [|now destruct r]. intros e He. apply in_app_or in He.
        destruct He as [He|[<-|[]]]; [now apply R6|cbn; lia].
    - exists r. replace (Z.to_nat len - List.length tl)%nat with 0%nat in * by (unfold zlen in *; lia).
      cbn [repeat] in *. rewrite app_nil_r in *. repeat (split; [easy|]). intros ->. unfold zlen in NE. cbn in NE. lia.
  Qed.

  (** With a mask. *)
  Lemma true_count_app a b : true_count (a ++ b) = true_count a + true_count b.
  Proof. unfold true_count, zlen. rewrite filter_app, app_length. lia. Qed.
  Lemma true_count_nonneg a : 0 <= true_count a.
  Proof. apply zlen_pos. Qed.
  Lemma mask_app A (a b : list A) m : mask_list (a ++ b) m = mask_list a m ++ mask_list b (skipn (List.length a) m).
  Proof.
    revert m. induction a as [|x a IH]; intro m; [reflexivity|]. destruct m as [|t m]; cbn.
    - now destruct b.
    - rewrite IH. now destruct t.
  Qed.
  Lemma mask_firstn A (l : list A) m n : (List.length l <= n)%nat -> mask_list l (firstn n m) = mask_list l m.
  Proof.
    revert m n. induction l as [|x l IH]; intros m n H; [reflexivity|]. destruct n as [|n]; [cbn in H; lia|].
    destruct m as [|t m]; [reflexivity|]. cbn in *. rewrite IH by lia. reflexivity.
  Qed.
  Lemma mask_none A (l : list A) m : (forall n, (n <= List.length l)%nat -> true_count (firstn n m) = 0) -> mask_list l m = [].
  Proof.
    revert m. induction l as [|x l IH]; intros m H; [reflexivity|]. destruct m as [|t m]; [reflexivity|]. cbn.
    assert (Ht : t = false).
    { specialize (H 1%nat). cbn in H. destruct t; [|reflexivity]. assert (true_count [true] = 1) by reflexivity.
      rewrite H in H0 by lia. discriminate. }
    subst t. apply IH. intros n Hn. specialize (H (S n)). cbn in H. apply H. lia.
  Qed.
  Lemma true_count_firstn_le m n k : (n <= k)%nat -> true_count (firstn n m) <= true_count (firstn k m).
  Proof.
    intro H. replace (firstn k m) with (firstn n (firstn k m) ++ skipn n (firstn k m)) by apply firstn_skipn.
    rewrite true_count_app, firstn_firstn. replace (Nat.min n k) with n by lia. pose proof (@true_count_nonneg (skipn n (firstn k m))). lia.
  Qed.
  Lemma mask_short A (l : list A) m : mask_list (firstn (List.length m) l) m = mask_list l m.
  Proof. revert l. induction m as [|t m IH]; intros [|x l]; cbn; try reflexivity. now rewrite IH. Qed.

  Lemma slice_mid A (l : list A) a n : 0 <= a -> 0 <= n ->
    py_slice l (Some a) (Some (a + n)) = firstn (Z.to_nat n) (skipn (Z.to_nat a) l).
  Proof.
    intros Ha Hn. unfold py_slice, slice_bounds, clamp. replace (a <? 0) with false by lia. replace (a + n <? 0) with false by lia.
    destruct (Z_le_gt_dec (zlen l) a) as [L|L].
    - rewrite !Z.min_l by lia. rewrite (@skipn_all2 _ (Z.to_nat a)) by (unfold zlen in L; lia). rewrite firstn_nil.
      replace (Z.to_nat (zlen l - zlen l)) with 0%nat by lia. reflexivity.
    - rewrite (Z.min_r (zlen l) a) by lia. destruct (Z_le_gt_dec (zlen l) (a + n)) as [L2|L2].
      + rewrite Z.min_l by lia. rewrite !firstn_all2; [reflexivity| |]; rewrite skipn_length; unfold zlen in *; lia.
      + rewrite Z.min_r by lia. f_equal. lia.
  Qed.

  Lemma over_mask_ok l : forall off ioff cum m, all_stored l -> 0 <= off -> 0 <= ioff ->
    exists r cum', over_mask l off ioff cum m = Ok (r, cum') /\ all_stored r /\
      dens r = mask_list (skipn (Z.to_nat off) (dens l)) (skipn (Z.to_nat ioff) m) /\
      cum' = cum + zlen (dens r) /\ (forall e, In e r -> fst e = None /\ k_size (snd e) <> 0).
  Proof.
    induction l as [|[src c] l IH]; intros off ioff cum m S Ho Hi.
    - exists [], cum. cbn [over_mask dens flat_map]. rewrite skipn_nil. unfold zlen. cbn [List.length mask_list].
      repeat split; try easy. lia.
    - assert (Sc : stored c = true) by (apply (S (src, c)); now left).
      assert (Sl : all_stored l) by (intros e He; apply S; now right).
      pose proof (size_nonneg Sc) as Hz. pose proof (@stored_len c Sc) as Lz.
      assert (Lz' : List.length (den c) = Z.to_nat (k_size c)) by (unfold zlen in Lz; lia).
      cbn [over_mask]. destruct ((0 <? off) && (k_size c <=? off)) eqn:E.
      + destruct (IH (off - k_size c) ioff cum m Sl) as (r & cum' & R1 & R2 & R3 & R4 & R5); [lia|lia|].
        exists r, cum'. rewrite R1. cbn [dens flat_map snd]. change (flat_map (fun e => den (snd e)) l) with (dens l).
        rewrite skipn_app_ge by lia. replace (Z.to_nat off - List.length (den c))%nat with (Z.to_nat (off - k_size c)) by lia.
        repeat (split; [assumption || reflexivity|]). exact R5.
      + assert (P : exists c1, (if 0 <? off then take_chunk c (from off) else Ok c) = Ok c1 /\
          stored c1 = true /\ den c1 = skipn (Z.to_nat off) (den c) /\ k_size c1 = k_size c - off).
        { destruct (0 <? off) eqn:E0.
          - destruct (@take_from c off Sc) as (c1 & T1 & T2 & T3 & T6); [lia|]. exists c1. now rewrite T1.
          - exists c. replace off with 0 by lia. cbn [Z.to_nat skipn]. repeat split; try assumption; lia. }
        destruct P as (c1 & P1 & P2 & P3 & P4). rewrite P1. cbn [bind].
        replace (if 0 <? off then 0 else off) with 0 by (destruct (0 <? off) eqn:E0; lia).
        assert (L1 : List.length (den c1) = Z.to_nat (k_size c1)).
        { pose proof (@stored_len c1 P2). unfold zlen in *. lia. }
        pose proof (size_nonneg P2) as Hz1. rewrite slice_mid by lia.
        set (m0 := skipn (Z.to_nat ioff) m). set (ci := firstn (Z.to_nat (k_size c1)) m0).
        assert (Em : skipn (Z.to_nat (ioff + k_size c1)) m = skipn (List.length (den c1)) m0).
        { unfold m0. rewrite L1, skipn_plus. f_equal. lia. }
        assert (Dl : skipn (Z.to_nat off) (dens (@cons entry (src, c) l)) = den c1 ++ dens l).
        { cbn [dens flat_map snd]. rewrite skipn_app_le by lia. now rewrite P3. }
        rewrite Dl, mask_app, <- Em. destruct (true_count ci =? 0) eqn:E2.
        * destruct (IH 0 (ioff + k_size c1) cum m Sl) as (r & cum' & R1 & R2 & R3 & R4 & R5); [lia|lia|].
          exists r, cum'. rewrite R1. split; [reflexivity|]. split; [exact R2|]. split; [|now split].
          rewrite R3. rewrite (@mask_none _ (den c1)); [reflexivity|]. intros n Hn.
          pose proof (@true_count_firstn_le m0 n (Z.to_nat (k_size c1))) as Q. fold ci in Q.
          pose proof (@true_count_nonneg (firstn n m0)). lia.
        * assert (Lc : 0 < zlen ci <= k_size c1).
          { unfold ci in *. unfold zlen. rewrite firstn_length. split; [|lia].
            destruct (firstn (Z.to_nat (k_size c1)) m0) eqn:E3; [discriminate|]. rewrite <- firstn_length, E3. cbn. lia. }
          destruct (@take_upto c1 (zlen ci) P2 Lc) as (c2 & T1 & T2 & T3 & T6). rewrite T1. cbn [bind].
          destruct (@take_mask c2 ci T2) as (c3 & U1 & U2 & U3 & U6); [lia|]. rewrite U1. cbn [bind].
          assert (D3 : den c3 = mask_list (den c1) m0).
          { rewrite U3, T3. replace (Z.to_nat (zlen ci)) with (List.length ci) by (unfold zlen; lia).
            rewrite mask_short. unfold ci. apply mask_firstn. lia. }
          replace (k_size c3 =? 0) with false by lia.
          destruct (IH 0 (ioff + k_size c1) (cum + k_size c3) m Sl) as (r & cum' & R1 & R2 & R3 & R4 & R5); [lia|lia|].
          rewrite R1. cbn [bind]. exists ((None, c3) :: r), cum'. split; [reflexivity|].
          split; [intros e [<-|He]; [exact U2|now apply R2]|]. cbn [Z.to_nat skipn] in R3.
          change (dens ((None, c3) :: r)) with (den c3 ++ dens r).
          split; [now rewrite D3, R3|]. split; [|intros e [<-|He]; [split; [reflexivity|cbn [snd]; lia]|now apply R5]].
          rewrite R4. pose proof (@stored_len c3 U2). unfold zlen in *. rewrite app_length. lia.
  Qed.

  Lemma mask_repeat_le A (x : A) n m : (List.length m <= n)%nat -> mask_list (repeat x n) m = repeat x (Z.to_nat (true_count m)).
  Proof.
    intro H. rewrite <- mask_repeat. rewrite <- mask_short. rewrite firstn_repeat. f_equal. f_equal. lia.
  Qed.
  Lemma take_over_mask l off len m : all_stored l -> 0 <= off -> 0 < true_count m ->
    exists r, take_over l off len (Some m) = Ok r /\ all_stored r /\
      dens r = masked (window tnull (dens l) off (zlen m)) m /\
      (forall e, In e r -> fst e = None /\ k_size (snd e) <> 0) /\ r <> [].
  Proof.
    intros S Ho Hm. unfold take_over. replace (true_count m =? 0) with false by lia.
    destruct (@over_mask_ok l off 0 0 m S) as (r & cum & R1 & R2 & R3 & R4 & R5); [lia|lia|].
    rewrite R1. cbn [bind negb andb]. cbn [Z.to_nat skipn] in R3.
    rewrite <- mask_masked, window_eq. set (tl := skipn (Z.to_nat off) (dens l)) in *.
    replace (Z.to_nat (zlen m)) with (List.length m) by (unfold zlen; lia).
    rewrite mask_app, mask_short, <- R3.
    assert (Lf : List.length (firstn (List.length m) tl) = Nat.min (List.length m) (List.length tl)) by apply firstn_length.
    set (m2 := skipn (List.length (firstn (List.length m) tl)) m).
    assert (L2 : (List.length m2 <= List.length m - List.length tl)%nat) by (unfold m2; rewrite skipn_length; lia).
    rewrite mask_repeat_le by exact L2.
    assert (C : true_count m = zlen (dens r) + true_count m2).
    { set (k := List.length (firstn (List.length m) tl)) in m2.
      assert (E0 : true_count m = true_count (firstn k m) + true_count m2).
      { unfold m2. rewrite <- true_count_app, firstn_skipn. reflexivity. }
      rewrite E0. f_equal. symmetry. rewrite R3, <- mask_short.
      rewrite <- (@mask_firstn _ _ m k) by (unfold k; lia). apply mask_len.
      rewrite (firstn_length k m). unfold k. lia. }
    pose proof (@true_count_nonneg m2) as N2. destruct (cum <? true_count m) eqn:E.
    - exists (r ++ [(None, nulls (true_count m - cum))]). destruct (@dens_nulls (true_count m - cum)) as [D1 D2]; [lia|].
      split; [reflexivity|]. split; [|split; [|split]].
      + intros e He. apply in_app_or in He. destruct He as [He|[<-|[]]]; [now apply R2|exact D2].
      + rewrite dens_app, D1. f_equal. f_equal. lia.
      + intros e He. apply in_app_or in He. destruct He as [He|[<-|[]]]; [now apply R5|split; [reflexivity|cbn; lia]].
      + now destruct r.
    - exists r. replace (true_count m2) with 0 by lia. cbn [Z.to_nat repeat]. rewrite app_nil_r.
      repeat (split; [easy|]). intros ->. cbn in C, R4. unfold zlen in *. cbn in *. lia.
  Qed.
End Window.
