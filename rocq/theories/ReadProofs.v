(** [concatenate] returns what [ReadSpec] says. *)
From Verif Require Import Py PyFacts PyText Cell Casts Chunk ChunkSpec ChunkProofs ChunkWindow ChunkRun ChunkClosed ChunkConcat ReadSpec.
From Coq Require Import ZifyBool ZifyNat.
Set Implicit Arguments. Unset Strict Implicit.

(** *** Rows *)
Lemma keep_ext A (l : list A) f g : forall row, (forall i, (row <= i)%nat -> f i = g i) -> keep_rows row l f = keep_rows row l g.
Proof. induction l as [|x l IH]; intros row H; [reflexivity|]. cbn. rewrite H by lia. rewrite (IH (S row)); [reflexivity|]. intros; apply H; lia. Qed.
Lemma keep_shift A (l : list A) f : forall a row, keep_rows (a + row) l f = keep_rows row l (fun i => f (a + i)%nat).
Proof. induction l as [|x l IH]; intros a row; [reflexivity|]. cbn. rewrite plus_n_Sm, IH. reflexivity. Qed.
Lemma keep_none A (l : list A) f : forall row, (forall i, (row <= i)%nat -> f i = false) -> keep_rows row l f = [].
Proof. induction l as [|x l IH]; intros row H; [reflexivity|]. cbn. rewrite H by lia. apply IH. intros; apply H; lia. Qed.
Lemma keep_all A (l : list A) f : forall row, (forall i, (row <= i)%nat -> f i = true) -> keep_rows row l f = l.
Proof. induction l as [|x l IH]; intros row H; [reflexivity|]. cbn. rewrite H by lia. now rewrite IH by (intros; apply H; lia). Qed.
Lemma keep_app A (a b : list A) f : forall row, keep_rows row (a ++ b) f = keep_rows row a f ++ keep_rows (row + List.length a) b f.
Proof.
  induction a as [|x a IH]; intro row; [cbn; now rewrite Nat.add_0_r|]. cbn [app keep_rows List.length]. rewrite IH, <- plus_n_Sm. cbn [plus]. now destruct (f row).
Qed.
Lemma pieces_shift A (rs : list (list A)) f : forall a row, pieces (a + row) rs f = pieces row rs (fun i => f (a + i)%nat).
Proof. induction rs as [|r rs IH]; intros a row; [reflexivity|]. cbn. rewrite keep_shift, <- Nat.add_assoc, IH. reflexivity. Qed.
Lemma pieces_ext A (rs : list (list A)) f g : forall row, (forall i, (row <= i)%nat -> f i = g i) -> pieces row rs f = pieces row rs g.
Proof. induction rs as [|r rs IH]; intros row H; [reflexivity|]. cbn. rewrite (keep_ext _ H). rewrite (IH (row + List.length r)%nat); [reflexivity|]. intros; apply H; lia. Qed.
Lemma pieces_none A (rs : list (list A)) f : forall row, (forall i, (row <= i)%nat -> f i = false) -> pieces row rs f = [].
Proof. induction rs as [|r rs IH]; intros row H; [reflexivity|]. cbn. rewrite keep_none by exact H. apply IH. intros; apply H; lia. Qed.
Lemma pieces_app A (a b : list (list A)) f : forall row, pieces row (a ++ b) f = pieces row a f ++ pieces (row + List.length (List.concat a)) b f.
Proof.
  induction a as [|x a IH]; intro row; [cbn; now rewrite Nat.add_0_r|]. cbn [app pieces List.concat]. rewrite IH, app_length, Nat.add_assoc. now destruct (keep_rows row x f).
Qed.
Lemma concat_pieces A (rs : list (list A)) f : forall row, List.concat (pieces row rs f) = keep_rows row (List.concat rs) f.
Proof.
  induction rs as [|r rs IH]; intro row; [reflexivity|]. cbn [pieces List.concat]. rewrite keep_app, <- IH. destruct (keep_rows row r f); reflexivity.
Qed.
Definition between (off n : nat) (i : nat) : bool := (off <=? i)%nat && (i <? off + n)%nat.
Lemma keep_between A (l : list A) : forall off n, keep_rows 0 l (between off n) = firstn n (skipn off l).
Proof.
  assert (K : forall (l : list A) n, keep_rows 0 l (between 0 n) = firstn n l).
  { clear. induction l as [|x l IH]; intro n; [now rewrite firstn_nil|]. destruct n as [|n].
    - now apply keep_none.
    - cbn [keep_rows]. change (between 0 (S n) 0) with true. cbv iota. cbn [firstn]. f_equal.
      rewrite (keep_shift l _ 1 0). rewrite <- IH. apply keep_ext. intros i _. unfold between. lia. }
  induction l as [|x l IH]; intros off n; [now rewrite skipn_nil, firstn_nil|]. destruct off as [|off]; [apply K|].
  cbn [keep_rows skipn]. change (between (S off) n 0) with false. cbv iota. rewrite (keep_shift l _ 1 0), <- IH. apply keep_ext. intros i _. unfold between. lia.
Qed.
Definition by_mask (off : nat) (m : list bool) (i : nat) : bool := (off <=? i)%nat && nth (i - off) m false.
Lemma keep_mask A (l : list A) : forall off m, keep_rows 0 l (by_mask off m) = mask_list (skipn off l) m.
Proof.
  assert (K : forall (l : list A) m, keep_rows 0 l (by_mask 0 m) = mask_list l m).
  { clear. induction l as [|x l IH]; intro m; [reflexivity|]. destruct m as [|b m].
    - apply keep_none. intros i _. unfold by_mask. now destruct (i - 0)%nat.
    - cbn [keep_rows]. change (by_mask 0 (b :: m) 0) with b. rewrite (keep_shift l _ 1 0). cbn [mask_list].
      rewrite <- IH. rewrite (@keep_ext _ l (fun i => by_mask 0 (b :: m) (1 + i)) (by_mask 0 m)); [reflexivity|].
      intros i _. unfold by_mask. cbn [plus Nat.leb andb]. now rewrite !Nat.sub_0_r. }
  induction l as [|x l IH]; intros off m; [now rewrite skipn_nil|]. destruct off as [|off]; [apply K|].
  cbn [keep_rows skipn]. change (by_mask (S off) m 0) with false. cbv iota. rewrite (keep_shift l _ 1 0), <- IH. apply keep_ext. intros i _. unfold by_mask. reflexivity.
Qed.
Lemma cons_pieces A row (r : list A) rs f : pieces row (r :: rs) f = match keep_rows row r f with [] => [] | p => [p] end ++ pieces (row + List.length r) rs f.
Proof. cbn. now destruct (keep_rows row r f). Qed.

Section Read.
  Context (o : oracle) (cf : conf).
  Local Notation den := (tden o).
  Definition runs_of (l : list entry) : list (list tag) := map (fun e => den (snd e)) l.

  Lemma over_len_runs l : forall off len cum r cum', all_stored l -> 0 <= off -> 0 <= cum < len ->
    over_len l off len cum = Ok (r, cum') -> runs_of r = pieces 0 (runs_of l) (between (Z.to_nat off) (Z.to_nat (len - cum))).
  Proof.
    induction l as [|[src c] l IH]; intros off len cum r cum' S Ho Hc; cbn [over_len].
    - intros [= <- <-]. reflexivity.
    - assert (Sc : stored c = true) by (apply (S (src, c)); now left).
      assert (Sl : all_stored l) by (intros e He; apply S; now right).
      pose proof (size_nonneg o Sc) as Hz. pose proof (@stored_len o c Sc) as Lz.
      assert (Lz' : List.length (den c) = Z.to_nat (k_size c)) by (unfold zlen in Lz; lia).
      change (runs_of ((src, c) :: l)) with (den c :: runs_of l). rewrite cons_pieces. cbn [plus].
      rewrite keep_between.
      replace (List.length (den c)) with (List.length (den c) + 0)%nat by lia. rewrite pieces_shift.
      destruct ((0 <? off) && (k_size c <=? off)) eqn:E.
      + intro R. pose proof (fun a b => IH _ _ _ _ _ Sl a b R) as Q; rewrite Q by lia; clear Q. rewrite skipn_all2, firstn_nil by lia. cbn [app].
        apply pieces_ext. intros i _. unfold between. lia.
      + assert (P : exists src1 c1, (if 0 <? off then c <- take_chunk c (from off) ;; Ok (None, c) else Ok (src, c)) = Ok (src1, c1) /\
          stored c1 = true /\ den c1 = skipn (Z.to_nat off) (den c) /\ k_size c1 = k_size c - off).
        { destruct (0 <? off) eqn:E0.
          - destruct (@take_from o c off Sc) as (c1 & T1 & T2 & T3 & T6); [lia|]. exists None, c1. rewrite T1. cbn [bind].
            repeat split; try assumption.
          - exists src, c. replace off with 0 by lia. cbn [Z.to_nat skipn]. repeat split; try assumption; try lia. }
        destruct P as (src1 & c1 & P1 & P2 & P3 & P4). rewrite P1. cbn [bind].
        replace (if 0 <? off then 0 else off) with 0 by (destruct (0 <? off) eqn:E0; lia).
        assert (L1 : List.length (den c1) = Z.to_nat (k_size c1)).
        { pose proof (@stored_len o c1 P2). unfold zlen in *. lia. }
        pose proof (size_nonneg o P2) as Hz1. rewrite <- P3.
        destruct (negb (len =? 0) && (len <? cum + k_size c1)) eqn:E2.
        * destruct (@take_upto o c1 (k_size c1 + len - (cum + k_size c1)) P2) as (c2 & T1 & T2 & T3 & T6); [lia|].
          rewrite T1. cbn [bind]. replace (len <=? cum + k_size c1) with true by lia.
          replace (k_size c2 =? 0) with false by lia. intros [= <- <-].
          rewrite pieces_none by (intros i _; unfold between; lia). rewrite app_nil_r. cbn [runs_of map snd].
          replace (k_size c1 + len - (cum + k_size c1)) with (len - cum) in * by lia. rewrite <- T3.
          destruct (den c2) eqn:D2; [|reflexivity]. pose proof (@stored_len o c2 T2) as L2. rewrite D2 in L2. unfold zlen in L2. cbn in L2. lia.
        * cbn [bind].
          assert (D0 : runs_of (if k_size c1 =? 0 then [] else [(src1, c1)]) = match firstn (Z.to_nat (len - cum)) (den c1) with [] => [] | p => [p] end).
          { rewrite firstn_all2 by lia. destruct (k_size c1 =? 0) eqn:E4.
            - replace (den c1) with (@nil tag); [reflexivity|]. symmetry. apply length_zero_iff_nil. lia.
            - cbn [runs_of map snd]. destruct (den c1); [cbn in L1; lia|reflexivity]. }
          destruct (len <=? cum + k_size c1) eqn:E3.
          -- intros [= <- <-]. rewrite pieces_none by (intros i _; unfold between; lia). now rewrite app_nil_r.
          -- intro R. destruct (over_len l 0 len (cum + k_size c1)) as [[l' cu]|] eqn:E5; [|discriminate]. cbn [bind] in R. injection R as <- <-.
             unfold runs_of. rewrite map_app. fold (runs_of l'). f_equal; [exact D0|].
             pose proof (fun a b => IH _ _ _ _ _ Sl a b E5) as Q; rewrite Q by lia; clear Q. apply pieces_ext. intros i _. unfold between. lia.
  Qed.
  Lemma over_mask_runs l : forall off ioff cum m r cum', all_stored l -> 0 <= off -> 0 <= ioff ->
    over_mask l off ioff cum m = Ok (r, cum') -> runs_of r = pieces 0 (runs_of l) (by_mask (Z.to_nat off) (skipn (Z.to_nat ioff) m)).
  Proof.
    induction l as [|[src c] l IH]; intros off ioff cum m r cum' S Ho Hi; cbn [over_mask].
    - intros [= <- <-]. reflexivity.
    - assert (Sc : stored c = true) by (apply (S (src, c)); now left).
      assert (Sl : all_stored l) by (intros e He; apply S; now right).
      pose proof (size_nonneg o Sc) as Hz. pose proof (@stored_len o c Sc) as Lz.
      assert (Lz' : List.length (den c) = Z.to_nat (k_size c)) by (unfold zlen in Lz; lia).
      change (runs_of ((src, c) :: l)) with (den c :: runs_of l). rewrite cons_pieces. cbn [plus].
      rewrite keep_mask.
      replace (List.length (den c)) with (List.length (den c) + 0)%nat by lia. rewrite pieces_shift.
      set (m0 := skipn (Z.to_nat ioff) m).
      destruct ((0 <? off) && (k_size c <=? off)) eqn:E.
      + intro R. pose proof (fun a b => IH _ _ _ _ _ _ Sl a b R) as Q; rewrite Q by lia; clear Q. rewrite (@skipn_all2 _ _ (den c)) by lia. cbn [mask_list app].
        apply pieces_ext. intros i _. unfold by_mask. fold m0.
        replace (Z.to_nat off <=? List.length (den c) + i)%nat with (Z.to_nat (off - k_size c) <=? i)%nat by lia.
        do 2 f_equal. lia.
      + assert (P : exists c1, (if 0 <? off then take_chunk c (from off) else Ok c) = Ok c1 /\
          stored c1 = true /\ den c1 = skipn (Z.to_nat off) (den c) /\ k_size c1 = k_size c - off).
        { destruct (0 <? off) eqn:E0.
          - destruct (@take_from o c off Sc) as (c1 & T1 & T2 & T3 & T6); [lia|]. exists c1. now rewrite T1.
          - exists c. replace off with 0 by lia. cbn [Z.to_nat skipn]. repeat split; try assumption; lia. }
        destruct P as (c1 & P1 & P2 & P3 & P4). rewrite P1. cbn [bind].
        replace (if 0 <? off then 0 else off) with 0 by (destruct (0 <? off) eqn:E0; lia).
        assert (L1 : List.length (den c1) = Z.to_nat (k_size c1)).
        { pose proof (@stored_len o c1 P2). unfold zlen in *. lia. }
        pose proof (size_nonneg o P2) as Hz1. rewrite slice_mid by lia. fold m0. rewrite <- P3.
        set (ci := firstn (Z.to_nat (k_size c1)) m0).
        assert (Rest : forall cu r' cu', over_mask l 0 (ioff + k_size c1) cu m = Ok (r', cu') ->
          runs_of r' = pieces 0 (runs_of l) (fun i => by_mask (Z.to_nat off) m0 (List.length (den c) + i))).
        { intros cu r' cu' R. pose proof (fun a b => IH _ _ _ _ _ _ Sl a b R) as Q; rewrite Q by lia; clear Q. apply pieces_ext. intros i _. unfold by_mask, m0.
          replace (Z.to_nat off <=? List.length (den c) + i)%nat with true by lia. cbn [Z.to_nat Nat.leb andb].
          rewrite !nth_skipn. f_equal. lia. }
        destruct (true_count ci =? 0) eqn:E2.
        * intro R. rewrite (Rest _ _ _ R). rewrite (@mask_none _ (den c1)); [reflexivity|]. intros n Hn.
          pose proof (@true_count_firstn_le m0 n (Z.to_nat (k_size c1))) as Q. fold ci in Q.
          pose proof (@true_count_nonneg (firstn n m0)). lia.
        * assert (Lc : 0 < zlen ci <= k_size c1).
          { unfold ci in *. unfold zlen. rewrite firstn_length. split; [|lia].
            destruct (firstn (Z.to_nat (k_size c1)) m0) eqn:E3; [discriminate|]. rewrite <- firstn_length, E3. cbn. lia. }
          destruct (@take_upto o c1 (zlen ci) P2 Lc) as (c2 & T1 & T2 & T3 & T6). rewrite T1. cbn [bind].
          destruct (@take_mask o c2 ci T2) as (c3 & U1 & U2 & U3 & U6); [lia|]. rewrite U1. cbn [bind].
          assert (D3 : den c3 = mask_list (den c1) m0).
          { rewrite U3, T3. replace (Z.to_nat (zlen ci)) with (List.length ci) by (unfold zlen; lia).
            rewrite mask_short. unfold ci. apply mask_firstn. lia. }
          replace (k_size c3 =? 0) with false by lia. intro R.
          destruct (over_mask l 0 (ioff + k_size c1) (cum + k_size c3) m) as [[l' cu]|] eqn:E5; [|discriminate]. cbn [bind] in R. injection R as <- <-.
          cbn [runs_of map snd]. fold (runs_of l'). rewrite (Rest _ _ _ E5), <- D3.
          destruct (den c3) eqn:Dc; [|reflexivity]. pose proof (@stored_len o c3 U2) as L3. rewrite Dc in L3. unfold zlen in L3. cbn in L3. lia.
  Qed.

  Lemma keep_repeat A (x : A) f : forall n row, exists k, keep_rows row (repeat x n) f = repeat x k.
  Proof. induction n as [|n IH]; intro row; [now exists 0%nat|]. cbn. destruct (IH (S row)) as (k & ->). destruct (f row); [now exists (S k)|now exists k]. Qed.
  (** The last run, of nulls, as long as cells are missing. *)
  Lemma last_run A (rs : list (list A)) x n f : let l := keep_rows 0 (List.concat (rs ++ [repeat x n])) f in
    let miss := (List.length l - List.length (List.concat (pieces 0 rs f)))%nat in
    pieces 0 (rs ++ [repeat x n]) f = pieces 0 rs f ++ match miss with 0%nat => [] | k => [repeat x k] end.
  Proof.
    cbv zeta. rewrite <- concat_pieces, pieces_app. cbn [pieces plus]. destruct (@keep_repeat A x f n (List.length (List.concat rs))) as (k & ->).
    f_equal. rewrite concat_app, app_length.
    assert (E : match repeat x k with [] => [] | (_ :: _) as p => [p] end = match k with 0%nat => [] | S _ => [repeat x k] end) by now destruct k.
    rewrite E. set (a := List.length _). destruct k as [|k]; [cbn; now rewrite Nat.add_0_r, Nat.sub_diag|].
    cbn [List.concat]. rewrite app_nil_r, repeat_length. now replace (a + S k - a)%nat with (S k) by lia.
  Qed.

  Lemma runs_number store i : runs_of (number i store) = map (cells_of o) store.
  Proof. revert i. induction store as [|c l IH]; intro i; [reflexivity|]. cbn. unfold runs_of in IH. rewrite IH. reflexivity. Qed.
  Lemma concat_runs l : List.concat (runs_of l) = dens o l.
  Proof. unfold runs_of, dens. symmetry. apply flat_map_concat_map. Qed.
  Lemma runs_app a b : runs_of (a ++ b) = runs_of a ++ runs_of b.
  Proof. apply map_app. Qed.
  Lemma runs_nulls n : 0 <= n -> runs_of [(None, nulls n)] = [repeat tnull (Z.to_nat n)].
  Proof. intro H. destruct (@dens_nulls o n H) as [D _]. unfold dens in D. cbn [flat_map snd] in D. rewrite app_nil_r in D. cbn [runs_of map snd]. now rewrite D. Qed.

  Lemma request_not_odd off len idx : request off len idx = true -> odd_request off len idx = false /\ Z.max 0 off = off.
  Proof. unfold request, odd_request. destruct idx; intro H; split; lia. Qed.
  Theorem picked_runs store off len idx es : column store = true -> request off len idx = true -> picked store off len idx = Ok es ->
    runs_of es = chosen_runs (map (cells_of o) store) off len idx.
  Proof.
    intros C R. pose proof (number_stored C) as S. unfold picked, chosen_runs. destruct (request_not_odd R) as [-> ->]. rewrite <- (runs_number store 0). set (l := number 0 store) in *.
    unfold windowed, request in *. destruct idx as [m|].
    - rewrite orb_true_r. unfold take_over. replace (true_count m =? 0) with false by lia.
      destruct (@over_mask_ok o l off 0 0 m S) as (r & cum & R1 & R2 & R3 & R4 & R5); [lia|lia|].
      rewrite R1. cbn [bind negb andb]. intros [= <-].
      pose proof (fun a b => @over_mask_runs l off 0 0 m r cum S a b R1) as Q. specialize (Q ltac:(lia) ltac:(lia)). cbn [Z.to_nat skipn] in Q.
      unfold past_end. rewrite (@pieces_ext _ _ (chosen off len (Some m)) (by_mask (Z.to_nat off) m)).
      2: { intros i _. unfold chosen, by_mask. f_equal. lia. }
      rewrite last_run, <- Q, concat_runs, keep_mask, concat_app, concat_runs. cbn [List.concat]. rewrite app_nil_r.
      set (big := dens o l ++ repeat tnull (Z.to_nat (off + zlen m))).
      assert (Lb : List.length (mask_list (skipn (Z.to_nat off) big) m) = Z.to_nat (true_count m)).
      { assert (E : zlen (mask_list (skipn (Z.to_nat off) big) m) = true_count m); [|unfold zlen in E; lia].
        rewrite <- mask_short. apply mask_len. rewrite firstn_length. unfold big. rewrite skipn_length, app_length, repeat_length. unfold zlen. lia. }
      rewrite Lb. destruct (cum <? true_count m) eqn:Ec.
      + rewrite runs_app, runs_nulls by lia. f_equal. unfold zlen in R4. destruct (Z.to_nat (true_count m) - List.length (dens o r))%nat eqn:Ek; [lia|].
        do 2 f_equal. lia.
      + replace (Z.to_nat (true_count m) - List.length (dens o r))%nat with 0%nat by (unfold zlen in R4; lia). now rewrite app_nil_r.
    - destruct ((off =? 0) && (len =? 0)) eqn:E.
      + replace (negb (off =? 0) || negb (len =? 0) || false) with false by lia. intros [= <-].
        unfold past_end. replace (off + len) with 0 by lia. cbn [Z.to_nat repeat]. rewrite pieces_app. cbn [pieces plus keep_rows]. rewrite app_nil_r.
        assert (All : forall i, chosen off len None i = true) by (intro i; unfold chosen; now rewrite E).
        assert (NE : forall r, In r (runs_of l) -> r <> []).
        { intros r Hr. apply in_map_iff in Hr. destruct Hr as ([k c] & <- & He). cbn [snd]. destruct (ChunkConcat.number_in He) as (j & _ & _ & En). apply nth_error_In in En.
          destruct (proj2 (column_ok C) c En) as [Sc Zc]. intro Z0. pose proof (@stored_len o c Sc) as L. rewrite Z0 in L. cbn in L. lia. }
        clearbody l. generalize 0%nat as row. revert NE. generalize (runs_of l) as rs. induction rs as [|r rs IH]; intros NE row; [reflexivity|].
        cbn [pieces]. rewrite keep_all by (intros; apply All). rewrite <- IH by (intros; apply NE; now right). destruct r; [|reflexivity]. destruct (NE []); [now left|reflexivity].
      + replace (negb (off =? 0) || negb (len =? 0) || false) with true by lia. unfold take_over.
        destruct (@over_len_ok o l off len 0 S) as (r & cum & R1 & R2 & R3 & R4 & R5 & R6); [lia|lia|].
        rewrite R1. cbn [bind]. intros [= <-].
        pose proof (fun a b => @over_len_runs l off len 0 r cum S a b R1) as Q. specialize (Q ltac:(lia) ltac:(lia)). rewrite Z.sub_0_r in *.
        unfold past_end. rewrite (@pieces_ext _ _ (chosen off len None) (between (Z.to_nat off) (Z.to_nat len))).
        2: { intros i _. unfold chosen, between. lia. }
        rewrite last_run, <- Q, concat_runs, keep_between, concat_app, concat_runs. cbn [List.concat]. rewrite app_nil_r.
        set (big := dens o l ++ repeat tnull (Z.to_nat (off + len))).
        assert (Lb : List.length (firstn (Z.to_nat len) (skipn (Z.to_nat off) big)) = Z.to_nat len).
        { rewrite firstn_length, skipn_length. unfold big. rewrite app_length, repeat_length. lia. }
        rewrite Lb.
        assert (Lr : List.length (dens o r) = Z.to_nat (Z.min len cum)).
        { rewrite R3, firstn_length. unfold zlen in R4. lia. }
        replace (negb (len =? 0)) with true by lia. cbn [andb]. unfold zlen in R4.
        destruct (cum <? len) eqn:Ec.
        * rewrite runs_app, runs_nulls by lia. f_equal. destruct (Z.to_nat len - List.length (dens o r))%nat eqn:Ek; [lia|]. do 2 f_equal. lia.
        * replace (Z.to_nat len - List.length (dens o r))%nat with 0%nat by lia. now rewrite app_nil_r.
  Qed.

  (** *** Conversions *)
  Lemma concat_tags ds : List.concat (map tags ds) = all_tags ds.
  Proof. symmetry. apply flat_map_concat_map. Qed.
  Lemma is_str_tags d : wf d -> is_str (tags d) = kind_eqb (d_kind d) KStr.
  Proof.
    intros (_ & _ & _ & W). unfold is_str, some_kind, tags. destruct (d_vals d) as [|v r]; [easy|]. cbn [map existsb]. unfold t_kind at 1. cbn [fst].
    destruct (kind_eqb (d_kind d) KStr) eqn:E; [reflexivity|]. cbn [orb]. clear W. induction r as [|w r IH]; [reflexivity|]. cbn [map existsb]. unfold t_kind at 1. cbn [fst]. now rewrite E.
  Qed.
  Lemma dated_tags d : dated o cf (tags d) = by_format o cf d.
  Proof.
    unfold dated, tags, by_format. rewrite forallb_map. unfold t_val. cbn [snd]. induction (d_vals d) as [|v r IH]; [reflexivity|]. cbn [forallb existsb]. now rewrite IH, negb_orb.
  Qed.
  Lemma numeric_tags d : numeric o (tags d) = parses o d.
  Proof. unfold numeric, tags, parses. rewrite forallb_map. reflexivity. Qed.
  Lemma number_in_num0 k r v : isSome (number_of o v) = true -> number_in o (k, r, v) = CNum (num0 o v).
  Proof. unfold number_in, num0, t_val. cbn [snd]. now destruct (number_of o v). Qed.
  Lemma map_number_in d : parses o d = true -> map (number_in o) (tags d) = map CNum (map (num0 o) (d_vals d)).
  Proof.
    intro P. unfold tags. rewrite !map_map. unfold parses in P. rewrite forallb_forall in P. apply map_ext_in. intros v Hv. now apply number_in_num0, P.
  Qed.
  Lemma map_val_tags d : map t_val (tags d) = d_vals d.
  Proof. unfold tags. rewrite map_map. apply map_id. Qed.
  Lemma to_dates_tags d : wf d -> to_dates o cf (tags d) = d_vals (conv_temporal o cf (conv_nums o d)).
  Proof.
    intro W. unfold to_dates. rewrite is_str_tags, dated_tags, numeric_tags by exact W. unfold conv_nums.
    destruct (kind_eqb (d_kind d) KNum) eqn:E.
    - apply kind_ok in E. unfold conv_temporal. rewrite E. cbn [d_kind kind_eqb]. cbn [d_vals].
      unfold tags. rewrite map_map. reflexivity.
    - unfold conv_temporal. destruct (kind_eqb (d_kind d) KStr) eqn:E2.
      + destruct (by_format o cf d); cbn [d_vals]; [unfold tags; rewrite !map_map; reflexivity|].
        destruct (cf_numerics cf); cbn [andb]; [|apply map_val_tags]. destruct (parses o d) eqn:P; cbn [d_vals]; [|apply map_val_tags].
        rewrite <- (map_map (number_in o) (as_time o)). rewrite (map_number_in P), !map_map. reflexivity.
      + destruct W as (W1 & W2 & _). unfold tags. rewrite map_map. rewrite <- W1 in W2. rewrite <- (map_id (d_vals d)) at 2. apply map_ext_in. intros v Hv.
        pose proof (typed_in W2 Hv) as Tv. unfold t_val. cbn [snd]. destruct (d_kind d); try discriminate; destruct v; try discriminate; reflexivity.
  Qed.
  Lemma flat_vals l : flat_map (map t_val) (map tags l) = flat_map d_vals l.
  Proof. induction l as [|d l IH]; [reflexivity|]. cbn [map flat_map]. now rewrite map_val_tags, IH. Qed.
  Lemma to_numbers_tags l : (forall d, In d l -> wf d) ->
    exists l' b, pwalk true (p_numeric o) l = Ok (l', b) /\ flat_map d_vals l' = to_numbers o (map tags l) /\ (l <> [] -> l' <> []).
  Proof.
    intro W. induction l as [|d l IH]; [exists [], false; repeat split; easy|]. cbn [pwalk map to_numbers]. rewrite p_numeric_eq.
    rewrite is_str_tags, numeric_tags by (apply W; now left).
    destruct IH as (l' & b & I1 & I2 & _); [intros; apply W; now right|].
    destruct (kind_eqb (d_kind d) KStr) eqn:E; cbn [andb].
    - destruct (parses o d) eqn:P; cbn [negb bind andb].
      + rewrite I1. cbn [bind]. eexists. eexists. split; [reflexivity|]. split; [|discriminate]. cbn [flat_map]. rewrite I2. f_equal.
        unfold conv_numeric. rewrite E. cbn [d_vals]. symmetry. now apply map_number_in.
      + eexists. eexists. split; [reflexivity|]. split; [|discriminate]. cbn [flat_map d_vals]. now rewrite flat_vals, map_val_tags.
    - cbn [bind andb]. rewrite I1. cbn [bind]. eexists. eexists. split; [reflexivity|]. split; [|discriminate]. cbn [flat_map]. rewrite I2. f_equal.
      unfold conv_numeric. rewrite E. symmetry. apply map_val_tags.
  Qed.
  (** The array of a run with a known type is that of its values. *)
  Lemma resolved_values l l' fb t vs : p_resolve o cf l = Ok (l', fb) -> p_run o cf l = Ok (mkA t vs) -> mapM (render o t) (flat_map d_vals l') = Ok vs.
  Proof.
    intros R P. unfold p_run in P. rewrite R in P. cbn [bind] in P. unfold p_finish in P. destruct (p_type cf l' fb) as [t'|]; [|discriminate]. cbn [bind] in P.
    destruct l' as [|d r]; [discriminate|]. destruct (mapM (render o t') _) as [v|] eqn:E; [|discriminate]. cbn [bind] in P. injection P as -> ->. exact E.
  Qed.

  Theorem run_expected ds : (forall d, In d ds -> wf d) -> ds <> [] -> p_run o cf ds = expected o cf (map tags ds).
  Proof.
    intros W Ne. assert (Ex : forall A (x y : A), match map tags ds with [] => x | _ :: _ => y end = y) by now destruct ds.
    unfold expected. rewrite Ex. clear Ex. unfold expected_cells, number_type. rewrite concat_tags. set (l := all_tags ds).
    fold (has_T l) (has_N l) (has_S l).
    assert (Plain : resolving cf l = false -> cf_datetime cf && has_T l = false -> p_run o cf ds = (vs <- mapM (render o (type_of o cf l)) (map t_val l) ;; Ok (mkA (type_of o cf l) vs))).
    { intros R _. destruct (@run_plain o cf ds W Ne R) as (vs & P1 & P2). fold l in P1, P2. rewrite P2. exact P1. }
    destruct (has_T l) eqn:T.
    - destruct (cf_datetime cf) eqn:D.
      + pose proof (@run_temporal o cf ds W Ne T D) as Q. cbn [andb]. fold l in Q. destruct (some_raw l) eqn:Rw; [exact Q|]. destruct Q as (vs & Q1 & _).
        rewrite Q1.
        assert (Ed : forallb (datable o cf) (map tags ds) = negb (existsb (fails o cf) ds)).
        { clear -W. induction ds as [|d ds IH]; [reflexivity|]. cbn [map forallb existsb]. rewrite IH by (intros; apply W; now right).
          rewrite negb_orb. f_equal. unfold datable, fails. rewrite is_str_tags, dated_tags, numeric_tags by (apply W; now left).
          destruct (kind_eqb (d_kind d) KStr), (by_format o cf d), (cf_numerics cf), (parses o d); reflexivity. }
        rewrite Ed.
        assert (Et : (if negb (existsb (fails o cf) ds) then TMs else TUtf8) = (if existsb (fails o cf) ds then TUtf8 else TMs)) by now destruct (existsb _ ds).
        rewrite Et.
        assert (Rs : p_resolve o cf ds = Ok (map (conv_temporal o cf) (map (conv_nums o) ds), existsb (fails o cf) (map (conv_nums o) ds))).
        { unfold p_resolve. rewrite p_has_tags by exact W. unfold has_T in T. fold l. rewrite T, D, pwalk_nums. cbn [bind]. rewrite pwalk_temporal.
          destruct (existsb (fun d => kind_eqb (d_kind d) KStr && d_raw d) (map (conv_nums o) ds)) eqn:Er; [|reflexivity]. exfalso.
          unfold p_run, p_resolve in Q1. rewrite p_has_tags in Q1 by exact W. fold l in Q1. rewrite T, D, pwalk_nums in Q1. cbn [bind] in Q1. rewrite pwalk_temporal, Er in Q1. discriminate Q1. }
        pose proof (resolved_values Rs Q1) as M.
        assert (Ev : flat_map (to_dates o cf) (map tags ds) = flat_map d_vals (map (conv_temporal o cf) (map (conv_nums o) ds))).
        { clear -W. induction ds as [|d ds IH]; [reflexivity|]. cbn [map flat_map]. rewrite IH by (intros; apply W; now right). f_equal. apply to_dates_tags, W. now left. }
        rewrite Ev, M. reflexivity.
      + cbn [andb]. rewrite Plain; [|unfold resolving; now rewrite T, D|reflexivity]. unfold type_of, conflict. rewrite T. now destruct (has_N l || has_S l).
    - rewrite andb_false_r. cbn [andb]. destruct (has_N l) eqn:N.
      + destruct (has_S l) eqn:S.
        * destruct (cf_numerics cf) eqn:C.
          -- destruct (@run_numeric o cf ds W Ne T N S C) as (vs & Q1 & _). fold l in Q1. rewrite Q1.
             assert (Ep : forallb (fun r => negb (is_str r) || numeric o r) (map tags ds) = all_parse o l).
             { unfold l. rewrite <- all_parse_tags. unfold texts_parse. rewrite forallb_map. apply forallb_ext_in. intros d Hd.
               rewrite is_str_tags, numeric_tags by (now apply W). now rewrite negb_andb, negb_involutive. }
             rewrite Ep. destruct (to_numbers_tags W) as (l' & b & P1 & P2 & _).
             assert (Rs : p_resolve o cf ds = Ok (l', b)).
             { unfold p_resolve. rewrite !p_has_tags by exact W. fold l. unfold has_T, has_N, has_S in *. now rewrite T, N, S, C. }
             pose proof (resolved_values Rs Q1) as M. rewrite <- P2, M. reflexivity.
          -- rewrite Plain; [|unfold resolving; now rewrite T, C|now rewrite andb_false_r]. unfold type_of, conflict. rewrite T, N, S. reflexivity.
        * rewrite Plain; [|unfold resolving; rewrite T, N, S; apply andb_false_r|now rewrite andb_false_r]. unfold type_of, conflict. rewrite T, N, S. reflexivity.
      + rewrite Plain; [|unfold resolving; rewrite T, N; apply andb_false_r|now rewrite andb_false_r]. unfold type_of, conflict. rewrite T, N. reflexivity.
  Qed.

  (** *** Any request *)
  Lemma over_len_neg l : forall off len cum, off <= 0 -> over_len l off len cum = over_len l 0 len cum.
  Proof.
    induction l as [|[src c] l IH]; intros off len cum H; [reflexivity|]. cbn [over_len]. replace (0 <? off) with false by lia. cbn [andb bind].
    change (0 <? 0) with false. cbn [andb bind].
    destruct (if negb (len =? 0) && (len <? cum + k_size c) then _ else _) as [[s2 c2]|e]; [|reflexivity]. cbn [bind].
    destruct (len <=? cum + k_size c); [reflexivity|]. now rewrite IH by exact H.
  Qed.
  Lemma over_mask_neg l : forall off ioff cum m, off <= 0 -> over_mask l off ioff cum m = over_mask l 0 ioff cum m.
  Proof.
    induction l as [|[src c] l IH]; intros off ioff cum m H; [reflexivity|]. cbn [over_mask]. replace (0 <? off) with false by lia. cbn [andb bind].
    change (0 <? 0) with false. cbn [andb bind]. rewrite (IH off) by exact H.
    destruct (true_count _ =? 0); [reflexivity|]. destruct (take_chunk c _) as [i1|e]; [|reflexivity]. cbn [bind]. destruct (take_chunk i1 _) as [i2|e]; [|reflexivity]. cbn [bind].
    rewrite !(IH off) by exact H. reflexivity.
  Qed.
  (** A run without its last rows. *)
  Lemma slice_neg A (l : list A) k : k < 0 -> slice_list l (mkS None (Some k) None) = slice_list l (mkS None (Some (Z.max 0 (zlen l + k))) None).
  Proof.
    intro H. pose proof (zlen_nonneg l). unfold slice_list, slice_indices. cbn [sl_start sl_stop sl_step]. change (1 =? 0) with false. cbv iota.
    assert (E : slice_stop (zlen l) 1 (Some k) = slice_stop (zlen l) 1 (Some (Z.max 0 (zlen l + k)))); [|now rewrite E].
    unfold slice_stop. change (1 <? 0) with false. cbv iota. replace (k <? 0) with true by lia. replace (Z.max 0 (zlen l + k) <? 0) with false by lia.
    destruct (zlen l + k <? 0) eqn:E, (zlen l <=? Z.max 0 (zlen l + k)) eqn:E2; lia.
  Qed.
  Lemma take_upto_neg c k : stored c = true -> 0 < k_size c -> k < 0 -> exists c', take_chunk c (upto k) = Ok c' /\ k_size c' = Z.max 0 (k_size c + k) /\
    (0 < k_size c + k -> stored c' = true /\ den c' = firstn (Z.to_nat (k_size c + k)) (den c)).
  Proof.
    intros S Hz Hk. pose proof S as S'. unfold stored in S'. apply andb_prop in S'. destruct S' as [Sh Sz].
    destruct (Z.le_gt_cases (k_size c + k) 0) as [L|L].
    - replace (Z.max 0 (k_size c + k)) with 0 by lia. unfold take_chunk, upto. destruct (k_type c =? 0) eqn:T; cbn [bind].
      + eexists. split; [reflexivity|]. split; [|lia]. cbn [k_size]. unfold null_slice. cbn [sl_start sl_stop sl_step or_]. replace (k_size c =? 0) with false by lia.
        assert (Ek : or_ (Some k) (k_size c) = k) by (destruct k; [lia|lia|reflexivity]). cbn [or_] in Ek. rewrite Ek.
        change (0 <? 0) with false. change (1 <? 0) with false. cbv iota. replace (k <? 0) with true by lia. cbv iota. now replace (k_size c + k <=? 0) with true by lia.
      + assert (Z0 : forall A (l : list A), zlen l = k_size c -> slice_list l (mkS None (Some k) None) = Ok []).
        { intros A l El. rewrite slice_neg by exact Hk. replace (Z.max 0 (zlen l + k)) with 0 by lia. rewrite slice_upto; [reflexivity|]. pose proof (zlen_nonneg l). lia. }
        unfold take_data, take_list. unfold shape in Sh. destruct (k_data c); cbn [data_len] in Sz; try lia; rewrite Z0 by lia; cbn [bind]; eexists; (split; [reflexivity|split; [reflexivity|lia]]).
    - assert (E : take_chunk c (upto k) = take_chunk c (upto (k_size c + k))).
      { unfold take_chunk, upto. destruct (k_type c =? 0) eqn:T; cbn [bind].
        - assert (N : null_slice (k_size c) (mkS None (Some k) None) = null_slice (k_size c) (mkS None (Some (k_size c + k)) None)); [|now rewrite N].
          unfold null_slice. cbn [sl_start sl_stop sl_step]. replace (k_size c =? 0) with false by lia.
          assert (Ek : or_ (Some k) (k_size c) = k) by (destruct k; [lia|lia|reflexivity]). assert (Ej : or_ (Some (k_size c + k)) (k_size c) = k_size c + k) by (destruct (k_size c + k); [lia|reflexivity|lia]).
          rewrite Ek, Ej. replace (k <? 0) with true by lia. now replace (k_size c + k <? 0) with false by lia.
        - assert (Z0 : forall A (l : list A), zlen l = k_size c -> slice_list l (mkS None (Some k) None) = slice_list l (mkS None (Some (k_size c + k)) None)).
          { intros A l El. rewrite slice_neg by exact Hk. do 3 f_equal. lia. }
          unfold take_data, take_list. destruct (k_data c); cbn [data_len] in Sz; try reflexivity; rewrite Z0 by lia; reflexivity. }
      rewrite E. destruct (@take_upto o c (k_size c + k) S) as (c' & T1 & T2 & T3 & T4); [lia|]. exists c'. split; [exact T1|]. split; [lia|]. intros _. now split.
  Qed.
  Lemma over_len_odd l : forall off len, (forall e, In e l -> stored (snd e) = true /\ 0 < k_size (snd e)) -> 0 <= off -> len <= 0 ->
    exists r cum, over_len l off len 0 = Ok (r, cum) /\ 0 <= cum /\ (forall e, In e r -> stored (snd e) = true /\ k_size (snd e) <> 0) /\ (forall e, In e r -> derived l e) /\
      runs_of r = (let p := rest_of_run (Z.to_nat off) (runs_of l) in some_run (firstn (Z.to_nat (zlen p + len)) p)).
  Proof.
    induction l as [|[src c] l IH]; intros off len S Ho Hl; cbn [over_len].
    - exists [], 0. repeat split; try easy. cbn [runs_of map rest_of_run]. now rewrite firstn_nil.
    - destruct (S (src, c)) as [Sc Hz]; [now left|]. cbn [snd] in *.
      assert (Sl : forall e, In e l -> stored (snd e) = true /\ 0 < k_size (snd e)) by (intros e He; apply S; now right).
      pose proof (@stored_len o c Sc) as Lz. assert (Lz' : List.length (den c) = Z.to_nat (k_size c)) by (unfold zlen in Lz; lia).
      change (runs_of ((src, c) :: l)) with (den c :: runs_of l). cbn [rest_of_run].
      destruct ((0 <? off) && (k_size c <=? off)) eqn:E.
      + destruct (IH (off - k_size c) len Sl) as (r & cum & I1 & I2 & I3 & I4 & I5); [lia|lia|]. exists r, cum. split; [exact I1|]. split; [exact I2|]. split; [exact I3|].
        split; [intros e He; destruct (I4 e He) as [H|H]; [left; now right|now right]|]. rewrite I5. replace (Z.to_nat off <? List.length (den c))%nat with false by lia.
        now replace (Z.to_nat (off - k_size c)) with (Z.to_nat off - List.length (den c))%nat by lia.
      + replace (Z.to_nat off <? List.length (den c))%nat with true by lia.
        assert (P : exists src1 c1, (if 0 <? off then c <- take_chunk c (from off) ;; Ok (None, c) else Ok (src, c)) = Ok (src1, c1) /\
          stored c1 = true /\ den c1 = skipn (Z.to_nat off) (den c) /\ k_size c1 = k_size c - off /\ (src1 = None \/ (src1, c1) = (src, c))).
        { destruct (0 <? off) eqn:E0.
          - destruct (@take_from o c off Sc) as (c1 & T1 & T2 & T3 & T6); [lia|]. exists None, c1. rewrite T1. cbn [bind].
            repeat split; try assumption. now left.
          - exists src, c. replace off with 0 by lia. cbn [Z.to_nat skipn]. repeat split; try assumption; try lia. now right. }
        destruct P as (src1 & c1 & P1 & P2 & P3 & P4 & P5). rewrite P1. cbn [bind]. cbv zeta. rewrite <- P3.
        pose proof (@stored_len o c1 P2) as L1. rewrite L1. rewrite !Z.add_0_l.
        destruct (negb (len =? 0) && (len <? k_size c1)) eqn:E2.
        * replace (k_size c1 + len - k_size c1) with len by lia. destruct (@take_upto_neg c1 len P2) as (c2 & T1 & T2 & T3); [lia|lia|].
          rewrite T1. cbn [bind]. replace (len <=? k_size c1) with true by lia. eexists. eexists. split; [reflexivity|]. split; [lia|].
          destruct (k_size c2 =? 0) eqn:E3.
          -- repeat split; try easy. replace (Z.to_nat (k_size c1 + len)) with 0%nat by lia. reflexivity.
          -- destruct T3 as [T3 T4]; [lia|]. repeat (apply conj).
             ++ intros e [<-|[]]. cbn [snd]. split; [exact T3|lia].
             ++ intros e [<-|[]]. now right.
             ++ cbn [runs_of map snd]. rewrite <- T4. destruct (den c2) eqn:D2; [|reflexivity]. pose proof (@stored_len o c2 T3) as L2. rewrite D2 in L2. unfold zlen in L2. cbn in L2. lia.
        * cbn [bind]. replace (len <=? k_size c1) with true by lia. replace (k_size c1 =? 0) with false by lia. eexists. eexists. split; [reflexivity|]. split; [lia|]. repeat (apply conj).
          -- intros e [<-|[]]. cbn [snd]. split; [exact P2|lia].
          -- intros e [<-|[]]. destruct P5 as [->|P5]; [now right|left; left; now symmetry].
          -- cbn [runs_of map snd]. assert (len = 0) by lia. subst len. rewrite firstn_all2 by (unfold zlen in L1; lia). destruct (den c1) eqn:D1; [|reflexivity]. unfold zlen in L1. cbn in L1. lia.
  Qed.

  Lemma true_mask_none A (rs : list (list A)) off len m : true_count m = 0 -> pieces 0 rs (chosen off len (Some m)) = [].
  Proof.
    intro T. apply pieces_none. intros i _. unfold chosen. replace (nth (i - Z.to_nat off) m false) with false; [apply andb_false_r|].
    symmetry. generalize (i - Z.to_nat off)%nat as n. revert T. clear. induction m as [|b m IH]; intros T n; [now destruct n|].
    unfold true_count, zlen in *. cbn [filter] in T. destruct b; cbn [List.length] in T; [lia|]. destruct n as [|n]; [reflexivity|]. now apply IH.
  Qed.
  Theorem picked_any store off len idx : column store = true ->
    exists es, picked store off len idx = Ok es /\ (forall e, In e es -> stored (snd e) = true /\ k_size (snd e) <> 0) /\
      runs_of es = chosen_runs (map (cells_of o) store) off len idx /\ (forall e, In e es -> derived (number 0 store) e).
  Proof.
    intro C.
    assert (Proper : request (Z.max 0 off) len idx = true -> picked store off len idx = picked store (Z.max 0 off) len idx ->
      chosen_runs (map (cells_of o) store) off len idx = chosen_runs (map (cells_of o) store) (Z.max 0 off) len idx ->
      exists es, picked store off len idx = Ok es /\ (forall e, In e es -> stored (snd e) = true /\ k_size (snd e) <> 0) /\
        runs_of es = chosen_runs (map (cells_of o) store) off len idx /\ (forall e, In e es -> derived (number 0 store) e)).
    { intros R -> ->. destruct (picked_ok o C R) as (es & P1 & P2 & P3 & P4 & P5). exists es. repeat (split; [assumption|]). split; [now apply picked_runs|exact P5]. }
    unfold chosen_runs, picked, windowed in *. destruct idx as [m|].
    - destruct (true_count m =? 0) eqn:T.
      + exists []. rewrite orb_true_r. unfold take_over. rewrite T. repeat (split; [easy|]). split; [|easy]. unfold odd_request. rewrite true_mask_none by lia. reflexivity.
      + apply Proper.
        * unfold request. pose proof (@true_count_nonneg m). lia.
        * rewrite !orb_true_r. unfold take_over. rewrite T. destruct (Z.le_gt_cases off 0); [|now replace (Z.max 0 off) with off by lia].
          replace (Z.max 0 off) with 0 by lia. now rewrite over_mask_neg.
        * unfold odd_request. now replace (Z.max 0 (Z.max 0 off)) with (Z.max 0 off) by lia.
    - destruct (odd_request off len None) eqn:O.
      + unfold odd_request in O. replace (negb (off =? 0) || negb (len =? 0) || false) with true by lia. unfold take_over.
        assert (En : over_len (number 0 store) off len 0 = over_len (number 0 store) (Z.max 0 off) len 0).
        { destruct (Z.le_gt_cases off 0); [|now replace (Z.max 0 off) with off by lia]. replace (Z.max 0 off) with 0 by lia. now rewrite over_len_neg. }
        rewrite En. destruct (@over_len_odd (number 0 store) (Z.max 0 off) len) as (r & cum & I1 & I2 & I3 & I4 & I5); [|lia|lia|].
        { intros [k c] He. destruct (ChunkConcat.number_in He) as (j & _ & _ & E). apply nth_error_In in E. now apply (column_ok C). }
        rewrite I1. cbn [bind]. exists r. replace (cum <? len) with false by lia. rewrite andb_false_r. split; [reflexivity|]. split; [exact I3|]. split; [|exact I4].
        rewrite I5, runs_number. reflexivity.
      + apply Proper; unfold odd_request in *.
        * unfold request. lia.
        * destruct (len =? 0) eqn:El.
          -- assert (off = 0) by lia. subst off. reflexivity.
          -- rewrite !orb_true_r. cbn [orb]. unfold take_over. destruct (Z.le_gt_cases off 0); [|now replace (Z.max 0 off) with off by lia].
             replace (Z.max 0 off) with 0 by lia. now rewrite over_len_neg.
        * replace (Z.max 0 (Z.max 0 off)) with (Z.max 0 off) by lia.
          replace ((len <? 0) || (len =? 0) && negb (Z.max 0 off =? 0)) with false by lia. reflexivity.
  Qed.

  Theorem concatenate_expected store off len idx : column store = true ->
    snd (concatenate o cf store off len idx) = expected o cf (chosen_runs (map (cells_of o) store) off len idx).
  Proof.
    intros C. destruct (@picked_any store off len idx C) as (es & P1 & P2 & P3 & _).
    rewrite <- P3. rewrite concatenate_eq, P1. cbn [bind].
    destruct (@run_new o cf es) as [_ ->]; [intros e He; apply stored_shape; now apply P2|].
    destruct es as [|e0 es0] eqn:Ees; [unfold runs_of, expected, p_run, p_resolve; cbn; reflexivity|]. rewrite <- Ees in *.
    rewrite run_expected.
    - f_equal. unfold runs_of. rewrite map_map. reflexivity.
    - intros d Hd. apply in_map_iff in Hd. destruct Hd as (e & <- & He). now apply desc_wf; apply P2.
    - now subst es.
  Qed.
End Read.
