(** [concatenate]: result and effect on the column. *)
From Verif Require Import Py PyFacts PyText Cell Casts Chunk ChunkSpec ChunkProofs ChunkWindow ChunkRun ChunkClosed.
From Coq Require Import ZifyBool ZifyNat.
Set Implicit Arguments. Unset Strict Implicit.

Section Concat.
  Context (o : oracle) (cf : conf).
  Local Notation den := (ChunkSpec.den o).

  Lemma number_snd A i (l : list A) : map snd (number i l) = l.
  Proof. revert i. induction l as [|x l IH]; intro i; [reflexivity|]. cbn. now rewrite IH. Qed.
  Lemma number_in A (l : list A) : forall i k x, In (k, x) (number i l) -> exists j, k = Some j /\ (i <= j)%nat /\ nth_error l (j - i) = Some x.
  Proof.
    induction l as [|y l IH]; intros i k x; cbn; [easy|]. intros [E|H].
    - inversion E; subst. exists i. split; [reflexivity|]. split; [lia|]. now rewrite Nat.sub_diag.
    - destruct (IH _ _ _ H) as (j & -> & H1 & H2). exists j. split; [reflexivity|]. split; [lia|].
      replace (j - i)%nat with (S (j - S i)) by lia. exact H2.
  Qed.
  Lemma dens_number store i : dens o (number i store) = cells o store.
  Proof. revert i. induction store as [|c l IH]; intro i; [reflexivity|]. unfold cells in *. cbn. now rewrite <- (IH (S i)). Qed.

  Lemma desc_wf c : stored c = true -> k_size c <> 0 -> wf (desc_of o c).
  Proof.
    intros S Z0. pose proof (stored_shape S) as Sh. split; [reflexivity|]. split; [now apply den_typed|].
    split; [now apply raw_kind|]. cbn [d_vals desc_of]. intro E. pose proof (@ChunkProofs.stored_len o c S) as L.
    rewrite E in L. cbn in L. lia.
  Qed.
  Lemma desc_tags (es : list entry) : all_tags (map (fun e => desc_of o (snd e)) es) = dens o es.
  Proof. induction es as [|e es IH]; [reflexivity|]. unfold all_tags, dens in *. cbn. now rewrite IH. Qed.

  (** The entries [concatenate] works on. *)
  Definition picked (store : list chunk) (off len : Z) (idx : option (list bool)) : res (list entry) :=
    if windowed off len idx then take_over (number 0 store) off len idx else Ok (number 0 store).
  Lemma column_ok store : column store = true -> store <> [] /\ forall c, In c store -> stored c = true /\ 0 < k_size c.
  Proof.
    unfold column. intro H. apply andb_prop in H. destruct H as [H1 H2]. split; [now destruct store|].
    intros c Hc. rewrite forallb_forall in H2. specialize (H2 c Hc). lia.
  Qed.
  Lemma number_stored store : column store = true -> all_stored (number 0 store).
  Proof.
    intros C [k c] He. destruct (number_in He) as (j & _ & _ & E). apply nth_error_In in E. now apply (column_ok C).
  Qed.
  Lemma picked_ok store off len idx : column store = true -> request off len idx = true ->
    exists es, picked store off len idx = Ok es /\ (forall e, In e es -> stored (snd e) = true /\ k_size (snd e) <> 0) /\
      dens o es = selection o store off len idx /\ es <> [] /\ (forall e, In e es -> derived (number 0 store) e).
  Proof.
    intros C R. pose proof (number_stored C) as S. unfold picked, request in *. unfold selection.
    destruct idx as [m|].
    - assert (W : windowed off len (Some m) = true) by (unfold windowed; now rewrite orb_true_r). rewrite W.
      destruct (@take_over_mask o (number 0 store) off len m S) as (r & T1 & T2 & T3 & T4 & T5); [lia|lia|].
      exists r. split; [exact T1|]. split; [intros e He; split; [now apply T2|now apply T4]|].
      split; [rewrite T3, dens_number; reflexivity|]. split; [exact T5|]. intros e He. right. now apply T4.
    - unfold windowed. destruct ((off =? 0) && (len =? 0)) eqn:E.
      + replace (negb (off =? 0) || negb (len =? 0) || false) with false by lia. exists (number 0 store).
        split; [reflexivity|]. split; [|split; [apply dens_number|split]].
        * intros [k c] He. destruct (number_in He) as (j & _ & _ & E1). apply nth_error_In in E1.
          destruct (proj2 (column_ok C) c E1). split; [assumption|]. cbn [snd]. lia.
        * destruct (column_ok C) as [C1 _]. now destruct store.
        * intros e He. now left.
      + replace (negb (off =? 0) || negb (len =? 0) || false) with true by lia.
        destruct (@take_over_len o (number 0 store) off len S) as (r & T1 & T2 & T3 & T4 & T5 & T6); [lia|lia|].
        exists r. split; [exact T1|]. split; [intros e He; split; [now apply T2|now apply T5]|].
        split; [rewrite T3, dens_number; reflexivity|]. now split.
  Qed.
  Lemma concatenate_eq store off len idx : snd (concatenate o cf store off len idx)
    = (es <- picked store off len idx ;; snd (run o cf (map new_slot es))).
  Proof.
    unfold concatenate, picked. destruct (windowed off len idx).
    - destruct (take_over _ off len idx) as [es|e]; cbn [bind]; [|reflexivity]. now destruct (run o cf (map new_slot es)).
    - cbn [bind]. now destruct (run o cf (map new_slot (number 0 store))).
  Qed.
  (** The result is that of [p_run] on runs holding exactly the selected cells. *)
  Theorem concatenate_run store off len idx : column store = true -> request off len idx = true ->
    exists ds, (forall d, In d ds -> wf d) /\ ds <> [] /\ all_tags ds = selection o store off len idx /\
      snd (concatenate o cf store off len idx) = p_run o cf ds.
  Proof.
    intros C R. destruct (picked_ok C R) as (es & P1 & P2 & P3 & P4 & _).
    exists (map (fun e => desc_of o (snd e)) es). split; [|split; [|split]].
    - intros d Hd. apply in_map_iff in Hd. destruct Hd as (e & <- & He). now apply desc_wf; apply P2.
    - now destruct es.
    - now rewrite desc_tags.
    - rewrite concatenate_eq, P1. cbn [bind]. apply run_new. intros e He. apply stored_shape. now apply P2.
  Qed.

  (** *** The column after a read *)
  Definition eqv (c c' : chunk) : Prop :=
    stored c = true /\ stored c' = true /\ den c' = den c /\ kind_of c' = kind_of c /\ k_size c' = k_size c /\
    (raw c' = true -> raw c = true).
  Lemma eqv_refl c : stored c = true -> eqv c c.
  Proof. intro S. now repeat split. Qed.
  Lemma eqv_trans a b c : eqv a b -> eqv b c -> eqv a c.
  Proof. intros (A1 & A2 & A3 & A4 & A5 & A6) (B1 & B2 & B3 & B4 & B5 & B6). repeat split; try congruence. auto. Qed.
  Lemma same_eqv c c' : stored c = true -> same o c c' -> eqv c c'.
  Proof.
    intros S (H1 & H2 & H3 & H4 & H5 & H6). repeat split; try assumption. unfold stored in *. rewrite H1, H4, H5. cbn [andb] in *.
    apply andb_prop in S. apply S.
  Qed.
  Lemma set_nth_eqv (store st : list chunk) i x y : Forall2 eqv store st -> nth_error store i = Some x -> eqv x y ->
    Forall2 eqv store (set_nth i y st).
  Proof.
    intro H. revert i. induction H as [|a b store st R F IH]; intros i E Q; [now destruct i|].
    destruct i as [|i]; cbn in *.
    - inversion E; subst. now constructor.
    - constructor; [exact R|now apply IH].
  Qed.
  Lemma write_back_eqv store l : (forall x i, In x l -> sl_src x = Some i -> exists c, nth_error store i = Some c /\ eqv c (sl_obj x)) ->
    forall st, Forall2 eqv store st ->
    Forall2 eqv store (fold_left (fun st x => match sl_src x with Some i => set_nth i (sl_obj x) st | None => st end) l st).
  Proof.
    induction l as [|x l IH]; intros H st F; [exact F|]. cbn [fold_left]. apply IH.
    - intros y i Hy. apply H. now right.
    - destruct (sl_src x) as [i|] eqn:E; [|exact F]. destruct (H x i) as (c & C1 & C2); [now left|exact E|].
      now apply set_nth_eqv with c.
  Qed.
  Lemma Forall2_in_r A B (P : A -> B -> Prop) l l' y : Forall2 P l l' -> In y l' -> exists x, In x l /\ P x y.
  Proof.
    induction 1 as [|a b l l' R F IH]; [easy|]. intros [<-|H]; [exists a; split; [now left|exact R]|].
    destruct (IH H) as (x & X1 & X2). exists x. split; [now right|exact X2].
  Qed.
  Theorem concatenate_windowed store off len idx : column store = true -> request off len idx = true ->
    windowed off len idx = true -> Forall2 eqv store (fst (concatenate o cf store off len idx)).
  Proof.
    intros C R W. destruct (picked_ok C R) as (es & P1 & P2 & _ & _ & P5). unfold picked in P1. unfold concatenate. rewrite W in *.
    rewrite P1. destruct (@run_new o cf es) as [R1 _]; [intros e He; apply stored_shape; now apply P2|].
    destruct (run o cf (map new_slot es)) as [l' r]. cbn [fst] in *. apply write_back_eqv.
    - intros x i Hx E. destruct (Forall2_in_r R1 Hx) as (y & Hy & Q1 & Q2 & Q3 & _).
      apply in_map_iff in Hy. destruct Hy as (e & <- & He). destruct e as [k c]. cbn in Q2, Q3. rewrite E in Q2.
      destruct (P5 _ He) as [Hs|Hs]; [|cbn in Hs; congruence]. destruct (number_in Hs) as (j & Ej & _ & En).
      rewrite Nat.sub_0_r in En. exists c. split; [congruence|]. apply same_eqv; [|exact Q3]. now apply (P2 (k, c)).
    - destruct (column_ok C) as [_ Hs]. clear -Hs. induction store as [|c l IH]; constructor.
      + apply eqv_refl, Hs. now left.
      + apply IH. intros; apply Hs. now right.
  Qed.
  Lemma column_eqv store st : Forall2 eqv store st -> column store = true -> column st = true.
  Proof.
    unfold column. intros F C. apply andb_prop in C. destruct C as [C1 C2]. apply andb_true_intro. split.
    - destruct F; [discriminate|reflexivity].
    - clear C1. induction F as [|a b store st R F IH]; [reflexivity|]. cbn [forallb] in *. apply andb_prop in C2. destruct C2 as [C2 C3].
      rewrite (IH C3). destruct R as (_ & -> & _ & _ & -> & _). lia.
  Qed.

  (** *** Equivalent columns give equivalent runs *)
  Definition eqe (e e' : entry) : Prop := eqv (snd e) (snd e').
  Lemma eqv_from c c' k : eqv c c' -> 0 < k < k_size c -> exists d d',
    take_chunk c (from k) = Ok d /\ take_chunk c' (from k) = Ok d' /\ eqv d d' /\ k_size d = k_size c - k.
  Proof.
    intros (E1 & E2 & E3 & E4 & E5 & E6) H.
    destruct (@ChunkProofs.take_from o c k E1 H) as (d & A1 & A2 & A3 & A4 & A5 & A6).
    destruct (@ChunkProofs.take_from o c' k E2) as (d' & B1 & B2 & B3 & B4 & B5 & B6); [lia|].
    exists d, d'. split; [exact A1|]. split; [exact B1|]. split; [|exact A6]. repeat split; try assumption; try congruence.
    rewrite A5, B5. exact E6.
  Qed.
  Lemma eqv_upto c c' k : eqv c c' -> 0 < k <= k_size c -> exists d d',
    take_chunk c (upto k) = Ok d /\ take_chunk c' (upto k) = Ok d' /\ eqv d d' /\ k_size d = k.
  Proof.
    intros (E1 & E2 & E3 & E4 & E5 & E6) H.
    destruct (@ChunkProofs.take_upto o c k E1 H) as (d & A1 & A2 & A3 & A4 & A5 & A6).
    destruct (@ChunkProofs.take_upto o c' k E2) as (d' & B1 & B2 & B3 & B4 & B5 & B6); [lia|].
    exists d, d'. split; [exact A1|]. split; [exact B1|]. split; [|exact A6]. repeat split; try assumption; try congruence.
    rewrite A5, B5. exact E6.
  Qed.
  Lemma eqv_mask c c' m : eqv c c' -> zlen m = k_size c -> exists d d',
    take_chunk c (IMask m) = Ok d /\ take_chunk c' (IMask m) = Ok d' /\ eqv d d' /\ k_size d = true_count m.
  Proof.
    intros (E1 & E2 & E3 & E4 & E5 & E6) H.
    destruct (@ChunkProofs.take_mask o c m E1 H) as (d & A1 & A2 & A3 & A4 & A5 & A6).
    destruct (@ChunkProofs.take_mask o c' m E2) as (d' & B1 & B2 & B3 & B4 & B5 & B6); [lia|].
    exists d, d'. split; [exact A1|]. split; [exact B1|]. split; [|exact A6]. repeat split; try assumption; try congruence.
    rewrite A5, B5. exact E6.
  Qed.
  Lemma eqv_size c c' : eqv c c' -> k_size c' = k_size c /\ 0 <= k_size c.
  Proof. intros (E1 & _ & _ & _ & E5 & _). split; [exact E5|]. now apply (@size_nonneg o). Qed.
  Lemma over_len_eqv l l' : Forall2 eqe l l' -> forall off len cum, 0 <= off -> 0 <= cum < len ->
    exists r r' cum', over_len l off len cum = Ok (r, cum') /\ over_len l' off len cum = Ok (r', cum') /\ Forall2 eqe r r'.
  Proof.
    induction 1 as [|[s1 c] [s2 c'] l l' R F IH]; intros off len cum Ho Hc.
    - exists [], [], cum. repeat split; constructor.
    - unfold eqe in R. cbn [snd] in R. destruct (eqv_size R) as [Z1 Z2]. cbn [over_len]. rewrite Z1.
      destruct ((0 <? off) && (k_size c <=? off)) eqn:E; [apply IH; lia|].
      assert (P : exists t1 d t2 d', (if 0 <? off then c <- take_chunk c (from off) ;; Ok (None, c) else Ok (s1, c)) = Ok (t1, d) /\
        (if 0 <? off then c <- take_chunk c' (from off) ;; Ok (None, c) else Ok (s2, c')) = Ok (t2, d') /\ eqv d d').
      { destruct (0 <? off) eqn:E0.
        - destruct (@eqv_from c c' off R) as (d & d' & D1 & D2 & D3 & _); [lia|]. rewrite D1, D2. cbn [bind]. eauto 10.
        - eauto 10. }
      destruct P as (t1 & d & t2 & d' & P1 & P2 & P3). rewrite P1, P2. cbn [bind]. destruct (eqv_size P3) as [Y1 Y2]. rewrite Y1.
      replace (if 0 <? off then 0 else off) with 0 by (destruct (0 <? off) eqn:E0; lia).
      destruct (negb (len =? 0) && (len <? cum + k_size d)) eqn:E2.
      + destruct (@eqv_upto d d' (k_size d + len - (cum + k_size d)) P3) as (g & g' & G1 & G2 & G3 & G4); [lia|].
        rewrite G1, G2. cbn [bind]. destruct (eqv_size G3) as [X1 _]. rewrite X1.
        replace (len <=? cum + k_size d) with true by lia. do 3 eexists. split; [reflexivity|]. split; [reflexivity|].
        destruct (k_size g =? 0); constructor; [exact G3|constructor].
      + cbn [bind]. rewrite Y1. destruct (len <=? cum + k_size d) eqn:E3.
        * do 3 eexists. split; [reflexivity|]. split; [reflexivity|].
          destruct (k_size d =? 0); constructor; [exact P3|constructor].
        * destruct (IH 0 len (cum + k_size d)) as (r & r' & cum' & I1 & I2 & I3); [lia|lia|]. rewrite I1, I2. cbn [bind].
          do 3 eexists. split; [reflexivity|]. split; [reflexivity|]. apply Forall2_app; [|exact I3].
          destruct (k_size d =? 0); constructor; [exact P3|constructor].
  Qed.
  Lemma over_mask_eqv l l' : Forall2 eqe l l' -> forall off ioff cum m, 0 <= off -> 0 <= ioff ->
    exists r r' cum', over_mask l off ioff cum m = Ok (r, cum') /\ over_mask l' off ioff cum m = Ok (r', cum') /\ Forall2 eqe r r'.
  Proof.
    induction 1 as [|[s1 c] [s2 c'] l l' R F IH]; intros off ioff cum m Ho Hi.
    - exists [], [], cum. repeat split; constructor.
    - unfold eqe in R. cbn [snd] in R. destruct (eqv_size R) as [Z1 Z2]. cbn [over_mask]. rewrite Z1.
      destruct ((0 <? off) && (k_size c <=? off)) eqn:E; [apply IH; lia|].
      assert (P : exists d d', (if 0 <? off then take_chunk c (from off) else Ok c) = Ok d /\
        (if 0 <? off then take_chunk c' (from off) else Ok c') = Ok d' /\ eqv d d').
      { destruct (0 <? off) eqn:E0.
        - destruct (@eqv_from c c' off R) as (d & d' & D1 & D2 & D3 & _); [lia|]. rewrite D1, D2. eauto 10.
        - eauto 10. }
      destruct P as (d & d' & P1 & P2 & P3). rewrite P1, P2. cbn [bind]. destruct (eqv_size P3) as [Y1 Y2]. rewrite Y1.
      replace (if 0 <? off then 0 else off) with 0 by (destruct (0 <? off) eqn:E0; lia).
      rewrite slice_mid by lia. set (ci := firstn (Z.to_nat (k_size d)) (skipn (Z.to_nat ioff) m)).
      destruct (true_count ci =? 0) eqn:E2; [apply IH; lia|].
      assert (Lc : 0 < zlen ci <= k_size d).
      { split.
        - destruct ci; [discriminate|]. unfold zlen. cbn. lia.
        - unfold zlen, ci. rewrite firstn_length. lia. }
      destruct (@eqv_upto d d' (zlen ci) P3 Lc) as (g & g' & G1 & G2 & G3 & G4). rewrite G1, G2. cbn [bind].
      destruct (@eqv_mask g g' ci G3) as (h & h' & H1 & H2 & H3 & H4); [lia|]. rewrite H1, H2. cbn [bind].
      destruct (eqv_size H3) as [X1 _]. rewrite X1. destruct (k_size h =? 0) eqn:E3; [apply IH; lia|].
      destruct (IH 0 (ioff + k_size d) (cum + k_size h) m) as (r & r' & cum' & I1 & I2 & I3); [lia|lia|]. rewrite I1, I2. cbn [bind].
      do 3 eexists. split; [reflexivity|]. split; [reflexivity|]. now constructor.
  Qed.
  Lemma nulls_eqv n : 0 <= n -> eqe (None, nulls n) (None, nulls n).
  Proof. intro H. apply eqv_refl. now apply (@dens_nulls o). Qed.
  Lemma number_eqv st st' i : Forall2 eqv st st' -> Forall2 eqe (number i st) (number i st').
  Proof. intro F. revert i. induction F as [|a b st st' R F IH]; intro i; constructor; [exact R|apply IH]. Qed.
  Lemma picked_eqv st st' off len idx : Forall2 eqv st st' -> request off len idx = true ->
    exists es es', picked st off len idx = Ok es /\ picked st' off len idx = Ok es' /\ Forall2 eqe es es'.
  Proof.
    intros F R. pose proof (number_eqv 0 F) as N. unfold picked. destruct (windowed off len idx) eqn:W; [|eauto 10].
    unfold take_over. unfold request in R. destruct idx as [m|].
    - replace (true_count m =? 0) with false by lia.
      destruct (@over_mask_eqv _ _ N off 0 0 m) as (r & r' & cum & I1 & I2 & I3); [lia|lia|]. rewrite I1, I2. cbn [bind].
      do 2 eexists. split; [reflexivity|]. split; [reflexivity|]. match goal with |- Forall2 _ (if ?b then _ else _) _ => destruct b eqn:E; [|exact I3] end.
      apply Forall2_app; [exact I3|]. constructor; [apply nulls_eqv; lia|constructor].
    - assert (0 < len) by (unfold windowed in W; lia).
      destruct (@over_len_eqv _ _ N off len 0) as (r & r' & cum & I1 & I2 & I3); [lia|lia|]. rewrite I1, I2. cbn [bind].
      do 2 eexists. split; [reflexivity|]. split; [reflexivity|]. match goal with |- Forall2 _ (if ?b then _ else _) _ => destruct b eqn:E; [|exact I3] end.
      apply Forall2_app; [exact I3|]. constructor; [apply nulls_eqv; lia|constructor].
  Qed.

  (** *** The result does not depend on how far strings are resolved *)
  Definition forget (d : desc) : desc := mkD (d_kind d) (d_cur d) false (d_vals d).
  Definition raw_blind (l : list desc) : bool := negb (cf_datetime cf && p_has KTemp l && existsb d_raw l).
  Lemma p_has_forget k l : p_has k (map forget l) = p_has k l.
  Proof. unfold p_has. induction l as [|d l IH]; [reflexivity|]. cbn. now rewrite IH. Qed.
  Lemma pwalk_forget stop g l : (forall d, g (forget d) = (' (d, b) <- g d ;; Ok (forget d, b))) ->
    pwalk stop g (map forget l) = (' (l, b) <- pwalk stop g l ;; Ok (map forget l, b)).
  Proof.
    intro G. induction l as [|d l IH]; [reflexivity|]. cbn [map pwalk]. rewrite G.
    destruct (g d) as [[d' b]|e]; cbn [bind]; [|reflexivity]. destruct (b && stop); [reflexivity|].
    rewrite IH. destruct (pwalk stop g l) as [[l' c]|e]; reflexivity.
  Qed.
  Lemma finish_forget l b : p_finish o cf (map forget l) b = p_finish o cf l b.
  Proof.
    unfold p_finish, p_type. rewrite !p_has_forget.
    rewrite (@pwalk_forget true (p_integer cf) l).
    2: { intro d. unfold p_integer. cbn [d_cur forget d_vals]. now destruct (d_cur d). }
    assert (E : flat_map d_vals (map forget l) = flat_map d_vals l) by (induction l as [|d l IH]; [reflexivity|]; cbn; now rewrite IH).
    rewrite E. assert (E2 : forall A (x y : A), match map forget l with [] => x | _ => y end = match l with [] => x | _ => y end) by (now destruct l).
    destruct b; cbn [bind]; [now destruct l|]. destruct (p_has KTemp l); cbn [bind]; [now destruct l|].
    destruct (p_has KNum l); [|cbn [bind]; now destruct l].
    destruct (pwalk true (p_integer cf) l) as [[l' b]|e]; cbn [bind]; [|reflexivity]. now destruct l.
  Qed.
  Lemma forget_id l : existsb d_raw l = false -> map forget l = l.
  Proof.
    induction l as [|[k c r v] l IH]; [reflexivity|]. cbn. intro H. apply orb_false_iff in H. destruct H as [-> H]. now rewrite IH.
  Qed.
  Lemma run_forget l : raw_blind l = true -> p_run o cf (map forget l) = p_run o cf l.
  Proof.
    intro B. unfold raw_blind in B. apply negb_true_iff in B. destruct (existsb d_raw l) eqn:Er.
    2: { now rewrite forget_id. }
    rewrite andb_true_r in B. unfold p_run. unfold p_resolve. rewrite !p_has_forget.
    destruct (p_has KTemp l).
    - rewrite andb_true_r in B. rewrite B. cbn [bind]. apply finish_forget.
    - destruct (p_has KNum l && p_has KStr l); [|cbn [bind]; apply finish_forget].
      destruct (cf_numerics cf); [|cbn [bind]; apply finish_forget].
      rewrite (@pwalk_forget true (p_numeric o) l).
      + destruct (pwalk true (p_numeric o) l) as [[l' b]|e]; cbn [bind]; [apply finish_forget|reflexivity].
      + intro d. unfold p_numeric. cbn [d_kind d_vals forget]. destruct (kind_eqb (d_kind d) KStr); [|reflexivity].
        now destruct (floats o (d_vals d)).
  Qed.
  (** Temporal resolution would meet unresolved shared strings. *)
  Definition blocked (l : list tag) : bool := cf_datetime cf && some_kind KTemp l && some_raw l.
  Theorem concatenate_eqv st st' off len idx : column st = true -> Forall2 eqv st st' -> request off len idx = true ->
    blocked (selection o st off len idx) = false ->
    snd (concatenate o cf st' off len idx) = snd (concatenate o cf st off len idx).
  Proof.
    intros C F R B. destruct (picked_ok C R) as (es0 & P1 & P2 & P3 & P4 & _).
    destruct (picked_eqv F R) as (es & es' & Q1 & Q2 & Q3). assert (es0 = es) by congruence. subst es0.
    rewrite !concatenate_eq, Q1, Q2. cbn [bind].
    assert (S' : forall e, In e es' -> stored (snd e) = true).
    { intros e He. destruct (Forall2_in_r Q3 He) as (x & _ & X). apply X. }
    destruct (@run_new o cf es) as [_ ->]; [intros e He; apply stored_shape; now apply P2|].
    destruct (@run_new o cf es') as [_ ->]; [intros e He; apply stored_shape; now apply S'|].
    set (ds := map (fun e => desc_of o (snd e)) es). set (ds' := map (fun e => desc_of o (snd e)) es').
    assert (W : forall d, In d ds -> wf d).
    { intros d Hd. apply in_map_iff in Hd. destruct Hd as (e & <- & He). now apply desc_wf; apply P2. }
    assert (B1 : raw_blind ds = true).
    { unfold raw_blind. rewrite p_has_tags, some_raw_tags by exact W. unfold ds. rewrite desc_tags, P3. unfold blocked in B. now rewrite B. }
    assert (Fg : map forget ds' = map forget ds /\ (existsb d_raw ds' = true -> existsb d_raw ds = true)).
    { unfold ds, ds'. clear -Q3. induction Q3 as [|e e' es es' R F IH]; [now split|]. destruct IH as [IH1 IH2].
      destruct R as (R1 & R2 & R3 & R4 & R5 & R6). split.
      - cbn [map]. rewrite IH1. f_equal. unfold forget, desc_of. cbn. now rewrite R3, R4.
      - cbn [map existsb desc_of d_raw]. intro H. apply orb_prop in H. destruct H as [H|H]; [rewrite R6 by exact H; reflexivity|].
        rewrite IH2 by exact H. apply orb_true_r. }
    destruct Fg as [Fg1 Fg2].
    assert (B2 : raw_blind ds' = true).
    { unfold raw_blind in *. apply negb_true_iff. apply negb_true_iff in B1.
      rewrite <- (p_has_forget KTemp ds'), Fg1, p_has_forget. destruct (existsb d_raw ds'); [|apply andb_false_r].
      rewrite Fg2 in B1 by reflexivity. exact B1. }
    rewrite <- (run_forget B1), <- (run_forget B2). now rewrite Fg1.
  Qed.

  (** *** Reads of the whole list without conversions *)
  Lemma walk_id stop f l : (forall x, In x l -> f x = (x, Ok false)) -> walk stop f l = (l, Ok false).
  Proof.
    induction l as [|x l IH]; intro H; [reflexivity|]. cbn [walk]. rewrite H by now left. cbn [andb]. rewrite IH; [reflexivity|].
    intros; apply H; now right.
  Qed.
  Lemma set_cur_keeps x c : fresh x -> fresh (set_cur x c).
  Proof. unfold fresh, set_cur. now intros ->. Qed.
  Lemma walk_keeps stop f l : (forall x, fresh x -> fresh (fst (f x))) -> (forall x, In x l -> fresh x) ->
    forall x, In x (fst (walk stop f l)) -> fresh x.
  Proof.
    intro F. induction l as [|y l IH]; intro H; [easy|]. cbn [walk]. pose proof (F y (H y (or_introl eq_refl))) as Fy.
    assert (Hl : forall z, In z l -> fresh z) by (intros z Hz; apply H; now right). specialize (IH Hl).
    destruct (f y) as [y' [b|e]]; cbn [fst] in *.
    - destruct (b && stop); [intros x [<-|Hx]; [exact Fy|now apply Hl]|].
      destruct (walk stop f l) as [l' rb]. cbn [fst] in *. intros x [<-|Hx]; [exact Fy|now apply IH].
    - intros x [<-|Hx]; [exact Fy|now apply Hl].
  Qed.
  Lemma arrows_keeps t l : (forall x, In x l -> fresh x) -> forall x, In x (fst (arrows o t l)) -> fresh x.
  Proof.
    induction l as [|y l IH]; intro H; [easy|]. cbn [arrows]. destruct (chunk_arrow o (cur y) (Some t)) as [a c].
    pose proof (@set_cur_keeps y c (H y (or_introl eq_refl))) as Fy.
    assert (Hl : forall z, In z l -> fresh z) by (intros z Hz; apply H; now right). specialize (IH Hl).
    destruct a as [a|e]; cbn [fst] in *.
    - destruct (arrows o t l) as [l' rb]. cbn [fst] in *. intros x [<-|Hx]; [exact Fy|now apply IH].
    - intros x [<-|Hx]; [exact Fy|now apply Hl].
  Qed.
  Lemma has_false k l x : has k l = false -> In x l -> kind_eqb (sl_kind x) k = false.
  Proof.
    intros H I. destruct (kind_eqb (sl_kind x) k) eqn:E; [|reflexivity].
    assert (has k l = true); [|congruence]. unfold has. apply existsb_exists. now exists x.
  Qed.
  Lemma run_keeps l : (forall x, In x l -> fresh x) ->
    (if has KTemp l then cf_datetime cf && (has KNum l || has KStr l) else cf_numerics cf && (has KNum l && has KStr l)) = false ->
    forall x, In x (fst (run o cf l)) -> fresh x.
  Proof.
    intros F R. unfold run.
    assert (E : exists b, resolve o cf l = (l, Ok b)).
    { unfold resolve. destruct (has KTemp l).
      - destruct (cf_datetime cf); [|eauto]. cbn [andb] in R. apply orb_false_iff in R. destruct R as [R1 R2].
        rewrite walk_id by (intros x Hx; unfold step_nums; now rewrite (has_false R1 Hx)).
        rewrite walk_id by (intros x Hx; unfold step_utf8_temporal; now rewrite (has_false R2 Hx)). eauto.
      - destruct (has KNum l && has KStr l); [|eauto]. rewrite andb_true_r in R. rewrite R. eauto. }
    destruct E as [b ->]. unfold finish.
    assert (G : forall t l2, (forall x, In x l2 -> fresh x) ->
      forall x, In x (fst (match l2 with [] => ([], Err ValueError) | _ => let '(l, v) := arrows o t l2 in (l, v <- v ;; Ok (mkA t v)) end)) -> fresh x).
    { intros t l2 H. pose proof (@arrows_keeps t l2 H) as A. destruct l2 as [|y l2]; [easy|].
      destruct (arrows o t (y :: l2)) as [l3 v]. exact A. }
    destruct b; [now apply G|]. destruct (has KTemp l); [now apply G|]. destruct (has KNum l); [|now apply G].
    pose proof (@walk_keeps true (step_integer o cf) l) as K.
    assert (Si : forall x, fresh x -> fresh (fst (step_integer o cf x))).
    { intros x Fx. unfold step_integer. destruct (k_type (cur x) =? 0); [exact Fx|]. destruct (prepare o (cur x)) as [c|e]; [|exact Fx].
      pose proof (@set_cur_keeps x c Fx). destruct (k_data c); assumption. }
    specialize (K Si F). destruct (walk true (step_integer o cf) l) as [l1 rb]. cbn [fst] in K.
    destruct rb as [b|e]; cbn [bind]; [now apply G|exact K].
  Qed.
  Lemma has_new k es : has k (map new_slot es) = p_has k (map (fun e => desc_of o (snd e)) es).
  Proof. unfold has, p_has. induction es as [|e es IH]; [reflexivity|]. cbn. now rewrite IH. Qed.
  Lemma Forall2_impl_in A B (P Q : A -> B -> Prop) l l' : (forall x y, In x l -> In y l' -> P x y -> Q x y) -> Forall2 P l l' -> Forall2 Q l l'.
  Proof.
    intros H F. induction F as [|a b l l' R F IH]; constructor; [apply H; [now left|now left|exact R]|].
    apply IH. intros; apply H; try now right. assumption.
  Qed.
  Lemma Forall2_map_l A B C (P : B -> C -> Prop) (f : A -> B) l l' : Forall2 P (map f l) l' <-> Forall2 (fun a c => P (f a) c) l l'.
  Proof.
    split.
    - revert l'. induction l as [|a l IH]; intros l' H; inversion H; subst; constructor; auto.
    - induction 1; constructor; auto.
  Qed.
  Lemma Forall2_map_r' A B C (P : A -> C -> Prop) (f : B -> C) l l' : Forall2 P l (map f l') <-> Forall2 (fun a b => P a (f b)) l l'.
  Proof.
    split.
    - revert l. induction l' as [|b l' IH]; intros l H; inversion H; subst; constructor; auto.
    - induction 1; constructor; auto.
  Qed.
  Theorem concatenate_whole store : column store = true -> resolving cf (cells o store) = false ->
    Forall2 eqv store (fst (concatenate o cf store 0 0 None)).
  Proof.
    intros C R. destruct (@picked_ok store 0 0 None C eq_refl) as (es & P1 & P2 & P3 & _). cbn in P1. inversion P1; subst es. clear P1.
    change (selection o store 0 0 None) with (cells o store) in P3.
    unfold concatenate. cbn [windowed Z.eqb negb orb].
    set (es := number 0 store) in *.
    destruct (@run_new o cf es) as [R1 _]; [intros e He; apply stored_shape; now apply P2|].
    pose proof (@run_keeps (map new_slot es)) as K.
    assert (W : forall d, In d (map (fun e => desc_of o (snd e)) es) -> wf d).
    { intros d Hd. apply in_map_iff in Hd. destruct Hd as (e & <- & He). now apply desc_wf; apply P2. }
    assert (Kf : forall x, In x (fst (run o cf (map new_slot es))) -> fresh x).
    { apply K.
      - intros x Hx. apply in_map_iff in Hx. destruct Hx as (e & <- & _). reflexivity.
      - rewrite !has_new, !p_has_tags, !desc_tags, P3 by exact W. exact R. }
    destruct (run o cf (map new_slot es)) as [l' r]. cbn [fst] in *.
    apply Forall2_map_r'. pose proof (proj1 (@Forall2_map_l _ _ _ (rel o) new_slot es l') R1) as R2.
    assert (Q : Forall2 (fun e x => eqv (snd e) (cur x)) es l').
    { eapply Forall2_impl_in; [|exact R2]. intros e x He Hx (Q1 & Q2 & Q3 & Q4). cbn in Q3.
      unfold cur. rewrite (Kf x Hx). apply same_eqv; [now apply P2|exact Q3]. }
    pose proof (proj2 (@Forall2_map_l _ _ _ (fun c x => eqv c (cur x)) snd es l') Q) as Q2. unfold es in Q2. rewrite number_snd in Q2. exact Q2.
  Qed.
End Concat.
