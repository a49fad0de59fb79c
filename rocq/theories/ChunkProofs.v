(** Chunks: preparation, slices, windows. *)
From Verif Require Import Py PyFacts PyText Cell Casts Chunk ChunkSpec.
From Coq Require Import ZifyBool ZifyNat.
Set Implicit Arguments. Unset Strict Implicit.

Lemma zlen_map A B (f : A -> B) l : zlen (map f l) = zlen l.
Proof. unfold zlen. now rewrite map_length. Qed.
Lemma zlen_pos A (l : list A) : 0 <= zlen l.
Proof. unfold zlen. lia. Qed.

Section Prep.
  Context (o : oracle).
  Local Notation den := (den o).
  Local Notation prepare := (prepare o).

  Lemma den_len c : shape c = true -> zlen (den c) = data_len (k_data c).
  Proof.
    unfold shape, ChunkSpec.den, data_len. destruct (k_data c); intro H; rewrite ?zlen_map; try reflexivity.
    unfold zlen. rewrite repeat_length. lia.
  Qed.

  Lemma take_shared_ok sref l : forallb (in_table sref) l = true ->
    exists v, take_shared sref l = Ok v /\ map ctext v = map (shared_at sref) l.
  Proof.
    induction l as [|i l IH]; cbn [forallb take_shared map]; intro H; [exists []; now split|].
    apply andb_prop in H. destruct H as [H1 H2]. destruct (IH H2) as (v & E1 & E2).
    unfold in_table, zlen in H1. unfold shared_at at 1. replace (i <? 0) with false by lia.
    destruct (nth_error sref (Z.to_nat i)) as [x|] eqn:E.
    - rewrite E1. cbn [bind]. exists (x :: v). split; [reflexivity|]. cbn [map]. now rewrite E2.
    - apply nth_error_None in E. lia.
  Qed.

  Ltac type_cases H :=
    repeat match type of H with
    | (_ || _)%bool = true => apply orb_prop in H; destruct H as [H|H]
    end.

  Definition raw (c : chunk) : bool := match k_data c with DIdx _ => true | _ => false end.
  (** Preparing keeps values, kind, size. *)
  Definition same (c c' : chunk) : Prop :=
    shape c' = true /\ den c' = den c /\ kind_of c' = kind_of c /\ k_size c' = k_size c /\
    data_len (k_data c') = data_len (k_data c) /\ (raw c' = true -> raw c = true).
  Lemma prepare_ok c : shape c = true -> k_type c <> 0 ->
    exists c', prepare c = Ok c' /\ same c c' /\ flag (k_type c') REPR_PREPARED = true /\ raw c' = false.
  Proof.
    intros S T. unfold Chunk.prepare. destruct c as [d t z sr]. unfold shape in S.
    cbn [k_data k_type k_size k_sref] in *. destruct d as [n|l|l|l|l|l].
    - lia.
    - assert (t = 0x18) as -> by lia. cbn [k_type]. change (flag 24 REPR_PREPARED) with true. cbv iota.
      eexists. repeat split; try reflexivity; easy.
    - apply andb_prop in S. destruct S as [S1 S2]. assert (t = 0x11) as -> by lia.
      change (flag 17 REPR_PREPARED) with false. change (flag 17 TYPE_STRING) with true. cbv iota.
      destruct (take_shared_ok S2) as (v & E1 & E2). rewrite E1. cbn [bind].
      eexists. split; [reflexivity|]. split; [|split; reflexivity]. split; [reflexivity|]. split; [exact E2|].
      split; [reflexivity|]. split; [reflexivity|]. split; [|easy]. cbn [k_data data_len]. rewrite <- (zlen_map ctext v), E2. apply zlen_map.
    - type_cases S; assert (Et : t = 0x21 \/ t = 0x25) by lia; destruct Et as [-> | ->]; cbn;
        (eexists; split; [reflexivity|]; split; [|split; reflexivity]; repeat split; cbn; rewrite ?map_map, ?zlen_map; (reflexivity || easy)).
    - assert (Et : t = 0x28 \/ t = 0x29 \/ t = 0x24) by lia. destruct Et as [-> | [-> | ->]]; cbn;
        (eexists; split; [reflexivity|]; split; [|split; reflexivity]; repeat split; cbn; rewrite ?map_map, ?zlen_map; (reflexivity || easy)).
    - assert (Et : t = 0x2C \/ t = 0x2D) by lia. destruct Et as [-> | ->]; cbn;
        (eexists; split; [reflexivity|]; split; [|split; reflexivity]; repeat split; (reflexivity || easy)).
  Qed.
  Lemma same_refl c : shape c = true -> same c c.
  Proof. intro S. repeat split; [exact S|easy]. Qed.
  Lemma same_trans a b c : same a b -> same b c -> same a c.
  Proof. intros (_ & A2 & A3 & A4 & A5 & A6) (B1 & B2 & B3 & B4 & B5 & B6). repeat split; try congruence. auto. Qed.
  Lemma kind_null c : shape c = true -> (kind_of c = KNull <-> k_type c = 0).
  Proof.
    intros _. unfold kind_of. destruct (k_type c =? 0) eqn:E; [split; [intros _; lia|reflexivity]|].
    split; [|intro; lia]. destruct (flag _ TYPE_STRING); [discriminate|]. destruct (flag _ REPR_TEMPORAL); discriminate.
  Qed.
End Prep.

(** ** Slices *)
Lemma pick_seq A (l : list A) : forall a n, (a + n <= List.length l)%nat ->
  pick l (map (fun k => Z.of_nat a + Z.of_nat k * 1) (seq 0 n)) = firstn n (skipn a l).
Proof.
  intros a n. revert a. induction n as [|n IH]; intros a H; [reflexivity|].
  cbn [seq map pick]. replace (Z.to_nat (Z.of_nat a + Z.of_nat 0 * 1)) with a by lia.
  destruct (nth_error l a) as [x|] eqn:E; [|apply nth_error_None in E; lia].
  assert (E2 : skipn a l = x :: skipn (S a) l).
  { clear -E. revert l E. induction a as [|a IHa]; intros [|y l] E; cbn in *; try discriminate; [congruence|]. now apply IHa. }
  rewrite E2. cbn [firstn]. f_equal. rewrite <- IH by lia. f_equal.
  rewrite <- seq_shift, map_map. apply map_ext. intro k. lia.
Qed.
Lemma slice_from A (l : list A) k : 0 <= k <= zlen l -> slice_list l (mkS (Some k) None None) = Ok (skipn (Z.to_nat k) l).
Proof.
  intro H. unfold slice_list, slice_indices, slice_start, slice_stop, slice_len. cbn [sl_start sl_stop sl_step].
  change (1 =? 0) with false. change (1 <? 0) with false. cbv iota.
  replace (k <? 0) with false by lia. unfold zlen in *.
  destruct (Z.of_nat (List.length l) <=? k) eqn:E.
  - replace (Z.of_nat (List.length l) <? Z.of_nat (List.length l)) with false by lia. cbn [bind Z.to_nat seq map pick].
    rewrite skipn_all2 by lia. reflexivity.
  - replace (k <? Z.of_nat (List.length l)) with true by lia. cbn [bind]. rewrite Z.div_1_r.
    assert (K : exists a, k = Z.of_nat a) by (exists (Z.to_nat k); lia). destruct K as [a ->].
    rewrite pick_seq by lia. rewrite Nat2Z.id. f_equal.
    rewrite firstn_all2; [reflexivity|]. rewrite skipn_length. lia.
Qed.
Lemma slice_upto A (l : list A) k : 0 <= k <= zlen l -> slice_list l (mkS None (Some k) None) = Ok (firstn (Z.to_nat k) l).
Proof.
  intro H. unfold slice_list, slice_indices, slice_start, slice_stop, slice_len. cbn [sl_start sl_stop sl_step].
  change (1 =? 0) with false. change (1 <? 0) with false. cbv iota.
  replace (k <? 0) with false by lia. unfold zlen in *.
  replace (if Z.of_nat (List.length l) <=? k then Z.of_nat (List.length l) else k) with k by (destruct (_ <=? k) eqn:E; lia).
  destruct (0 <? k) eqn:E.
  - cbn [bind]. rewrite Z.div_1_r. rewrite (@pick_seq A l 0) by lia. f_equal. cbn [skipn].
    f_equal. lia.
  - replace k with 0 by lia. reflexivity.
Qed.
Lemma mask_masked A (l : list A) m : mask_list l m = masked l m.
Proof.
  revert m. induction l as [|x l IH]; intros [|b m]; try reflexivity. unfold masked in *. cbn.
  destruct b; cbn; now rewrite IH.
Qed.
Lemma map_mask_list A B (f : A -> B) l m : map f (mask_list l m) = mask_list (map f l) m.
Proof. revert m. induction l as [|x l IH]; intros [|[] m]; cbn; try reflexivity; now rewrite IH. Qed.
Lemma mask_repeat A (x : A) : forall m, mask_list (repeat x (List.length m)) m = repeat x (Z.to_nat (true_count m)).
Proof.
  induction m as [|b m IH]; [reflexivity|]. cbn [List.length repeat mask_list]. rewrite IH.
  unfold true_count. destruct b; cbn [filter]; [|reflexivity].
  replace (Z.to_nat (zlen (true :: filter (fun b => b) m))) with (S (Z.to_nat (zlen (filter (fun b => b) m)))) by (unfold zlen; cbn [List.length]; lia).
  reflexivity.
Qed.
Lemma mask_len A (l : list A) m : List.length l = List.length m -> zlen (mask_list l m) = true_count m.
Proof.
  revert l. induction m as [|b m IH]; intros [|x l] H; try discriminate; [reflexivity|].
  cbn in H. injection H as H. unfold true_count in *. cbn. specialize (IH l H). unfold zlen in *. destruct b; cbn [List.length]; lia.
Qed.
Lemma map_skipn A B (f : A -> B) n l : map f (skipn n l) = skipn n (map f l).
Proof. revert l. induction n as [|n IH]; intros [|x l]; cbn; try reflexivity. apply IH. Qed.
Lemma skipn_repeat A (x : A) n k : skipn k (repeat x n) = repeat x (n - k).
Proof. revert k. induction n as [|n IH]; intros [|k]; cbn; try reflexivity. apply IH. Qed.
Lemma firstn_repeat A (x : A) n k : firstn k (repeat x n) = repeat x (Nat.min k n).
Proof. revert k. induction n as [|n IH]; intros [|k]; cbn; try reflexivity. now rewrite IH. Qed.
Lemma forallb_skipn A (f : A -> bool) n l : forallb f l = true -> forallb f (skipn n l) = true.
Proof.
  revert l. induction n as [|n IH]; intros [|x l] H; cbn in *; try exact H; try reflexivity.
  apply andb_prop in H. now apply IH.
Qed.
Lemma forallb_firstn A (f : A -> bool) n l : forallb f l = true -> forallb f (firstn n l) = true.
Proof.
  revert l. induction n as [|n IH]; intros [|x l] H; cbn in *; try exact H; try reflexivity.
  apply andb_prop in H. destruct H as [-> H]. now apply IH.
Qed.
Lemma forallb_mask A (f : A -> bool) l : forall m, forallb f l = true -> forallb f (mask_list l m) = true.
Proof.
  induction l as [|x l IH]; intros [|b m] H; cbn in *; try reflexivity. apply andb_prop in H. destruct H as [H1 H2].
  destruct b; cbn; rewrite ?H1; now apply IH.
Qed.

Section Take.
  Context (o : oracle).
  Local Notation den := (den o).

  Lemma stored_shape c : stored c = true -> shape c = true /\ k_size c = data_len (k_data c).
  Proof. unfold stored. intro H. apply andb_prop in H. split; [easy|lia]. Qed.
  Lemma stored_len c : stored c = true -> zlen (den c) = k_size c.
  Proof. intro H. apply stored_shape in H. destruct H as [S ->]. now apply den_len. Qed.

  (** Any operation [g] on lists that commutes with maps and is what [take] does. *)
  Lemma take_gen c ix (g : forall A, list A -> list A) :
    stored c = true -> k_type c <> 0 ->
    (forall A (l : list A), zlen l = k_size c -> take_list ArrowInvalid l ix = Ok (g A l)) ->
    (forall A (l : list A), zlen l = k_size c -> take_list IndexError l ix = Ok (g A l)) ->
    (forall A B (f : A -> B) l, map f (g A l) = g B (map f l)) ->
    (forall A (f : A -> bool) l, forallb f l = true -> forallb f (g A l) = true) ->
    exists c', take_chunk c ix = Ok c' /\ stored c' = true /\ den c' = g _ (den c) /\
      kind_of c' = kind_of c /\ raw c' = raw c.
  Proof.
    intros S T G1 G2 GM GF. apply stored_shape in S. destruct S as [S Z].
    unfold take_chunk. replace (k_type c =? 0) with false by lia.
    destruct c as [d t z sr]. cbn [k_data k_type k_size k_sref] in *. unfold shape in S. cbn [k_data k_type k_sref] in S.
    destruct d as [n|l|l|l|l|l]; cbn [take_data data_len] in *; [lia|..].
    - rewrite G1 by now rewrite Z. cbn [bind]. eexists. split; [reflexivity|]. unfold stored, shape, ChunkSpec.den, raw. cbn.
      rewrite S, Z.eqb_refl, GM. repeat split.
    - apply andb_prop in S. destruct S as [S1 S2]. rewrite G1 by now rewrite Z. cbn [bind]. eexists. split; [reflexivity|].
      unfold stored, shape, ChunkSpec.den, raw. cbn. rewrite S1, Z.eqb_refl, GM, GF by exact S2. repeat split.
    - rewrite G2 by now rewrite Z. cbn [bind]. eexists. split; [reflexivity|]. unfold stored, shape, ChunkSpec.den, raw. cbn.
      rewrite S, Z.eqb_refl, GM. repeat split.
    - rewrite G2 by now rewrite Z. cbn [bind]. eexists. split; [reflexivity|]. unfold stored, shape, ChunkSpec.den, raw. cbn.
      rewrite S, Z.eqb_refl, GM. repeat split.
    - rewrite G2 by now rewrite Z. cbn [bind]. eexists. split; [reflexivity|]. unfold stored, shape, ChunkSpec.den, raw. cbn.
      rewrite S, Z.eqb_refl, GM. repeat split.
  Qed.
  Lemma null_chunk c : stored c = true -> k_type c = 0 -> exists n, 0 <= n /\ k_data c = DNull n /\ k_size c = n /\
    den c = repeat CNull (Z.to_nat n) /\ kind_of c = KNull /\ raw c = false.
  Proof.
    intros S T. apply stored_shape in S. destruct S as [S Z]. destruct c as [d t z sr].
    unfold shape in S. cbn [k_data k_type k_size k_sref] in *. subst t.
    destruct d as [n|l|l|l|l|l]; cbn in S; try discriminate.
    exists n. cbn in Z. repeat split; try lia.
  Qed.

  Lemma take_from c k : stored c = true -> 0 < k < k_size c ->
    exists c', take_chunk c (from k) = Ok c' /\ stored c' = true /\ den c' = skipn (Z.to_nat k) (den c) /\
      kind_of c' = kind_of c /\ raw c' = raw c /\ k_size c' = k_size c - k.
  Proof.
    intros S H. assert (P : exists c', take_chunk c (from k) = Ok c' /\ stored c' = true /\ den c' = skipn (Z.to_nat k) (den c) /\
      kind_of c' = kind_of c /\ raw c' = raw c).
    { destruct (Z.eq_dec (k_type c) 0) as [T|T].
      - destruct (null_chunk S T) as (n & Hn & D & Zn & E & K & R). unfold take_chunk. rewrite T, Z.eqb_refl. cbn [bind from].
        assert (N : null_slice (k_size c) (mkS (Some k) None None) = n - k).
        { unfold null_slice, or_. cbn [sl_start sl_stop sl_step]. rewrite Zn in *. replace (n =? 0) with false by lia.
          destruct k as [|p|p]; [lia| |lia]. cbn [Z.ltb Z.compare]. replace (n <? 0) with false by lia.
          replace (n <=? Z.pos p) with false by lia. rewrite Z.div_1_r, Z.mod_1_r. cbn. lia. }
        rewrite N. eexists. split; [reflexivity|]. unfold stored, shape. cbn. rewrite E, K, R, skipn_repeat.
        replace (0 <=? n - k) with true by lia. rewrite Z.eqb_refl. repeat split. unfold ChunkSpec.den. cbn. f_equal. lia.
      - apply take_gen with (g := fun A l => skipn (Z.to_nat k) l); try assumption.
        + intros A l Hl. cbn [take_list from]. apply slice_from. lia.
        + intros A l Hl. cbn [take_list from]. apply slice_from. lia.
        + intros. apply map_skipn.
        + intros. now apply forallb_skipn. }
    destruct P as (c' & P1 & P2 & P3 & P4 & P5). exists c'. repeat (split; [assumption|]).
    rewrite <- (stored_len P2), P3. unfold zlen. rewrite skipn_length. pose proof (stored_len S). unfold zlen in *. lia.
  Qed.
  Lemma take_upto c k : stored c = true -> 0 < k <= k_size c ->
    exists c', take_chunk c (upto k) = Ok c' /\ stored c' = true /\ den c' = firstn (Z.to_nat k) (den c) /\
      kind_of c' = kind_of c /\ raw c' = raw c /\ k_size c' = k.
  Proof.
    intros S H. assert (P : exists c', take_chunk c (upto k) = Ok c' /\ stored c' = true /\ den c' = firstn (Z.to_nat k) (den c) /\
      kind_of c' = kind_of c /\ raw c' = raw c).
    { destruct (Z.eq_dec (k_type c) 0) as [T|T].
      - destruct (null_chunk S T) as (n & Hn & D & Zn & E & K & R). unfold take_chunk. rewrite T, Z.eqb_refl. cbn [bind upto].
        assert (N : null_slice (k_size c) (mkS None (Some k) None) = k).
        { unfold null_slice, or_. cbn [sl_start sl_stop sl_step]. rewrite Zn in *. replace (n =? 0) with false by lia.
          destruct k as [|p|p]; [lia| |lia]. cbn [Z.ltb Z.compare Z.leb]. rewrite Z.div_1_r, Z.mod_1_r. cbn. lia. }
        rewrite N. eexists. split; [reflexivity|]. unfold stored, shape. cbn. rewrite E, K, R, firstn_repeat.
        replace (0 <=? k) with true by lia. rewrite Z.eqb_refl. repeat split. unfold ChunkSpec.den. cbn. f_equal. lia.
      - apply take_gen with (g := fun A l => firstn (Z.to_nat k) l); try assumption.
        + intros A l Hl. cbn [take_list upto]. apply slice_upto. lia.
        + intros A l Hl. cbn [take_list upto]. apply slice_upto. lia.
        + intros. symmetry. apply firstn_map.
        + intros. now apply forallb_firstn. }
    destruct P as (c' & P1 & P2 & P3 & P4 & P5). exists c'. repeat (split; [assumption|]).
    rewrite <- (stored_len P2), P3. unfold zlen. rewrite firstn_length. pose proof (stored_len S). unfold zlen in *. lia.
  Qed.
  Lemma take_mask c m : stored c = true -> zlen m = k_size c ->
    exists c', take_chunk c (IMask m) = Ok c' /\ stored c' = true /\ den c' = mask_list (den c) m /\
      kind_of c' = kind_of c /\ raw c' = raw c /\ k_size c' = true_count m.
  Proof.
    intros S H. assert (P : exists c', take_chunk c (IMask m) = Ok c' /\ stored c' = true /\ den c' = mask_list (den c) m /\
      kind_of c' = kind_of c /\ raw c' = raw c).
    { destruct (Z.eq_dec (k_type c) 0) as [T|T].
      - destruct (null_chunk S T) as (n & Hn & D & Zn & E & K & R). unfold take_chunk. rewrite T, Z.eqb_refl.
        replace (k_size c <? zlen m) with false by lia. cbn [bind].
        eexists. split; [reflexivity|]. unfold stored, shape. cbn. rewrite E, K, R.
        replace (0 <=? true_count m) with true by (unfold true_count, zlen; lia). rewrite Z.eqb_refl. repeat split.
        unfold ChunkSpec.den. cbn. replace (Z.to_nat n) with (List.length m) by (unfold zlen in H; lia). now rewrite mask_repeat.
      - apply take_gen with (g := fun A l => mask_list l m); try assumption.
        + intros A l Hl. cbn [take_list]. now replace (zlen m =? zlen l) with true by lia.
        + intros A l Hl. cbn [take_list]. now replace (zlen m =? zlen l) with true by lia.
        + intros. apply map_mask_list.
        + intros. now apply forallb_mask. }
    destruct P as (c' & P1 & P2 & P3 & P4 & P5). exists c'. repeat (split; [assumption|]).
    rewrite <- (stored_len P2), P3. apply mask_len. pose proof (stored_len S). unfold zlen in *. lia.
  Qed.
End Take.
