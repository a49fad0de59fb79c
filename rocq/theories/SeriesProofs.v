(** A column built by [add] holds its cells at their rows. *)
From Verif Require Import Py PyFacts PyText Cell Casts Chunk ChunkSpec ChunkProofs ChunkWindow ChunkRun ChunkClosed ChunkConcat Utf8 Series SeriesSpec.
From Coq Require Import ZifyBool ZifyNat.
From Flocq Require Import IEEE754.Bits.
Set Implicit Arguments. Unset Strict Implicit.

Lemma groups_concat n (bs : list bytes) : forall fuel, (0 < n)%nat -> (forall b, In b bs -> List.length b = n) -> (List.length bs <= fuel)%nat ->
  groups fuel n (List.concat bs) = bs.
Proof.
  induction bs as [|b bs IH]; intros fuel Hn H Hf; [destruct fuel; reflexivity|].
  destruct fuel as [|f]; [cbn in Hf; lia|]. cbn [List.concat groups].
  assert (Lb : List.length b = n) by (apply H; now left).
  destruct (b ++ List.concat bs) as [|y ys] eqn:E.
  { destruct b; [cbn in Lb; lia|discriminate]. }
  rewrite <- E, firstn_app, skipn_app, Lb, Nat.sub_diag, firstn_O, skipn_O, app_nil_r.
  assert (E1 : firstn n b = b) by (rewrite <- Lb; apply firstn_all). assert (E2 : skipn n b = []) by (rewrite <- Lb; apply skipn_all).
  rewrite E1, E2. cbn [app]. f_equal. apply IH; [exact Hn| |cbn in Hf; lia].
  intros x Hx. apply H. now right.
Qed.
Lemma concat_length n (bs : list bytes) : (forall b, In b bs -> List.length b = n) -> List.length (List.concat bs) = (n * List.length bs)%nat.
Proof.
  induction bs as [|b bs IH]; intro H; [cbn; lia|]. cbn [List.concat List.length]. rewrite app_length, IH by (intros; apply H; now right).
  rewrite (H b) by now left. lia.
Qed.
Lemma frombuffer_concat n (bs : list bytes) : (0 < n)%nat -> (forall b, In b bs -> List.length b = n) -> frombuffer n (List.concat bs) = Ok bs.
Proof.
  intros Hn H. unfold frombuffer. rewrite (concat_length H).
  assert (E : ((n * List.length bs) mod n = 0)%nat) by (rewrite Nat.mul_comm; apply Nat.mod_mul; lia).
  rewrite E. change (Nat.eqb 0 0) with true. cbv iota. f_equal. apply groups_concat; [exact Hn|exact H|nia].
Qed.
Lemma mapM_run A B C (f : A -> res B) (g : B -> C) (l : list A) (ts : list C) :
  Forall2 (fun x t => exists y, f x = Ok y /\ g y = t) l ts -> exists ys, mapM f l = Ok ys /\ map g ys = ts.
Proof.
  induction 1 as [|x t l ts (y & Y1 & Y2) F (ys & IH1 & IH2)]; [exists []; now split|].
  exists (y :: ys). cbn. rewrite Y1. cbn. rewrite IH1. cbn. split; [reflexivity|]. now rewrite Y2, IH2.
Qed.
Lemma mapM_len A B (f : A -> res B) l ys : mapM f l = Ok ys -> List.length ys = List.length l.
Proof.
  revert ys. induction l as [|x l IH]; intros ys H; cbn in H; [inversion H; reflexivity|].
  destruct (f x); [|discriminate]. cbn in H. destruct (mapM f l) as [zs|]; [|discriminate]. cbn in H. inversion H. cbn. now rewrite IH.
Qed.
Lemma join_map bs : join (map VBytes bs) = Ok (List.concat bs).
Proof.
  unfold join. assert (E : mapM val_bytes (map VBytes bs) = Ok bs); [|now rewrite E].
  induction bs as [|b bs IH]; [reflexivity|]. cbn. now rewrite IH.
Qed.
Lemma as_bytes C n (P : bytes -> C -> Prop) data (ts : list C) :
  Forall2 (fun v t => exists b, v = VBytes b /\ List.length b = n /\ P b t) data ts ->
  exists bs, data = map VBytes bs /\ Forall2 P bs ts /\ (forall b, In b bs -> List.length b = n).
Proof.
  induction 1 as [|v t l ts (b & -> & B2 & B3) F (bs & -> & IH2 & IH3)]; [exists []; repeat split; [constructor|now intros b []]|].
  exists (b :: bs). split; [reflexivity|]. split; [now constructor|]. intros x [<-|Hx]; [exact B2|now apply IH3].
Qed.
Lemma Forall2_map_eq A B (g : A -> B) l l' : Forall2 (fun x t => t = g x) l l' -> map g l = l'.
Proof. induction 1; [reflexivity|]. cbn. now subst; f_equal. Qed.
Lemma Forall2_imp A B (P Q : A -> B -> Prop) l l' : (forall x y, P x y -> Q x y) -> Forall2 P l l' -> Forall2 Q l l'.
Proof. intros H. induction 1; constructor; auto. Qed.
Lemma Forall2_len A B (P : A -> B -> Prop) l l' : Forall2 P l l' -> zlen l = zlen l'.
Proof. unfold zlen. induction 1; [reflexivity|]. cbn [List.length]. lia. Qed.
Lemma zlen_map A B (f : A -> B) l : zlen (map f l) = zlen l.
Proof. unfold zlen. now rewrite map_length. Qed.
Lemma map_pair A B C (p : A) (g : B -> C) l : map (pair p) (map g l) = map (fun x => (p, g x)) l.
Proof. now rewrite map_map. Qed.

Section Proofs.
  Context (o : oracle) (sc : sconf).
  Local Notation shared := (sc_shared sc).
  Local Notation cell_tag := (SeriesSpec.cell_tag o sc).

  (** *** Runs *)
  Definition made (c : chunk) (ts : list tag) : Prop := stored c = true /\ k_size c = zlen ts /\ cells_of o c = ts.
  Lemma made_str data ts :
    Forall2 (fun v t => exists x, val_text v = Ok x /\ (KStr, false, CText x) = t) data ts ->
    exists c, (l <- mapM val_text data ;; Ok (mkC (DStr (map Some l)) (Z.lor TYPE_STRING REPR_PREPARED) (zlen data) [])) = Ok c /\ made c ts.
  Proof.
    intro F. pose proof (Forall2_len F) as L. destruct (mapM_run (g := fun x => (KStr, false, CText x)) F) as (ys & E1 & E2). rewrite E1. cbn [bind].
    pose proof (mapM_len E1) as Ly. change (Z.lor TYPE_STRING REPR_PREPARED) with 0x18.
    eexists. split; [reflexivity|]. split; [|split].
    - unfold stored, shape. cbn [k_data k_type k_size data_len]. rewrite zlen_map. unfold zlen. rewrite Ly. lia.
    - cbn [k_size]. exact L.
    - unfold cells_of, den. cbn [k_data kind_of k_type]. rewrite !map_map. exact E2.
  Qed.
  Lemma made_idx (l : list Z) n ts : zlen l = n -> map (fun i => (KStr, true, shared_at shared i)) l = ts -> forallb (in_table shared) l = true ->
    made (mkC (DIdx l) (Z.lor TYPE_STRING REPR_SHARED) n shared) ts.
  Proof.
    intros L E T. change (Z.lor TYPE_STRING REPR_SHARED) with 0x11. split; [|split].
    - unfold stored, shape. cbn [k_data k_type k_size data_len k_sref]. rewrite T. lia.
    - cbn [k_size]. rewrite <- E, zlen_map. lia.
    - unfold cells_of, den. cbn [k_data kind_of k_type k_sref]. rewrite map_map. exact E.
  Qed.
  Lemma shared_text_inv i t : shared_text sc i = Some t -> in_table shared i = true /\ i < 2 ^ 32 /\ t = (KStr, true, shared_at shared i).
  Proof.
    unfold shared_text. destruct (in_table shared i); cbn [andb]; [|discriminate].
    destruct (i <? 2 ^ 32) eqn:E; [|discriminate]. intro H. inversion H. repeat split. lia.
  Qed.
  Lemma in_table_all (l : list Z) : (forall i, In i l -> in_table shared i = true) -> forallb (in_table shared) l = true.
  Proof. intro H. apply forallb_forall. exact H. Qed.

  Lemma made_f (l : list f8) n ts (k : Z) : (k = 0x28 /\ map num l = ts) \/ (k = 0x24 /\ map (SeriesSpec.time o) l = ts) -> zlen l = n ->
    made (mkC (DF l) k n []) ts.
  Proof.
    intros H L. split; [|split].
    - unfold stored, shape. cbn [k_data k_type k_size data_len]. destruct H as [[-> _]|[-> _]]; cbn; lia.
    - cbn [k_size]. destruct H as [[_ <-]|[_ <-]]; rewrite zlen_map; lia.
    - unfold cells_of, den. cbn [k_data kind_of k_type]. rewrite map_map. destruct H as [[-> <-]|[-> <-]]; reflexivity.
  Qed.
  Lemma made_rk (l : list Z) n ts (k : Z) : (k = 0x21 /\ map (fun v => num (rk_to_f8 v)) l = ts) \/ (k = 0x25 /\ map (fun v => SeriesSpec.time o (rk_to_f8 v)) l = ts) -> zlen l = n ->
    made (mkC (DRk l) k n []) ts.
  Proof.
    intros H L. split; [|split].
    - unfold stored, shape. cbn [k_data k_type k_size data_len]. destruct H as [[-> _]|[-> _]]; cbn; lia.
    - cbn [k_size]. destruct H as [[_ <-]|[_ <-]]; rewrite zlen_map; lia.
    - unfold cells_of, den. cbn [k_data kind_of k_type]. rewrite map_map. destruct H as [[-> <-]|[-> <-]]; reflexivity.
  Qed.
  (** Shapes of the values of well-formed cells. *)
  Lemma bin_inv k v t : bin_tag o sc k v = Some t ->
    (k = 0x18 /\ exists x, v = VStr x /\ t = (KStr, false, CText x)) \/
    (exists b, v = VBytes b /\
      ((k = 0x22 /\ List.length b = 1%nat /\ t = num (f8_of_Z (le_int b))) \/
       (k = 0x11 /\ List.length b = 4%nat /\ shared_text sc (le_int b) = Some t) \/
       (k = 0x21 /\ List.length b = 4%nat /\ t = num (rk_to_f8 (le_int b))) \/
       (k = 0x25 /\ List.length b = 4%nat /\ t = SeriesSpec.time o (rk_to_f8 (le_int b))) \/
       (k = 0x28 /\ List.length b = 8%nat /\ t = num (b64_of_bits (le_int b))) \/
       (k = 0x24 /\ List.length b = 8%nat /\ t = SeriesSpec.time o (b64_of_bits (le_int b))))).
  Proof.
    destruct v as [b|x]; cbn [bin_tag].
    2: { destruct (k =? 0x18) eqn:E; [|discriminate]. intro H. inversion H. left. split; [lia|]. eauto. }
    intro H. right. exists b. split; [reflexivity|].
    destruct b as [|b0 [|b1 [|b2 [|b3 [|b4 [|b5 [|b6 [|b7 [|b8 b]]]]]]]]]; cbn [bin_tag] in H; try discriminate H.
    - destruct (k =? 0x22) eqn:E; [|discriminate]. inversion H. left. repeat split; [lia|]. cbn [le_int fold_right]. do 2 f_equal. lia.
    - replace (b0 + 2 ^ 8 * b1 + 2 ^ 16 * b2 + 2 ^ 24 * b3) with (le_int [b0; b1; b2; b3]) in H by (cbn [le_int fold_right]; lia).
      right. destruct (k =? 0x11) eqn:E1; [left; repeat split; [lia|exact H]|]. right.
      destruct (k =? 0x21) eqn:E2; [inversion H; left; repeat split; lia|]. right.
      destruct (k =? 0x25) eqn:E3; [inversion H; left; repeat split; lia|discriminate].
    - replace (b0 + 2 ^ 8 * b1 + 2 ^ 16 * b2 + 2 ^ 24 * b3 + 2 ^ 32 * b4 + 2 ^ 40 * b5 + 2 ^ 48 * b6 + 2 ^ 56 * b7)
        with (le_int [b0; b1; b2; b3; b4; b5; b6; b7]) in H by (cbn [le_int fold_right]; lia).
      do 4 right. destruct (k =? 0x28) eqn:E1; [inversion H; left; repeat split; lia|].
      destruct (k =? 0x24) eqn:E2; [inversion H; right; repeat split; lia|discriminate].
  Qed.
  Ltac others H := repeat (destruct H as [(H & _)|H]; [lia|]); first [destruct H as (H & _); lia|lia].
  Lemma made_bin k data ts : sc_binary sc = true -> ts <> [] ->
    Forall2 (fun v t => bin_tag o sc k v = Some t) data ts -> exists c, make_chunk o sc k data = Ok c /\ made c ts.
  Proof.
    intros B Ne F.
    assert (K : k = 0x18 \/ k = 0x22 \/ k = 0x11 \/ k = 0x21 \/ k = 0x25 \/ k = 0x28 \/ k = 0x24).
    { destruct F as [|v t data' ts' H0 _]; [congruence|]. apply bin_inv in H0. clear -H0.
      destruct H0 as [(H0 & _)|(b & _ & H0)]; [now left|]. repeat (destruct H0 as [(H0 & _)|H0]; [tauto|]). destruct H0 as (H0 & _). tauto. }
    pose proof (Forall2_imp (fun v t (H : bin_tag o sc k v = Some t) => bin_inv H) F) as G. clear F.
    unfold make_chunk. rewrite B.
    destruct K as [-> | [-> | [-> | [-> | [-> | [-> | ->]]]]]].
    - change (flag 24 TYPE_STRING) with true. cbv iota. unfold xlsb_strings. change (flag 24 REPR_SHARED) with false. cbv iota.
      apply made_str. eapply Forall2_imp; [|exact G]. intros x t' [(_ & y & -> & ->)|(? & _ & H)]; [exists y; now split|others H].
    - change (flag 34 TYPE_STRING) with false. cbv iota. unfold xlsb_numeric.
      change (flag 34 REPR_RKNUMBER) with false. change (flag 34 REPR_BOOLEAN) with true. change (flag 34 REPR_TEMPORAL) with false. cbv iota.
      destruct (@as_bytes tag 1 (fun b t => t = num (f8_of_Z (le_int b))) data ts) as (bs & -> & J2 & J3).
      { eapply Forall2_imp; [|exact G]. intros x t1 [(H & _)|(b1 & -> & H)]; [lia|]. exists b1. split; [reflexivity|].
        destruct H as [(_ & H1 & ->)|H]; [now split|others H]. }
      apply Forall2_map_eq in J2. rewrite join_map. cbn [bind]. eexists. split; [reflexivity|].
      assert (E : map num (map f8_of_Z (List.concat bs)) = ts /\ zlen (List.concat bs) = zlen bs).
      { rewrite <- J2. clear -J3. induction bs as [|b bs IH]; [now split|]. destruct IH as [I1 I2]; [intros; apply J3; now right|].
        pose proof (J3 b (or_introl eq_refl)) as L. destruct b as [|x [|y b]]; cbn in L; try lia. cbn [List.concat app map]. rewrite I1.
        split; [|unfold zlen in *; cbn [List.length]; lia]. f_equal. cbn [le_int fold_right]. do 2 f_equal. lia. }
      destruct E as [E1 E2]. apply made_f; [left; split; [reflexivity|exact E1]|]. rewrite !zlen_map. exact E2.
    - change (flag 17 TYPE_STRING) with true. cbv iota. unfold xlsb_strings. change (flag 17 REPR_SHARED) with true. cbv iota.
      destruct (@as_bytes tag 4 (fun b t => t = (KStr, true, shared_at shared (le_int b)) /\ in_table shared (le_int b) = true) data ts) as (bs & -> & J2 & J3).
      { eapply Forall2_imp; [|exact G]. intros x t1 [(H & _)|(b1 & -> & H)]; [lia|]. exists b1. split; [reflexivity|].
        destruct H as [(H & _)|[(_ & H1 & H2)|H]]; [lia| |others H]. apply shared_text_inv in H2. destruct H2 as (H2 & _ & ->). now repeat split. }
      rewrite join_map. cbn [bind]. unfold zlen at 1 2. rewrite (concat_length J3), map_length, groups_concat; [|lia|exact J3|lia].
      replace (Z.of_nat (4 * List.length bs) <? 4 * Z.of_nat (List.length bs)) with false by lia.
      eexists. split; [reflexivity|]. apply made_idx.
      + rewrite !zlen_map. reflexivity.
      + rewrite map_map. apply Forall2_map_eq. eapply Forall2_imp; [|exact J2]. now intros x y [H _].
      + clear -J2. induction J2 as [|b t bs ts [H1 H2] F IH]; [reflexivity|]. cbn [map forallb]. now rewrite H2, IH.
    - change (flag 33 TYPE_STRING) with false. cbv iota. unfold xlsb_numeric.
      change (flag 33 REPR_RKNUMBER) with true. change (flag 33 REPR_BOOLEAN) with false. change (flag 33 REPR_TEMPORAL) with false. cbv iota.
      destruct (@as_bytes tag 4 (fun b t => t = num (rk_to_f8 (le_int b))) data ts) as (bs & -> & J2 & J3).
      { eapply Forall2_imp; [|exact G]. intros x t1 [(H & _)|(b1 & -> & H)]; [lia|]. exists b1. split; [reflexivity|].
        destruct H as [(H & _)|[(H & _)|[(_ & H1 & ->)|H]]]; [lia|lia|now split|others H]. }
      apply Forall2_map_eq in J2. rewrite join_map. cbn [bind]. rewrite frombuffer_concat by (assumption || lia). cbn [bind].
      eexists. split; [reflexivity|]. apply made_rk; [left; split; [reflexivity|now rewrite map_map]|now rewrite !zlen_map].
    - change (flag 37 TYPE_STRING) with false. cbv iota. unfold xlsb_numeric.
      change (flag 37 REPR_RKNUMBER) with true. change (flag 37 REPR_BOOLEAN) with false. change (flag 37 REPR_TEMPORAL) with true. cbv iota.
      destruct (@as_bytes tag 4 (fun b t => t = SeriesSpec.time o (rk_to_f8 (le_int b))) data ts) as (bs & -> & J2 & J3).
      { eapply Forall2_imp; [|exact G]. intros x t1 [(H & _)|(b1 & -> & H)]; [lia|]. exists b1. split; [reflexivity|].
        destruct H as [(H & _)|[(H & _)|[(H & _)|[(_ & H1 & ->)|H]]]]; [lia|lia|lia|now split|others H]. }
      apply Forall2_map_eq in J2. rewrite join_map. cbn [bind]. rewrite frombuffer_concat by (assumption || lia). cbn [bind].
      eexists. split; [reflexivity|]. apply made_rk; [right; split; [reflexivity|now rewrite map_map]|now rewrite !zlen_map].
    - change (flag 40 TYPE_STRING) with false. cbv iota. unfold xlsb_numeric.
      change (flag 40 REPR_RKNUMBER) with false. change (flag 40 REPR_BOOLEAN) with false. change (flag 40 REPR_TEMPORAL) with false. cbv iota.
      destruct (@as_bytes tag 8 (fun b t => t = num (b64_of_bits (le_int b))) data ts) as (bs & -> & J2 & J3).
      { eapply Forall2_imp; [|exact G]. intros x t1 [(H & _)|(b1 & -> & H)]; [lia|]. exists b1. split; [reflexivity|].
        destruct H as [(H & _)|[(H & _)|[(H & _)|[(H & _)|[(_ & H1 & ->)|H]]]]]; [lia|lia|lia|lia|now split|others H]. }
      apply Forall2_map_eq in J2. rewrite join_map. cbn [bind]. rewrite frombuffer_concat by (assumption || lia). cbn [bind].
      eexists. split; [reflexivity|]. apply made_f; [left; split; [reflexivity|now rewrite map_map]|now rewrite !zlen_map].
    - change (flag 36 TYPE_STRING) with false. cbv iota. unfold xlsb_numeric.
      change (flag 36 REPR_RKNUMBER) with false. change (flag 36 REPR_BOOLEAN) with false. change (flag 36 REPR_TEMPORAL) with true. cbv iota.
      destruct (@as_bytes tag 8 (fun b t => t = SeriesSpec.time o (b64_of_bits (le_int b))) data ts) as (bs & -> & J2 & J3).
      { eapply Forall2_imp; [|exact G]. intros x t1 [(H & _)|(b1 & -> & H)]; [lia|]. exists b1. split; [reflexivity|].
        destruct H as [(H & _)|[(H & _)|[(H & _)|[(H & _)|[(H & _)|(_ & H1 & ->)]]]]]; [lia|lia|lia|lia|lia|now split]. }
      apply Forall2_map_eq in J2. rewrite join_map. cbn [bind]. rewrite frombuffer_concat by (assumption || lia). cbn [bind].
      eexists. split; [reflexivity|]. apply made_f; [right; split; [reflexivity|now rewrite map_map]|now rewrite !zlen_map].
  Qed.
  Lemma made_txt k data ts : sc_binary sc = false -> ts <> [] ->
    Forall2 (fun v t => txt_tag o sc k v = Some t) data ts -> exists c, make_chunk o sc k data = Ok c /\ made c ts.
  Proof.
    intros B Ne F.
    assert (K : k = 0x18 \/ k = 0x11 \/ k = 0x20 \/ k = 0x24).
    { destruct F as [|v t data' ts' H0 _]; [congruence|]. destruct v; [|discriminate]. cbn in H0.
      destruct (k =? 24) eqn:E1; [lia|]. destruct (k =? 17) eqn:E2; [lia|]. destruct (k =? 32) eqn:E3; [lia|].
      destruct (k =? 36) eqn:E4; [lia|discriminate]. }
    pose proof (Forall2_len F) as L. unfold make_chunk. rewrite B.
    destruct K as [-> | [-> | [-> | ->]]].
    - change (flag 24 TYPE_STRING) with true. cbv iota. unfold xlsx_strings. change (flag 24 REPR_SHARED) with false. cbv iota.
      apply made_str. eapply Forall2_imp; [|exact F]. intros [b|x] t H; [|discriminate]. cbn in H. cbn [val_text].
      destruct (decode8 b) as [y|]; [|discriminate]. inversion H. exists y. now split.
    - change (flag 17 TYPE_STRING) with true. cbv iota. unfold xlsx_strings. change (flag 17 REPR_SHARED) with true. cbv iota.
      assert (F' : Forall2 (fun v t => exists i, (b <- val_bytes v ;; i <- py_int b ;; (if (0 <=? i) && (i <? 2 ^ 32) then Ok i else Err Undefined)) = Ok i /\
        (in_table shared i, (KStr, true, shared_at shared i)) = t) data (map (pair true) ts)).
      { clear -F. induction F as [|v t l l' H F IH]; [constructor|]. cbn [map]. constructor; [|exact IH]. destruct v as [b|x]; [|discriminate].
        unfold txt_tag in H. cbn [Z.eqb Pos.eqb] in H. cbn [val_bytes bind]. destruct (py_int b) as [i|]; [|discriminate].
        apply shared_text_inv in H. destruct H as (H1 & H2 & ->). exists i. cbn [bind]. rewrite H1.
        unfold in_table in H1. now replace ((0 <=? i) && (i <? 2 ^ 32)) with true by lia. }
      destruct (mapM_run (g := fun i => (in_table shared i, (KStr, true, shared_at shared i))) F') as (ys & E1 & E2).
      rewrite E1. cbn [bind]. pose proof (mapM_len E1) as Ly. eexists. split; [reflexivity|]. apply made_idx.
      + unfold zlen. now rewrite Ly.
      + transitivity (map snd (map (fun i => (in_table shared i, (KStr, true, shared_at shared i))) ys)); [now rewrite map_map|].
        rewrite E2, map_map. apply map_id.
      + assert (Em : map (in_table shared) ys = map (fun _ => true) ts).
        { transitivity (map fst (map (fun i => (in_table shared i, (KStr, true, shared_at shared i))) ys)); [now rewrite map_map|].
          now rewrite E2, map_map. }
        clear -Em. revert ts Em. induction ys as [|y ys IH]; intros [|t ts] Em; try discriminate; [reflexivity|].
        cbn [map] in Em. injection Em as Em1 Em2. cbn [forallb]. rewrite Em1. now apply (IH ts).
    - change (flag 32 TYPE_STRING) with false. cbv iota. unfold xlsx_numeric. change (flag 32 REPR_TEMPORAL) with false. cbv iota.
      assert (F' : Forall2 (fun v t => exists x, (b <- val_bytes v ;; match o_float o b with Some x => Ok x | None => Err ValueError end) = Ok x /\ num x = t) data ts).
      { eapply Forall2_imp; [|exact F]. intros [b|x] t H; [|discriminate]. unfold txt_tag in H. cbn [Z.eqb Pos.eqb] in H. cbn [val_bytes bind].
        destruct (o_float o b) as [x|]; [|discriminate]. inversion H. exists x. now split. }
      destruct (mapM_run F') as (ys & E1 & E2). rewrite E1. pose proof (mapM_len E1) as Ly. eexists. split; [reflexivity|].
      apply made_f; [left; split; [reflexivity|exact E2]|]. unfold zlen. now rewrite Ly.
    - change (flag 36 TYPE_STRING) with false. cbv iota. unfold xlsx_numeric. change (flag 36 REPR_TEMPORAL) with true. cbv iota.
      assert (F' : Forall2 (fun v t => exists x, (b <- val_bytes v ;; match o_float o b with Some x => Ok x | None => Err ValueError end) = Ok x /\ SeriesSpec.time o x = t) data ts).
      { eapply Forall2_imp; [|exact F]. intros [b|x] t H; [|discriminate]. unfold txt_tag in H. cbn [Z.eqb Pos.eqb] in H. cbn [val_bytes bind].
        destruct (o_float o b) as [x|]; [|discriminate]. inversion H. exists x. now split. }
      destruct (mapM_run F') as (ys & E1 & E2). rewrite E1. pose proof (mapM_len E1) as Ly. eexists. split; [reflexivity|].
      apply made_f; [right; split; [reflexivity|exact E2]|]. unfold zlen. now rewrite Ly.
  Qed.
  Lemma made_run k (cs : list cell) : cs <> [] -> (forall c, In c cs -> c_xdt c = k /\ good o sc c = true) ->
    exists ch, make_chunk o sc k (map c_val cs) = Ok ch /\ made ch (map (tag_of o sc) cs).
  Proof.
    intros Ne H.
    assert (F : Forall2 (fun v t => (if sc_binary sc then bin_tag o sc k v else txt_tag o sc k v) = Some t) (map c_val cs) (map (tag_of o sc) cs)).
    { clear Ne. induction cs as [|c cs IH]; [constructor|]. cbn [map]. constructor; [|apply IH; intros; apply H; now right].
      destruct (H c (or_introl eq_refl)) as [<- G]. unfold tag_of, good, SeriesSpec.cell_tag in *. destruct (sc_binary sc);
      match goal with |- ?x = _ => destruct x end; congruence. }
    assert (Nt : map (tag_of o sc) cs <> []) by now destruct cs.
    destruct (sc_binary sc) eqn:B; [now apply made_bin|now apply made_txt].
  Qed.

  (** *** Rows *)
  Local Notation tag_of := (SeriesSpec.tag_of o sc).
  Fixpoint layout (next : Z) (l : list cell) : list tag :=
    match l with
    | [] => []
    | c :: r => repeat tnull (Z.to_nat (c_row c - next)) ++ tag_of c :: layout (c_row c + 1) r
    end.
  Definition next_row (n : Z) (l : list cell) : Z := fold_left (fun _ c => c_row c + 1) l n.
  Lemma layout_app n l c : layout n (l ++ [c]) = layout n l ++ repeat tnull (Z.to_nat (c_row c - next_row n l)) ++ [tag_of c].
  Proof.
    revert n. induction l as [|d l IH]; intro n; [reflexivity|]. cbn [app layout next_row fold_left]. rewrite IH. fold (next_row (c_row d + 1) l).
    now rewrite <- app_assoc.
  Qed.
  Lemma next_row_last l : next_row 0 l = last_row l + 1.
  Proof.
    unfold last_row, next_row. rewrite <- fold_left_rev_right. destruct (rev l) as [|c r]; [reflexivity|]. reflexivity.
  Qed.
  Lemma layout_nth l : forall n r, increasing (n - 1) l = true -> n <= r -> nth (Z.to_nat (r - n)) (layout n l) tnull = at_row o sc l r.
  Proof.
    unfold at_row. induction l as [|c l IH]; intros n r H Hr; [cbn; now destruct (Z.to_nat (r - n))|].
    cbn [increasing] in H. apply andb_prop in H. destruct H as [H1 H2]. cbn [layout find].
    destruct (Z.lt_total r (c_row c)) as [Hc|[Hc|Hc]].
    - rewrite app_nth1 by (rewrite repeat_length; lia).
      assert (E : nth (Z.to_nat (r - n)) (repeat tnull (Z.to_nat (c_row c - n))) tnull = tnull).
      { generalize (Z.to_nat (r - n)) as i. generalize (Z.to_nat (c_row c - n)) as m. clear.
        induction m as [|m IH]; intros [|i]; cbn; auto. }
      rewrite E. replace (c_row c =? r) with false by lia.
      assert (N : find (fun c => c_row c =? r) l = None); [|now rewrite N].
      clear -H2 Hc. assert (Hc' : r <= c_row c) by lia. clear Hc. revert H2 Hc'. generalize (c_row c) as m. induction l as [|d l IH]; intros m H2 Hc; [reflexivity|].
      cbn [increasing] in H2. apply andb_prop in H2. destruct H2 as [H2 H3]. cbn [find]. replace (c_row d =? r) with false by lia.
      apply (IH (c_row d)); [exact H3|lia].
    - rewrite app_nth2 by (rewrite repeat_length; lia). rewrite repeat_length. replace (c_row c =? r) with true by lia.
      now replace (Z.to_nat (r - n) - Z.to_nat (c_row c - n))%nat with 0%nat by lia.
    - rewrite app_nth2 by (rewrite repeat_length; lia). rewrite repeat_length. replace (c_row c =? r) with false by lia.
      replace (Z.to_nat (r - n) - Z.to_nat (c_row c - n))%nat with (S (Z.to_nat (r - (c_row c + 1)))) by lia.
      cbn [nth]. apply IH; [|lia]. now replace (c_row c + 1 - 1) with (c_row c) by lia.
  Qed.
  Lemma layout_length l : forall n, increasing (n - 1) l = true -> zlen (layout n l) = next_row n l - n.
  Proof.
    induction l as [|c l IH]; intros n H; [unfold zlen, next_row; cbn; lia|]. cbn [increasing] in H. apply andb_prop in H. destruct H as [H1 H2].
    cbn [layout next_row fold_left]. fold (next_row (c_row c + 1) l). specialize (IH (c_row c + 1)).
    unfold zlen in *.
    assert (E : forall A (a : list A) x b, List.length (a ++ x :: b) = (List.length a + S (List.length b))%nat) by (intros; now rewrite app_length).
    rewrite E, repeat_length. specialize (IH ltac:(now replace (c_row c + 1 - 1) with (c_row c) by lia)). lia.
  Qed.

  (** *** Histories *)
  (** The same cell, possibly with its shared string already looked up. *)
  Definition tle (x y : tag) : Prop := t_kind x = t_kind y /\ t_val x = t_val y /\ (t_raw x = true -> t_raw y = true).
  Lemma tle_refl x : tle x x.
  Proof. now repeat split. Qed.
  Lemma tles_refl l : Forall2 tle l l.
  Proof. induction l; constructor; [apply tle_refl|assumption]. Qed.
  Lemma tles_trans a b c : Forall2 tle a b -> Forall2 tle b c -> Forall2 tle a c.
  Proof.
    intro F. revert c. induction F as [|x y a b R F IH]; intros c G; inversion G; subst; constructor; [|now apply IH].
    destruct R as (R1 & R2 & R3), H1 as (S1 & S2 & S3). repeat split; try congruence. auto.
  Qed.
  Lemma eqv_tle st st' : Forall2 (eqv o) st st' -> Forall2 tle (cells o st') (cells o st).
  Proof.
    induction 1 as [|c c' st st' (_ & _ & R1 & R2 & _ & R3) F IH]; [constructor|]. cbn [cells flat_map]. apply Forall2_app; [|exact IH].
    unfold cells_of. rewrite R1, R2. unfold raw in R3. generalize (den o c) as l. induction l as [|v l IHl]; constructor; [|exact IHl].
    repeat split. cbn. exact R3.
  Qed.
  Definition solid (st : list chunk) : bool := forallb (fun c => stored c && (0 <? k_size c)) st.
  Definition first_row (l : list cell) : Z := match l with [] => -1 | c :: _ => c_row c end.
  Definition Inv (l : list cell) (x : series) : Prop :=
    exists run, se_chunk x = map c_val run /\ (forall c, In c run -> c_xdt c = se_xdtr x /\ good o sc c = true) /\
      Forall2 tle (cells o (se_chunks x) ++ repeat tnull (Z.to_nat (se_choff x)) ++ map tag_of run) (layout 0 l) /\
      0 <= se_choff x /\ (run = [] -> se_choff x = 0) /\ solid (se_chunks x) = true /\
      se_erow x = last_row l /\ se_srow x = first_row l /\ (l <> [] -> se_chunks x <> [] \/ run <> []).
  Lemma inv_new : Inv [] se_new.
  Proof. exists []. repeat (split; [first [reflexivity|lia|now intros|constructor]|]). now intros. Qed.
  Lemma cells_app a b : cells o (a ++ b) = cells o a ++ cells o b.
  Proof. unfold cells. apply flat_map_app. Qed.
  Lemma cells_nulls n : 0 <= n -> cells_of o (nulls n) = repeat tnull (Z.to_nat n).
  Proof.
    intro H. unfold cells_of, nulls, den. cbn [k_data kind_of k_type]. change (kind_of (mkC (DNull n) 0 n [])) with KNull.
    induction (Z.to_nat n) as [|m IH]; [reflexivity|]. cbn. now rewrite IH.
  Qed.
  Lemma solid_app a b : solid (a ++ b) = solid a && solid b.
  Proof. apply forallb_app. Qed.
  Lemma pull_inv l x : Inv l x -> exists x', pull_some o sc x = Ok x' /\ Inv l x' /\ se_chunk x' = [] /\ se_xdtr x' = se_xdtr x.
  Proof.
    intros (run & I1 & I2 & I3 & I4 & I5 & I6 & I7 & I8 & I9). unfold pull_some.
    destruct (se_chunk x) as [|v vs] eqn:Ex.
    { assert (run = []) by (destruct run; [reflexivity|discriminate]). subst run. exists x. split; [reflexivity|].
      split; [|now split]. exists []. now repeat (split; [assumption || (intros; contradiction)|]). }
    assert (Nr : run <> []) by (intros ->; discriminate).
    destruct (@made_run (se_xdtr x) run Nr I2) as (ch & M1 & M2 & M3 & M4).
    unfold pull. rewrite Ex, I1, M1. cbn [bind]. eexists. split; [reflexivity|]. split; [|now split].
    exists []. cbn [se_chunk se_xdtr se_choff se_chunks se_erow se_srow]. split; [reflexivity|]. split; [now intros c []|].
    split.
    { cbn [repeat Z.to_nat map app]. rewrite app_nil_r, !cells_app.
      assert (E : cells o (if se_choff x =? 0 then [] else [nulls (se_choff x)]) = repeat tnull (Z.to_nat (se_choff x))).
      { destruct (se_choff x =? 0) eqn:E; [now replace (se_choff x) with 0 by lia|]. cbn [cells flat_map]. rewrite app_nil_r. now apply cells_nulls. }
      rewrite E. cbn [cells flat_map] in *. rewrite app_nil_r, M4. exact I3. }
    split; [lia|]. split; [reflexivity|]. split.
    { rewrite !solid_app, I6. cbn [andb]. apply andb_true_intro. split.
      - destruct (se_choff x =? 0) eqn:E; [reflexivity|]. unfold solid, stored, shape, nulls. cbn [forallb k_data k_type k_size data_len]. lia.
      - unfold solid. cbn [forallb]. rewrite M2, M3. unfold zlen. rewrite map_length. destruct run; [congruence|]. cbn. lia. }
    split; [exact I7|]. split; [exact I8|]. intros _. left. now destruct (se_chunks x), (if se_choff x =? 0 then [] else [nulls (se_choff x)]).
  Qed.
  Lemma last_row_snoc l c : last_row (l ++ [c]) = c_row c.
  Proof. unfold last_row. now rewrite rev_app_distr. Qed.
  Lemma first_row_snoc l c : first_row (l ++ [c]) = if l then c_row c else first_row l.
  Proof. now destruct l. Qed.
  Lemma increasing_first l n : increasing n l = true -> l <> [] -> n < first_row l.
  Proof. destruct l as [|c l]; [congruence|]. cbn. intros H _. lia. Qed.

  Theorem add_inv l x c : Inv l x -> increasing (-1) l = true -> good o sc c = true -> last_row l < c_row c -> -1 < c_row c ->
    exists x', add o sc x c = Ok x' /\ Inv (l ++ [c]) x'.
  Proof.
    intros I Inc G Hr H0. unfold add.
    assert (Er : se_erow x = last_row l) by (destruct I as (run & I); tauto). rewrite Er.
    replace (c_row c <=? last_row l) with false by lia.
    (* after the gap is dealt with *)
    assert (A : exists y, (if last_row l + 1 <? c_row c then
        x0 <- pull_some o sc x ;; Ok (mkSer (se_chunks x0) (se_chunk x0) 0 (se_srow x0) (se_erow x0) (c_row c - se_erow x0 - 1)) else Ok x) = Ok y /\
      exists run, se_chunk y = map c_val run /\ (forall d, In d run -> c_xdt d = se_xdtr y /\ good o sc d = true) /\
      Forall2 tle (cells o (se_chunks y) ++ repeat tnull (Z.to_nat (se_choff y)) ++ map tag_of run) (layout 0 l ++ repeat tnull (Z.to_nat (c_row c - last_row l - 1))) /\
      0 <= se_choff y /\ solid (se_chunks y) = true /\ se_erow y = last_row l /\ se_srow y = first_row l /\ (l <> [] -> se_chunks y <> [] \/ run <> [])).
    { destruct (last_row l + 1 <? c_row c) eqn:Eg.
      - destruct (pull_inv I) as (x' & P1 & (run & I1 & I2 & I3 & I4 & I5 & I6 & I7 & I8 & I9) & P3 & P4). rewrite P1. cbn [bind]. eexists. split; [reflexivity|].
        cbn [se_chunk se_xdtr se_choff se_chunks se_erow se_srow]. rewrite P3 in I1. assert (run = []) by (destruct run; [reflexivity|discriminate]). subst run.
        exists []. rewrite P3, I7. split; [reflexivity|]. split; [now intros d []|]. rewrite (I5 eq_refl) in I3. cbn [map repeat Z.to_nat app] in I3. rewrite app_nil_r in I3.
        split; [cbn [map]; rewrite app_nil_r; apply Forall2_app; [exact I3|apply tles_refl]|]. repeat (split; [assumption || reflexivity || lia|]). exact I9.
      - destruct I as (run & I1 & I2 & I3 & I4 & I5 & I6 & I7 & I8 & I9). exists x. split; [reflexivity|]. exists run.
        replace (Z.to_nat (c_row c - last_row l - 1)) with 0%nat by lia. cbn [repeat]. rewrite app_nil_r. tauto. }
    destruct A as (y & A1 & run & I1 & I2 & I3 & I4 & I6 & I7 & I8 & I9). rewrite A1. cbn [bind].
    assert (B : exists z, (if c_xdt c =? se_xdtr y then Ok y
            else x0 <- pull_some o sc y ;; Ok (mkSer (se_chunks x0) (se_chunk x0) (c_xdt c) (se_srow x0) (se_erow x0) (se_choff x0))) = Ok z /\
      exists run, se_chunk z = map c_val run /\ (forall d, In d run -> c_xdt d = se_xdtr z /\ good o sc d = true) /\ se_xdtr z = c_xdt c /\
      Forall2 tle (cells o (se_chunks z) ++ repeat tnull (Z.to_nat (se_choff z)) ++ map tag_of run) (layout 0 l ++ repeat tnull (Z.to_nat (c_row c - last_row l - 1))) /\
      0 <= se_choff z /\ solid (se_chunks z) = true /\ se_erow z = last_row l /\ se_srow z = first_row l).
    { destruct (c_xdt c =? se_xdtr y) eqn:Ey; [exists y; split; [reflexivity|]; exists run; repeat (split; [assumption||lia|]); assumption|].
      unfold pull_some. destruct (se_chunk y) as [|v vs] eqn:Ec.
      - cbn [bind]. eexists. split; [reflexivity|]. exists []. cbn [se_chunk se_xdtr se_choff se_chunks se_erow se_srow]. rewrite Ec.
        assert (run = []) by (destruct run; [reflexivity|discriminate]). subst run. split; [reflexivity|]. split; [now intros d []|]. tauto.
      - assert (Nr : run <> []) by (intros ->; discriminate).
        destruct (@made_run (se_xdtr y) run Nr I2) as (ch & M1 & M2 & M3 & M4). unfold pull. rewrite Ec, I1, M1. cbn [bind].
        eexists. split; [reflexivity|]. exists []. cbn [se_chunk se_xdtr se_choff se_chunks se_erow se_srow]. split; [reflexivity|].
        split; [now intros d []|]. split; [reflexivity|]. split.
        { cbn [repeat Z.to_nat map app]. rewrite app_nil_r, !cells_app.
          assert (E : cells o (if se_choff y =? 0 then [] else [nulls (se_choff y)]) = repeat tnull (Z.to_nat (se_choff y))).
          { destruct (se_choff y =? 0) eqn:E; [now replace (se_choff y) with 0 by lia|]. cbn [cells flat_map]. rewrite app_nil_r. now apply cells_nulls. }
          rewrite E. cbn [cells flat_map] in *. rewrite app_nil_r, M4. exact I3. }
        split; [lia|]. split; [|tauto].
        rewrite !solid_app, I6. cbn [andb]. apply andb_true_intro. split.
        + destruct (se_choff y =? 0) eqn:E; [reflexivity|]. unfold solid, stored, shape, nulls. cbn [forallb k_data k_type k_size data_len]. lia.
        + unfold solid. cbn [forallb]. rewrite M2, M3. unfold zlen. rewrite map_length. destruct run; [congruence|]. cbn. lia. }
    destruct B as (z & B1 & run' & J1 & J2 & J3 & J4 & J5 & J6 & J7 & J8). rewrite B1. cbn [bind]. eexists. split; [reflexivity|].
    exists (run' ++ [c]). cbn [se_chunk se_xdtr se_choff se_chunks se_erow se_srow]. split; [now rewrite map_app, J1|].
    split; [intros d Hd; apply in_app_or in Hd; destruct Hd as [Hd|[<-|[]]]; [now apply J2|split; [congruence|exact G]]|].
    split.
    { rewrite layout_app, next_row_last, map_app. replace (c_row c - (last_row l + 1)) with (c_row c - last_row l - 1) by lia.
      rewrite !app_assoc. apply Forall2_app; [rewrite <- app_assoc; exact J4|apply tles_refl]. }
    split; [exact J5|]. split; [intro E; now destruct run'|]. split; [exact J6|]. split; [now rewrite last_row_snoc|].
    split; [|intros _; right; now destruct run'].
    rewrite first_row_snoc, J8. destruct l as [|d l]; [reflexivity|].
    pose proof (@increasing_first (d :: l) (-1) Inc ltac:(discriminate)) as Hf. now replace (first_row (d :: l) <? 0) with false by lia.
  Qed.
End Proofs.
