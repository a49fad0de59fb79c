(** Claim C98: records whose value is cut off. *)
From Coq Require Import ZifyBool ZifyNat.
From Verif Require Import Py PyFacts Biff BiffRecs Utf16 Cell Xlsb XlsbSpec XlsbProofs Casts Chunk ChunkSpec Series SeriesSpec SeriesProofs
  Reader ReaderSpec PropsReader Workbook WorkbookSpec PropsXlsb PropsWorkbook PropsDamage.
From Flocq Require Import IEEE754.Bits.
Set Implicit Arguments. Unset Strict Implicit.

Lemma mapM_bytes bs : mapM val_bytes (map VBytes bs) = Ok bs.
Proof. induction bs as [|b bs IH]; [reflexivity|]. cbn [map mapM val_bytes bind]. now rewrite IH. Qed.
Lemma join_bytes bs : join (map VBytes bs) = Ok (List.concat bs).
Proof. unfold join. now rewrite mapM_bytes. Qed.
Lemma groups_length k : (0 < k)%nat -> forall fuel b, (List.length b <= fuel)%nat -> (List.length (groups fuel k b) = (List.length b + k - 1) / k)%nat.
Proof.
  intros Hk. induction fuel as [|f IH]; intros b H; cbn [groups].
  - destruct b; [|cbn in H; lia]. cbn [List.length]. symmetry. apply Nat.div_small. lia.
  - destruct b as [|x b]; [cbn [List.length]; symmetry; apply Nat.div_small; lia|].
    cbn [List.length]. rewrite IH by (rewrite skipn_length; cbn [List.length] in *; lia). rewrite skipn_length. cbn [List.length].
    destruct (Nat.le_gt_cases k (S (List.length b))) as [L|L].
    + replace (S (List.length b) + k - 1)%nat with ((S (List.length b) - k + k - 1) + 1 * k)%nat by lia. rewrite Nat.div_add by lia. lia.
    + replace (S (List.length b) - k)%nat with 0%nat by lia. rewrite Nat.div_small by lia. apply Nat.div_unique with (List.length b); lia.
Qed.
(** Numbers stored in a chunk. *)
Definition stored (c : chunk) : Z := match k_data c with DF l => zlen l | DRk l => zlen l | DIdx l => zlen l | _ => 0 end.
Definition t_real := Z.lor TYPE_NUMERIC REPR_PREPARED.
Definition t_date := Z.lor TYPE_NUMERIC REPR_TEMPORAL.
Definition t_bool := Z.lor TYPE_NUMERIC REPR_BOOLEAN.
Definition t_rk := Z.lor TYPE_NUMERIC REPR_RKNUMBER.
Definition t_rkdate := Z.lor (Z.lor TYPE_NUMERIC REPR_RKNUMBER) REPR_TEMPORAL.
Definition t_shared := Z.lor TYPE_STRING REPR_SHARED.
(** Bytes of the value by type of cell ([MS-XLSB] 2.5.122 RkNumber, 2.5.171 Xnum). *)
Definition width (t : Z) : nat := if t =? t_bool then 1 else if (t =? t_real) || (t =? t_date) then 8 else 4.
Definition numeric_types : list Z := [t_real; t_date; t_rk; t_rkdate; t_bool].

Lemma total_full k (bs : list bytes) : (forall b, In b bs -> (List.length b <= k)%nat) ->
  (List.length (List.concat bs) <= k * List.length bs)%nat /\ (List.length (List.concat bs) = (k * List.length bs)%nat <-> forall b, In b bs -> List.length b = k).
Proof.
  induction bs as [|b bs IH]; intro H; [split; [cbn; lia|split; [easy|cbn; lia]]|].
  destruct IH as [I1 I2]; [intros; apply H; now right|]. specialize (H b (or_introl eq_refl)). cbn [List.concat List.length]. rewrite app_length. split; [lia|].
  split; [intros E c [<-|Hc]; [lia|apply I2; [lia|exact Hc]]|]. intro A. rewrite (A b (or_introl eq_refl)), (proj2 I2); [lia|]. intros c Hc. apply A. now right.
Qed.

(** ** C98: a run of cell records becomes one value per record, or raises *)
(** Shared strings: it does. *)
Theorem C98_shared o sc bs c : sc_binary sc = true -> (forall b, In b bs -> (List.length b <= 4)%nat) ->
  make_chunk o sc t_shared (map VBytes bs) = Ok c -> (forall b, In b bs -> List.length b = 4%nat) /\ k_data c = DIdx (map le_int bs) /\ stored c = zlen bs.
Proof.
  intros B H E. unfold make_chunk in E. rewrite B in E. change (flag t_shared TYPE_STRING) with true in E. change (flag t_shared REPR_SHARED) with true in E. cbv iota in E.
  unfold xlsb_strings in E. rewrite join_bytes in E. cbn [bind] in E. destruct (total_full H) as [T1 T2]. unfold zlen in E. rewrite map_length in E.
  destruct (_ <? _) eqn:L; [discriminate|]. assert (F : forall b, In b bs -> List.length b = 4%nat) by (apply T2; lia).
  injection E as <-. cbn [k_data stored]. rewrite groups_concat; [|lia|exact F|lia]. split; [exact F|]. split; [reflexivity|]. cbn. unfold zlen. now rewrite map_length.
Qed.
Print Assumptions C98_shared.
(** Numbers, dates and booleans: exactly when it raises, and how many values there are. *)
Theorem C98_numeric_exact o sc t bs : sc_binary sc = true -> In t numeric_types ->
  if Nat.eqb (Nat.modulo (List.length (List.concat bs)) (width t)) 0
  then exists c, make_chunk o sc t (map VBytes bs) = Ok c /\ stored c = zlen (List.concat bs) / Z.of_nat (width t)
  else make_chunk o sc t (map VBytes bs) = Err ValueError.
Proof.
  intros B I. unfold make_chunk. rewrite B.
  assert (S : flag t TYPE_STRING = false) by (destruct I as [<-|[<-|[<-|[<-|[<-|[]]]]]]; reflexivity). rewrite S.
  unfold xlsb_numeric. rewrite join_bytes. cbn [bind].
  assert (G : forall k, (0 < k)%nat -> Nat.modulo (List.length (List.concat bs)) k = 0%nat -> zlen (groups (List.length (List.concat bs)) k (List.concat bs)) = zlen (List.concat bs) / Z.of_nat k).
  { intros k Hk M. unfold zlen. rewrite groups_length by lia. apply Nat.mod_divides in M as (q & ->); [|lia]. f_equal. rewrite Nat2Z.inj_mul, Z.mul_comm, Z.div_mul by lia.
    rewrite Nat.mul_comm. replace (q * k + k - 1)%nat with ((k - 1) + q * k)%nat by lia. rewrite Nat.div_add by lia. rewrite Nat.div_small by lia. lia. }
  unfold frombuffer.
  destruct I as [<-|[<-|[<-|[<-|[<-|[]]]]]].
  5: { change (width t_bool) with 1%nat. rewrite Nat.mod_1_r. cbn [Nat.eqb]. eexists. split; [reflexivity|]. cbn. unfold zlen. rewrite map_length, Z.div_1_r. reflexivity. }
  1,2: change (width _) with 8%nat. 3,4: change (width _) with 4%nat.
  all: match goal with |- context [flag ?t REPR_RKNUMBER] => let v := eval vm_compute in (flag t REPR_RKNUMBER) in change (flag t REPR_RKNUMBER) with v; change (flag t REPR_BOOLEAN) with false end; cbv iota.
  all: destruct (Nat.eqb _ 0) eqn:M; [|reflexivity]; eexists; split; [reflexivity|]; cbn [stored k_data]; unfold zlen at 1; rewrite map_length; apply G; [lia|apply Nat.eqb_eq; exact M].
Qed.
Print Assumptions C98_numeric_exact.
Definition data_of (x : res chunk) : res cdata := c <- x ;; Ok (k_data c).
Lemma numeric_concat o sc t bs bs' : sc_binary sc = true -> In t numeric_types -> List.concat bs = List.concat bs' ->
  data_of (make_chunk o sc t (map VBytes bs)) = data_of (make_chunk o sc t (map VBytes bs')).
Proof.
  intros B I E. unfold make_chunk. rewrite B.
  assert (S : flag t TYPE_STRING = false) by (destruct I as [<-|[<-|[<-|[<-|[<-|[]]]]]]; reflexivity). rewrite S.
  unfold xlsb_numeric, data_of. rewrite !join_bytes, E. cbn [bind]. match goal with |- bind (bind ?m _) _ = _ => now destruct m end.
Qed.
(** Full claim: every short record raises.  A single one does, if it has a byte of its value. *)
Theorem C98_one_partial o sc t (pre : list bytes) (b : bytes) (post : list bytes) : sc_binary sc = true -> In t numeric_types -> (forall x, In x (pre ++ post) -> List.length x = width t) ->
  (0 < List.length b < width t)%nat -> make_chunk o sc t (map VBytes (pre ++ [b] ++ post)) = Err ValueError.
Proof.
  intros B I F L. pose proof (C98_numeric_exact o (pre ++ [b] ++ post) B I) as H.
  assert (W : (0 < width t)%nat) by lia.
  assert (E : Nat.modulo (List.length (List.concat (pre ++ [b] ++ post))) (width t) = List.length b).
  { rewrite !concat_app, !app_length. cbn [List.concat]. rewrite app_nil_r.
    rewrite (@concat_length (width t) pre), (@concat_length (width t) post) by (intros; apply F, in_or_app; tauto).
    symmetry. apply Nat.mod_unique with (List.length pre + List.length post)%nat; [lia|]. unfold bytes in *. lia. }
  rewrite E in H. replace (Nat.eqb (List.length b) 0) with false in H by (symmetry; apply Nat.eqb_neq; lia). exact H.
Qed.
Print Assumptions C98_one_partial.
(** A record without any byte of its value vanishes; the values after it move up. *)
Theorem C98_empty_refuted o sc t pre post : sc_binary sc = true -> In t numeric_types ->
  data_of (make_chunk o sc t (map VBytes (pre ++ [[]] ++ post))) = data_of (make_chunk o sc t (map VBytes (pre ++ post))).
Proof. intros B I. apply numeric_concat; [exact B|exact I|]. now rewrite !concat_app. Qed.
Print Assumptions C98_empty_refuted.
(** Two short records whose bytes add up become one number that is in neither. *)
Theorem C98_joined_refuted o sc t pre b b' post : sc_binary sc = true -> In t numeric_types ->
  data_of (make_chunk o sc t (map VBytes (pre ++ [b; b'] ++ post))) = data_of (make_chunk o sc t (map VBytes (pre ++ [b ++ b'] ++ post))).
Proof. intros B I. apply numeric_concat; [exact B|exact I|]. rewrite !concat_app. cbn [List.concat]. now rewrite !app_nil_r, !app_assoc. Qed.
Print Assumptions C98_joined_refuted.

(** Whole files: booleans false, true, (cut off), true; a number whose halves are in two records;
    two records that do not add up. *)
Definition exb_short (rs : list (list record)) : archive :=
  replaced (exb_files exb_rows exb_sl) (s "xl/worksheets/sheet1.bin") (dumped ([mkRec 145 []] ++ flat_map (fun l => mkRec 0 (le4 0) :: l) rs ++ [mkRec 402 []])).
Definition at0 : bytes := [0; 0; 0; 0; 0; 0; 0; 0].
Example C98_example :
  let run rs := show_table (read_book exb_expat ex_ro (exb_short rs) (ex_w true) opts0) in
  run [[mkRec 4 (at0 ++ [0])]; [mkRec 4 (at0 ++ [1])]; [mkRec 4 at0]; [mkRec 4 (at0 ++ [1])]] = Ok [(s "Unnamed. 0", (9, None, [Some (inr 0); Some (inr 1); Some (inr 1)]))] /\
  run [[mkRec 5 (at0 ++ [0; 0; 0; 0])]; [mkRec 5 (at0 ++ [0; 0; 0; 64])]] = run [[mkRec 5 (at0 ++ [0; 0; 0; 0; 0; 0; 0; 64])]] /\
  run [[mkRec 5 (at0 ++ [0; 0; 0; 0])]; [mkRec 5 (at0 ++ [0; 0; 0])]] = Err ValueError.
Proof. vm_compute. repeat (apply conj). all: reflexivity. Qed.
(** The hypotheses of [C98_one_partial] and [C98_shared] are met. *)
Example C98_hyps : let sc := mkSC [] true plain_conf in
  make_chunk (ro_o ex_ro) sc t_rk (map VBytes ([[2; 0; 0; 0]] ++ [[2; 0; 0]] ++ [[2; 0; 0; 0]])) = Err ValueError /\
  make_chunk (ro_o ex_ro) sc t_shared (map VBytes [[1; 0; 0; 0]; [0; 0]]) = Err ArrowInvalid /\
  exists c, make_chunk (ro_o ex_ro) sc t_shared (map VBytes [[1; 0; 0; 0]; [2; 0; 0; 0]]) = Ok c /\ k_data c = DIdx [1; 2].
Proof. cbv zeta. split; [reflexivity|]. split; [reflexivity|]. eexists. split; reflexivity. Qed.
