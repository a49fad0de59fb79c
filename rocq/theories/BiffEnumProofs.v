From Verif Require Import Py PyFacts Biff BiffSpec BiffProofs BiffEnum.
From Coq Require Import ZifyBool ZifyNat.
Set Implicit Arguments.
Unset Strict Implicit.

Definition entry_ok (p : str * Z) : bool :=
  match dget str_eqb biff_enum (fst p) with Some i => i =? snd p | None => false end
  && id_encodable (snd p)
  && str_eqb (rec_name (mkRec (snd p) [])) (fst p).

Lemma all_entries_ok : forallb entry_ok biff_enum = true.
Proof. vm_compute. reflexivity. Qed.

Lemma biff_enum_size : List.length biff_enum = 845%nat.
Proof. vm_compute. reflexivity. Qed.

Lemma named_record name id parts : In (name, id) biff_enum ->
  from_data_name name parts = Ok (mkRec id (List.concat parts))
  /\ rec_name (mkRec id (List.concat parts)) = name
  /\ id_encodable id = true.
Proof.
  intro Hin. pose proof all_entries_ok as H. rewrite forallb_forall in H. apply H in Hin.
  unfold entry_ok in Hin. cbn [fst snd] in Hin.
  apply andb_prop in Hin as [Hin Hn]. apply andb_prop in Hin as [Hg He].
  unfold from_data_name. destruct (dget str_eqb biff_enum name) as [i|]; [|discriminate].
  apply Z.eqb_eq in Hg. subst i. repeat split; auto.
  apply str_eqb_eq in Hn. exact Hn.
Qed.

Lemma named_record_round_trip name id parts :
  In (name, id) biff_enum -> bytes_ok (List.concat parts) = true -> zlen (List.concat parts) < 2 ^ 29 ->
  exists r b, from_data_name name parts = Ok r /\ rec_id r = id /\ rec_data r = List.concat parts
    /\ rec_name r = name /\ dump_all [r] = Ok b /\ scan_biff None b = Some [r].
Proof.
  intros Hin Hb Hs. destruct (@named_record name id parts Hin) as (E1 & E2 & E3).
  set (r := mkRec id (List.concat parts)) in *.
  destruct (@biff_round_trip [r]) as (b & D & S1).
  - cbn [forallb]. unfold rec_ok. cbn [rec_id rec_data r]. rewrite E3, Hb.
    replace (zlen (List.concat parts) <? 2 ^ 29) with true by (symmetry; apply Z.ltb_lt; exact Hs).
    reflexivity.
  - exists r, b. repeat split; auto.
Qed.
