(** Claim C05: the block-buffered scanner on every stream with a high id, and under an empty filter. *)
From Verif Require Import Py PyFacts Biff BiffSpec BiffProofs BiffNumba BiffAny PropsBiff.
From Coq Require Import ZifyBool.

Definition low_hit (t : Z * Z * bytes) : Prop := fst (fst t) < 2 ^ 15.
Lemma bytes_skipn k b : bytes_ok b = true -> bytes_ok (skipn k b) = true.
Proof. revert b. induction k as [|k IH]; intros [|x b] H; cbn [skipn]; try exact H. apply IH. cbn in H. now apply andb_prop in H as [_ H]. Qed.
Lemma read1_ok b x r : bytes_ok b = true -> read1 b = Ok (x, r) -> 0 <= x < 256 /\ bytes_ok r = true.
Proof. destruct b as [|y b]; [discriminate|]. cbn. intros H [= -> ->]. apply andb_prop in H as [A B]. unfold byte_ok in A. split; [lia|exact B]. Qed.
Lemma nb_id_low b i r : bytes_ok b = true -> nb_id b = Ok (i, r) -> i < 2 ^ 15 /\ bytes_ok r = true.
Proof.
  intro H. unfold nb_id. destruct (read1 b) as [[x r1]|] eqn:E1; [|discriminate]. cbn [bind]. destruct (read1_ok _ _ _ H E1) as [X B1].
  destruct (Z.land x 128 =? 0); [intros [= <- <-]; split; [lia|exact B1]|].
  destruct (read1 r1) as [[y r2]|] eqn:E2; [|discriminate]. cbn [bind]. destruct (read1_ok _ _ _ B1 E2) as [_ B2]. intros [= <- <-]. split; [|exact B2].
  unfold wrap16. pose proof (Z.mod_pos_bound (Z.lor x (Z.shiftl y 8) + 2 ^ 15) (2 ^ 16)). lia.
Qed.
Lemma nb_sz_ok b i r : bytes_ok b = true -> nb_sz b = Ok (i, r) -> bytes_ok r = true.
Proof.
  intro H. unfold nb_sz. destruct (read1 b) as [[x r1]|] eqn:E1; [|discriminate]. cbn [bind]. destruct (read1_ok _ _ _ H E1) as [_ B1].
  destruct (_ =? 0); [now intros [= _ <-]|]. destruct (read1 r1) as [[x2 r2]|] eqn:E2; [|discriminate]. cbn [bind]. destruct (read1_ok _ _ _ B1 E2) as [_ B2].
  destruct (_ =? 0); [now intros [= _ <-]|]. destruct (read1 r2) as [[x3 r3]|] eqn:E3; [|discriminate]. cbn [bind]. destruct (read1_ok _ _ _ B2 E3) as [_ B3].
  destruct (_ =? 0); [now intros [= _ <-]|]. destruct (read1 r3) as [[x4 r4]|] eqn:E4; [|discriminate]. cbn [bind]. destruct (read1_ok _ _ _ B3 E4) as [_ B4]. now intros [= _ <-].
Qed.
Lemma chunk_low fuel : forall only pre b l, bytes_ok b = true -> scan_chunk_fuel fuel only pre b = Some l -> Forall low_hit l.
Proof.
  induction fuel as [|fuel IH]; intros only pre b l H; cbn [scan_chunk_fuel]; [discriminate|]. unfold nb_hdr.
  destruct (nb_id b) as [[i r1]|] eqn:E1; [|intros [= <-]; constructor; [reflexivity|constructor]]. cbn [bind]. destruct (nb_id_low _ _ _ H E1) as [I B1].
  destruct (nb_sz r1) as [[z r2]|] eqn:E2; [|intros [= <-]; constructor; [reflexivity|constructor]]. cbn [bind]. pose proof (nb_sz_ok _ _ _ B1 E2) as B2.
  destruct (zlen r2 <? z); [intros [= <-]; constructor; [reflexivity|constructor]|].
  destruct (scan_chunk_fuel fuel only _ _) as [l'|] eqn:S'; [|discriminate]. apply IH in S'; [|now apply bytes_skipn].
  destruct (nb_wanted only i); intros [= <-]; [constructor; [exact I|exact S']|exact S'].
Qed.
Lemma chunk_none fuel : forall pre b l, scan_chunk_fuel fuel (Some []) pre b = Some l -> Forall (fun t => fst (fst t) = -1) l.
Proof.
  induction fuel as [|fuel IH]; intros pre b l; cbn [scan_chunk_fuel]; [discriminate|].
  destruct (nb_hdr b) as [[[i z] r]|]; [|intros [= <-]; constructor; [reflexivity|constructor]].
  destruct (zlen r <? z); [intros [= <-]; constructor; [reflexivity|constructor]|].
  destruct (scan_chunk_fuel fuel (Some []) _ _) as [l'|] eqn:S'; [|discriminate]. apply IH in S'. cbn [nb_wanted mem_Z existsb]. now intros [= <-].
Qed.
Lemma consume_low : forall l chunk, Forall low_hit l -> bytes_ok chunk = true ->
  Forall (fun r => rec_id r < 2 ^ 15) (fst (nb_consume l chunk)) /\ bytes_ok (snd (nb_consume l chunk)) = true.
Proof.
  induction l as [|[[i o] d] l IH]; intros chunk H B; cbn [nb_consume]; [split; [constructor|exact B]|]. inversion H as [|? ? H1 H2]; subst.
  destruct (i <? 0); [apply IH; [exact H2|now apply bytes_skipn]|]. destruct (IH chunk H2 B) as [P Q]. destruct (nb_consume l chunk) as [rs c]. cbn [fst snd] in *.
  split; [constructor; [exact H1|exact P]|exact Q].
Qed.
Lemma consume_none : forall l chunk, Forall (fun t : Z * Z * bytes => fst (fst t) = -1) l -> fst (nb_consume l chunk) = [].
Proof.
  induction l as [|[[i o] d] l IH]; intros chunk H; [reflexivity|]. inversion H as [|? ? H1 H2]; subst. cbn in H1. subst i. cbn [nb_consume]. change (-1 <? 0) with true. now apply IH.
Qed.
Lemma loop_low bsz only fuel : forall chunk rest l, bytes_ok chunk = true -> bytes_ok rest = true -> nb_scan_loop fuel bsz only chunk rest = Some l ->
  Forall (fun r => rec_id r < 2 ^ 15) l.
Proof.
  induction fuel as [|fuel IH]; intros chunk rest l H1 H2; cbn [nb_scan_loop]; [discriminate|].
  set (ch := chunk ++ firstn bsz rest). assert (B : bytes_ok ch = true) by (unfold ch; now rewrite bytes_ok_app, H1, firstn_bytes_ok). clearbody ch.
  destruct ch as [|x ch]; [intros [= <-]; constructor|]. destruct (scan_chunk only (x :: ch)) as [l0|] eqn:S0; [|discriminate].
  apply chunk_low in S0; [|exact B]. destruct (consume_low _ _ S0 B) as [P Q]. destruct (nb_consume l0 (x :: ch)) as [rs c]. cbn [fst snd] in *.
  destruct (nb_scan_loop fuel bsz only c (skipn bsz rest)) as [rs'|] eqn:L; [|discriminate]. intros [= <-]. apply Forall_app. split; [exact P|].
  apply (IH _ _ _ Q (bytes_skipn _ _ H2) L).
Qed.
Lemma loop_none bsz fuel : forall chunk rest l, nb_scan_loop fuel bsz (Some []) chunk rest = Some l -> l = [].
Proof.
  induction fuel as [|fuel IH]; intros chunk rest l; cbn [nb_scan_loop]; [discriminate|].
  destruct (chunk ++ firstn bsz rest) as [|x ch]; [now intros [= <-]|]. destruct (scan_chunk (Some []) (x :: ch)) as [l0|] eqn:S0; [|discriminate].
  apply chunk_none in S0. pose proof (consume_none _ (x :: ch) S0) as P. destruct (nb_consume l0 (x :: ch)) as [rs c]. cbn [fst] in P. subst rs.
  destruct (nb_scan_loop fuel bsz (Some []) c (skipn bsz rest)) as [rs'|] eqn:L; [|discriminate]. intros [= <-]. now rewrite (IH _ _ _ L).
Qed.

(** On any bytes, with any filter and block size, no record the block-buffered scanner yields has an
    id of 0x8000 or more. *)
Theorem C05_only_low_ids fuel bsz only b l : bytes_ok b = true -> nb_scan_biff fuel bsz only b = Some l -> forall r, In r l -> rec_id r < 2 ^ 15.
Proof. intros H S'. now apply Forall_forall, (@loop_low bsz only fuel [] b l). Qed.
Print Assumptions C05_only_low_ids.
(** So the scanners differ on every stream in which the streaming one sees such an id. *)
Theorem C05_high_ids_general_refuted only b rs r : bytes_ok b = true -> scan_biff only b = Some rs -> In r rs -> 2 ^ 15 <= rec_id r ->
  forall fuel bsz, nb_scan_biff fuel bsz only b <> scan_biff only b.
Proof. intros B S' I Hr fuel bsz E. rewrite S' in E. pose proof (C05_only_low_ids _ _ _ _ _ B E r I). lia. Qed.
Print Assumptions C05_high_ids_general_refuted.
Example C05_high_ids_case : bytes_ok [128; 128; 1; 7] = true /\ scan_biff None [128; 128; 1; 7] = Some [mkRec 0x8080 [7]] /\ 2 ^ 15 <= 0x8080.
Proof. repeat split; try reflexivity; lia. Qed.
(** And with an empty filter it yields nothing, on any bytes, while the streaming scanner yields all. *)
Theorem C05_empty_filter_general_refuted b : scan_biff (Some []) b = scan_biff None b /\
  forall fuel bsz l, nb_scan_biff fuel bsz (Some []) b = Some l -> l = [].
Proof.
  split; [|intros fuel bsz l; apply loop_none]. unfold scan_biff. generalize (S (List.length b)) as f. intro f. revert b.
  induction f as [|f IH]; intro b; [reflexivity|]. cbn [scan_fuel]. destruct (scan_hdr b) as [[[i z] r]|]; [|reflexivity]. cbn [wanted]. now rewrite !IH.
Qed.
Print Assumptions C05_empty_filter_general_refuted.
Example C05_empty_filter_case : scan_biff (Some []) [5; 1; 7] = Some [mkRec 5 [7]] /\ nb_scan_biff 5 64 (Some []) [5; 1; 7] = Some [].
Proof. split; reflexivity. Qed.
