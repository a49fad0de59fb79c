From Verif Require Import Py PyFacts Utf16 Utf16Spec Biff BiffRecs.
From Coq Require Import ZifyBool ZifyNat.
Ltac Zify.zify_post_hook ::= Z.div_mod_to_equations.
Set Implicit Arguments.
Unset Strict Implicit.

Definition unit_ok (u : Z) : bool := (0 <=? u) && (u <? 0x10000).

Lemma pair_ind (P : list Z -> Prop) :
  P [] -> (forall x, P [x]) -> (forall x y l, P l -> P (x :: y :: l)) -> forall l, P l.
Proof.
  intros H0 H1 H2. fix IH 1. intros [|x [|y l]]; [exact H0|apply H1|apply H2, IH].
Qed.

Lemma units_le_le2 us : units_le (flat_map le2 us) = Ok us.
Proof.
  induction us as [|u us IH]; [reflexivity|].
  cbn [flat_map le2 app units_le]. rewrite IH. cbn [bind]. do 2 f_equal. lia.
Qed.

Lemma decode_units_enc t : str_ok t = true -> decode_units (flat_map enc_units t) = Ok t.
Proof.
  induction t as [|c t IH]; intro H; [reflexivity|].
  unfold str_ok in *. cbn [forallb] in H. apply andb_prop in H as [Hc H].
  unfold char_ok in Hc. cbn [flat_map]. unfold enc_units at 1.
  destruct (c <? 0x10000) eqn:E; cbn [app decode_units].
  - replace (is_high c) with false by (unfold is_high; lia).
    replace (is_low c) with false by (unfold is_low; lia).
    rewrite IH by exact H. reflexivity.
  - replace (is_high _) with true by (unfold is_high; lia).
    replace (is_low _) with true by (unfold is_low; lia).
    rewrite IH by exact H. cbn [bind]. do 2 f_equal. lia.
Qed.

(** Only the encoding of a string decodes to it. *)
Lemma decode_units_inv : forall us t, forallb unit_ok us = true -> decode_units us = Ok t ->
  flat_map enc_units t = us.
Proof.
  intro us0. remember (List.length us0) as n eqn:En. revert us0 En.
  induction n as [n IH] using lt_wf_ind. intros [|u us] En t Hu H; cbn [List.length] in En.
  - cbn in H. apply Ok_inj in H. subst t. reflexivity.
  - cbn [decode_units] in H. cbn [forallb] in Hu. apply andb_prop in Hu as [Hu0 Hu].
    destruct (is_high u) eqn:Eh.
    + destruct us as [|v us]; [discriminate|]. destruct (is_low v) eqn:El; [|discriminate].
      apply bind_ok in H as (t' & Ht & H). apply Ok_inj in H. subst t.
      cbn [forallb] in Hu. apply andb_prop in Hu as [Hv Hu].
      cbn [List.length] in En. apply (IH (List.length us) ltac:(lia) us eq_refl _ Hu) in Ht. cbn [flat_map]. rewrite Ht. unfold enc_units, is_high, is_low in *.
      replace (_ <? 0x10000) with false by lia. cbn [app]. f_equal; [lia|]. f_equal. lia.
    + destruct (is_low u) eqn:El; [discriminate|].
      apply bind_ok in H as (t' & Ht & H). apply Ok_inj in H. subst t.
      apply (IH (List.length us) ltac:(lia) us eq_refl _ Hu) in Ht. cbn [flat_map]. rewrite Ht. unfold enc_units, unit_ok in *.
      replace (u <? 0x10000) with true by lia. reflexivity.
Qed.

Lemma enc_units_ok t : str_ok t = true -> forallb unit_ok (flat_map enc_units t) = true.
Proof.
  induction t as [|c t IH]; intro H; [reflexivity|].
  unfold str_ok in *. cbn [forallb] in H. apply andb_prop in H as [Hc H].
  cbn [flat_map]. rewrite forallb_app, (IH H), andb_true_r.
  unfold char_ok in Hc. unfold enc_units. destruct (c <? 0x10000) eqn:E; cbn [forallb]; unfold unit_ok; lia.
Qed.

Lemma enc_units_length t : zlen (flat_map enc_units t) = n_units t.
Proof.
  induction t as [|c t IH]; [reflexivity|]. cbn [flat_map n_units fold_right].
  rewrite zlen_app, IH. unfold enc_units, n_units. destruct (c <? _); reflexivity.
Qed.

Lemma le2_length us : zlen (flat_map le2 us) = 2 * zlen us.
Proof.
  induction us as [|u us IH]; [reflexivity|]. cbn [flat_map]. rewrite zlen_app, IH.
  unfold le2. rewrite !zlen_cons, zlen_nil. lia.
Qed.

Lemma utf16le_length t : zlen (utf16le t) = 2 * n_units t.
Proof. unfold utf16le. now rewrite le2_length, enc_units_length. Qed.

Lemma n_units_nonneg t : 0 <= n_units t.
Proof. rewrite <- enc_units_length. apply zlen_nonneg. Qed.

(** First two bytes decide the byte order; anything else is plain UTF-16LE. *)
Definition no_mark (b : bytes) : bool :=
  match b with
  | x :: y :: _ => negb (((x =? 0xFF) && (y =? 0xFE)) || ((x =? 0xFE) && (y =? 0xFF)))
  | _ => true
  end.

Lemma decode16_no_mark b : no_mark b = true -> decode16 b = (us <- units_le b ;; decode_units us).
Proof.
  intro H. destruct b as [|x b]; [reflexivity|]. destruct b as [|y b].
  - unfold decode16. repeat (match goal with |- context [match ?v with _ => _ end] => is_var v; destruct v end; try reflexivity).
  - cbn [no_mark] in H. unfold decode16.
    destruct (Z.eq_dec x 0xFF) as [->|Hx].
    + destruct (Z.eq_dec y 0xFE) as [->|Hy]; [discriminate|].
      repeat (match goal with |- context [match ?v with _ => _ end] => is_var v; destruct v end; try reflexivity; try lia).
    + destruct (Z.eq_dec x 0xFE) as [->|Hx2].
      * destruct (Z.eq_dec y 0xFF) as [->|Hy]; [discriminate|].
        repeat (match goal with |- context [match ?v with _ => _ end] => is_var v; destruct v end; try reflexivity; try lia).
      * repeat (match goal with |- context [match ?v with _ => _ end] => is_var v; destruct v end; try reflexivity; try lia).
Qed.

Lemma utf16le_no_mark t : str_ok t = true -> starts_with_mark t = false -> no_mark (utf16le t) = true.
Proof.
  intros H Hm. destruct t as [|c t]; [reflexivity|].
  unfold str_ok in H. cbn [forallb] in H. apply andb_prop in H as [Hc _].
  unfold char_ok in Hc. cbn [starts_with_mark] in Hm.
  unfold utf16le. cbn [flat_map]. unfold enc_units at 1. destruct (c <? 0x10000) eqn:E.
  - cbn [app flat_map le2 no_mark]. lia.
  - cbn [app flat_map le2 no_mark]. lia.
Qed.

Lemma decode16_utf16le t : str_ok t = true -> starts_with_mark t = false ->
  decode16 (utf16le t) = Ok t.
Proof.
  intros H Hm. rewrite decode16_no_mark by now apply utf16le_no_mark.
  unfold utf16le. rewrite units_le_le2. cbn [bind]. now apply decode_units_enc.
Qed.

Lemma decode16_bom t : str_ok t = true -> decode16 (0xFF :: 0xFE :: utf16le t) = Ok t.
Proof.
  intro H. unfold decode16, utf16le. rewrite units_le_le2. cbn [bind]. now apply decode_units_enc.
Qed.

Lemma wide_ok_inv t : wide_ok t = true ->
  str_ok t = true /\ starts_with_mark t = false /\ 0 <= n_units t < 0xFFFFFFFF.
Proof.
  unfold wide_ok. intro H. apply andb_prop in H as [H H3]. apply andb_prop in H as [H1 H2].
  repeat split; auto; [now apply negb_true_iff|apply n_units_nonneg|lia].
Qed.

Lemma read_n_app n a b : zlen a = n -> read_n n (a ++ b) = (a, b).
Proof.
  intros <-. unfold read_n. rewrite zlen_to_nat, firstn_app_exact, skipn_app_exact. reflexivity.
Qed.

Lemma xstr_load_wide t rest : wide_ok t = true ->
  xstr_load (wide_string t ++ rest) = Ok (Some t, rest).
Proof.
  intro H. destruct (wide_ok_inv H) as (H1 & H2 & H3). unfold xstr_load, wide_string.
  rewrite <- app_assoc, read_n_app by reflexivity.
  rewrite unpack_le4 by lia. cbn [bind].
  replace (n_units t =? 0xFFFFFFFF) with false by lia.
  rewrite read_n_app by (rewrite utf16le_length; lia).
  rewrite decode16_utf16le by auto. reflexivity.
Qed.

Lemma xstr_load_null rest : xstr_load (0xFF :: 0xFF :: 0xFF :: 0xFF :: rest) = Ok (None, rest).
Proof. reflexivity. Qed.

(** A string that starts with U+FEFF loses it. *)
Lemma xstr_load_feff t rest : str_ok t = true -> n_units t + 1 < 0xFFFFFFFF ->
  xstr_load (wide_string (0xFEFF :: t) ++ rest) = Ok (Some t, rest).
Proof.
  intros H H2. unfold xstr_load, wide_string.
  assert (N : n_units (0xFEFF :: t) = 1 + n_units t) by reflexivity.
  pose proof (@n_units_nonneg t).
  rewrite <- app_assoc, read_n_app by reflexivity.
  rewrite unpack_le4 by lia. cbn [bind]. rewrite N.
  replace (1 + n_units t =? 0xFFFFFFFF) with false by lia.
  rewrite read_n_app by (rewrite utf16le_length, N; lia).
  change (utf16le (0xFEFF :: t)) with (0xFF :: 0xFE :: utf16le t).
  rewrite decode16_bom by exact H. reflexivity.
Qed.

Lemma from_binary_load b : bytes_ok b = true ->
  xstr_from_binary b = (' (x, _) <- xstr_load b ;; Ok x).
Proof.
  intro Hb. unfold xstr_from_binary, xstr_load, read_n.
  rewrite py_slice_to by lia.
  destruct (unpack_I (firstn (Z.to_nat 4) b)) as [sz|] eqn:E; cbn [bind]; [|reflexivity].
  assert (Hsz : 0 <= sz).
  { change (Z.to_nat 4) with 4%nat in E.
    destruct b as [|b0 [|b1 [|b2 [|b3 b]]]]; cbn [firstn unpack_I] in E; try discriminate.
    apply Ok_inj in E. subst sz. unfold bytes_ok in Hb. cbn [forallb] in Hb.
    unfold byte_ok in Hb. lia. }
  destruct (sz =? 0xFFFFFFFF); [reflexivity|].
  fold (sub b 4 (4 + sz * 2)). rewrite sub_spec by lia.
  replace (4 + sz * 2 - 4) with (sz * 2) by lia.
  destruct (decode16 _); reflexivity.
Qed.

Lemma encode16_ok t : str_ok t = true -> encode16 t = Ok (0xFF :: 0xFE :: utf16le t).
Proof.
  intro H. unfold encode16. replace (existsb is_surrogate t) with false; [reflexivity|].
  symmetry. apply not_true_is_false. intro E. apply existsb_exists in E as (c & Hin & Hs).
  unfold str_ok in H. rewrite forallb_forall in H. apply H in Hin.
  unfold char_ok, is_surrogate, is_high, is_low in *. lia.
Qed.

Lemma xstr_dump_ok t : t <> [] -> str_ok t = true -> zlen t < 2 ^ 32 ->
  xstr_dump (Some t) = Ok (le4 (zlen t) ++ 0xFF :: 0xFE :: utf16le t).
Proof.
  intros Hne H Hl. unfold xstr_dump. destruct t as [|c t]; [congruence|].
  unfold pack_I. pose proof (zlen_nonneg (c :: t)).
  replace ((0 <=? zlen (c :: t)) && (zlen (c :: t) <? 2 ^ 32)) with true by lia.
  cbn [bind]. now rewrite encode16_ok.
Qed.

Lemma firstn_le2 n us : firstn (2 * n) (flat_map le2 us) = flat_map le2 (firstn n us).
Proof.
  revert us; induction n as [|n IH]; intro us; [reflexivity|].
  destruct us as [|u us]; [reflexivity|].
  replace (2 * S n)%nat with (S (S (2 * n))) by lia. cbn [flat_map le2 app firstn]. now rewrite IH.
Qed.
Lemma skipn_le2 n us : skipn (2 * n) (flat_map le2 us) = flat_map le2 (skipn n us).
Proof.
  revert us; induction n as [|n IH]; intro us; [reflexivity|].
  destruct us as [|u us]; [reflexivity|].
  replace (2 * S n)%nat with (S (S (2 * n))) by lia. cbn [flat_map le2 app skipn]. now rewrite IH.
Qed.

Lemma n_units_ge t : zlen t <= n_units t.
Proof.
  induction t as [|c t IH]; [cbn; lia|]. rewrite zlen_cons. cbn [n_units fold_right].
  unfold n_units in IH. destruct (c <? _); lia.
Qed.

(** What loading a dumped string gives: the count covers the mark, so the last
    unit is cut off and stays in the stream. *)
Lemma load_dump t rest : t <> [] -> str_ok t = true -> zlen t < 0xFFFFFFFF ->
  exists b, xstr_dump (Some t) = Ok b /\
  xstr_load (b ++ rest) =
    (t' <- decode_units (firstn (List.length t - 1) (flat_map enc_units t)) ;;
     Ok (Some t', flat_map le2 (skipn (List.length t - 1) (flat_map enc_units t)) ++ rest)).
Proof.
  intros Hne H Hl. eexists. split; [apply xstr_dump_ok; auto; lia|].
  set (us := flat_map enc_units t). unfold utf16le. fold us.
  assert (Hlen : (List.length t <= List.length us)%nat).
  { pose proof (@n_units_ge t) as L. rewrite <- enc_units_length in L. fold us in L. unfold zlen in L. lia. }
  assert (1 <= List.length t)%nat by (destruct t; [congruence|cbn; lia]).
  unfold xstr_load. rewrite <- app_assoc, read_n_app by reflexivity.
  rewrite unpack_le4 by (pose proof (zlen_nonneg t); lia). cbn [bind].
  replace (zlen t =? 0xFFFFFFFF) with false by lia.
  unfold read_n. replace (Z.to_nat (zlen t * 2)) with (S (S (2 * (List.length t - 1)))) by (unfold zlen; lia).
  cbn [app firstn skipn].
  assert (L2 : (2 * (List.length t - 1) <= List.length (flat_map le2 us))%nat).
  { pose proof (le2_length us) as L. unfold zlen in L. lia. }
  rewrite firstn_app, skipn_app.
  replace (2 * (List.length t - 1) - List.length (flat_map le2 us))%nat with 0%nat by lia.
  cbn [firstn skipn]. rewrite app_nil_r, firstn_le2, skipn_le2.
  cbn [decode16]. rewrite units_le_le2. cbn [bind]. reflexivity.
Qed.

Lemma load_dump_never t rest : t <> [] -> str_ok t = true -> zlen t < 2 ^ 32 ->
  exists b, xstr_dump (Some t) = Ok b /\ forall rest', xstr_load (b ++ rest) <> Ok (Some t, rest').
Proof.
  intros Hne H Hl.
  destruct (Z.eq_dec (zlen t) 0xFFFFFFFF) as [E|E].
  - eexists. split; [apply xstr_dump_ok; auto|]. intros rest'. unfold xstr_load.
    rewrite <- app_assoc, read_n_app by reflexivity.
    rewrite unpack_le4 by lia. cbn [bind]. rewrite E. cbn. discriminate.
  - destruct (@load_dump t rest Hne H) as (b & Eb & Lb); [lia|]. exists b. split; [exact Eb|].
    intros rest' Hc. rewrite Lb in Hc. apply bind_ok in Hc as (t' & Ht & Hc).
    injection Hc as -> _. apply decode_units_inv in Ht.
    + apply (f_equal (@List.length Z)) in Ht. rewrite firstn_length in Ht.
      pose proof (@n_units_ge t) as L. rewrite <- enc_units_length in L. unfold zlen in L.
      assert (1 <= List.length t)%nat by (destruct t; [congruence|cbn; lia]). lia.
    + pose proof (enc_units_ok H) as Hu. rewrite forallb_forall in *. intros u Hin. apply Hu.
      rewrite <- (firstn_skipn (List.length t - 1) (flat_map enc_units t)). apply in_or_app. now left.
Qed.

Definition bmp (t : str) : bool := forallb (fun c => c <? 0x10000) t.

Lemma enc_units_bmp t : bmp t = true -> flat_map enc_units t = t.
Proof.
  induction t as [|c t IH]; intro H; [reflexivity|]. unfold bmp in *. cbn [forallb] in H.
  apply andb_prop in H as [Hc H]. cbn [flat_map]. unfold enc_units at 1. rewrite Hc.
  cbn [app]. now rewrite IH.
Qed.

Lemma load_dump_bmp t c rest : str_ok (t ++ [c]) = true -> bmp (t ++ [c]) = true ->
  zlen (t ++ [c]) < 0xFFFFFFFF ->
  exists b, xstr_dump (Some (t ++ [c])) = Ok b
    /\ xstr_load (b ++ rest) = Ok (Some t, le2 c ++ rest).
Proof.
  intros H Hb Hl. destruct (@load_dump (t ++ [c]) rest) as (b & Eb & Lb); auto.
  { intro E. apply app_eq_nil in E as [_ E]. discriminate. }
  exists b. split; [exact Eb|]. rewrite Lb, enc_units_bmp by exact Hb.
  rewrite app_length. cbn [List.length]. replace (List.length t + 1 - 1)%nat with (List.length t) by lia.
  rewrite firstn_app_exact, skipn_app_exact.
  unfold str_ok, bmp in *. rewrite forallb_app in *.
  apply andb_prop in H as [H _]. apply andb_prop in Hb as [Hb _].
  replace (decode_units t) with (Ok t).
  - cbn [bind flat_map]. now rewrite app_nil_r.
  - rewrite <- (enc_units_bmp Hb) at 2. symmetry. now apply decode_units_enc.
Qed.

Lemma load_dump_null rest :
  xstr_dump None = Ok [255; 255; 255; 255] /\ xstr_load ([255; 255; 255; 255] ++ rest) = Ok (None, rest).
Proof. split; reflexivity. Qed.
Lemma load_dump_empty rest :
  xstr_dump (Some []) = Ok [0; 0; 0; 0] /\ xstr_load ([0; 0; 0; 0] ++ rest) = Ok (Some [], rest).
Proof. split; reflexivity. Qed.

Lemma bundle_loadr_ok i st tab rel name rest :
  0 <= st < 2 ^ 32 -> 0 <= tab < 2 ^ 32 -> wide_ok rel = true -> wide_ok name = true ->
  bundle_loadr (mkRec i (le4 st ++ le4 tab ++ wide_string rel ++ wide_string name ++ rest))
  = Ok (mkBundle st tab (Some rel) (Some name)).
Proof.
  intros Hs Ht Hr Hn. unfold bundle_loadr. cbn [rec_data].
  rewrite py_slice_to, py_slice_from by lia.
  change (Z.to_nat 8) with 8%nat.
  change (firstn 8 (le4 st ++ le4 tab ++ wide_string rel ++ wide_string name ++ rest))
    with (le4 st ++ le4 tab).
  change (skipn 8 (le4 st ++ le4 tab ++ wide_string rel ++ wide_string name ++ rest))
    with (wide_string rel ++ wide_string name ++ rest).
  replace (unpack_II (le4 st ++ le4 tab)) with (Ok (st, tab)).
  - cbn [bind]. rewrite xstr_load_wide by exact Hr. cbn [bind].
    rewrite xstr_load_wide by exact Hn. reflexivity.
  - symmetry. pose proof (unpack_le4 Hs) as E1. pose proof (unpack_le4 Ht) as E2.
    unfold le4 in *. cbn [app unpack_II]. rewrite E1. cbn [bind]. rewrite E2. reflexivity.
Qed.
