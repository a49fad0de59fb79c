(** Both scanners on arbitrary bytes. *)
From Verif Require Import Py PyFacts Biff BiffSpec BiffProofs BiffNumba.
From Coq Require Import ZifyBool ZifyNat.
Ltac Zify.zify_post_hook ::= Z.div_mod_to_equations.
Set Implicit Arguments.
Unset Strict Implicit.

(** ** Headers *)
Definition sz_form (b : bytes) : res (Z * bytes) :=
  match b with
  | [] => Err IndexError
  | x :: r =>
    if x <? 128 then Ok (x, r) else
    match r with
    | [] => Err IndexError
    | y :: r =>
      if y <? 128 then Ok (x - 128 + 128 * y, r) else
      match r with
      | [] => Err IndexError
      | z :: r =>
        if z <? 128 then Ok (x - 128 + 128 * (y - 128) + 16384 * z, r) else
        match r with
        | [] => Err IndexError
        | w :: r => Ok (x - 128 + 128 * (y - 128) + 16384 * (z - 128) + 2097152 * w, r)
        end
      end
    end
  end.
Lemma bytes_cons x b : bytes_ok (x :: b) = true -> 0 <= x < 256 /\ bytes_ok b = true.
Proof. unfold bytes_ok. cbn [forallb]. intro H. apply andb_prop in H as [H ?]. apply byte_ok_range in H. auto. Qed.
Lemma scan_sz_form b : bytes_ok b = true -> scan_sz b = sz_form b.
Proof.
  intro Hb. unfold scan_sz, sz_form. destruct b as [|x b]; [reflexivity|]. apply bytes_cons in Hb as [Hx Hb]. cbn [read1 bind].
  assert (Bx : (Z.land x 0x80 =? 0) = (x <? 128)) by now apply land80_byte.
  rewrite Bx. destruct (x <? 128) eqn:Ex; [reflexivity|].
  destruct b as [|y b]; [reflexivity|]. apply bytes_cons in Hb as [Hy Hb]. cbn [read1 bind].
  rewrite (@xor_top _ 7) by (try reflexivity; change (2 ^ 7) with 128; change (2 ^ (7 + 1)) with 256; lia).
  change (2 ^ 7) with 128. rewrite lor_shl by (change (2 ^ 7) with 128; lia). change (2 ^ 7) with 128.
  change 0x4000 with (2 ^ 14). rewrite land_bit by (change (2 ^ (14 + 1)) with 32768; lia). change (2 ^ 14) with 16384.
  destruct (y <? 128) eqn:Ey; [replace (x - 128 + y * 128 <? 16384) with true by lia; do 2 f_equal; lia|].
  replace (x - 128 + y * 128 <? 16384) with false by lia.
  destruct b as [|z b]; [reflexivity|]. apply bytes_cons in Hb as [Hz Hb]. cbn [read1 bind].
  rewrite (@xor_top _ 14) by (try reflexivity; change (2 ^ 14) with 16384; change (2 ^ (14 + 1)) with 32768; lia).
  change (2 ^ 14) with 16384. rewrite lor_shl by (change (2 ^ 14) with 16384; lia). change (2 ^ 14) with 16384.
  change 0x200000 with (2 ^ 21). rewrite land_bit by (change (2 ^ (21 + 1)) with 4194304; lia). change (2 ^ 21) with 2097152.
  destruct (z <? 128) eqn:Ez; [replace (x - 128 + y * 128 - 16384 + z * 16384 <? 2097152) with true by lia; do 2 f_equal; lia|].
  replace (x - 128 + y * 128 - 16384 + z * 16384 <? 2097152) with false by lia.
  destruct b as [|w b]; [reflexivity|]. apply bytes_cons in Hb as [Hw Hb]. cbn [read1 bind].
  rewrite (@xor_top _ 21) by (try reflexivity; change (2 ^ 21) with 2097152; change (2 ^ (21 + 1)) with 4194304; lia).
  change (2 ^ 21) with 2097152. rewrite lor_shl by (change (2 ^ 21) with 2097152; lia). change (2 ^ 21) with 2097152.
  do 2 f_equal. lia.
Qed.
Lemma sz_read sb q : bytes_ok sb = true -> (List.length sb <= 4)%nat -> continued 0 sb = true -> sz_form (sb ++ q) = Ok (base128 sb, q).
Proof.
  intros Hb L C. destruct sb as [|x [|y [|z [|w [|v sb]]]]]; cbn [List.length] in L; try lia; cbn [continued Nat.eqb] in C; [discriminate| | | |];
    repeat match goal with H : bytes_ok (_ :: _) = true |- _ => apply bytes_cons in H as [? H] end; cbn [app sz_form base128].
  - replace (x <? 128) with true by lia. reflexivity.
  - replace (x <? 128) with false by lia. replace (y <? 128) with true by lia. do 2 f_equal. lia.
  - replace (x <? 128) with false by lia. replace (y <? 128) with false by lia. replace (z <? 128) with true by lia. do 2 f_equal. lia.
  - replace (x <? 128) with false by lia. replace (y <? 128) with false by lia. replace (z <? 128) with false by lia. do 2 f_equal. lia.
Qed.
Lemma ok_pair (x y : Z) (a b : bytes) : Ok (x, a) = Ok (y, b) -> x = y /\ a = b.
Proof. intros [=]. auto. Qed.
Lemma sz_shape b n q : bytes_ok b = true -> sz_form b = Ok (n, q) ->
  exists sb, b = sb ++ q /\ bytes_ok sb = true /\ (List.length sb <= 4)%nat /\ continued 0 sb = true /\ base128 sb = n.
Proof.
  intro Hb. unfold sz_form. destruct b as [|x b]; [discriminate|]. apply bytes_cons in Hb as [Hx Hb].
  destruct (x <? 128) eqn:Ex.
  { intro E; apply ok_pair in E as [<- <-]. exists [x]. unfold bytes_ok. cbn [forallb continued base128 Nat.eqb List.length app]. unfold byte_ok. repeat split; try reflexivity; lia. }
  destruct b as [|y b]; [discriminate|]. apply bytes_cons in Hb as [Hy Hb]. destruct (y <? 128) eqn:Ey.
  { intro E; apply ok_pair in E as [<- <-]. exists [x; y]. unfold bytes_ok. cbn [forallb continued base128 Nat.eqb List.length app]. unfold byte_ok. repeat split; try reflexivity; lia. }
  destruct b as [|z b]; [discriminate|]. apply bytes_cons in Hb as [Hz Hb]. destruct (z <? 128) eqn:Ez.
  { intro E; apply ok_pair in E as [<- <-]. exists [x; y; z]. unfold bytes_ok. cbn [forallb continued base128 Nat.eqb List.length app]. unfold byte_ok. repeat split; try reflexivity; lia. }
  destruct b as [|w b]; [discriminate|]. apply bytes_cons in Hb as [Hw Hb].
  intro E; apply ok_pair in E as [<- <-]. exists [x; y; z; w]. unfold bytes_ok. cbn [forallb continued base128 Nat.eqb List.length app]. unfold byte_ok. repeat split; try reflexivity; lia.
Qed.

Lemma id_read id q : id_encodable id = true -> scan_id (id_bytes id ++ q) = Ok (id, q) /\ bytes_ok (id_bytes id) = true /\ (1 <= List.length (id_bytes id))%nat.
Proof.
  intro H. destruct (enc_id_ok _ H) as (h & E & L & B & S). assert (h = id_bytes id) as ->; [|now split].
  unfold enc_id in E. unfold id_bytes. destruct (id_encodable_cases _ H) as [[R K]|[R K]]; rewrite K in E.
  - unfold pack_B in E. change (2 ^ 8) with 256 in E. replace ((0 <=? id) && (id <? 256)) with true in E by lia. replace (id <? 128) with true by lia. congruence.
  - unfold pack_H in E. change (2 ^ 16) with 65536 in E. replace ((0 <=? id) && (id <? 65536)) with true in E by lia.
    replace (id <? 128) with false; [congruence|]. rewrite land80 in K. destruct (id <? 128) eqn:X; [|reflexivity].
    exfalso. replace (id / 128) with 0 in K by lia. discriminate.
Qed.
Lemma id_shape b id q : bytes_ok b = true -> scan_id b = Ok (id, q) -> b = id_bytes id ++ q /\ id_encodable id = true.
Proof.
  intro Hb. unfold scan_id. destruct b as [|x b]; [discriminate|]. apply bytes_cons in Hb as [Hx Hb]. cbn [read1 bind].
  rewrite land80_byte by exact Hx. destruct (x <? 128) eqn:Ex.
  - intros [= <- <-]. unfold id_bytes, id_encodable. rewrite Ex. split; [reflexivity|]. lia.
  - destruct b as [|y b]; [discriminate|]. apply bytes_cons in Hb as [Hy Hb]. cbn [read1 bind].
    rewrite lor_shl by (change (2 ^ 8) with 256; lia). change (2 ^ 8) with 256. intros E.
    assert (id = x + y * 256) as -> by congruence. assert (q = b) as -> by congruence. unfold id_bytes.
    replace (x + y * 256 <? 128) with false by lia. replace ((x + y * 256) mod 256) with x by lia. replace ((x + y * 256) / 256) with y by lia.
    split; [reflexivity|]. unfold id_encodable. rewrite Z.testbit_odd, Z.shiftr_div_pow2 by lia. change (2 ^ 7) with 128.
    replace ((x + y * 256) / 128) with (1 + 2 * y) by lia. rewrite Z.odd_add, Z.odd_mul. cbn [Z.odd andb xorb]. lia.
Qed.
Lemma hdr_of_frame r b q : frame r b -> scan_hdr (b ++ q) = Ok (rec_id r, zlen (rec_data r), rec_data r ++ q) /\ bytes_ok b = true /\ (2 <= List.length b)%nat /\
  (exists h, b = h ++ rec_data r /\ forall t, scan_hdr (h ++ t) = Ok (rec_id r, zlen (rec_data r), t)).
Proof.
  intros [sb Hi Hs Ls C Hd E]. destruct (@id_read (rec_id r) [] Hi) as (_ & Bi & Li).
  assert (Z : forall t, scan_hdr ((id_bytes (rec_id r) ++ sb) ++ t) = Ok (rec_id r, zlen (rec_data r), t)).
  { intro t. unfold scan_hdr. rewrite <- app_assoc. destruct (@id_read (rec_id r) (sb ++ t) Hi) as (-> & _). cbn [bind].
    assert (S0 : scan_sz (sb ++ []) = Ok (base128 sb, [])) by (rewrite app_nil_r, scan_sz_form by exact Hs; rewrite <- (app_nil_r sb) at 1; now apply sz_read).
    rewrite app_nil_r in S0. pose proof (scan_sz_app _ t S0) as S1. cbn [app] in S1. rewrite S1. cbn [bind]. now rewrite E. }
  split; [|split; [|split]].
  - pose proof (Z (rec_data r ++ q)) as Zq. now rewrite <- !app_assoc in *.
  - now rewrite !bytes_ok_app, Bi, Hs, Hd.
  - rewrite !app_length. destruct sb; [discriminate|]. cbn [List.length]. lia.
  - exists (id_bytes (rec_id r) ++ sb). split; [now rewrite app_assoc|exact Z].
Qed.
Lemma frame_of_hdr b id n t : bytes_ok b = true -> scan_hdr b = Ok (id, n, t) -> n <= zlen t ->
  exists br, frame (mkRec id (firstn (Z.to_nat n) t)) br /\ b = br ++ skipn (Z.to_nat n) t.
Proof.
  intros Hb H L. unfold scan_hdr in H. apply bind_ok in H as ((i & b1) & H1 & H). apply bind_ok in H as ((z & b2) & H2 & H). injection H as <- <- <-.
  destruct (id_shape Hb H1) as [-> Hi]. rewrite bytes_ok_app in Hb. apply andb_prop in Hb as [_ Hb].
  rewrite scan_sz_form in H2 by exact Hb. destruct (sz_shape Hb H2) as (sb & -> & Bs & Ls & C & E).
  assert (N : 0 <= z).
  { rewrite <- E. clear -Bs. induction sb as [|x sb IH]; [cbn; lia|]. apply bytes_cons in Bs as [Hx Hs]. specialize (IH Hs). cbn [base128]. destruct sb; lia. }
  exists (id_bytes i ++ sb ++ firstn (Z.to_nat z) b2). split.
  - apply (@Frame (mkRec i (firstn (Z.to_nat z) b2))); cbn [rec_id rec_data]; try assumption.
    + apply firstn_bytes_ok. rewrite bytes_ok_app in Hb. now apply andb_prop in Hb as [_ Hb].
    + rewrite E. unfold zlen in *. rewrite firstn_length. lia.
  - now rewrite <- !app_assoc, firstn_skipn.
Qed.

(** ** Streams of records *)
Lemma framed_app a b x y : framed a x -> framed b y -> framed (a ++ b) (x ++ y).
Proof. induction 1; [easy|]. intro H1. cbn [app]. rewrite <- app_assoc. constructor; auto. Qed.
Lemma framed_bytes rs b : framed rs b -> bytes_ok b = true.
Proof. induction 1; [reflexivity|]. rewrite bytes_ok_app. destruct (hdr_of_frame [] H) as (_ & -> & _). exact IHframed. Qed.
Lemma framed_nil_inv rs : framed rs [] -> rs = [].
Proof. intro H. inversion H as [|r rs' b b' F F' E1 E2]; [reflexivity|]. destruct (hdr_of_frame [] F) as (_ & _ & L & _). apply app_eq_nil in E2 as [-> _]. cbn in L. lia. Qed.

Lemma framed_nothing b : framed [] b -> b = [].
Proof. intro H. now inversion H. Qed.

(** Any bytes are records followed by bytes at which no record stands. *)
Lemma framing n : forall b, (List.length b <= n)%nat -> bytes_ok b = true -> exists rs b1 t, framed rs b1 /\ b = b1 ++ t /\ no_frame t.
Proof.
  induction n as [|n IH]; intros b L Hb.
  - destruct b; [|cbn in L; lia]. exists [], [], []. split; [constructor|]. split; [reflexivity|].
    intros r b q F E. symmetry in E. apply app_eq_nil in E as [-> _]. destruct (hdr_of_frame [] F) as (_ & _ & K & _). cbn in K. lia.
  - destruct (scan_hdr b) as [[[id z] t]|e] eqn:E.
    + destruct (Z.le_gt_cases z (zlen t)) as [K|K].
      * destruct (frame_of_hdr Hb E K) as (br & F & ->). destruct (hdr_of_frame [] F) as (_ & _ & Lb & _).
        rewrite bytes_ok_app in Hb. apply andb_prop in Hb as [_ Hb]. rewrite app_length in L.
        destruct (IH (skipn (Z.to_nat z) t)) as (rs & b1 & u & F1 & -> & N); [lia|exact Hb|].
        exists (mkRec id (firstn (Z.to_nat z) t) :: rs), (br ++ b1), u. split; [now constructor|]. split; [now rewrite app_assoc|exact N].
      * exists [], [], b. split; [constructor|]. split; [reflexivity|]. intros r br q F ->.
        destruct (hdr_of_frame q F) as (S & _). rewrite S in E. injection E as <- <- <-. rewrite zlen_app in K. pose proof (zlen_nonneg q). lia.
    + exists [], [], b. split; [constructor|]. split; [reflexivity|]. intros r br q F ->. destruct (hdr_of_frame q F) as (S & _). congruence.
Qed.

(** ** The streaming scanner *)
Lemma scan_frame only r b rest : frame r b ->
  scan_biff only (b ++ rest) = match scan_biff only rest with None => None | Some rs => Some (if wanted only (rec_id r) then r :: rs else rs) end.
Proof.
  intro F. destruct (hdr_of_frame rest F) as (Sc & _ & Lb & h & -> & _). unfold scan_biff at 1. cbn [scan_fuel]. rewrite Sc. rewrite zlen_to_nat.
  set (d := rec_data r) in *.
  assert (L : (List.length rest < List.length ((h ++ d) ++ rest))%nat) by (rewrite app_length; lia).
  destruct (wanted only (rec_id r)).
  - destruct (zlen d =? 0) eqn:E0.
    + apply Z.eqb_eq in E0. apply zlen_0 in E0. rewrite E0 in *. cbn [app] in *.
      rewrite scan_biff_fuel by exact L. destruct (scan_biff only rest); [|reflexivity]. destruct r as [i dd]; cbn in *; subst d dd. reflexivity.
    + rewrite firstn_app_exact, skipn_app_exact, Z.eqb_refl. rewrite scan_biff_fuel by exact L. destruct (scan_biff only rest); [|reflexivity]. destruct r; reflexivity.
  - rewrite skipn_app_exact, scan_biff_fuel by exact L. destruct (scan_biff only rest); reflexivity.
Qed.
Lemma no_frame_hdr t : bytes_ok t = true -> no_frame t -> match scan_hdr t with Err _ => True | Ok (_, z, u) => zlen u < z end.
Proof.
  intros Hb N. destruct (scan_hdr t) as [[[id z] u]|] eqn:E; [|exact I]. destruct (Z.le_gt_cases z (zlen u)) as [K|K]; [|lia].
  destruct (frame_of_hdr Hb E K) as (br & F & ->). now destruct (N _ _ _ F eq_refl).
Qed.
Lemma scan_rest only t : bytes_ok t = true -> no_frame t -> scan_biff only t = Some [].
Proof.
  intros Hb N. pose proof (no_frame_hdr Hb N) as H. unfold scan_biff. cbn [scan_fuel]. destruct (scan_hdr t) as [[[id z] u]|] eqn:E; [|reflexivity].
  apply scan_hdr_shorter in E. destruct (wanted only id).
  - replace (z =? 0) with false by (pose proof (zlen_nonneg u); lia). unfold zlen in *. rewrite firstn_length. now replace (_ =? z) with false by lia.
  - rewrite skipn_all2 by (unfold zlen in H; lia). destruct (List.length t); [lia|reflexivity].
Qed.
Lemma scan_framed only rs b t : framed rs b -> bytes_ok t = true -> no_frame t -> scan_biff only (b ++ t) = Some (keep only rs).
Proof.
  intros F Hb N. induction F as [|r rs b b' F Fs IH]; [now apply scan_rest|]. rewrite <- app_assoc, (scan_frame _ _ F), IH. reflexivity.
Qed.

(** ** The block-buffered scanner *)
Lemma no_frame_prefix t j : no_frame t -> no_frame (firstn j t).
Proof. intros N r b q F E. apply (N r b (q ++ skipn j t) F). now rewrite app_assoc, <- E, firstn_skipn. Qed.
Lemma no_frame_stuck t : bytes_ok t = true -> no_frame t -> stuck t.
Proof.
  intros Hb N j f only pre. cbn [scan_chunk_fuel]. pose proof (no_frame_hdr (firstn_bytes_ok j Hb) (no_frame_prefix (j := j) N)) as H.
  rewrite nb_hdr_scan by now apply firstn_bytes_ok. destruct (scan_hdr (firstn j t)) as [[[id z] u]|]; [|reflexivity]. cbn [bind].
  now replace (zlen u <? z) with true by lia.
Qed.
Lemma cut_no_frame r b k : frame r b -> (k < List.length b)%nat -> no_frame (firstn k b).
Proof.
  intros F K r' b' q F' E. destruct (hdr_of_frame [] F) as (Sc & _). destruct (hdr_of_frame (q ++ skipn k b) F') as (Sc' & _).
  rewrite app_nil_r in Sc. rewrite app_assoc, <- E, firstn_skipn in Sc'. rewrite Sc in Sc'. injection Sc' as _ E2 E3.
  rewrite app_nil_r in E3. apply (f_equal (@List.length Z)) in E3. rewrite !app_length, skipn_length in E3.
  unfold zlen in E2. lia.
Qed.
Definition low (r : record) : bool := rec_id r <? 2 ^ 15.
Lemma frame_id r b : frame r b -> 0 <= rec_id r.
Proof. intros [sb Hi _ _ _ _ _]. destruct (id_encodable_cases _ Hi) as [[? _]|[? _]]; lia. Qed.
Lemma nb_hdr_frame r h t : low r = true -> frame r (h ++ rec_data r) -> (forall q, scan_hdr (h ++ q) = Ok (rec_id r, zlen (rec_data r), q)) ->
  nb_hdr (h ++ t) = Ok (rec_id r, zlen (rec_data r), t).
Proof.
  intros Lo F Z. pose proof (frame_id F) as I0. destruct (hdr_of_frame [] F) as (_ & Bb & _). rewrite bytes_ok_app in Bb. apply andb_prop in Bb as [Bh _].
  assert (Hx : nb_hdr h = Ok (rec_id r, zlen (rec_data r), [])).
  { rewrite nb_hdr_scan by exact Bh. pose proof (Z []) as Z0. rewrite app_nil_r in Z0. rewrite Z0. cbn [bind]. unfold low in Lo. rewrite wrap16_small by lia. reflexivity. }
  clear - Hx. unfold nb_hdr in *. apply bind_ok in Hx as ((i & r1) & Hi & Hx). apply bind_ok in Hx as ((sz & r2) & Hs & Hx). injection Hx as -> -> ->.
  assert (A : nb_id (h ++ t) = Ok (rec_id r, r1 ++ t)).
  { unfold nb_id in *. rd Hi h t. destruct (Z.land x 0x80 =? 0); [injection Hi as <- <-; reflexivity|]. rd Hi r0 t. injection Hi as <- <-. reflexivity. }
  rewrite A. cbn [bind].
  assert (B : nb_sz (r1 ++ t) = Ok (zlen (rec_data r), t)).
  { unfold nb_sz in *. rd Hs r1 t. destruct (Z.land x 0x80 =? 0); [injection Hs as <- ->; reflexivity|].
    rd Hs r0 t. destruct (Z.land _ 0x4000 =? 0); [injection Hs as <- ->; reflexivity|].
    rd Hs r2 t. destruct (Z.land _ 0x200000 =? 0); [injection Hs as <- ->; reflexivity|].
    rd Hs r3 t. injection Hs as <- ->. reflexivity. }
  rewrite B. reflexivity.
Qed.

Lemma chunk_prefix rs b : framed rs b -> forall tail k f only pre,
  forallb low rs = true -> stuck tail -> (k <= List.length (b ++ tail))%nat -> (k < f)%nat ->
  exists rs1 rs2 b1 b2, rs = rs1 ++ rs2 /\ framed rs1 b1 /\ framed rs2 b2 /\ b = b1 ++ b2
    /\ (List.length b1 <= k)%nat /\ (k = List.length (b ++ tail) -> rs2 = [])
    /\ scan_chunk_fuel f only pre (firstn k (b ++ tail)) = Some (map triple (nb_keep only rs1) ++ [(-1, pre + zlen b1, [])]).
Proof.
  induction 1 as [|r rs b0 b' F Fs IH]; intros tail k f only pre Lo Ht Hk Hf.
  - exists [], [], [], []. repeat split; try constructor; [cbn; lia|]. cbn [app] in *. destruct f; [lia|]. rewrite Ht. rewrite zlen_nil, Z.add_0_r. reflexivity.
  - cbn [forallb] in Lo. apply andb_prop in Lo as [Lr Lo]. rewrite <- app_assoc in *.
    destruct (hdr_of_frame [] F) as (_ & _ & Lb0 & h & Eb & Z).
    destruct (le_lt_dec (List.length b0) k) as [Hle|Hlt].
    + destruct f as [|f]; [lia|].
      destruct (IH tail (k - List.length b0)%nat f only (pre + zlen b0)) as (rs1 & rs2 & b1 & b2 & -> & D1 & D2 & -> & L1 & Full & S1); auto;
        [revert Hk; rewrite !app_length; lia|lia|].
      exists (r :: rs1), rs2, (b0 ++ b1), b2. split; [reflexivity|]. split; [now constructor|]. split; [exact D2|]. split; [now rewrite app_assoc|].
      split; [rewrite app_length; lia|]. split; [intro Hke; apply Full; rewrite Hke, app_length; lia|].
      rewrite firstn_app, (firstn_all2 b0) by lia. set (t := firstn (k - List.length b0) ((b1 ++ b2) ++ tail)) in *. cbn [scan_chunk_fuel].
      assert (Hh : nb_hdr (b0 ++ t) = Ok (rec_id r, zlen (rec_data r), rec_data r ++ t)).
      { rewrite Eb, <- app_assoc. apply nb_hdr_frame; [exact Lr|now rewrite <- Eb|exact Z]. }
      rewrite Hh. replace (zlen (rec_data r ++ t) <? zlen (rec_data r)) with false by (rewrite zlen_app; pose proof (zlen_nonneg t); lia).
      rewrite zlen_to_nat, skipn_app_exact, firstn_app_exact. replace (zlen (b0 ++ t) - zlen t) with (zlen b0) by (rewrite zlen_app; lia).
      rewrite S1. unfold nb_keep. cbn [filter]. rewrite zlen_app, Z.add_assoc. destruct (nb_wanted only (rec_id r)); reflexivity.
    + exists [], (r :: rs), [], (b0 ++ b'). split; [reflexivity|]. split; [constructor|]. split; [now constructor|]. split; [reflexivity|]. split; [cbn; lia|].
      split; [intro Hke; rewrite app_length in Hke; lia|].
      rewrite firstn_app. replace (k - List.length b0)%nat with 0%nat by lia. cbn [firstn]. rewrite app_nil_r. destruct f; [lia|].
      destruct (hdr_of_frame [] F) as (_ & Bb & _).
      pose proof (@no_frame_stuck (firstn k b0) (firstn_bytes_ok k Bb) (cut_no_frame F Hlt) k f only pre) as Hs.
      rewrite firstn_firstn, Nat.min_id in Hs. rewrite Hs. rewrite zlen_nil, Z.add_0_r. reflexivity.
Qed.
Lemma framed_nonneg only rs b : framed rs b -> forallb (fun r => 0 <=? rec_id r) (nb_keep only rs) = true.
Proof. induction 1 as [|r rs b0 b' F Fs IH]; [reflexivity|]. unfold nb_keep in *. cbn [filter]. apply frame_id in F. destruct (nb_wanted only (rec_id r)); [cbn [forallb]; rewrite IH; lia|exact IH]. Qed.
Lemma any_step rs b tail bsz only chunk rest : framed rs b -> forallb low rs = true -> stuck tail -> chunk ++ rest = b ++ tail -> chunk ++ firstn bsz rest <> [] ->
  exists rs1 rs2 b2 chunk', rs = rs1 ++ rs2 /\ framed rs2 b2 /\ forallb low rs2 = true
    /\ chunk' ++ skipn bsz rest = b2 ++ tail /\ (skipn bsz rest = [] -> rs2 = [])
    /\ forall fuel, nb_scan_loop (S fuel) bsz only chunk rest =
         match nb_scan_loop fuel bsz only chunk' (skipn bsz rest) with None => None | Some rs' => Some (nb_keep only rs1 ++ rs') end.
Proof.
  intros Hf Hlo Ht Hcr Hne. set (c := chunk ++ firstn bsz rest) in *.
  assert (Hc : c = firstn (List.length c) (b ++ tail)).
  { rewrite <- Hcr. replace (chunk ++ rest) with (c ++ skipn bsz rest) by (unfold c; rewrite <- app_assoc; now rewrite firstn_skipn). now rewrite firstn_app_exact. }
  assert (Hlen : (List.length c <= List.length (b ++ tail))%nat) by (rewrite Hc; rewrite firstn_length; lia).
  destruct (@chunk_prefix rs b Hf tail (List.length c) (S (List.length c)) only 0 Hlo Ht Hlen) as (rs1 & rs2 & b1 & b2 & -> & D1 & D2 & -> & L1 & Full & S1); [lia|].
  rewrite forallb_app in Hlo. apply andb_prop in Hlo as [Hlo1 Hlo2]. rewrite <- Hc in S1.
  exists rs1, rs2, b2, (skipn (List.length b1) c).
  assert (Hall : c ++ skipn bsz rest = (b1 ++ b2) ++ tail) by (unfold c; rewrite <- app_assoc, firstn_skipn; exact Hcr).
  split; [reflexivity|]. split; [exact D2|]. split; [exact Hlo2|]. split; [|split].
  - assert (Hb1 : c = b1 ++ skipn (List.length b1) c).
    { rewrite <- (firstn_skipn (List.length b1) c) at 1. f_equal. transitivity (firstn (List.length b1) (c ++ skipn bsz rest)).
      - rewrite firstn_app. replace (List.length b1 - List.length c)%nat with 0%nat by lia. cbn [firstn]. now rewrite app_nil_r.
      - rewrite Hall, <- app_assoc. apply firstn_app_exact. }
    rewrite Hb1, <- !app_assoc in Hall. now apply app_inv_head in Hall.
  - intro Hr. apply Full. rewrite <- Hall, Hr, app_nil_r. reflexivity.
  - intro fuel. cbn [nb_scan_loop]. fold c. unfold scan_chunk. rewrite S1. rewrite nb_consume_triples by (eapply framed_nonneg; exact D1).
    rewrite Z.add_0_l, zlen_to_nat. destruct c as [|c0 cc] eqn:Ec; [congruence|]. rewrite <- Ec. reflexivity.
Qed.
Lemma any_complete bsz only : (0 < bsz)%nat -> forall n rest chunk rs fuel, (List.length rest <= n)%nat -> (n + 2 <= fuel)%nat ->
  forallb low rs = true -> framed rs (chunk ++ rest) -> nb_scan_loop fuel bsz only chunk rest = Some (nb_keep only rs).
Proof.
  intro Hbsz. induction n as [n IH] using lt_wf_ind; intros rest chunk rs fuel Hn Hf Hlo Hb. destruct fuel as [|fuel]; [lia|].
  assert (Hnil : chunk ++ rest = [] -> rs = []) by (intro Hz; rewrite Hz in Hb; now apply framed_nil_inv).
  destruct (chunk ++ firstn bsz rest) as [|c0 cc] eqn:Ec.
  - cbn [nb_scan_loop]. rewrite Ec. apply app_eq_nil in Ec as [-> Ef].
    assert (rest = []) by (destruct rest, bsz; [reflexivity|reflexivity|lia|discriminate]). subst rest. rewrite Hnil by reflexivity. reflexivity.
  - destruct (@any_step rs (chunk ++ rest) [] bsz only chunk rest Hb Hlo stuck_nil) as (rs1 & rs2 & b2 & chunk' & -> & D2 & Hlo2 & Hcr & Full & Hstep);
      [now rewrite app_nil_r|rewrite Ec; discriminate|].
    rewrite Hstep, nb_keep_app. rewrite app_nil_r in Hcr. subst b2. destruct (skipn bsz rest) as [|x xs] eqn:Es.
    + rewrite Full in * by reflexivity. apply framed_nothing in D2. rewrite app_nil_r in D2. subst chunk'.
      destruct fuel; [lia|]. cbn [nb_scan_loop app]. rewrite firstn_nil. reflexivity.
    + assert (Hlt : (List.length (x :: xs) < n)%nat).
      { rewrite <- Es, skipn_length. assert (List.length (skipn bsz rest) > 0)%nat by (rewrite Es; cbn; lia). rewrite skipn_length in *. lia. }
      rewrite (IH (List.length (x :: xs)) Hlt (x :: xs) chunk' rs2 fuel); auto. lia.
Qed.
Lemma any_loops bsz only tail : stuck tail -> tail <> [] -> (0 < bsz)%nat ->
  forall fuel rs b chunk rest, forallb low rs = true -> framed rs b -> chunk ++ rest = b ++ tail -> nb_scan_loop fuel bsz only chunk rest = None.
Proof.
  intros Ht Hne Hbsz. induction fuel as [|fuel IH]; intros rs b chunk rest Hlo Hb Hcr; [reflexivity|].
  destruct (@any_step rs b tail bsz only chunk rest Hb Hlo Ht Hcr) as (rs1 & rs2 & b2 & chunk' & -> & D2 & Hlo2 & Hcr2 & _ & Hstep).
  - intro Hz. apply app_eq_nil in Hz as [-> Hf]. assert (rest = []) by (destruct rest, bsz; [reflexivity|reflexivity|lia|discriminate]).
    subst rest. symmetry in Hcr. apply app_eq_nil in Hcr as [_ ?]. contradiction.
  - rewrite Hstep. now rewrite (IH _ _ _ _ Hlo2 D2 Hcr2).
Qed.

(** ** Both *)
Lemma no_frame_nil : no_frame [].
Proof. intros r b q F E. symmetry in E. apply app_eq_nil in E as [-> _]. destruct (hdr_of_frame [] F) as (_ & _ & L & _). cbn in L. lia. Qed.
Lemma nb_keep_keep only rs : only <> Some [] -> nb_keep only rs = keep only rs.
Proof. intro N. destruct only as [[|i ids]|]; [congruence| |]; induction rs as [|r rs IH]; try reflexivity; unfold nb_keep in *; cbn [filter keep]; rewrite IH; reflexivity. Qed.
Lemma scanned_bytes b : bytes_ok b = true ->
  (exists rs b1 t, framed rs b1 /\ b = b1 ++ t /\ no_frame t)
  /\ forall rs b1 t, framed rs b1 -> b = b1 ++ t -> no_frame t ->
       scan_biff None b = Some rs /\ forall i ids, scan_biff (Some (i :: ids)) b = Some (only_ids (i :: ids) rs).
Proof.
  intro Hb. split; [exact (framing (le_n _) Hb)|]. intros rs b1 t F -> N. rewrite bytes_ok_app in Hb. apply andb_prop in Hb as [_ Hb].
  split; [|intros i ids]; rewrite (scan_framed _ F Hb N); f_equal.
  - apply keep_all.
  - apply keep_only_ids.
Qed.
Lemma scanners_on_bytes rs b1 t bsz only : framed rs b1 -> bytes_ok t = true -> no_frame t ->
  forallb (fun r => rec_id r <? 2 ^ 15) rs = true -> (0 < bsz)%nat -> only <> Some [] ->
  (t = [] -> forall fuel, (List.length b1 + 2 <= fuel)%nat -> nb_scan_biff fuel bsz only b1 = scan_biff only b1 /\ exists l, scan_biff only b1 = Some l)
  /\ (t <> [] -> (forall fuel, nb_scan_biff fuel bsz only (b1 ++ t) = None) /\ exists l, scan_biff only (b1 ++ t) = Some l).
Proof.
  intros F Hb N Lo Hz Ho. split.
  - intros -> fuel Hf. pose proof (scan_framed only F (eq_refl : bytes_ok [] = true) no_frame_nil) as S. rewrite app_nil_r in S. rewrite S. split; [|eauto].
    unfold nb_scan_biff. rewrite <- (nb_keep_keep _ Ho). eapply any_complete; eauto.
  - intro Ht. split; [|eexists; exact (scan_framed only F Hb N)]. intro fuel. unfold nb_scan_biff. eapply any_loops; eauto using no_frame_stuck.
Qed.
