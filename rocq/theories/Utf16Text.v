(** UTF-16 text (RFC 2781) as a relation, and exactly what the wide string reader accepts. *)
From Verif Require Import Py PyFacts Utf16 Biff BiffRecs.
From Coq Require Import ZifyBool ZifyNat.
Ltac Zify.zify_post_hook ::= Z.div_mod_to_equations.

(** Code units and the characters they stand for: a unit outside the surrogates is its own
    character, a high and a low surrogate together are one. *)
Inductive units_text : list Z -> str -> Prop :=
| ut_nil : units_text [] []
| ut_plain u us t : 0 <= u < 0xD800 \/ 0xE000 <= u < 0x10000 -> units_text us t -> units_text (u :: us) (u :: t)
| ut_pair h l us t : 0xD800 <= h <= 0xDBFF -> 0xDC00 <= l <= 0xDFFF -> units_text us t ->
    units_text (h :: l :: us) (0x10000 + (h - 0xD800) * 1024 + (l - 0xDC00) :: t).
(** Bytes of units, the low one first; the high one first. *)
Definition low_first (us : list Z) : bytes := flat_map (fun u => [u mod 256; u / 256]) us.
Definition high_first (us : list Z) : bytes := flat_map (fun u => [u / 256; u mod 256]) us.
(** Little-endian, unless a byte-order mark (which is no part of the text) says otherwise. *)
Definition text_bytes (d : bytes) (t : str) : Prop :=
  exists us, units_text us t /\
    (d = low_first us /\ firstn 2 d <> [0xFF; 0xFE] /\ firstn 2 d <> [0xFE; 0xFF] \/
     d = 0xFF :: 0xFE :: low_first us \/ d = 0xFE :: 0xFF :: high_first us).
(** A null marker, or a count of units and as many units (fewer at the end of the data). *)
Definition wide_at (b : bytes) (x : option str) (rest : bytes) : Prop :=
  exists b0 b1 b2 b3 r, let n := b0 + 256 * b1 + 65536 * b2 + 16777216 * b3 in b = [b0; b1; b2; b3] ++ r /\
    (n = 2 ^ 32 - 1 /\ x = None /\ rest = r \/
     n <> 2 ^ 32 - 1 /\ exists d t, x = Some t /\ r = d ++ rest /\ text_bytes d t /\ (zlen d = 2 * n \/ zlen d < 2 * n /\ rest = [])).

Lemma ok_inj {A} (x y : A) : Ok x = Ok y -> x = y.
Proof. now intros [= ->]. Qed.
Lemma decode_units_text : forall us t, forallb (fun u => (0 <=? u) && (u <? 65536)) us = true -> (decode_units us = Ok t <-> units_text us t).
Proof.
  intro us0. remember (List.length us0) as n eqn:En. revert us0 En. induction n as [n IH] using lt_wf_ind. intros [|u us] En t Hu; cbn [List.length] in En.
  - cbn. split; [intros [= <-]; constructor|]. now inversion 1.
  - cbn [forallb] in Hu. apply andb_prop in Hu as [Hu0 Hu]. split.
    + intro H. cbn [decode_units] in H. destruct (is_high u) eqn:Eh; unfold is_high in Eh.
      * destruct us as [|v us]; [discriminate|]. destruct (is_low v) eqn:El; [|discriminate]. unfold is_low in El. cbn [forallb] in Hu. apply andb_prop in Hu as [Hv Hu].
        destruct (decode_units us) as [t'|] eqn:D; [|discriminate]. cbn [bind] in H. apply ok_inj in H. subst t. cbn [List.length] in En.
        constructor; [lia|lia|]. apply (IH (List.length us) ltac:(lia) us eq_refl _ Hu). exact D.
      * destruct (is_low u) eqn:El; [discriminate|]. unfold is_low in El. destruct (decode_units us) as [t'|] eqn:D; [|discriminate]. cbn [bind] in H. apply ok_inj in H. subst t.
        constructor; [lia|]. apply (IH (List.length us) ltac:(lia) us eq_refl _ Hu). exact D.
    + intro H. inversion H as [|u' us' t' P T|h l us' t' Ph Pl T]; subst; cbn [decode_units].
      * replace (is_high u) with false by (unfold is_high; lia). replace (is_low u) with false by (unfold is_low; lia).
        apply (IH (List.length us) ltac:(lia) us eq_refl _ Hu) in T. now rewrite T.
      * cbn [forallb] in Hu. apply andb_prop in Hu as [Hv Hu]. cbn [List.length] in *. replace (is_high u) with true by (unfold is_high; lia). replace (is_low l) with true by (unfold is_low; lia).
        apply (IH (List.length us') ltac:(lia) us' eq_refl _ Hu) in T. now rewrite T.
Qed.
Lemma units_le_bytes : forall b us, bytes_ok b = true -> units_le b = Ok us -> b = low_first us /\ forallb (fun u => (0 <=? u) && (u <? 65536)) us = true.
Proof.
  intro b0. remember (List.length b0) as n eqn:En. revert b0 En. induction n as [n IH] using lt_wf_ind. intros [|x [|y b]] En us Hb H; cbn [units_le] in H.
  - apply ok_inj in H. now subst.
  - discriminate.
  - destruct (units_le b) as [us'|] eqn:D; [|discriminate]. cbn [bind] in H. apply ok_inj in H. subst us. unfold bytes_ok in Hb. cbn [forallb] in Hb. apply andb_prop in Hb as [Hx Hb]. apply andb_prop in Hb as [Hy Hb].
    cbn [List.length] in En. destruct (IH (List.length b) ltac:(lia) b eq_refl us' Hb D) as [-> U]. unfold byte_ok in *. unfold low_first. cbn [flat_map app forallb]. rewrite U.
    split; [f_equal; [lia|f_equal; lia]|lia].
Qed.
Lemma units_le_low us : units_le (low_first us) = Ok us.
Proof. induction us as [|u us IH]; [reflexivity|]. unfold low_first in *. cbn [flat_map app units_le]. rewrite IH. cbn [bind]. do 2 f_equal. lia. Qed.
Lemma units_be_bytes : forall b us, bytes_ok b = true -> units_be b = Ok us -> b = high_first us /\ forallb (fun u => (0 <=? u) && (u <? 65536)) us = true.
Proof.
  intro b0. remember (List.length b0) as n eqn:En. revert b0 En. induction n as [n IH] using lt_wf_ind. intros [|x [|y b]] En us Hb H; cbn [units_be] in H.
  - apply ok_inj in H. now subst.
  - discriminate.
  - destruct (units_be b) as [us'|] eqn:D; [|discriminate]. cbn [bind] in H. apply ok_inj in H. subst us. unfold bytes_ok in Hb. cbn [forallb] in Hb. apply andb_prop in Hb as [Hx Hb]. apply andb_prop in Hb as [Hy Hb].
    cbn [List.length] in En. destruct (IH (List.length b) ltac:(lia) b eq_refl us' Hb D) as [-> U]. unfold byte_ok in *. unfold high_first. cbn [flat_map app forallb]. rewrite U.
    split; [f_equal; [lia|f_equal; lia]|lia].
Qed.
Lemma units_be_high us : units_be (high_first us) = Ok us.
Proof. induction us as [|u us IH]; [reflexivity|]. unfold high_first in *. cbn [flat_map app units_be]. rewrite IH. cbn [bind]. do 2 f_equal. lia. Qed.
Lemma text_units us t : units_text us t -> forallb (fun u => (0 <=? u) && (u <? 65536)) us = true.
Proof. induction 1 as [|u us t P T IH|h l us t Ph Pl T IH]; cbn [forallb]; [reflexivity|rewrite IH; lia|rewrite IH; lia]. Qed.
Lemma decode16_plain d : firstn 2 d <> [0xFF; 0xFE] -> firstn 2 d <> [0xFE; 0xFF] -> decode16 d = (us <- units_le d ;; decode_units us).
Proof.
  intros A B. destruct d as [|x [|y d]]; [reflexivity| |].
  - unfold decode16. repeat (match goal with |- context [match ?v with _ => _ end] => is_var v; destruct v end; try reflexivity).
  - cbn [firstn] in A, B. unfold decode16. repeat (match goal with |- context [match ?v with _ => _ end] => is_var v; destruct v end; try reflexivity; try congruence).
Qed.
Lemma decode16_text d t : bytes_ok d = true -> (decode16 d = Ok t <-> text_bytes d t).
Proof.
  intro Hb. destruct (list_eq_dec Z.eq_dec (firstn 2 d) [0xFF; 0xFE]) as [L|NL]; [|destruct (list_eq_dec Z.eq_dec (firstn 2 d) [0xFE; 0xFF]) as [H|NH]].
  - destruct d as [|x [|y d]]; try discriminate. cbn [firstn] in L. injection L as -> ->. cbn [decode16]. cbn [bytes_ok forallb] in Hb. apply andb_prop in Hb as [_ Hb]. apply andb_prop in Hb as [_ Hb].
    split.
    + destruct (units_le d) as [us|] eqn:U; [|discriminate]. cbn [bind]. destruct (units_le_bytes d us Hb U) as [-> O]. intro D. exists us. split; [now apply decode_units_text|]. right. now left.
    + intros (us & T & [(_ & N & _)|[E|E]]); [now elim N| |discriminate]. injection E as ->. rewrite units_le_low. cbn [bind]. apply decode_units_text; [exact (text_units _ _ T)|exact T].
  - destruct d as [|x [|y d]]; try discriminate. cbn [firstn] in H. injection H as -> ->. cbn [decode16]. cbn [bytes_ok forallb] in Hb. apply andb_prop in Hb as [_ Hb]. apply andb_prop in Hb as [_ Hb].
    split.
    + destruct (units_be d) as [us|] eqn:U; [|discriminate]. cbn [bind]. destruct (units_be_bytes d us Hb U) as [-> O]. intro D. exists us. split; [now apply decode_units_text|]. right. now right.
    + intros (us & T & [(_ & _ & N)|[E|E]]); [now elim N|discriminate|]. injection E as ->. rewrite units_be_high. cbn [bind]. apply decode_units_text; [exact (text_units _ _ T)|exact T].
  - rewrite decode16_plain by assumption. split.
    + destruct (units_le d) as [us|] eqn:U; [|discriminate]. cbn [bind]. destruct (units_le_bytes d us Hb U) as [E O]. intro D. exists us. split; [now apply decode_units_text|]. left. now repeat split.
    + intros (us & T & [(E & _ & _)|[E|E]]); [|now rewrite E in NL|now rewrite E in NH]. rewrite E, units_le_low. cbn [bind]. apply decode_units_text; [exact (text_units _ _ T)|exact T].
Qed.
Lemma decode16_error d e : decode16 d = Err e -> e = UnicodeError.
Proof.
  assert (D : forall us x, decode_units us = Err x -> x = UnicodeError).
  { intro us0. remember (List.length us0) as n eqn:En. revert us0 En. induction n as [n IH] using lt_wf_ind. intros [|u us] En x; cbn [decode_units]; [discriminate|]. cbn [List.length] in En.
    destruct (is_high u).
    - destruct us as [|v us]; [now intros [= <-]|]. destruct (is_low v); [|now intros [= <-]]. cbn [List.length] in En. destruct (decode_units us) as [t|y] eqn:E; [discriminate|]. cbn [bind]. intros [= <-]. apply (IH (List.length us) ltac:(lia) us eq_refl _ E).
    - destruct (is_low u); [now intros [= <-]|]. destruct (decode_units us) as [t|y] eqn:E; [discriminate|]. cbn [bind]. intros [= <-]. apply (IH (List.length us) ltac:(lia) us eq_refl _ E). }
  assert (L : forall b x, units_le b = Err x -> x = UnicodeError).
  { intro b0. remember (List.length b0) as n eqn:En. revert b0 En. induction n as [n IH] using lt_wf_ind. intros [|x [|y b]] En e'; cbn [units_le]; [discriminate|now intros [= <-]|]. cbn [List.length] in En.
    destruct (units_le b) as [t|z] eqn:E; [discriminate|]. cbn [bind]. intros [= <-]. apply (IH (List.length b) ltac:(lia) b eq_refl _ E). }
  assert (B : forall b x, units_be b = Err x -> x = UnicodeError).
  { intro b0. remember (List.length b0) as n eqn:En. revert b0 En. induction n as [n IH] using lt_wf_ind. intros [|x [|y b]] En e'; cbn [units_be]; [discriminate|now intros [= <-]|]. cbn [List.length] in En.
    destruct (units_be b) as [t|z] eqn:E; [discriminate|]. cbn [bind]. intros [= <-]. apply (IH (List.length b) ltac:(lia) b eq_refl _ E). }
  assert (G : forall r : res (list Z), (forall x, r = Err x -> x = UnicodeError) -> (us <- r ;; decode_units us) = Err e -> e = UnicodeError).
  { intros [us|x] R; cbn [bind]; [apply D|]. intros [= <-]. now apply R. }
  destruct (list_eq_dec Z.eq_dec (firstn 2 d) [0xFF; 0xFE]) as [E|NL]; [|destruct (list_eq_dec Z.eq_dec (firstn 2 d) [0xFE; 0xFF]) as [E|NH]].
  - destruct d as [|x [|y d]]; try discriminate. cbn [firstn] in E. injection E as -> ->. cbn [decode16]. apply G, L.
  - destruct d as [|x [|y d]]; try discriminate. cbn [firstn] in E. injection E as -> ->. cbn [decode16]. apply G, B.
  - rewrite decode16_plain by assumption. apply G, L.
Qed.

Lemma load_exact b x rest : bytes_ok b = true -> (xstr_load b = Ok (x, rest) <-> wide_at b x rest).
Proof.
  intro Hb. destruct b as [|b0 [|b1 [|b2 [|b3 r]]]];
    try (split; [cbn; discriminate|]; intros (c0 & c1 & c2 & c3 & q & E & _); discriminate).
  assert (H4 : bytes_ok r = true /\ (0 <= b0 < 256 /\ 0 <= b1 < 256) /\ (0 <= b2 < 256 /\ 0 <= b3 < 256)).
  { unfold bytes_ok in *. cbn [forallb] in Hb. unfold byte_ok in Hb at 1 2 3 4. repeat (apply andb_prop in Hb as [? Hb]). split; [exact Hb|]. lia. }
  destruct H4 as (Hr & R01 & R23).
  unfold xstr_load, read_n. change (Z.to_nat 4) with 4%nat. cbn [firstn skipn]. cbn [unpack_I bind].
  set (n := b0 + 256 * b1 + 65536 * b2 + 16777216 * b3).
  assert (N0 : 0 <= n) by (unfold n; lia).
  match goal with |- context [?m =? 0xFFFFFFFF] => replace m with n by (unfold n; lia) end.
  destruct (Z.eqb_spec n 0xFFFFFFFF) as [En|Nn].
  - split.
    + intro H. apply ok_inj in H. injection H as <- <-. exists b0, b1, b2, b3, r. split; [reflexivity|]. left. split; [exact En|now split].
    + intros (c0 & c1 & c2 & c3 & q & E & D). injection E as <- <- <- <- <-. fold n in D. destruct D as [(_ & -> & ->)|(C & _)]; [reflexivity|now elim C].
  - assert (S : forall k, bytes_ok (firstn k r) = true).
    { intro k. unfold bytes_ok in *. rewrite forallb_forall in *. intros z Z. apply Hr. rewrite <- (firstn_skipn k r). apply in_or_app. now left. }
    split.
    + destruct (decode16 (firstn (Z.to_nat (n * 2)) r)) as [t|] eqn:D; cbn [bind]; [|discriminate]. intro H. apply ok_inj in H. injection H as <- <-.
      exists b0, b1, b2, b3, r. split; [reflexivity|]. right. split; [exact Nn|]. exists (firstn (Z.to_nat (n * 2)) r), t. split; [reflexivity|]. split; [symmetry; apply firstn_skipn|].
      split; [apply decode16_text; [apply S|exact D]|]. unfold zlen. rewrite firstn_length. destruct (Nat.le_gt_cases (Z.to_nat (n * 2)) (List.length r)) as [L|L].
      * left. lia.
      * right. split; [lia|]. apply skipn_all2. lia.
    + intros (c0 & c1 & c2 & c3 & q & E & D). injection E as <- <- <- <- <-. fold n in D. destruct D as [(C & _)|(_ & d & t & -> & -> & T & L)]; [now elim Nn|].
      assert (Hd : bytes_ok d = true) by (rewrite bytes_ok_app in Hr; now apply andb_prop in Hr).
      assert (F : firstn (Z.to_nat (n * 2)) (d ++ rest) = d /\ skipn (Z.to_nat (n * 2)) (d ++ rest) = rest).
      { unfold zlen in L. destruct L as [L|[L ->]].
        - replace (Z.to_nat (n * 2)) with (List.length d) by lia. split; [apply firstn_app_exact|apply skipn_app_exact].
        - rewrite app_nil_r. split; [apply firstn_all2; lia|apply skipn_all2; lia]. }
      destruct F as [-> ->]. apply (decode16_text d t Hd) in T. rewrite T. reflexivity.
Qed.
Lemma load_error b e : xstr_load b = Err e -> e = StructError /\ zlen b < 4 \/ e = UnicodeError /\ 4 <= zlen b.
Proof.
  destruct b as [|b0 [|b1 [|b2 [|b3 r]]]]; try (cbn; intros [= <-]; left; split; [reflexivity|unfold zlen; cbn; lia]).
  unfold xstr_load, read_n. change (Z.to_nat 4) with 4%nat. cbn [firstn skipn]. cbn [unpack_I bind]. destruct (_ =? _); [discriminate|].
  match goal with |- context [decode16 ?d] => destruct (decode16 d) as [t|x] eqn:D end; cbn [bind]; [discriminate|]. intros [= <-]. right. split; [exact (decode16_error _ _ D)|].
  rewrite !zlen_cons. pose proof (zlen_nonneg r). lia.
Qed.

(** ** Writing *)
(** A text of code points has units exactly if no character of it is a surrogate. *)
Definition surrogate (c : Z) : Prop := 0xD800 <= c <= 0xDFFF.
Lemma surrogate_iff c : is_surrogate c = true <-> surrogate c.
Proof. unfold is_surrogate, is_high, is_low, surrogate. lia. Qed.
Lemma units_cons us c t : units_text us (c :: t) ->
  (exists us', us = c :: us' /\ (0 <= c < 0xD800 \/ 0xE000 <= c < 0x10000) /\ units_text us' t) \/
  (exists h l us', us = h :: l :: us' /\ 0xD800 <= h <= 0xDBFF /\ 0xDC00 <= l <= 0xDFFF /\ c = 0x10000 + (h - 0xD800) * 1024 + (l - 0xDC00) /\ units_text us' t).
Proof.
  intro H. remember (c :: t) as ct eqn:E. destruct H as [|u us t' P T|h l us t' Ph Pl T]; [discriminate| |]; injection E as <- ->.
  - left. now exists us.
  - right. exists h, l, us. now repeat split.
Qed.
Lemma units_of_text t : (forall c, In c t -> 0 <= c <= 0x10FFFF) -> forall us,
  units_text us t <-> (forall c, In c t -> ~ surrogate c) /\ us = flat_map enc_units t.
Proof.
  induction t as [|c t IH]; intros R us.
  - cbn. split; [now inversion 1|]. intros [_ ->]. constructor.
  - assert (R' : forall x, In x t -> 0 <= x <= 0x10FFFF) by (intros x I; apply R; now right). specialize (IH R'). assert (Rc : 0 <= c <= 0x10FFFF) by (apply R; now left).
    cbn [flat_map]. split.
    + intro H. apply units_cons in H as [(us' & -> & P & T)|(h & l & us' & -> & Ph & Pl & Ec & T)].
      * apply IH in T as [N ->]. split; [intros x [<-|I]; [unfold surrogate; lia|now apply N]|]. assert (E : enc_units c = [c]) by (unfold enc_units; now replace (c <? 0x10000) with true by lia). now rewrite E.
      * apply IH in T as [N ->]. split; [intros x [<-|I]; [unfold surrogate; lia|now apply N]|]. assert (E : enc_units c = [h; l]).
        { unfold enc_units. replace (c <? 0x10000) with false by lia. replace (0xD800 + (c - 0x10000) / 1024) with h by lia. now replace (0xDC00 + (c - 0x10000) mod 1024) with l by lia. }
        now rewrite E.
    + intros [N ->]. assert (T : units_text (flat_map enc_units t) t) by (apply IH; split; [intros x I; apply N; now right|reflexivity]).
      assert (Nc : ~ surrogate c) by (apply N; now left). unfold surrogate in Nc. destruct (c <? 0x10000) eqn:C.
      * assert (E : enc_units c = [c]) by (unfold enc_units; now rewrite C). rewrite E. constructor; [lia|exact T].
      * set (h := 0xD800 + (c - 0x10000) / 1024). set (l := 0xDC00 + (c - 0x10000) mod 1024).
        assert (E : enc_units c = [h; l]) by (unfold enc_units; now rewrite C). rewrite E. cbn [app].
        replace c with (0x10000 + (h - 0xD800) * 1024 + (l - 0xDC00)) at 1 by (unfold h, l; lia). constructor; [unfold h; lia|unfold l; lia|exact T].
Qed.
Lemma dump_exact t b : t <> [] -> (forall c, In c t -> 0 <= c <= 0x10FFFF) ->
  (xstr_dump (Some t) = Ok b <-> exists us, units_text us t /\ zlen t < 2 ^ 32 /\ b = le4 (zlen t) ++ 0xFF :: 0xFE :: low_first us).
Proof.
  intros N R. unfold xstr_dump. destruct t as [|c0 t0]; [congruence|]. set (t := c0 :: t0) in *. unfold pack_I. pose proof (zlen_nonneg t).
  destruct (zlen t <? 2 ^ 32) eqn:L.
  - replace ((0 <=? zlen t) && true) with true by lia. cbn [bind]. unfold encode16. destruct (existsb is_surrogate t) eqn:E; cbn [bind].
    + split; [discriminate|]. intros (us & U & _). apply (units_of_text t R) in U as [F _]. apply existsb_exists in E as (c & I & S). apply surrogate_iff in S. now destruct (F c I).
    + split.
      * intro H'. apply ok_inj in H'. subst b. exists (flat_map enc_units t). split; [|split; [lia|reflexivity]]. apply units_of_text; [exact R|]. split; [|reflexivity].
        intros c I S. apply surrogate_iff in S. assert (existsb is_surrogate t = true) by (apply existsb_exists; now exists c). congruence.
      * intros (us & U & _ & ->). apply (units_of_text t R) in U as [_ ->]. reflexivity.
  - rewrite andb_false_r. cbn [bind]. split; [discriminate|]. intros (us & _ & Z & _). lia.
Qed.
Lemma dump_error x e : xstr_dump x = Err e <->
  exists t, x = Some t /\ (e = StructError /\ 2 ^ 32 <= zlen t \/ e = UnicodeError /\ zlen t < 2 ^ 32 /\ exists c, In c t /\ surrogate c).
Proof.
  destruct x as [t|]; [|split; [discriminate|intros (t & E & _); discriminate]]. destruct t as [|c0 t0].
  - cbn. split; [discriminate|]. intros (t & [= <-] & [[_ H]|(_ & _ & c & [] & _)]). unfold zlen in H. cbn in H. lia.
  - set (t := c0 :: t0). change (xstr_dump (Some t)) with (h <- pack_I (zlen t) ;; e <- encode16 t ;; Ok (h ++ e)). unfold pack_I. pose proof (zlen_nonneg t). destruct (zlen t <? 2 ^ 32) eqn:L.
    + replace ((0 <=? zlen t) && true) with true by lia. cbn [bind]. unfold encode16. destruct (existsb is_surrogate t) eqn:E; cbn [bind].
      * split.
        -- intros [= <-]. exists t. split; [reflexivity|]. right. split; [reflexivity|]. split; [lia|]. apply existsb_exists in E as (c & I & S). exists c. split; [exact I|now apply surrogate_iff].
        -- intros (t' & [= <-] & [[_ H']|(-> & _)]); [fold t in H'; lia|reflexivity].
      * split; [discriminate|]. intros (t' & [= <-] & [[_ H']|(_ & _ & c & I & S)]); [fold t in H'; lia|]. fold t in I. apply surrogate_iff in S.
        assert (existsb is_surrogate t = true) by (apply existsb_exists; now exists c). congruence.
    + rewrite andb_false_r. cbn [bind]. split.
      * intros [= <-]. exists t. split; [reflexivity|]. left. split; [reflexivity|lia].
      * intros (t' & [= <-] & [[-> _]|(_ & H' & _)]); [reflexivity|fold t in H'; lia].
Qed.
