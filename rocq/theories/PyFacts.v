(** Generic lemmas about the Python primitives of Py.v. *)
From Verif Require Import Py.
From Coq Require Import ZifyBool ZifyNat.
Ltac Zify.zify_post_hook ::= Z.div_mod_to_equations.
Set Implicit Arguments.

Lemma str_eqb_refl a : str_eqb a a = true.
Proof. induction a as [|x a IH]; cbn; [reflexivity|]. now rewrite Z.eqb_refl. Qed.

Lemma str_eqb_eq a b : str_eqb a b = true <-> a = b.
Proof.
  revert b; induction a as [|x a IH]; intros [|y b]; cbn; split; intro H;
    try reflexivity; try discriminate.
  - apply andb_prop in H as [H1 H2]. apply Z.eqb_eq in H1. apply IH in H2. congruence.
  - injection H as -> ->. now rewrite Z.eqb_refl, (proj2 (IH b) eq_refl).
Qed.

Lemma str_eqb_neq a b : str_eqb a b = false <-> a <> b.
Proof.
  destruct (str_eqb a b) eqn:E; split; intro H; try reflexivity; try discriminate.
  - apply str_eqb_eq in E. contradiction.
  - intro Heq. apply str_eqb_eq in Heq. congruence.
Qed.

Lemma mem_str_In x l : mem_str x l = true <-> In x l.
Proof.
  unfold mem_str. rewrite existsb_exists. split.
  - intros (y & Hy & He). apply str_eqb_eq in He. now subst.
  - intro H. exists x. split; [exact H|apply str_eqb_refl].
Qed.

Lemma mem_Z_In x l : mem_Z x l = true <-> In x l.
Proof.
  unfold mem_Z. rewrite existsb_exists. split.
  - intros (y & Hy & He). apply Z.eqb_eq in He. now subst.
  - intro H. exists x. split; [exact H|apply Z.eqb_refl].
Qed.

Lemma zlen_nil A : zlen (@nil A) = 0.
Proof. reflexivity. Qed.
Lemma zlen_cons A (x : A) l : zlen (x :: l) = 1 + zlen l.
Proof. unfold zlen. cbn [List.length]. lia. Qed.
Lemma zlen_app A (l1 l2 : list A) : zlen (l1 ++ l2) = zlen l1 + zlen l2.
Proof. unfold zlen. rewrite app_length. lia. Qed.
Lemma zlen_nonneg A (l : list A) : 0 <= zlen l.
Proof. unfold zlen. lia. Qed.
Lemma zlen_to_nat A (l : list A) : Z.to_nat (zlen l) = List.length l.
Proof. unfold zlen. lia. Qed.
Lemma zlen_0 A (l : list A) : zlen l = 0 -> l = [].
Proof. destruct l; [reflexivity|]. rewrite zlen_cons. pose proof (zlen_nonneg l). lia. Qed.
Lemma zlen_map A B (f : A -> B) l : zlen (map f l) = zlen l.
Proof. unfold zlen. now rewrite map_length. Qed.

Lemma firstn_app_exact A (l1 l2 : list A) : firstn (List.length l1) (l1 ++ l2) = l1.
Proof. rewrite firstn_app, Nat.sub_diag, firstn_all. cbn. apply app_nil_r. Qed.
Lemma skipn_app_exact A (l1 l2 : list A) : skipn (List.length l1) (l1 ++ l2) = l2.
Proof. rewrite skipn_app, Nat.sub_diag, skipn_all. reflexivity. Qed.

Lemma bytes_ok_app a b : bytes_ok (a ++ b) = bytes_ok a && bytes_ok b.
Proof. apply forallb_app. Qed.
Lemma byte_ok_range b : byte_ok b = true <-> 0 <= b < 256.
Proof. unfold byte_ok. lia. Qed.

(** Bit arithmetic. *)
Lemma land_low x n : 0 <= n -> Z.land x (2 ^ n - 1) = x mod 2 ^ n.
Proof. intro H. rewrite <- Z.land_ones by lia. f_equal. rewrite Z.ones_equiv. lia. Qed.

Lemma lor_disjoint a b n : 0 <= n -> 0 <= a < 2 ^ n -> Z.lor a (b * 2 ^ n) = a + b * 2 ^ n.
Proof.
  intros Hn Ha. symmetry. rewrite <- Z.lxor_lor.
  - rewrite Z.add_nocarry_lxor; [reflexivity|].
    rewrite <- Z.shiftl_mul_pow2 by lia.
    apply Z.bits_inj'. intros k Hk. rewrite Z.land_spec, Z.bits_0.
    destruct (Z.ltb_spec k n) as [Hkn|Hkn].
    + rewrite (Z.shiftl_spec_low b n k) by lia. apply andb_false_r.
    + replace (Z.testbit a k) with false; [reflexivity|].
      symmetry. rewrite Z.testbit_eqb by lia.
      rewrite Z.div_small; [reflexivity|]. split; [lia|].
      apply Z.lt_le_trans with (2 ^ n); [lia|]. apply Z.pow_le_mono_r; lia.
  - rewrite <- Z.shiftl_mul_pow2 by lia.
    apply Z.bits_inj'. intros k Hk. rewrite Z.land_spec, Z.bits_0.
    destruct (Z.ltb_spec k n) as [Hkn|Hkn].
    + rewrite (Z.shiftl_spec_low b n k) by lia. apply andb_false_r.
    + replace (Z.testbit a k) with false; [reflexivity|].
      symmetry. rewrite Z.testbit_eqb by lia.
      rewrite Z.div_small; [reflexivity|]. split; [lia|].
      apply Z.lt_le_trans with (2 ^ n); [lia|]. apply Z.pow_le_mono_r; lia.
Qed.

Lemma land_pow2_zero x n : 0 <= n -> (Z.land x (2 ^ n) =? 0) = negb (Z.odd (x / 2 ^ n)).
Proof.
  intro Hn.
  assert (E : Z.testbit x n = Z.odd (x / 2 ^ n)).
  { rewrite Z.testbit_odd, Z.shiftr_div_pow2 by lia. reflexivity. }
  rewrite <- E. destruct (Z.testbit x n) eqn:T; cbn.
  - apply Z.eqb_neq. intro H0. assert (Z.testbit (Z.land x (2 ^ n)) n = false) as H1
      by now rewrite H0, Z.bits_0.
    rewrite Z.land_spec, T, Z.pow2_bits_true in H1 by lia. discriminate.
  - apply Z.eqb_eq. apply Z.bits_inj'. intros k Hk. rewrite Z.land_spec, Z.bits_0.
    destruct (Z.eq_dec k n) as [->|Hne]; [now rewrite T|].
    rewrite Z.pow2_bits_false by lia. apply andb_false_r.
Qed.

(** For [2^n <= x < 2^(n+1)] removing bit n by xor subtracts it. *)
Lemma lxor_top x n : 0 <= n -> 2 ^ n <= x < 2 ^ (n + 1) -> Z.lxor x (2 ^ n) = x - 2 ^ n.
Proof.
  intros Hn Hx.
  assert (Hp : 0 < 2 ^ n) by (apply Z.pow_pos_nonneg; lia).
  assert (E : x = (x - 2 ^ n) + 1 * 2 ^ n) by lia.
  rewrite Z.pow_add_r in Hx by lia. change (2 ^ 1) with 2 in Hx.
  assert (L : Z.lor (x - 2 ^ n) (1 * 2 ^ n) = x - 2 ^ n + 1 * 2 ^ n)
    by (apply lor_disjoint; lia).
  assert (Hb : Z.testbit (x - 2 ^ n) n = false).
  { rewrite Z.testbit_eqb by lia. rewrite Z.div_small by lia. reflexivity. }
  rewrite E at 1. rewrite <- L, Z.mul_1_l.
  apply Z.bits_inj'. intros k Hk. rewrite Z.lxor_spec, Z.lor_spec.
  destruct (Z.eq_dec k n) as [->|Hne].
  - rewrite Z.pow2_bits_true by lia. rewrite Hb. reflexivity.
  - rewrite Z.pow2_bits_false by lia. now rewrite orb_false_r, xorb_false_r.
Qed.

Lemma odd_div_small x n : 0 <= n -> 0 <= x < 2 ^ n -> Z.odd (x / 2 ^ n) = false.
Proof. intros Hn Hx. rewrite Z.div_small by lia. reflexivity. Qed.
Lemma odd_div_top x n : 0 <= n -> 2 ^ n <= x < 2 ^ (n + 1) -> Z.odd (x / 2 ^ n) = true.
Proof.
  intros Hn Hx. assert (0 < 2 ^ n) by (apply Z.pow_pos_nonneg; lia).
  rewrite Z.pow_add_r in Hx by lia. change (2 ^ 1) with 2 in Hx.
  replace (x / 2 ^ n) with 1; [reflexivity|].
  apply Z.div_unique with (x - 2 ^ n); lia.
Qed.

Lemma Ok_inj A (a b : A) : Ok a = Ok b -> b = a.
Proof. intro H; now injection H. Qed.

Lemma bind_ok A B (r : res A) (f : A -> res B) b :
  bind r f = Ok b -> exists a, r = Ok a /\ f a = Ok b.
Proof. destruct r as [a|e]; cbn; intro H; [|discriminate]. now exists a. Qed.

Lemma le4_length i : List.length (le4 i) = 4%nat.
Proof. reflexivity. Qed.
Lemma zlen_le4 i : zlen (le4 i) = 4.
Proof. reflexivity. Qed.
Lemma unpack_le4 i : 0 <= i < 2 ^ 32 -> unpack_I (le4 i) = Ok i.
Proof. intro H. unfold unpack_I, le4. f_equal. change (2^32) with 4294967296 in H.
  change (2^8) with 256. change (2^16) with 65536. change (2^24) with 16777216. lia. Qed.
Lemma le4_bytes_ok i : bytes_ok (le4 i) = true.
Proof. unfold le4, bytes_ok, byte_ok; cbn [forallb].
  change (2^8) with 256. change (2^16) with 65536. change (2^24) with 16777216. lia. Qed.

Lemma mapM_map A B (f : A -> res B) (g : A -> B) l :
  (forall x, In x l -> f x = Ok (g x)) -> mapM f l = Ok (map g l).
Proof.
  induction l as [|x l IH]; cbn; intro H; [reflexivity|].
  rewrite H by now left. cbn. rewrite IH by (intros y Hy; apply H; now right). reflexivity.
Qed.
Lemma mapM_length A B (f : A -> res B) l l' : mapM f l = Ok l' -> List.length l' = List.length l.
Proof.
  revert l'; induction l as [|x l IH]; cbn; intros l' H; [now injection H as <-|].
  apply bind_ok in H as (y & _ & H). apply bind_ok in H as (ys & Hys & H).
  injection H as <-. cbn. f_equal. now apply IH.
Qed.

(** Slicing. *)
Lemma py_slice_all A (l : list A) : py_slice l None None = l.
Proof. unfold py_slice, slice_bounds. cbn [skipn Z.to_nat]. rewrite Z.sub_0_r, zlen_to_nat. apply firstn_all. Qed.

Lemma py_slice_from A (l : list A) a : 0 <= a -> py_slice l (Some a) None = skipn (Z.to_nat a) l.
Proof.
  intro Ha. unfold py_slice, slice_bounds, clamp.
  destruct (Z.ltb_spec a 0); [lia|]. pose proof (zlen_nonneg l) as Hl.
  destruct (Z.le_ge_cases a (zlen l)) as [H1|H1].
  - rewrite Z.min_r by lia. rewrite firstn_all2; [reflexivity|].
    rewrite skipn_length. unfold zlen in *. lia.
  - rewrite Z.min_l by lia. rewrite Z.sub_diag. cbn [firstn Z.to_nat].
    symmetry. apply skipn_all2. unfold zlen in *. lia.
Qed.

Lemma py_slice_to A (l : list A) b : 0 <= b -> py_slice l None (Some b) = firstn (Z.to_nat b) l.
Proof.
  intro Hb. unfold py_slice, slice_bounds, clamp.
  destruct (Z.ltb_spec b 0); [lia|]. cbn [skipn Z.to_nat]. rewrite Z.sub_0_r.
  destruct (Z.le_ge_cases b (zlen l)) as [H1|H1].
  - now rewrite Z.min_r by lia.
  - rewrite Z.min_l by lia. rewrite zlen_to_nat, firstn_all. symmetry.
    apply firstn_all2. unfold zlen in *. lia.
Qed.

Lemma sub_spec A (l : list A) a b : 0 <= a <= b ->
  sub l a b = firstn (Z.to_nat (b - a)) (skipn (Z.to_nat a) l).
Proof.
  intros [Ha Hb]. unfold sub, py_slice, slice_bounds, clamp.
  destruct (Z.ltb_spec a 0); [lia|]. destruct (Z.ltb_spec b 0); [lia|].
  pose proof (zlen_nonneg l) as Hl.
  destruct (Z.le_ge_cases a (zlen l)) as [H1|H1].
  - rewrite (Z.min_r _ a) by lia.
    destruct (Z.le_ge_cases b (zlen l)) as [H2|H2].
    + now rewrite Z.min_r by lia.
    + rewrite Z.min_l by lia. rewrite !firstn_all2; [reflexivity| |];
        rewrite skipn_length; unfold zlen in *; lia.
  - rewrite !Z.min_l by lia. rewrite Z.sub_diag. cbn [firstn Z.to_nat].
    rewrite (skipn_all2 l) by (unfold zlen in *; lia). now rewrite firstn_nil.
Qed.

Lemma sub_app_l A (l r : list A) a b : 0 <= a <= b -> b <= zlen l -> sub (l ++ r) a b = sub l a b.
Proof.
  intros H Hb. rewrite !sub_spec by lia. unfold zlen in Hb.
  rewrite skipn_app, firstn_app, skipn_length.
  replace (Z.to_nat (b - a) - (List.length l - Z.to_nat a))%nat with 0%nat by lia.
  cbn. apply app_nil_r.
Qed.

Lemma sub_app_mid A (p m r : list A) a b :
  a = zlen p -> b = zlen p + zlen m -> sub (p ++ m ++ r) a b = m.
Proof.
  intros -> ->. pose proof (zlen_nonneg p). pose proof (zlen_nonneg m).
  rewrite sub_spec by lia. rewrite zlen_to_nat, skipn_app_exact.
  replace (zlen p + zlen m - zlen p) with (zlen m) by lia.
  rewrite zlen_to_nat. apply firstn_app_exact.
Qed.

(** Dictionaries with [str] keys. *)
Lemma dget_dset_str V (d : list (str * V)) k v k' :
  dget str_eqb (dset str_eqb d k v) k' = if str_eqb k' k then Some v else dget str_eqb d k'.
Proof.
  induction d as [|[x y] d IH]; cbn [dset dget].
  - reflexivity.
  - destruct (str_eqb k x) eqn:E; cbn [dget].
    + apply str_eqb_eq in E. subst x. destruct (str_eqb k' k); reflexivity.
    + rewrite IH. destruct (str_eqb k' x) eqn:E1; [|reflexivity].
      destruct (str_eqb k' k) eqn:E2; [|reflexivity].
      apply str_eqb_eq in E1, E2. subst. rewrite str_eqb_refl in E. discriminate.
Qed.

Lemma dset_keys_str V (d : list (str * V)) k v :
  map fst (dset str_eqb d k v) = if mem_str k (map fst d) then map fst d else map fst d ++ [k].
Proof.
  induction d as [|[x y] d IH]; cbn [dset map fst]; [reflexivity|].
  unfold mem_str in *. cbn [existsb]. destruct (str_eqb k x) eqn:E; cbn [map fst orb].
  - reflexivity.
  - rewrite IH. destruct (existsb (str_eqb k) (map fst d)); reflexivity.
Qed.

Lemma dset_nodup_str V (d : list (str * V)) k v :
  NoDup (map fst d) -> NoDup (map fst (dset str_eqb d k v)).
Proof.
  intro H. rewrite dset_keys_str. destruct (mem_str k (map fst d)) eqn:E; [exact H|].
  assert (Hn : ~ In k (map fst d)) by (intro Hin; apply mem_str_In in Hin; congruence).
  clear E. induction (map fst d) as [|x l IH]; [constructor; [easy|constructor]|].
  inversion H as [|? ? Hx Hl]; subst. cbn [app]. constructor.
  - intro Hin. apply in_app_or in Hin as [Hin|[->|[]]]; [contradiction|]. apply Hn. now left.
  - apply IH; [exact Hl|]. intro Hin. apply Hn. now right.
Qed.

Lemma dget_In_str V (d : list (str * V)) k v : NoDup (map fst d) ->
  dget str_eqb d k = Some v <-> In (k, v) d.
Proof.
  induction d as [|[x y] d IH]; intro H; cbn [dget]; [split; [discriminate|easy]|].
  cbn [map fst] in H. inversion H as [|? ? Hx Hd]; subst. specialize (IH Hd).
  destruct (str_eqb k x) eqn:E.
  - apply str_eqb_eq in E. subst x. split; intro H1.
    + injection H1 as ->. now left.
    + destruct H1 as [H1|H1]; [now injection H1 as ->|].
      exfalso. apply Hx. apply in_map_iff. now exists (k, v).
  - rewrite IH. split; intro H1; [now right|]. destruct H1 as [H1|H1]; [|exact H1].
    injection H1 as -> ->. rewrite str_eqb_refl in E. discriminate.
Qed.
