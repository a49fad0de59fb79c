(** Shared strings and styles of .xlsb workbooks. *)
From Verif Require Import Py PyFacts Biff BiffSpec BiffProofs BiffNumba Utf16 Utf16Spec BiffRecs
  Utf16Proofs NumFmt NumFmtSpec NumFmtProofs Cell Xlsb XlsbSpec XlsbProofs.
From Coq Require Import ZifyBool ZifyNat.
Ltac Zify.zify_post_hook ::= Z.div_mod_to_equations.
Set Implicit Arguments.
Unset Strict Implicit.

(** ** Shared strings *)
Definition is_sst (l : list sitem) (part : bytes) : Prop :=
  forallb sitem_ok l = true /\ forallb rec_ok (map sitem_record l) = true
  /\ dump_all (map sitem_record l) = Ok part.

Definition sst_item (t : str) (p : Z * bytes) : record := mkRec 19 (fst p :: wide_string t ++ snd p).

Lemma sst_text_ok f t tail : wide_ok t = true -> sst_text (f :: wide_string t ++ tail) = Ok t.
Proof.
  intro H. destruct (wide_ok_inv H) as (H1 & H2 & H3). unfold sst_text, wide_string.
  change (f :: (le4 (n_units t) ++ utf16le t) ++ tail) with ([f] ++ (le4 (n_units t) ++ utf16le t) ++ tail).
  rewrite <- app_assoc. rewrite (@sub_app_mid _ [f] (le4 (n_units t)) _ 1 5) by reflexivity.
  rewrite unpack_le4 by lia. cbn [bind].
  change (py_slice ?l (Some 5) (Some ?b)) with (sub l 5 b).
  rewrite app_assoc. rewrite sub_app_mid.
  - now apply decode16_utf16le.
  - reflexivity.
  - rewrite utf16le_length, zlen_app, zlen_le4, zlen_cons, zlen_nil. lia.
Qed.

(** Texts with their index that are null. *)
Fixpoint null_keys (nv : str -> bool) (i : Z) (l : list str) : list bytes :=
  match l with
  | [] => []
  | t :: r => (if nv t then [le4 i] else []) ++ null_keys nv (i + 1) r
  end.

Lemma filter_sst l : forallb sitem_ok l = true ->
  filter (fun r => mem_Z (rec_id r) [19]) (map sitem_record l)
  = flat_map (fun x => match x with SI f t tail => [mkRec 19 (f :: wide_string t ++ tail)] | SX _ => [] end) l.
Proof.
  induction l as [|x l IH]; intro H; [reflexivity|]. cbn [forallb] in H. apply andb_prop in H as [Hx H].
  cbn [map filter flat_map]. rewrite IH by exact H. destruct x as [f t tail|r]; cbn [sitem_record].
  - reflexivity.
  - cbn [sitem_ok] in Hx. unfold mem_Z. cbn [existsb]. rewrite orb_false_r.
    apply negb_true_iff in Hx. rewrite Hx. reflexivity.
Qed.

Lemma xlsb_shared_from_ok nv l : forall i, forallb sitem_ok l = true ->
  0 <= i -> i + zlen (sitem_texts l) <= 2 ^ 32 ->
  xlsb_shared_from nv i
    (flat_map (fun x => match x with SI f t tail => [mkRec 19 (f :: wide_string t ++ tail)] | SX _ => [] end) l)
  = Ok (sitem_texts l, null_keys nv i (sitem_texts l)).
Proof.
  induction l as [|x l IH]; intros i H H0 Hi; [reflexivity|].
  cbn [forallb] in H. apply andb_prop in H as [Hx H].
  destruct x as [f t tail|r]; cbn [flat_map app sitem_texts xlsb_shared_from rec_data].
  - rewrite sst_text_ok by exact Hx. cbn [bind null_keys].
    cbn [sitem_texts flat_map app] in Hi. rewrite zlen_cons in Hi.
    fold (sitem_texts l) in Hi |- *. pose proof (zlen_nonneg (sitem_texts l)).
    destruct (nv t).
    + unfold pack_I. replace ((0 <=? i) && (i <? 2 ^ 32)) with true by lia. cbn [bind].
      rewrite IH by (try assumption; lia). reflexivity.
    + cbn [bind]. rewrite IH by (try assumption; lia). reflexivity.
  - apply IH; assumption.
Qed.

Lemma xlsb_shared_ok nv l part : is_sst l part -> zlen (sitem_texts l) <= 2 ^ 32 ->
  xlsb_shared nv part = Ok (sitem_texts l, null_keys nv 0 (sitem_texts l)).
Proof.
  intros (H1 & H2 & H3) Hn. unfold xlsb_shared. rewrite (scan_part_dump 19 [] H2 H3).
  rewrite filter_sst by exact H1. apply xlsb_shared_from_ok; [exact H1|lia|lia].
Qed.

Lemma le4_inj i j : 0 <= i < 2 ^ 32 -> 0 <= j < 2 ^ 32 -> le4 i = le4 j -> i = j.
Proof.
  intros Hi Hj E. assert (H : unpack_I (le4 i) = unpack_I (le4 j)) by now rewrite E.
  rewrite !unpack_le4 in H by assumption. now apply Ok_inj in H.
Qed.

Lemma null_keys_spec nv l : forall i k, In k (null_keys nv i l) <->
  exists j t, nth_error l j = Some t /\ nv t = true /\ k = le4 (i + Z.of_nat j).
Proof.
  induction l as [|t l IH]; intros i k; cbn [null_keys].
  - split; [easy|]. intros ([|j] & t & H & _); discriminate.
  - rewrite in_app_iff, IH. split.
    + intros [H|(j & u & H1 & H2 & H3)].
      * destruct (nv t) eqn:E; [|destruct H]. destruct H as [<-|[]].
        exists O, t. cbn. rewrite Z.add_0_r. auto.
      * exists (S j), u. cbn [nth_error]. repeat split; try assumption. rewrite H3. f_equal. lia.
    + intros ([|j] & u & H1 & H2 & H3); cbn [nth_error] in H1.
      * left. injection H1 as ->. rewrite H2. left. rewrite H3. f_equal. lia.
      * right. exists j, u. repeat split; try assumption. rewrite H3. f_equal. lia.
Qed.

(** Membership of an index in the null set. *)
Lemma null_keys_mem nv l i : 0 <= i < 2 ^ 32 -> zlen l <= 2 ^ 32 ->
  mem_str (le4 i) (null_keys nv 0 l)
  = match nth_error l (Z.to_nat i) with Some t => nv t | None => false end.
Proof.
  intros Hi Hl. destruct (mem_str _ _) eqn:E; symmetry.
  - apply mem_str_In, null_keys_spec in E as (j & t & H1 & H2 & H3).
    assert (Hj : (j < List.length l)%nat) by (apply nth_error_Some; congruence).
    apply le4_inj in H3; [|exact Hi|unfold zlen in Hl; lia].
    subst i. rewrite Z.add_0_l, Nat2Z.id, H1. exact H2.
  - destruct (nth_error l (Z.to_nat i)) as [t|] eqn:En; [|reflexivity].
    destruct (nv t) eqn:Ev; [|reflexivity]. exfalso.
    assert (In (le4 i) (null_keys nv 0 l)).
    { apply null_keys_spec. exists (Z.to_nat i), t. repeat split; try assumption. f_equal. lia. }
    apply mem_str_In in H. congruence.
Qed.

(** ** Styles *)
Definition is_styles (l : list yitem) (part : bytes) : Prop :=
  forallb yitem_ok l = true /\ forallb rec_ok (map yitem_record l) = true
  /\ dump_all (map yitem_record l) = Ok part.

Lemma zlen_le2 u : zlen (le2 u) = 2.
Proof. reflexivity. Qed.

Lemma le2_inj i j : 0 <= i < 2 ^ 16 -> 0 <= j < 2 ^ 16 -> le2 i = le2 j -> i = j.
Proof. intros Hi Hj E. unfold le2 in E. injection E as E1 E2. lia. Qed.

Lemma filter_xf l : forallb yitem_ok l = true ->
  filter (fun r => mem_Z (rec_id r) [47]) (map yitem_record l)
  = flat_map (fun x => match x with YXF p f tl => [mkRec 47 (le2 p ++ le2 f ++ tl)] | _ => [] end) l.
Proof.
  induction l as [|x l IH]; intro H; [reflexivity|]. cbn [forallb] in H. apply andb_prop in H as [Hx H].
  cbn [map filter flat_map]. rewrite IH by exact H. destruct x as [p f tl|i c|r]; cbn [yitem_record].
  - reflexivity.
  - reflexivity.
  - cbn [yitem_ok] in Hx. unfold mem_Z. cbn [existsb]. rewrite orb_false_r.
    replace (rec_id r =? 47) with false by lia. reflexivity.
Qed.
Lemma filter_fmt l : forallb yitem_ok l = true ->
  filter (fun r => mem_Z (rec_id r) [44]) (map yitem_record l)
  = map (fun p => mkRec 44 (le2 (fst p) ++ wide_string (snd p))) (custom_fmts l).
Proof.
  induction l as [|x l IH]; intro H; [reflexivity|]. cbn [forallb] in H. apply andb_prop in H as [Hx H].
  unfold custom_fmts in *. cbn [map filter flat_map]. rewrite IH by exact H.
  destruct x as [p f tl|i c|r]; cbn [yitem_record].
  - reflexivity.
  - reflexivity.
  - cbn [yitem_ok] in Hx. unfold mem_Z. cbn [existsb]. rewrite orb_false_r.
    replace (rec_id r =? 44) with false by lia. reflexivity.
Qed.

Lemma xf_fmts_ok l : forallb yitem_ok l = true ->
  xlsb_xf_fmts (flat_map (fun x => match x with YXF p f tl => [mkRec 47 (le2 p ++ le2 f ++ tl)] | _ => [] end) l)
  = map le2 (cell_xfs l).
Proof.
  unfold xlsb_xf_fmts, cell_xfs.
  induction l as [|x l IH]; intro H; [reflexivity|]. cbn [forallb] in H. apply andb_prop in H as [Hx H].
  specialize (IH H). destruct x as [p f tl|i c|r]; cbn [flat_map app]; [|exact IH|exact IH].
  cbn [filter rec_data].
  replace (sub (le2 p ++ le2 f ++ tl) 0 2) with (le2 p)
    by (symmetry; apply (@sub_app_mid _ [] (le2 p) (le2 f ++ tl) 0 2); reflexivity).
  cbn [yitem_ok] in Hx.
  replace (str_eqb (le2 p) [255; 255]) with (p =? 65535).
  2: { unfold le2. cbn [str_eqb]. lia. }
  destruct (p =? 65535); cbn [negb]; [exact IH|].
  cbn [map rec_data app]. rewrite IH. f_equal.
  apply (@sub_app_mid _ (le2 p) (le2 f) tl 2 4); reflexivity.
Qed.

Definition style_key (k : Z) : bytes := le2 k ++ [0].
Fixpoint xf_table (i : Z) (l : list Z) : list (bytes * bytes) :=
  match l with [] => [] | f :: r => (style_key i, le2 f) :: xf_table (i + 1) r end.

Lemma xfs_from_ok l : forall i, 0 <= i -> i + zlen l <= 2 ^ 16 ->
  xlsb_xfs_from i (map le2 l) = Ok (xf_table i l).
Proof.
  induction l as [|f l IH]; intros i H0 H; [reflexivity|].
  rewrite zlen_cons in H. pose proof (zlen_nonneg l).
  cbn [map xlsb_xfs_from xf_table]. unfold pack_H.
  replace ((0 <=? i) && (i <? 2 ^ 16)) with true by lia. cbn [bind].
  rewrite IH by lia. reflexivity.
Qed.

Lemma xf_table_spec l : forall i k y, In (k, y) (xf_table i l) <->
  exists j f, nth_error l j = Some f /\ k = style_key (i + Z.of_nat j) /\ y = le2 f.
Proof.
  induction l as [|f l IH]; intros i k y; cbn [xf_table].
  - split; [easy|]. intros ([|j] & t & H & _); discriminate.
  - cbn [In]. rewrite IH. split.
    + intros [H|(j & u & H1 & H2 & H3)].
      * injection H as <- <-. exists O, f. cbn [nth_error]. rewrite Z.add_0_r. auto.
      * exists (S j), u. cbn [nth_error]. repeat split; try assumption. rewrite H2. f_equal. lia.
    + intros ([|j] & u & H1 & H2 & H3); cbn [nth_error] in H1.
      * left. injection H1 as ->. rewrite H2, H3, Z.add_0_r. reflexivity.
      * right. exists j, u. repeat split; try assumption. rewrite H2. f_equal. lia.
Qed.

Lemma style_key_inj i j : 0 <= i < 2 ^ 16 -> 0 <= j < 2 ^ 16 -> style_key i = style_key j -> i = j.
Proof.
  intros Hi Hj E. apply le2_inj; try assumption. unfold style_key in E.
  now apply app_inv_tail in E.
Qed.

Lemma builtin_keys_ok l : forall i, forallb (fun f => (0 <=? f) && (f <? 2 ^ 16)) l = true ->
  xlsb_builtin_keys (xf_table i l)
  = Ok (map fst (filter (fun p => mem_Z (hd 0 (snd p)) TEMPORAL_STYLES) (xf_table i l))).
Proof.
  induction l as [|f l IH]; intros i H; [reflexivity|].
  cbn [forallb] in H. apply andb_prop in H as [_ H].
  cbn [xf_table xlsb_builtin_keys]. unfold le2 at 1. cbv iota beta. rewrite IH by exact H.
  cbn [bind filter snd]. unfold le2 at 2. cbn [hd]. destruct (mem_Z _ _); reflexivity.
Qed.

(** The format code as the reader sees it: its first two characters are the low and
    the high half of the length field. *)
Definition seen_code (c : str) : str := n_units c :: 0 :: c.
Definition short_code (c : str) : bool := n_units c <? 256.

Lemma decode_seen c : wide_ok c = true -> short_code c = true ->
  decode16 (wide_string c) = Ok (seen_code c).
Proof.
  intros H Hs. destruct (wide_ok_inv H) as (H1 & H2 & H3). unfold short_code in Hs.
  assert (E : wide_string c = utf16le (seen_code c)).
  { unfold wide_string, seen_code, utf16le. cbn [flat_map]. unfold enc_units at 1 2.
    replace (n_units c <? 65536) with true by lia. cbn [Z.ltb Z.compare flat_map app le2].
    unfold le4. cbn [app]. change (2 ^ 8) with 256. change (2 ^ 16) with 65536.
    change (2 ^ 24) with 16777216. replace (n_units c / 256) with 0 by lia.
    replace (n_units c / 65536) with 0 by lia. replace (n_units c / 16777216) with 0 by lia. reflexivity. }
  rewrite E. apply decode16_utf16le.
  - unfold seen_code, str_ok in *. cbn [forallb]. rewrite H1. unfold char_ok. lia.
  - unfold seen_code, starts_with_mark. lia.
Qed.

Definition last_fmt (f : Z) (l : list (Z * str)) : option str :=
  fold_left (fun acc p => if fst p =? f then Some (snd p) else acc) l None.

Lemma fms_from_ok l : forall d,
  forallb (fun p => (0 <=? fst p) && (fst p <? 2 ^ 16) && wide_ok (snd p) && short_code (snd p)) l = true ->
  NoDup (map fst d) ->
  exists d', xlsb_fms_from d (map (fun p => mkRec 44 (le2 (fst p) ++ wide_string (snd p))) l) = Ok d'
    /\ NoDup (map fst d')
    /\ forall f, 0 <= f < 2 ^ 16 ->
       dget str_eqb d' (le2 f)
       = fold_left (fun acc p => if fst p =? f then Some (first_section (seen_code (snd p))) else acc) l
                   (dget str_eqb d (le2 f)).
Proof.
  induction l as [|[i c] l IH]; intros d H Hd.
  - exists d. split; [reflexivity|]. split; [exact Hd|]. reflexivity.
  - cbn [forallb fst snd] in H. apply andb_prop in H as [Hx H].
    cbn [map xlsb_fms_from rec_data fst snd].
    replace (py_slice (le2 i ++ wide_string c) (Some 2) None) with (wide_string c)
      by (rewrite py_slice_from by lia; reflexivity).
    apply andb_prop in Hx as [Hx Hsc]. apply andb_prop in Hx as [Hx Hw].
    rewrite decode_seen by assumption. cbn [bind].
    replace (sub (le2 i ++ wide_string c) 0 2) with (le2 i)
      by (symmetry; apply (@sub_app_mid _ [] (le2 i) (wide_string c) 0 2); reflexivity).
    destruct (IH (dset str_eqb d (le2 i) (first_section (seen_code c))) H) as (d' & E & Hn & Hg).
    { now apply dset_nodup_str. }
    exists d'. split; [exact E|]. split; [exact Hn|]. intros f Hf. rewrite Hg by exact Hf.
    cbn [fold_left fst snd]. rewrite dget_dset_str. f_equal.
    destruct (Z.eqb_spec i f) as [->|Hne]; [now rewrite str_eqb_refl|].
    replace (str_eqb (le2 f) (le2 i)) with false; [reflexivity|].
    symmetry. apply str_eqb_neq. intro E1. apply le2_inj in E1; lia.
Qed.

Lemma fold_left_option_map (g : str -> str) f l : forall acc,
  fold_left (fun a p => if fst p =? f then Some (g (snd p)) else a) l (option_map g acc)
  = option_map g (fold_left (fun a (p : Z * str) => if fst p =? f then Some (snd p) else a) l acc).
Proof.
  induction l as [|[i c] l IH]; intro acc; [reflexivity|]. cbn [fold_left fst snd].
  destruct (i =? f); [apply (IH (Some c))|apply IH].
Qed.

(** What the reader does, exactly, when the length fields fit one byte. *)
Lemma xlsb_styles_exact l part : is_styles l part -> zlen (cell_xfs l) <= 2 ^ 16 ->
  forallb (fun p => short_code (snd p)) (custom_fmts l) = true ->
  exists st, xlsb_styles part = Ok st /\
    forall k f, nth_error (cell_xfs l) k = Some f ->
      mem_str (style_key (Z.of_nat k)) st
      = (builtin_temporal (f mod 256)
         || match last_fmt f (custom_fmts l) with
            | Some c => fmt_temporal (first_section (seen_code c))
            | None => false
            end).
Proof.
  intros (H1 & H2 & H3) Hn Hs. unfold xlsb_styles.
  rewrite (scan_part_dump 47 [] H2 H3), (scan_part_dump 44 [] H2 H3).
  rewrite filter_xf, filter_fmt by exact H1. unfold xlsb_xfs. rewrite xf_fmts_ok by exact H1.
  rewrite xfs_from_ok by lia. cbn [bind].
  assert (Hc : forallb (fun f => (0 <=? f) && (f <? 2 ^ 16)) (cell_xfs l) = true).
  { apply forallb_forall. intros f Hin. unfold cell_xfs in Hin. apply in_flat_map in Hin as (x & Hx & Hin).
    destruct x as [p g tl|i c|r]; try destruct Hin.
    rewrite forallb_forall in H1. specialize (H1 _ Hx). cbn [yitem_ok] in H1.
    destruct (p =? 65535); [destruct Hin|]. destruct Hin as [<-|[]]. lia. }
  assert (Hf : forallb (fun p => (0 <=? fst p) && (fst p <? 2 ^ 16) && wide_ok (snd p) && short_code (snd p))
                 (custom_fmts l) = true).
  { apply forallb_forall. intros [i c] Hin. rewrite forallb_forall in Hs. specialize (Hs _ Hin).
    unfold custom_fmts in Hin. apply in_flat_map in Hin as (x & Hx & Hin).
    destruct x as [p g tl|i' c'|r]; try destruct Hin as [Hin|Hin]; try destruct Hin.
    rewrite forallb_forall in H1. specialize (H1 _ Hx).
    cbn [yitem_ok fst snd] in *. now rewrite H1, Hs. }
  destruct (@fms_from_ok (custom_fmts l) [] Hf) as (d & E & Hd & Hg); [constructor|].
  rewrite E. cbn [bind]. rewrite builtin_keys_ok by exact Hc. cbn [bind].
  eexists. split; [reflexivity|]. intros k f Hk.
  assert (Hkl : (k < List.length (cell_xfs l))%nat) by (apply nth_error_Some; congruence).
  assert (Hkr : 0 <= Z.of_nat k < 2 ^ 16) by (unfold zlen in Hn; lia).
  assert (Hfr : 0 <= f < 2 ^ 16).
  { rewrite forallb_forall in Hc. specialize (Hc f (nth_error_In _ _ Hk)). lia. }
  assert (Hxf : forall y, In (style_key (Z.of_nat k), y) (xf_table 0 (cell_xfs l)) <-> y = le2 f).
  { intro y. rewrite xf_table_spec. split.
    - intros (j & g & J1 & J2 & J3). 
      assert (Hjl : (j < List.length (cell_xfs l))%nat) by (apply nth_error_Some; congruence).
      apply style_key_inj in J2; [|exact Hkr|unfold zlen in Hn; lia].
      assert (j = k) by lia. subst j. rewrite J3. f_equal. congruence.
    - intros ->. exists k, f. repeat split; try assumption. }
  assert (Happ : forall x a b, mem_str x (a ++ b) = mem_str x a || mem_str x b) by (intros; apply existsb_app).
  rewrite Happ.
  rewrite orb_comm. f_equal.
  - (* built-in *)
    assert (Hb : builtin_temporal (f mod 256) = mem_Z (f mod 256) TEMPORAL_STYLES).
    { unfold builtin_temporal, mem_Z, TEMPORAL_STYLES. cbn [existsb]. lia. }
    rewrite Hb. apply eq_true_iff_eq. rewrite mem_str_In, in_map_iff. split.
    + intros ((k' & y) & Ek & Hin). cbn [fst] in Ek. subst k'. apply filter_In in Hin as [Hin Ht].
      apply Hxf in Hin. subst y. exact Ht.
    + intro Ht. exists (style_key (Z.of_nat k), le2 f). split; [reflexivity|].
      apply filter_In. split; [now apply Hxf|]. exact Ht.
  - (* custom *)
    assert (Hget : dget str_eqb d (le2 f)
      = option_map (fun c => first_section (seen_code c)) (last_fmt f (custom_fmts l))).
    { rewrite Hg by exact Hfr. cbn [dget].
      exact (fold_left_option_map (fun c => first_section (seen_code c)) f (custom_fmts l) None). }
    assert (Hzero : forall c, str_eqb (first_section (seen_code c)) (s "0") = false).
    { intro c. unfold seen_code. cbn [first_section]. change (0 =? ch_semi) with false. cbv iota.
      destruct (n_units c =? ch_semi); [reflexivity|]. cbn [str_eqb s]. apply andb_false_r. }
    assert (Hin : forall p q, In (p, q) d ->
      (In (style_key (Z.of_nat k)) (map fst (filter (fun x => str_eqb (snd x) p) (xf_table 0 (cell_xfs l))))
       <-> p = le2 f)).
    { intros p q _. rewrite in_map_iff. split.
      - intros ((k' & y) & Ek & Hy). cbn [fst] in Ek. subst k'. apply filter_In in Hy as [Hy Ht].
        apply Hxf in Hy. subst y. cbn [snd] in Ht. now apply str_eqb_eq in Ht.
      - intros ->. exists (style_key (Z.of_nat k), le2 f). split; [reflexivity|].
        apply filter_In. split; [now apply Hxf|]. cbn [snd]. apply str_eqb_refl. }
    apply eq_true_iff_eq. rewrite mem_str_In, in_flat_map. split.
    + intros ((p & q) & Hpq & Hk'). unfold xlsb_custom_keys in Hk'.
      assert (Hp : p = le2 f).
      { apply (Hin p q Hpq). destruct (str_eqb q (s "0")); [exact Hk'|].
        destruct (fmt_temporal q); [exact Hk'|destruct Hk']. }
      subst p. apply dget_In_str in Hpq; [|exact Hd]. rewrite Hget in Hpq.
      destruct (last_fmt f (custom_fmts l)) as [c|]; [|discriminate].
      assert (Eq : q = first_section (seen_code c)) by (cbn [option_map] in Hpq; congruence). subst q. rewrite Hzero in Hk'.
      destruct (fmt_temporal (first_section (seen_code c))); [reflexivity|destruct Hk'].
    + destruct (last_fmt f (custom_fmts l)) as [c|] eqn:Ec; [|discriminate]. intro Ht.
      cbn [option_map] in Hget. apply dget_In_str in Hget; [|exact Hd].
      exists (le2 f, first_section (seen_code c)). split; [exact Hget|].
      unfold xlsb_custom_keys. rewrite Hzero, Ht. eapply Hin; [exact Hget|reflexivity].
Qed.

(** A format code and its class: tokens of the first section, then possibly more
    sections. *)
Definition code_class (c : str) (b : bool) : Prop :=
  exists ks rest, forallb token_ok ks = true /\ existsb (Z.eqb ch_semi) (render ks) = false
    /\ (c = render ks \/ c = render ks ++ ch_semi :: rest) /\ b = spec_temporal ks.

(** Lengths whose character does not disturb the classification. *)
Definition safe_length (n : Z) : bool :=
  (0 <=? n) && (n <? 256) && negb (date_letter n)
  && negb ((n =? ch_quote) || (n =? ch_lbr) || (n =? ch_semi)).

Lemma fmt_temporal_seen c b : code_class c b -> safe_length (n_units c) = true ->
  fmt_temporal (first_section (seen_code c)) = b.
Proof.
  intros (ks & rest & H1 & H2 & H3 & ->) Hs. unfold seen_code. cbn [first_section].
  change (0 =? ch_semi) with false. cbv iota.
  unfold safe_length in Hs. replace (n_units c =? ch_semi) with false by lia.
  assert (E : first_section c = render ks).
  { destruct (first_section_app rest H2) as [E1 E2]. destruct H3 as [-> | ->]; assumption. }
  apply andb_prop in Hs as [Hs H5]. apply andb_prop in Hs as [_ H4]. apply negb_true_iff in H4.
  rewrite E. rewrite fmt_temporal_prefix; [now apply fmt_temporal_tokens|lia|lia|exact H4| | | |]; easy.
Qed.

(** The text classification itself. *)
Lemma code_class_temporal c b : code_class c b -> fmt_temporal (first_section c) = b.
Proof.
  intros (ks & rest & H1 & H2 & H3 & ->).
  destruct (first_section_app rest H2) as [E1 E2].
  destruct H3 as [-> | ->]; rewrite ?E1, ?E2; now apply fmt_temporal_tokens.
Qed.

Lemma last_fmt_In f l c : last_fmt f l = Some c -> In (f, c) l.
Proof.
  unfold last_fmt. intro H.
  assert (G : forall l acc, fold_left (fun a (p : Z * str) => if fst p =? f then Some (snd p) else a) l acc = Some c ->
    In (f, c) l \/ acc = Some c).
  { clear. induction l as [|[i d] l IH]; intros acc H; [now right|]. cbn [fold_left fst snd] in H.
    apply IH in H as [H|H]; [left; now right|]. destruct (Z.eqb_spec i f) as [->|_]; [|now right].
    injection H as ->. left. now left. }
  apply G in H as [H|H]; [exact H|discriminate].
Qed.

Lemma xlsb_styles_ok l part (tm : str -> bool) : is_styles l part -> zlen (cell_xfs l) <= 2 ^ 16 ->
  forallb (fun f => f <? 256) (cell_xfs l) = true ->
  (forall i c, In (i, c) (custom_fmts l) -> code_class c (tm c) /\ safe_length (n_units c) = true) ->
  exists st, xlsb_styles part = Ok st /\
    forall k f, nth_error (cell_xfs l) k = Some f ->
      mem_str (style_key (Z.of_nat k)) st
      = (builtin_temporal f
         || match last_fmt f (custom_fmts l) with Some c => tm c | None => false end).
Proof.
  intros Hp Hn Hx Hc.
  destruct (@xlsb_styles_exact l part Hp Hn) as (st & E & Hst).
  { apply forallb_forall. intros [i c] Hin. destruct (Hc i c Hin) as [_ Hs].
    unfold safe_length in Hs. unfold short_code. cbn [snd]. lia. }
  exists st. split; [exact E|]. intros k f Hk. rewrite (Hst k f Hk).
  assert (Hf : f mod 256 = f).
  { apply Z.mod_small. assert (Hin := nth_error_In _ _ Hk). rewrite forallb_forall in Hx. specialize (Hx f Hin).
    destruct Hp as (H1 & _). unfold cell_xfs in Hin. apply in_flat_map in Hin as (x & Hx' & Hin).
    rewrite forallb_forall in H1. specialize (H1 x Hx'). destruct x as [p g tl|i c|r]; try destruct Hin.
    cbn [yitem_ok] in H1. destruct (p =? 65535); [destruct Hin|]. destruct Hin as [<-|[]]. lia. }
  rewrite Hf. f_equal. destruct (last_fmt f (custom_fmts l)) as [c|] eqn:Ec; [|reflexivity].
  apply last_fmt_In in Ec. destruct (Hc f c Ec) as [Hcl Hs]. now apply fmt_temporal_seen.
Qed.

(** ** When is the null set filled?

    [null_shared] is empty until somebody reads the [shared] property; [read] does so
    on the first delivered cell (rxls/reader/common.py), i.e. when one cell has been
    yielded. *)
Definition filled_after_first (nul : bytes -> bool) (n : nat) (k : bytes) : bool :=
  match n with O => false | S _ => nul k end.

Section Timed.
  Context (styles : list bytes) (nv : str -> bool) (nul : bytes -> bool).
  Context (skip take : Z) (tne : bool) (sc : list Z).
  Notation timed := (xlsb_loop (Ok styles) nv (filled_after_first nul) skip take tne sc).
  Notation const := (xlsb_loop (Ok styles) nv (fun _ => nul) skip take tne sc).

  Lemma timed_later rs : forall row empty n, timed rs row empty (S n) = const rs row empty (S n).
  Proof.
    induction rs as [|r rs IH]; intros row empty n; [reflexivity|]. cbn [xlsb_loop].
    destruct (rec_id r =? 0); [now rewrite IH|]. destruct (row <? skip); [apply IH|].
    destruct (rec_id r =? 402); [reflexivity|].
    change (xlsb_cell (Ok styles) nv (filled_after_first nul) skip sc (S n) row r)
      with (xlsb_cell (Ok styles) nv (fun _ => nul) skip sc (S n) row r).
    destruct (xlsb_cell _ _ _ _ _ _ _ _) as [[c|]|e]; [now rewrite IH|apply IH|reflexivity].
  Qed.

  Lemma const_count rs : forall row empty n m, const rs row empty n = const rs row empty m.
  Proof.
    induction rs as [|r rs IH]; intros row empty n m; [reflexivity|]. cbn [xlsb_loop].
    destruct (rec_id r =? 0); [now rewrite (IH _ _ n m)|]. destruct (row <? skip); [apply IH|].
    destruct (rec_id r =? 402); [reflexivity|].
    change (xlsb_cell (Ok styles) nv (fun _ => nul) skip sc n row r)
      with (xlsb_cell (Ok styles) nv (fun _ => nul) skip sc m row r).
    destruct (xlsb_cell _ _ _ _ _ _ _ _) as [[c|]|e]; [now rewrite (IH _ _ (S n) (S m))|apply IH|reflexivity].
  Qed.

  Definition leaked (l : list out) : Prop :=
    exists c rest v, cells_of l = c :: rest /\ c_xdt c = 0x11 /\ c_val c = VBytes v /\ nul v = true.

  Lemma leaked_call l : leaked l -> leaked (OCall :: l).
  Proof. intros (c & rest & v & H). exists c, rest, v. exact H. Qed.

  Lemma timed_first rs : forall row empty,
    timed rs row empty 0 = const rs row empty 0 \/ leaked (fst (timed rs row empty 0)).
  Proof.
    induction rs as [|r rs IH]; intros row empty; [now left|]. cbn [xlsb_loop].
    destruct (rec_id r =? 0).
    - set (row' := if negb empty || tne then row + 1 else row).
      destruct ((0 <? xlsb_take skip take) && (xlsb_take skip take <? row')); [now left|].
      destruct (IH row' true) as [->|H]; [now left|]. right.
      destruct (timed rs row' true 0) as [o e]. cbn [fst] in *.
      destruct (skip <=? row'); [now apply leaked_call|exact H].
    - destruct (row <? skip); [apply IH|]. destruct (rec_id r =? 402); [now left|].
      destruct (xlsb_cell (Ok styles) nv (filled_after_first nul) skip sc 0 row r) as [[c|]|e] eqn:E.
      + (* yielded with the empty set *)
        assert (D : xlsb_cell (Ok styles) nv (fun _ => nul) skip sc 0 row r = Ok (Some c)
          \/ (c_xdt c = 0x11 /\ exists v, c_val c = VBytes v /\ nul v = true)).
        { unfold xlsb_cell in *. destruct (unpack_I (sub (rec_data r) 0 4)) as [col|]; [|discriminate].
          cbn [bind] in *. destruct (mem_Z col sc); [discriminate|].
          destruct ((rec_id r =? 6) || (rec_id r =? 8)); [now left|].
          destruct ((rec_id r =? 5) || (rec_id r =? 9)); [now left|].
          destruct ((rec_id r =? 4) || (rec_id r =? 10)); [now left|].
          destruct (rec_id r =? 7); [|now left]. cbn [filled_after_first] in E.
          destruct (nul (sub (rec_data r) 8 12)) eqn:En.
          - right. injection E as <-. split; [reflexivity|]. eexists. split; [reflexivity|exact En].
          - now left. }
        destruct D as [D|(D1 & v & D2 & D3)].
        * left. rewrite D. now rewrite timed_later.
        * right. destruct (timed rs row false 1) as [o e]. exists c, (cells_of o), v. auto.
      + (* not yielded even with the empty set *)
        assert (D : xlsb_cell (Ok styles) nv (fun _ => nul) skip sc 0 row r = Ok None).
        { unfold xlsb_cell in *. destruct (unpack_I (sub (rec_data r) 0 4)) as [col|]; [|discriminate].
          cbn [bind] in *. destruct (mem_Z col sc); [reflexivity|].
          destruct ((rec_id r =? 6) || (rec_id r =? 8)); [exact E|].
          destruct ((rec_id r =? 5) || (rec_id r =? 9)); [exact E|].
          destruct ((rec_id r =? 4) || (rec_id r =? 10)); [exact E|].
          destruct (rec_id r =? 7); [|exact E]. discriminate. }
        rewrite D. apply IH.
      + assert (D : xlsb_cell (Ok styles) nv (fun _ => nul) skip sc 0 row r = Err e).
        { unfold xlsb_cell in *. destruct (unpack_I (sub (rec_data r) 0 4)) as [col|]; [|exact E].
          cbn [bind] in *. destruct (mem_Z col sc); [exact E|].
          destruct ((rec_id r =? 6) || (rec_id r =? 8)); [exact E|].
          destruct ((rec_id r =? 5) || (rec_id r =? 9)); [exact E|].
          destruct ((rec_id r =? 4) || (rec_id r =? 10)); [exact E|].
          destruct (rec_id r =? 7); [|exact E]. discriminate. }
        rewrite D. now left.
  Qed.
End Timed.

Lemma xlsb_iter_timed styles nv nul skip take tne sc part :
  xlsb_iter (Ok styles) nv (filled_after_first nul) skip take tne sc part
  = xlsb_iter (Ok styles) nv (fun _ => nul) skip take tne sc part
  \/ leaked nul (fst (xlsb_iter (Ok styles) nv (filled_after_first nul) skip take tne sc part)).
Proof.
  unfold xlsb_iter. destruct (skip <? 0); [now left|]. destruct (take <? 0); [now left|].
  apply timed_first.
Qed.

(** The reader's notion of a null cell with the table in place, resolved to texts. *)
Definition null_entry (nv : str -> bool) (texts : list str) (i : Z) : bool :=
  match nth_error texts (Z.to_nat i) with Some t => nv t | None => false end.

Lemma expected_null_ext tm nt n1 n2 sc row c : bcell_ok c = true ->
  (forall i, 0 <= i < 2 ^ 32 -> n1 i = n2 i) ->
  expected tm nt n1 sc row c = expected tm nt n2 sc row c.
Proof.
  intros Hc H. unfold expected. destruct (existsb _ sc); [reflexivity|].
  unfold bcell_ok in Hc. apply andb_prop in Hc as [_ Hc].
  destruct (b_val c) as [v|f v|f v|f t|i]; try reflexivity. rewrite H by lia. reflexivity.
Qed.

(** The whole pipeline: shared part, styles key set, sheet part. *)
Lemma xlsb_cells_resolved styles nv l sst pre rows e post part sc :
  is_sst l sst -> zlen (sitem_texts l) <= 2 ^ 32 -> is_part pre rows e post part ->
  exists keys, xlsb_shared nv sst = Ok (sitem_texts l, keys) /\
    cells_of (fst (xlsb_iter (Ok styles) nv (fun _ k => mem_str k keys) 0 0 true sc part)) =
    flat_map (fun p => expected_row (fun k => mem_str k styles) nv (null_entry nv (sitem_texts l)) sc (fst p) (snd p))
             (enum_from 0 rows).
Proof.
  intros Hs Hn Hp. exists (null_keys nv 0 (sitem_texts l)).
  split; [now apply xlsb_shared_ok|].
  destruct (@xlsb_keep_rows styles nv (fun k => mem_str k (null_keys nv 0 (sitem_texts l))) pre rows e post part sc Hp)
    as (_ & ->).
  destruct Hp as (Hok & _). unfold sheet_ok in Hok. apply andb_prop in Hok as [_ Hok].
  assert (G : forall i r, In (i, r) (enum_from 0 rows) -> forallb item_ok (snd r) = true).
  { intros i r Hin. rewrite forallb_forall in Hok. apply Hok. clear - Hin.
    revert Hin. generalize 0. induction rows as [|x rows IH]; intros z Hin; [destruct Hin|].
    cbn [enum_from] in Hin. destruct Hin as [Hin|Hin]; [injection Hin as _ ->; now left|right; eapply IH; exact Hin]. }
  apply flat_map_ext_in. intros [i r] Hin. cbn [fst snd]. specialize (G i r Hin).
  unfold expected_row. apply flat_map_ext_in. intros c Hc.
  apply expected_null_ext.
  - unfold row_cells, item_cells in Hc. apply in_flat_map in Hc as (x & Hx & Hc).
    rewrite forallb_forall in G. specialize (G x Hx). destruct x as [b|x]; [|destruct Hc].
    destruct Hc as [<-|[]]. exact G.
  - intros j Hj. now apply null_keys_mem.
Qed.

(** No text is an error string for the xlsb reader. *)
Lemma error_strings_are_bytes t : py_in (PStr t) xlsb_error_strings = false.
Proof. reflexivity. Qed.
Lemma xlsb_null_none t : xlsb_null NNone t = false.
Proof. reflexivity. Qed.
Lemma xlsb_null_list l t : xlsb_null (NList l) t = mem_str t l.
Proof.
  unfold xlsb_null, py_in. rewrite existsb_app.
  change (existsb (py_eqb (PStr t)) xlsb_error_strings) with false. cbn [orb].
  unfold mem_str. induction l as [|x l IH]; [reflexivity|]. cbn [map existsb py_eqb]. now rewrite IH.
Qed.
Lemma xlsb_null_pred p t : xlsb_null (NPred p) t = p t.
Proof. reflexivity. Qed.

(** ** Membership forms *)
Lemma in_count_before A (p : A -> bool) l : forall i x y, In (x, y) (count_before p i l) <->
  exists k, nth_error l k = Some y /\ x = i + zlen (filter p (firstn k l)).
Proof.
  induction l as [|a l IH]; intros i x y; cbn [count_before].
  - split; [easy|]. intros ([|k] & H & _); discriminate.
  - cbn [In]. rewrite IH. split.
    + intros [H|(k & H1 & H2)].
      * injection H as <- <-. exists O. cbn. split; [reflexivity|lia].
      * exists (S k). cbn [nth_error firstn filter]. split; [exact H1|].
        destruct (p a); [rewrite zlen_cons|]; lia.
    + intros ([|k] & H1 & H2); cbn [nth_error firstn filter] in *.
      * left. injection H1 as ->. rewrite zlen_nil in H2. f_equal. lia.
      * right. exists k. split; [exact H1|]. destruct (p a); [rewrite zlen_cons in H2|]; lia.
Qed.

Lemma filter_all A (p : A -> bool) l : (forall x, In x l -> p x = true) -> filter p l = l.
Proof.
  induction l as [|x l IH]; intro H; [reflexivity|]. cbn [filter]. rewrite H by now left.
  f_equal. apply IH. intros y Hy. apply H. now right.
Qed.

Lemma xlsb_delivered_row styles nv nul pre rows e post part sc tne c :
  is_part pre rows e post part ->
  In c (cells_of (fst (xlsb_iter (Ok styles) nv (fun _ => nul) 0 0 tne sc part))) <->
  exists k r, nth_error rows k = Some r /\
    In c (expected_row (fun x => mem_str x styles) nv (fun i => nul (le4 i)) sc
      (if tne then Z.of_nat k
       else zlen (filter (row_nonempty (fun x => mem_str x styles) nv (fun i => nul (le4 i)) sc)
                         (firstn k rows))) r).
Proof.
  intro Hp. destruct (@xlsb_all_rows styles nv nul pre rows e post part tne sc Hp) as (_ & ->).
  rewrite in_flat_map. split.
  - intros ((x & r) & Hin & Hc). apply in_count_before in Hin as (k & Hk & ->).
    exists k, r. split; [exact Hk|]. cbn [fst snd] in Hc. rewrite Z.add_0_l in Hc.
    destruct tne; [|exact Hc]. cbn [orb] in Hc. rewrite filter_all in Hc by reflexivity.
    unfold zlen in Hc. rewrite firstn_length_le in Hc; [exact Hc|].
    assert (k < List.length rows)%nat by (apply nth_error_Some; congruence). lia.
  - intros (k & r & Hk & Hc).
    exists (zlen (filter (fun r => tne || row_nonempty (fun x => mem_str x styles) nv (fun i => nul (le4 i)) sc r)
                         (firstn k rows)), r).
    split; [apply in_count_before; exists k; split; [exact Hk|lia]|].
    cbn [fst snd]. destruct tne; [|exact Hc]. cbn [orb]. rewrite filter_all by reflexivity.
    unfold zlen. rewrite firstn_length_le; [exact Hc|].
    assert (k < List.length rows)%nat by (apply nth_error_Some; congruence). lia.
Qed.

Lemma xlsb_text_delivered t styles nul pre rows e post part k r c f :
  is_part pre rows e post part -> nth_error rows k = Some r -> In c (row_cells r) -> b_val c = BStr f t ->
  In (mkCell (Z.of_nat k) (b_col c) 0x18 (VStr t))
     (cells_of (fst (xlsb_iter (Ok styles) (xlsb_null NNone) (fun _ => nul) 0 0 true [] part))).
Proof.
  intros Hp Hk Hc Hv. apply (@xlsb_delivered_row styles (xlsb_null NNone) nul pre rows e post part [] true _ Hp).
  exists k, r. split; [exact Hk|]. unfold expected_row. apply in_flat_map. exists c. split; [exact Hc|].
  unfold expected. cbn [existsb]. rewrite Hv, xlsb_null_none. now left.
Qed.

Lemma enum_skip (A : Type) (rows : list A) : forall (j k : Z) (f : Z -> A -> list cell), 0 <= k ->
  flat_map (fun p => if (j + k <=? fst p) then f (fst p - (j + k)) (snd p) else []) (enum_from j rows)
  = flat_map (fun p => f (fst p) (snd p)) (enum_from 0 (skipn (Z.to_nat k) rows)).
Proof.
  induction rows as [|r rows IH]; intros j k f Hk.
  - rewrite skipn_nil. reflexivity.
  - destruct (Z.eq_dec k 0) as [->|Hne].
    + cbn [Z.to_nat skipn]. rewrite Z.add_0_r. clear IH.
      assert (G : forall l i, 0 <= i -> flat_map (fun p => if j <=? fst p then f (fst p - j) (snd p) else [])
                                (enum_from (j + i) l)
               = flat_map (fun p => f (fst p) (snd p)) (enum_from i l)).
      { induction l as [|x l IHl]; intros i Hi; [reflexivity|]. cbn [enum_from flat_map fst snd].
        replace (j <=? j + i) with true by lia. replace (j + i - j) with i by lia. f_equal.
        rewrite <- IHl by lia. now rewrite Z.add_assoc. }
      rewrite <- (G (r :: rows) 0) by lia. now rewrite Z.add_0_r.
    + replace (Z.to_nat k) with (S (Z.to_nat (k - 1))) by lia. cbn [enum_from flat_map skipn fst].
      replace (j + k <=? j) with false by lia. cbn [app].
      rewrite <- (IH (j + 1) (k - 1) f) by lia. replace (j + 1 + (k - 1)) with (j + k) by lia. reflexivity.
Qed.

Lemma enum_from_bound A (l : list A) : forall i x y, In (x, y) (enum_from i l) -> i <= x < i + zlen l.
Proof.
  induction l as [|a l IH]; intros i x y H; [destruct H|]. rewrite zlen_cons. pose proof (zlen_nonneg l).
  cbn [enum_from] in H. destruct H as [H|H]; [injection H as -> _; lia|]. apply IH in H. lia.
Qed.

Lemma xlsb_skip_limited styles nv nul pre rows e post part k take sc :
  is_part pre rows e post part -> 0 <= k -> 0 < take -> zlen rows <= k + take ->
  cells_of (fst (xlsb_iter (Ok styles) nv (fun _ => nul) k take true sc part)) =
  flat_map (fun p => expected_row (fun x => mem_str x styles) nv (fun i => nul (le4 i)) sc (fst p) (snd p))
           (enum_from 0 (skipn (Z.to_nat k) rows)).
Proof.
  intros Hp Hk Ht Hl.
  destruct (@xlsb_skip_keep styles nv nul pre rows e post part k take sc Hp) as (_ & ->); [lia|lia|].
  rewrite <- (@enum_skip _ rows 0 k (fun i r => expected_row (fun x => mem_str x styles) nv (fun i => nul (le4 i)) sc i r)) by lia.
  apply flat_map_ext_in. intros [i r] Hin. apply enum_from_bound in Hin. cbn [fst snd].
  replace (i <=? k + take) with true by lia. rewrite orb_true_r, andb_true_r, Z.add_0_l. reflexivity.
Qed.
