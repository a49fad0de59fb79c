From Verif Require Import Py PyFacts PyText NumFmt NumFmtSpec NumFmtProofs Cell Xlsx Xlsb XlsbSpec XlsbProofs
  XlsbParts XlsxSpec.
From Coq Require Import ZifyBool ZifyNat.
Ltac Zify.zify_post_hook ::= Z.div_mod_to_equations.
Set Implicit Arguments.
Unset Strict Implicit.

(** ** Column letters *)
Lemma col_idx_rev_letters f : forall n a i rest, 0 <= n -> (Z.to_nat n < f)%nat -> 0 <= i ->
  exists j, i <= j /\
  col_idx_rev (rev (letters_fuel f n) ++ rest) a i = col_idx_rev rest (a + (n + 1) * 26 ^ i) j.
Proof.
  induction f as [|f IH]; intros n a i rest Hn Hf Hi; [lia|].
  cbn [letters_fuel]. rewrite rev_app_distr. cbn [rev app col_idx_rev].
  replace (64 <? 65 + n mod 26) with true by lia.
  replace (65 + n mod 26 - 64) with (n mod 26 + 1) by lia.
  destruct (Z.ltb_spec n 26) as [H|H].
  - cbn [rev app]. exists (i + 1). split; [lia|]. rewrite Z.mod_small by lia. reflexivity.
  - destruct (IH (n / 26 - 1) (a + (n mod 26 + 1) * 26 ^ i) (i + 1) rest) as (j & Hj & E); [lia|lia|lia|].
    exists j. split; [lia|]. rewrite E. f_equal.
    rewrite Z.pow_add_r by lia. change (26 ^ 1) with 26.
    pose proof (Z.div_mod n 26 ltac:(lia)) as D. nia.
Qed.

Lemma col_idx_digits ds : forall rest a i, forallb is_digit ds = true ->
  col_idx_rev (rev ds ++ rest) a i = col_idx_rev rest a i.
Proof.
  intros rest a i H.
  assert (G : forall l, (forall x, In x l -> is_digit x = true) -> col_idx_rev (l ++ rest) a i = col_idx_rev rest a i).
  { induction l as [|x l IH]; intro Hl; [reflexivity|]. cbn [app col_idx_rev].
    assert (Hx := Hl x (or_introl eq_refl)). unfold is_digit in Hx.
    replace (64 <? x) with false by lia. apply IH. intros y Hy. apply Hl. now right. }
  apply G. intros x Hx. apply in_rev in Hx. rewrite forallb_forall in H. now apply H.
Qed.

Lemma letters_upper f : forall n c, In c (letters_fuel f n) -> 65 <= c <= 90.
Proof.
  induction f as [|f IH]; intros n c H; [destruct H|]. cbn [letters_fuel] in H.
  apply in_app_or in H as [H|[<-|[]]]; [|lia].
  destruct (n <? 26); [destruct H|]. now apply IH in H.
Qed.

Lemma utf8_ascii t : (forall c, In c t -> c < 128) -> utf8 t = t.
Proof.
  induction t as [|c t IH]; intro H; [reflexivity|]. unfold utf8 in *. cbn [flat_map].
  rewrite IH by (intros; apply H; now right). unfold utf8_char.
  assert (c < 128) by (apply H; now left). replace (c <? 128) with true by lia. reflexivity.
Qed.

Lemma ref_ascii n ds : forallb is_digit ds = true -> utf8 (letters n ++ ds) = letters n ++ ds.
Proof.
  intro H. apply utf8_ascii. intros c Hc. apply in_app_or in Hc as [Hc|Hc].
  - apply letters_upper in Hc. lia.
  - rewrite forallb_forall in H. apply H in Hc. unfold is_digit in Hc. lia.
Qed.

Lemma col_idx_letters n ds : 0 <= n -> forallb is_digit ds = true -> col_idx (letters n ++ ds) = n.
Proof.
  intros Hn H. unfold col_idx. rewrite rev_app_distr, col_idx_digits by exact H.
  unfold letters. rewrite <- (app_nil_r (rev _)).
  destruct (@col_idx_rev_letters (S (Z.to_nat n)) n (-1) 0 [] Hn ltac:(lia) ltac:(lia)) as (j & _ & ->).
  cbn [col_idx_rev]. change (26 ^ 0) with 1. lia.
Qed.

(** Conversely every non-empty word over A-Z is the name of the column it decodes to. *)
Definition is_upper (c : Z) : bool := (65 <=? c) && (c <=? 90).
Definition word_value (w : str) : Z := fold_left (fun a c => a * 26 + (c - 64)) w 0.

Lemma word_value_app w c : word_value (w ++ [c]) = word_value w * 26 + (c - 64).
Proof. unfold word_value. now rewrite fold_left_app. Qed.
Lemma word_value_nonneg w : forallb is_upper w = true -> 0 <= word_value w.
Proof.
  induction w as [|c w IH] using rev_ind; intro H; [unfold word_value; cbn; lia|].
  rewrite forallb_app in H. apply andb_prop in H as [H Hc]. cbn [forallb] in Hc. unfold is_upper in Hc.
  rewrite word_value_app. specialize (IH H). lia.
Qed.
Lemma word_value_pos w : w <> [] -> forallb is_upper w = true -> 0 < word_value w.
Proof.
  destruct w as [|c w _] using rev_ind; [congruence|]. intros _ H.
  rewrite forallb_app in H. apply andb_prop in H as [H Hc]. cbn [forallb] in Hc. unfold is_upper in Hc.
  rewrite word_value_app. pose proof (word_value_nonneg H). lia.
Qed.
Lemma letters_fuel_word w : forall f, w <> [] -> forallb is_upper w = true ->
  (Z.to_nat (word_value w - 1) < f)%nat -> letters_fuel f (word_value w - 1) = w.
Proof.
  induction w as [|c w IH] using rev_ind; intros f Hne H Hf; [congruence|].
  rewrite forallb_app in H. apply andb_prop in H as [H Hc]. cbn [forallb] in Hc. unfold is_upper in Hc.
  rewrite word_value_app in *. destruct f as [|f]; [lia|]. cbn [letters_fuel].
  pose proof (word_value_nonneg H) as Hw.
  replace (65 + (word_value w * 26 + (c - 64) - 1) mod 26) with c by lia. f_equal.
  destruct w as [|d w'] eqn:Ew.
  - replace (word_value [] * 26 + (c - 64) - 1 <? 26) with true by (unfold word_value; cbn; lia). reflexivity.
  - rewrite <- Ew in *. clear Ew d w'. destruct w as [|d w'] eqn:Ew.
    + replace (word_value [] * 26 + (c - 64) - 1 <? 26) with true by (unfold word_value; cbn; lia). reflexivity.
    + rewrite <- Ew in *. assert (Hp : 0 < word_value w) by (apply word_value_pos; [now rewrite Ew|exact H]).
      replace (word_value w * 26 + (c - 64) - 1 <? 26) with false by lia.
      replace ((word_value w * 26 + (c - 64) - 1) / 26 - 1) with (word_value w - 1) by lia.
      apply IH; [now rewrite Ew|exact H|lia].
Qed.

Lemma col_idx_rev_word w : forall a i, 0 <= i -> forallb is_upper w = true ->
  col_idx_rev (rev w) a i = a + word_value w * 26 ^ i.
Proof.
  induction w as [|c w IH] using rev_ind; intros a i Hi H; [cbn; unfold word_value; cbn; lia|].
  rewrite forallb_app in H. apply andb_prop in H as [H Hc]. cbn [forallb] in Hc. unfold is_upper in Hc.
  rewrite rev_app_distr. cbn [rev app col_idx_rev]. replace (64 <? c) with true by lia.
  rewrite IH by (try assumption; lia). rewrite word_value_app, Z.pow_add_r by lia.
  change (26 ^ 1) with 26. nia.
Qed.

Lemma letters_col_idx w ds : w <> [] -> forallb is_upper w = true -> forallb is_digit ds = true ->
  letters (col_idx (w ++ ds)) = w.
Proof.
  intros Hne H Hd. unfold col_idx. rewrite rev_app_distr, col_idx_digits by exact Hd.
  rewrite col_idx_rev_word by (try assumption; lia).
  change (26 ^ 0) with 1. replace (-1 + word_value w * 1) with (word_value w - 1) by lia.
  unfold letters. apply letters_fuel_word; [exact Hne|exact H|lia].
Qed.

(** ** The worker on well-formed sheets *)
Lemma str_eqb_sym a b : str_eqb a b = str_eqb b a.
Proof.
  destruct (str_eqb a b) eqn:E; symmetry.
  - apply str_eqb_eq in E. subst. apply str_eqb_refl.
  - apply str_eqb_neq in E. apply str_eqb_neq. congruence.
Qed.

Lemma attr_more (l : list (str * str)) k ks : forallb (fun p => negb (tag_in ks (fst p))) l = true ->
  mem_str k ks = true -> dget str_eqb l k = None.
Proof.
  intros H Hk. induction l as [|[x y] l IH]; [reflexivity|]. cbn [forallb fst] in H.
  apply andb_prop in H as [Hx H]. cbn [dget]. destruct (str_eqb k x) eqn:E; [|now apply IH].
  apply str_eqb_eq in E. subst x. unfold tag_in in Hx. unfold mem_str in Hk. rewrite Hk in Hx. discriminate.
Qed.

Lemma blank_strip t : blank t = str_eqb (strip t) [].
Proof. unfold blank. destruct (strip t); reflexivity. Qed.

Definition is_nil {A} (l : list A) : bool := match l with [] => true | _ => false end.

Section Worker.
  Context (styles : str -> option Z) (nv : str -> bool) (skip : Z) (tne : bool) (sc : list Z).
  Notation loop := (worker_loop styles nv skip tne sc).
  Notation exp := (xexpected styles nv sc).
  Notation exp_row := (xexpected_row styles nv sc).

  (** Outside a cell, at row [row]. *)
  Definition idle (row : Z) (empty : bool) (take : Z) (w : wst) : Prop :=
    w_row w = row /\ w_empty w = empty /\ w_take w = take /\ w_tag w = None.
  (** Inside cell [c] with last opened tag not "v". *)
  Definition in_cell (row : Z) (empty : bool) (take : Z) (c : xcell) (w : wst) : Prop :=
    w_row w = row /\ w_empty w = empty /\ w_take w = take /\ w_crow w = row
    /\ w_ctyp w = x_kind styles c /\ w_col w = x_ref c /\ exists g, w_tag w = Some g.

  Definition emits (es : list event) (o : list cell) (P Q : wst -> Prop) : Prop :=
    forall w rest fail, P w -> exists w', Q w' /\
      loop (es ++ rest) fail w =
      (map OCell o ++ fst (loop rest fail w'), snd (loop rest fail w')).

  Lemma emits_nil P : emits [] [] P P.
  Proof. intros w rest fail H. exists w. split; [exact H|]. cbn [app map]. now destruct (loop rest fail w). Qed.
  Lemma emits_app e1 e2 o1 o2 P Q R : emits e1 o1 P Q -> emits e2 o2 Q R -> emits (e1 ++ e2) (o1 ++ o2) P R.
  Proof.
    intros H1 H2 w rest fail Hw. destruct (H1 w (e2 ++ rest) fail Hw) as (w1 & Hw1 & E1).
    destruct (H2 w1 rest fail Hw1) as (w2 & Hw2 & E2). exists w2. split; [exact Hw2|].
    rewrite <- app_assoc, E1, E2. cbn [fst snd]. now rewrite map_app, app_assoc.
  Qed.

  (** *** Inside cells *)
  Definition not_v (w : wst) : Prop := exists g, w_tag w = Some g /\ str_eqb g (s "v") = false.

  Lemma emits_inner row empty take c l : forallb inner_ok l = true ->
    emits l [] (fun w => in_cell row empty take c w /\ not_v w) (fun w => in_cell row empty take c w /\ not_v w).
  Proof.
    induction l as [|e l IH]; intro H; [apply emits_nil|].
    cbn [forallb] in H. apply andb_prop in H as [He H]. specialize (IH H).
    intros w rest fail [(H1 & H2 & H3 & H4 & H5 & H6 & g & H7) (g' & H8 & H9)].
    destruct e as [t a|t|t]; cbn [app worker_loop]; cbn [inner_ok] in He.
    - unfold cell_sh. rewrite H7.
      apply IH. split.
      + repeat split; try assumption. now exists t.
      + exists t. split; [reflexivity|]. cbn [tag_in existsb] in He. rewrite orb_false_r in He.
        now apply negb_true_iff in He.
    - assert (E : cell_th nv skip sc w t = (w, [])).
      { unfold cell_th. destruct (w_row w <? skip); [reflexivity|]. rewrite H8, H9. reflexivity. }
      rewrite E. destruct (IH w rest fail) as (w' & Hw' & E').
      { split; [repeat split; try assumption; now exists g|now exists g']. }
      exists w'. split; [exact Hw'|]. rewrite E'. reflexivity.
    - cbn [tag_in existsb] in He. rewrite orb_false_r in He. apply negb_true_iff, orb_false_elim in He as [Hc Hr].
      unfold cell_eh. rewrite Hr, Hc.
      destruct (IH w rest fail) as (w' & Hw' & E').
      { split; [repeat split; try assumption; now exists g|now exists g']. }
      exists w'. split; [exact Hw'|]. rewrite E'. reflexivity.
  Qed.

  Definition exp1 (row : Z) (c : xcell) (t : str) : list cell :=
    if blank t || nv (strip t) || existsb (Z.eqb (x_col c)) sc then []
    else [mkCell row (x_col c) (x_kind styles c) (VBytes (utf8 (strip t)))].

  Lemma emits_value row empty take c t : skip <= row -> xcell_ok c = true ->
    emits (xitem_events (XV t)) (exp1 (row - skip) c t)
      (in_cell row empty take c) (in_cell row (empty && is_nil (exp1 (row - skip) c t)) take c).
  Proof.
    intros Hs Hc w rest fail (H1 & H2 & H3 & H4 & H5 & H6 & g & H7).
    cbn [xitem_events app worker_loop]. unfold cell_sh. rewrite H7.
    set (w1 := mkW (w_row w) (w_empty w) (w_take w) (w_crow w) (w_ctyp w) (w_col w) (Some (s "v"))).
    assert (Hcol : col_idx (utf8 (x_ref c)) = x_col c).
    { unfold xcell_ok in Hc. apply andb_prop in Hc as [Hc _]. apply andb_prop in Hc as [Hc _].
      apply andb_prop in Hc as [Hx Hd]. unfold x_ref. rewrite ref_ascii by exact Hd.
      apply col_idx_letters; [lia|exact Hd]. }
    unfold cell_th. change (w_row w1) with (w_row w). replace (w_row w <? skip) with false by lia.
    change (w_tag w1) with (Some (s "v")). cbv iota. change (str_eqb (s "v") (s "v")) with true. cbn [andb].
    unfold exp1. rewrite <- blank_strip. destruct (blank t) eqn:Eb; cbn [negb orb].
    - exists w1. split; [subst w1; repeat split; cbn; try assumption; [now rewrite andb_true_r|now exists (s "v")]|].
      unfold cell_eh. change (str_eqb (s "v") (s "row")) with false. change (str_eqb (s "v") (s "c")) with false.
      cbv beta iota zeta; destruct (loop rest fail w1); reflexivity.
    - destruct (nv (strip t)) eqn:En; cbn [orb].
      + exists w1. split; [subst w1; repeat split; cbn; try assumption; [now rewrite andb_true_r|now exists (s "v")]|].
        unfold cell_eh. change (str_eqb (s "v") (s "row")) with false. change (str_eqb (s "v") (s "c")) with false.
        cbv beta iota zeta; destruct (loop rest fail w1); reflexivity.
      + change (w_col w1) with (w_col w). rewrite H6, Hcol. change (existsb (Z.eqb (x_col c)) sc) with (mem_Z (x_col c) sc).
        destruct (mem_Z (x_col c) sc) eqn:Em.
        * exists w1. split; [subst w1; repeat split; cbn; try assumption; [now rewrite andb_true_r|now exists (s "v")]|].
          unfold cell_eh. change (str_eqb (s "v") (s "row")) with false. change (str_eqb (s "v") (s "c")) with false.
          cbv beta iota zeta; destruct (loop rest fail w1); reflexivity.
        * subst w1. cbn [w_row w_empty w_take w_crow w_ctyp w_tag]. rewrite H1, H3, H4, H5.
          eexists. split; [|unfold cell_eh; change (str_eqb (s "v") (s "row")) with false;
            change (str_eqb (s "v") (s "c")) with false; cbv iota;
            match goal with |- context [loop rest fail ?x] => destruct (loop rest fail x) eqn:EL end;
            cbn [app map fst snd]; rewrite EL; reflexivity].
          repeat split; cbn; try reflexivity; [now rewrite andb_false_r|now exists (s "v")].
  Qed.

  Lemma emits_item row empty take c x : skip <= row -> xcell_ok c = true -> xitem_ok x = true ->
    let o := flat_map (exp1 (row - skip) c) (match x with XV t => [t] | _ => [] end) in
    emits (xitem_events x) o (in_cell row empty take c) (in_cell row (empty && is_nil o) take c).
  Proof.
    intros Hs Hc Hx o. destruct x as [t|tag a inner|t]; subst o; cbn [flat_map is_nil].
    - rewrite app_nil_r. now apply emits_value.
    - rewrite andb_true_r. cbn [xitem_ok] in Hx. apply andb_prop in Hx as [Ht Hi].
      intros w rest fail (H1 & H2 & H3 & H4 & H5 & H6 & g & H7).
      cbn [xitem_events app worker_loop]. unfold cell_sh at 1. rewrite H7.
      set (w1 := mkW (w_row w) (w_empty w) (w_take w) (w_crow w) (w_ctyp w) (w_col w) (Some tag)).
      cbn [tag_in existsb] in Ht. rewrite orb_false_r in Ht.
      apply negb_true_iff, orb_false_elim in Ht as [Hv Ht]. apply orb_false_elim in Ht as [Htc Htr].
      rewrite <- app_assoc.
      destruct (@emits_inner row empty take c inner Hi w1 ([EEnd tag] ++ rest) fail) as (w2 & (Hw2 & _) & E).
      { split; [subst w1; repeat split; cbn; try assumption; now exists tag|]. exists tag. split; [reflexivity|exact Hv]. }
      exists w2. split; [exact Hw2|]. rewrite E. cbn [map app worker_loop]. unfold cell_eh. rewrite Htr, Htc.
      cbv beta iota zeta; destruct (loop rest fail w2); reflexivity.
    - rewrite andb_true_r. intros w rest fail (H1 & H2 & H3 & H4 & H5 & H6 & g & H7).
      exists w. split; [repeat split; try assumption; now exists g|].
      cbn [xitem_ok] in Hx. cbn [xitem_events app worker_loop].
      assert (E : cell_th nv skip sc w t = (w, [])).
      { unfold cell_th. destruct (w_row w <? skip); [reflexivity|]. rewrite <- blank_strip, Hx. cbn [negb].
        rewrite andb_false_r. reflexivity. }
      rewrite E. cbv beta iota zeta; destruct (loop rest fail w); reflexivity.
  Qed.

  Lemma is_nil_app A (a b : list A) : is_nil (a ++ b) = is_nil a && is_nil b.
  Proof. destruct a; reflexivity. Qed.

  Lemma emits_body row c l : skip <= row -> xcell_ok c = true -> forall empty take, forallb xitem_ok l = true ->
    let o := flat_map (exp1 (row - skip) c) (flat_map (fun x => match x with XV t => [t] | _ => [] end) l) in
    emits (flat_map xitem_events l) o (in_cell row empty take c) (in_cell row (empty && is_nil o) take c).
  Proof.
    intros Hs Hc. induction l as [|x l IH]; intros empty take H o.
    - subst o. cbn [flat_map is_nil]. rewrite andb_true_r. apply emits_nil.
    - cbn [forallb] in H. apply andb_prop in H as [Hx H]. subst o. cbn [flat_map].
      rewrite flat_map_app, is_nil_app, andb_assoc.
      eapply emits_app; [apply emits_item; assumption|apply IH; exact H].
  Qed.

  (** A whole cell in a delivered row. *)
  Lemma emits_cell row empty take c : skip <= row -> xcell_ok c = true ->
    emits (xcell_events c) (exp (row - skip) c) (idle row empty take)
      (idle row (empty && is_nil (exp (row - skip) c)) take).
  Proof.
    intros Hs Hc w rest fail (H1 & H2 & H3 & H4). unfold xcell_events. cbn [app worker_loop].
    unfold cell_sh at 1. rewrite H4. change (str_eqb (s "c") (s "c")) with true.
    replace (skip <=? w_row w) with true by lia. cbn [andb].
    change (attr_req (x_attrs c) (s "r")) with (@Ok str (x_ref c)). cbn [bind].
    assert (Hx := Hc). unfold xcell_ok in Hx. apply andb_prop in Hx as [Hx Hm]. apply andb_prop in Hx as [Hx Hb].
    assert (At : attr (x_attrs c) (s "t") = x_type c).
    { unfold attr, x_attrs. cbn [dget]. change (str_eqb (s "t") (s "r")) with false. cbv iota.
      destruct (x_type c) as [t|]; cbn [app dget].
      - reflexivity.
      - destruct (x_style c) as [k|]; cbn [app dget]; [change (str_eqb (s "t") (s "s")) with false; cbv iota|];
          apply (attr_more (ks := [s "r"; s "t"; s "s"]) Hm); reflexivity. }
    assert (As : attr (x_attrs c) (s "s") = x_style c).
    { unfold attr, x_attrs. cbn [dget]. change (str_eqb (s "s") (s "r")) with false. cbv iota.
      destruct (x_type c) as [t|]; cbn [app dget]; [change (str_eqb (s "s") (s "t")) with false; cbv iota|];
        (destruct (x_style c) as [k|]; cbn [app dget];
         [reflexivity|apply (attr_more (ks := [s "r"; s "t"; s "s"]) Hm); reflexivity]). }
    rewrite At, As.
    match goal with |- context [mkW (w_row w) (w_empty w) (w_take w) (w_row w) ?ty (x_ref c) _] =>
      assert (Ht : ty = x_kind styles c) end.
    { unfold x_kind. destruct (x_type c) as [t|].
      - destruct t as [|x t]; [reflexivity|]. destruct t as [|y t].
        + cbn [str_eqb s]. rewrite andb_true_r. destruct (Z.eqb_spec x 115) as [->|Hne]; [reflexivity|].
          destruct x as [|x|x]; try reflexivity. repeat (destruct x as [x|x|]; try reflexivity).
        + cbn [str_eqb s]. rewrite andb_false_r. destruct x as [|x|x]; try reflexivity.
          repeat (destruct x as [x|x|]; try reflexivity).
      - reflexivity. }
    rewrite Ht. rewrite <- app_assoc.
    destruct (@emits_body row c (x_body c) Hs Hc empty take Hb
      (mkW (w_row w) (w_empty w) (w_take w) (w_row w) (x_kind styles c) (x_ref c) (Some (s "c")))
      ([EEnd (s "c")] ++ rest) fail) as (w2 & (J1 & J2 & J3 & J4 & J5 & J6 & J7) & E).
    { repeat split; cbn; try assumption. now exists (s "c"). }
    exists (mkW (w_row w2) (w_empty w2) (w_take w2) (w_crow w2) 0 (w_col w2) None). split.
    - repeat split; cbn; assumption.
    - rewrite E. cbn [app worker_loop]. unfold cell_eh. change (str_eqb (s "c") (s "row")) with false.
      change (str_eqb (s "c") (s "c")) with true. cbv iota.
      destruct (loop rest fail _) as [o e]. reflexivity.
  Qed.

  (** *** Rows before [skip_rows] are silent *)
  Definition no_rowend (e : event) : bool :=
    match e with EEnd t => negb (str_eqb t (s "row")) | _ => true end.
  Lemma emits_skipped row empty take l : row < skip -> forallb no_rowend l = true ->
    emits l [] (idle row empty take) (idle row empty take).
  Proof.
    intro Hs. induction l as [|e l IH]; intro H; [apply emits_nil|].
    cbn [forallb] in H. apply andb_prop in H as [He H]. specialize (IH H).
    intros w rest fail (H1 & H2 & H3 & H4). destruct e as [t a|t|t]; cbn [app worker_loop].
    - unfold cell_sh. rewrite H4. replace (skip <=? w_row w) with false by lia. rewrite andb_false_r.
      apply IH. repeat split; assumption.
    - unfold cell_th. replace (w_row w <? skip) with true by lia.
      destruct (IH w rest fail) as (w' & Hw' & E'); [repeat split; assumption|].
      exists w'. split; [exact Hw'|]. rewrite E'. reflexivity.
    - unfold cell_eh. cbn [no_rowend] in He. apply negb_true_iff in He. rewrite He.
      destruct (str_eqb t (s "c")).
      + destruct (IH (mkW (w_row w) (w_empty w) (w_take w) (w_crow w) 0 (w_col w) None) rest fail)
          as (w' & Hw' & E'); [repeat split; assumption|].
        exists w'. split; [exact Hw'|]. rewrite E'. reflexivity.
      + destruct (IH w rest fail) as (w' & Hw' & E'); [repeat split; assumption|].
        exists w'. split; [exact Hw'|]. rewrite E'. reflexivity.
  Qed.

  (** *** Junk *)
  Lemma emits_junk row empty take e : junk_ok e = true -> emits [e] [] (idle row empty take) (idle row empty take).
  Proof.
    intros H w rest fail (H1 & H2 & H3 & H4). exists w. split; [repeat split; assumption|].
    destruct e as [t a|t|t]; cbn [app worker_loop]; cbn [junk_ok tag_in existsb] in H.
    - rewrite orb_false_r in H. apply negb_true_iff in H. unfold cell_sh. rewrite H4, H. cbn [andb].
      cbv beta iota zeta; destruct (loop rest fail w); reflexivity.
    - assert (E : cell_th nv skip sc w t = (w, [])).
      { unfold cell_th. destruct (w_row w <? skip); [reflexivity|]. rewrite H4. reflexivity. }
      rewrite E. cbv beta iota zeta; destruct (loop rest fail w); reflexivity.
    - rewrite orb_false_r in H. apply negb_true_iff, orb_false_elim in H as [Hc Hr].
      unfold cell_eh. rewrite Hr, Hc. cbv beta iota zeta; destruct (loop rest fail w); reflexivity.
  Qed.
  Lemma emits_junks row empty take l : forallb junk_ok l = true ->
    emits l [] (idle row empty take) (idle row empty take).
  Proof.
    induction l as [|e l IH]; intro H; [apply emits_nil|].
    cbn [forallb] in H. apply andb_prop in H as [He H].
    change (e :: l) with ([e] ++ l). change (@nil cell) with (@nil cell ++ []).
    eapply emits_app; [now apply emits_junk|now apply IH].
  Qed.

  (** *** Rows *)
  Lemma emits_pieces row l : skip <= row -> forall empty take, forallb xpiece_ok l = true ->
    emits (flat_map xpiece_events l) (exp_row (row - skip) l) (idle row empty take)
      (idle row (empty && is_nil (exp_row (row - skip) l)) take).
  Proof.
    intro Hs. induction l as [|p l IH]; intros empty take H.
    - cbn. rewrite andb_true_r. apply emits_nil.
    - cbn [forallb] in H. apply andb_prop in H as [Hp H].
      unfold xexpected_row, xrow_cells in *. cbn [flat_map]. rewrite flat_map_app, is_nil_app, andb_assoc.
      eapply emits_app; [|apply IH; exact H].
      destruct p as [c|e]; cbn [xpiece_events flat_map is_nil].
      + rewrite app_nil_r. now apply emits_cell.
      + rewrite andb_true_r. now apply emits_junk.
  Qed.

  Definition row_cells_out (row : Z) (r : xrow) : list cell :=
    if skip <=? row then exp_row (row - skip) r else [].

  Lemma pieces_no_rowend l : forallb xpiece_ok l = true -> forallb no_rowend (flat_map xpiece_events l) = true.
  Proof.
    intro H. apply forallb_forall. intros e He. apply in_flat_map in He as (p & Hp & He).
    rewrite forallb_forall in H. specialize (H p Hp). destruct p as [c|j]; cbn [xpiece_events xpiece_ok] in *.
    - unfold xcell_ok in H. apply andb_prop in H as [H _]. apply andb_prop in H as [_ Hb].
      destruct He as [<-|He]; [reflexivity|]. apply in_app_or in He as [He|[<-|[]]]; [|reflexivity].
      apply in_flat_map in He as (x & Hx & He). rewrite forallb_forall in Hb. specialize (Hb x Hx).
      destruct x as [t|tag a inner|t]; cbn [xitem_events xitem_ok] in *.
      + destruct He as [<-|[<-|[<-|[]]]]; reflexivity.
      + apply andb_prop in Hb as [Ht Hi]. destruct He as [<-|He]; [reflexivity|].
        apply in_app_or in He as [He|[<-|[]]].
        * rewrite forallb_forall in Hi. specialize (Hi e He). destruct e as [t0 a0|t0|t0]; try reflexivity.
          cbn [inner_ok no_rowend tag_in existsb] in *. rewrite orb_false_r in Hi.
          apply negb_true_iff, orb_false_elim in Hi as [_ Hi]. now rewrite Hi.
        * cbn [no_rowend tag_in existsb] in *. rewrite orb_false_r in Ht.
          apply negb_true_iff, orb_false_elim in Ht as [_ Ht]. apply orb_false_elim in Ht as [_ Ht]. now rewrite Ht.
      + destruct He as [<-|[]]. reflexivity.
    - destruct He as [<-|[]]. destruct j as [t a|t|t]; try reflexivity.
      cbn [junk_ok no_rowend tag_in existsb] in *. rewrite orb_false_r in H.
      apply negb_true_iff, orb_false_elim in H as [_ H]. now rewrite H.
  Qed.

  (** The abstract run over rows. *)
  Definition stops (take row : Z) : bool := (0 <? take) && (take <? row).
  Fixpoint run (rows : list xrow) (row : Z) (empty : bool) (take : Z) : list out * bool :=
    match rows with
    | [] => ([], false)
    | r :: rest =>
      let cells := row_cells_out row r in
      let empty' := empty && is_nil cells in
      let row' := if negb empty' || tne then row + 1 else row in
      let take' := if empty' && tne then take + 2 else take in
      if stops take' row' then (map OCell cells ++ [OCall], true)
      else let '(o, st) := run rest row' empty' take' in (map OCell cells ++ OCall :: o, st)
    end.

  Lemma loop_rows rows : forall row empty take w post fail, idle row empty take w ->
    forallb (forallb xpiece_ok) rows = true -> forallb junk_ok post = true ->
    loop (flat_map xrow_events rows ++ post) fail w =
    (fst (run rows row empty take), if snd (run rows row empty take) then None else fail).
  Proof.
    induction rows as [|r rows IH]; intros row empty take w post fail Hw H Hp.
    - cbn [flat_map app run fst snd]. rewrite <- (app_nil_r post).
      destruct (@emits_junks row empty take post Hp w [] fail Hw) as (w' & _ & E). rewrite E. reflexivity.
    - cbn [forallb] in H. apply andb_prop in H as [Hr H].
      cbn [flat_map]. unfold xrow_events at 1. cbn [app]. rewrite <- !app_assoc. cbn [run].
      set (cells := row_cells_out row r).
      assert (He : emits (EStart (s "row") [] :: flat_map xpiece_events r) cells (idle row empty take)
                     (idle row (empty && is_nil cells) take)).
      { subst cells. unfold row_cells_out. destruct (Z.leb_spec skip row) as [Hs|Hs].
        - change (EStart (s "row") [] :: ?l) with ([EStart (s "row") []] ++ l).
          rewrite <- (app_nil_l (exp_row (row - skip) r)).
          eapply emits_app; [now apply emits_junk|]. cbn [app]. now apply emits_pieces.
        - cbn [is_nil]. rewrite andb_true_r. apply emits_skipped; [exact Hs|].
          cbn [forallb no_rowend andb]. now apply pieces_no_rowend. }
      destruct (He w ([EEnd (s "row")] ++ flat_map xrow_events rows ++ post) fail Hw) as (w1 & Hw1 & E).
      change (EStart (s "row") [] :: flat_map xpiece_events r ++ ?x)
        with ((EStart (s "row") [] :: flat_map xpiece_events r) ++ x).
      rewrite E. clear E He. cbn [app worker_loop]. destruct Hw1 as (J1 & J2 & J3 & J4).
      unfold cell_eh. change (str_eqb (s "row") (s "row")) with true. cbv iota.
      rewrite J1, J2, J3. fold (stops (if empty && is_nil cells && tne then take + 2 else take)
        (if negb (empty && is_nil cells) || tne then row + 1 else row)).
      destruct (stops _ _) eqn:Es.
      + cbn [fst snd]. reflexivity.
      + rewrite (IH (if negb (empty && is_nil cells) || tne then row + 1 else row)
            (empty && is_nil cells) (if empty && is_nil cells && tne then take + 2 else take)) by
          (try assumption; repeat split; assumption).
        destruct (run rows _ _ _) as [o st]. cbn [fst snd]. reflexivity.
  Qed.

  Lemma worker_sheet pre rows post fail take : xsheet_ok pre rows post = true ->
    worker styles nv skip tne sc (xsheet_events pre rows post) fail take =
    (OCall :: fst (run rows 0 true take), if snd (run rows 0 true take) then None else fail).
  Proof.
    intro H. unfold xsheet_ok in H. apply andb_prop in H as [H Hr]. apply andb_prop in H as [H1 H2].
    unfold worker, xsheet_events.
    destruct (@emits_junks 0 true take pre H1 (mkW 0 true take 0 0 [] None) (flat_map xrow_events rows ++ post) fail)
      as (w & Hw & E); [repeat split|].
    rewrite E. rewrite (loop_rows _ Hw Hr H2). reflexivity.
  Qed.

  (** *** Closed form of the run *)
  Definition in_lim (T i : Z) : bool := (T =? 0) || (i <=? T).
  Definition row_o (T : Z) (p : Z * xrow) : list out :=
    if in_lim T (fst p) then map OCell (row_cells_out (fst p) (snd p)) ++ [OCall] else [].

  Lemma row_o_out T l : 0 < T -> (forall p, In p l -> T < fst p) -> flat_map (row_o T) l = [].
  Proof.
    intros HT. induction l as [|p l IH]; intro H; [reflexivity|]. cbn [flat_map].
    rewrite IH by (intros q Hq; apply H; now right). unfold row_o, in_lim.
    assert (T < fst p) by (apply H; now left). replace (T =? 0) with false by lia.
    replace (fst p <=? T) with false by lia. reflexivity.
  Qed.

  Lemma run_started rows : forall row T, 0 <= T -> in_lim T row = true ->
    fst (run rows row false T) = flat_map (row_o T) (enum_from row rows)
    /\ snd (run rows row false T) = (0 <? T) && (T <? row + zlen rows).
  Proof.
    induction rows as [|r rows IH]; intros row T HT Hl.
    - cbn. unfold in_lim in Hl. split; [reflexivity|lia].
    - cbn [run enum_from flat_map]. cbn [andb negb orb]. unfold row_o at 1. cbn [fst snd]. rewrite Hl.
      rewrite zlen_cons. pose proof (zlen_nonneg rows) as Hz.
      unfold stops. destruct ((0 <? T) && (T <? row + 1)) eqn:Es.
      + cbn [fst snd]. rewrite row_o_out; [rewrite app_nil_r; split; [reflexivity|lia]|lia|].
        intros [i x] Hin. apply enum_from_bound in Hin. cbn [fst]. lia.
      + destruct (IH (row + 1) T HT) as [E1 E2]; [unfold in_lim in *; lia|].
        destruct (run rows (row + 1) false T) as [o st]. cbn [fst snd] in *. subst o st.
        split; [now rewrite <- app_assoc|lia].
  Qed.

  (** Rows from which nothing is delivered, seen from row number [i]. *)
  Definition loud (p : Z * xrow) : bool := negb (is_nil (row_cells_out (fst p) (snd p))).

  Lemma leading_nonneg A (p : A -> bool) l : 0 <= leading p l.
  Proof. induction l as [|x l IH]; cbn [leading]; [lia|]. destruct (p x); lia. Qed.

  Lemma run_keep rows : tne = true -> forall row take, 0 <= row <= take ->
    let T := take + 2 * leading loud (enum_from row rows) in
    fst (run rows row true take) = flat_map (row_o T) (enum_from row rows)
    /\ snd (run rows row true take) = (0 <? T) && (T <? row + zlen rows)
    \/ rows = [].
  Proof.
    intro Ht. induction rows as [|r rows IH]; intros row take H T; [now right|]. left.
    subst T. cbn [enum_from leading run flat_map].
    set (cells := row_cells_out row r). assert (Hl : loud (row, r) = negb (is_nil cells)) by reflexivity.
    rewrite Hl. cbn [andb]. rewrite Ht.
    pose proof (@leading_nonneg _ loud (enum_from (row + 1) rows)) as Hn.
    destruct (is_nil cells) eqn:Ec; cbn [negb orb andb].
    - replace (stops (take + 2) (row + 1)) with false by (unfold stops; lia).
      assert (cells = []) by (destruct cells; [reflexivity|discriminate]).
      set (L := leading loud (enum_from (row + 1) rows)) in *.
      unfold row_o at 1. cbn [fst snd]. fold cells. replace (in_lim _ row) with true
        by (unfold in_lim; symmetry; apply orb_true_intro; right; lia).
      rewrite zlen_cons.
      destruct (IH (row + 1) (take + 2)) as [[E1 E2]|Hnil]; [lia| |].
      + replace (take + 2 * (1 + L)) with (take + 2 + 2 * L) by lia.
        destruct (run rows (row + 1) true (take + 2)) as [o st]. cbn [fst snd] in *. subst o st.
        split; [now rewrite <- app_assoc|]. fold L. lia.
      + subst rows. cbn in L. subst L. cbn [run fst snd enum_from flat_map]. rewrite zlen_nil, app_nil_r.
        split; [reflexivity|lia].
    - rewrite Z.mul_0_r, Z.add_0_r. unfold row_o at 1. cbn [fst snd]. fold cells.
      replace (in_lim take row) with true by (unfold in_lim; lia). rewrite zlen_cons.
      pose proof (zlen_nonneg rows). unfold stops.
      destruct ((0 <? take) && (take <? row + 1)) eqn:Es.
      + cbn [fst snd]. rewrite row_o_out; [rewrite app_nil_r; split; [reflexivity|lia]|lia|].
        intros [i x] Hin. apply enum_from_bound in Hin. cbn [fst]. lia.
      + destruct (@run_started rows (row + 1) take) as [E1 E2]; [lia|unfold in_lim; lia|].
        destruct (run rows (row + 1) false take) as [o st]. cbn [fst snd] in *. subst o st.
        split; [now rewrite <- app_assoc|lia].
  Qed.

  Lemma run_keep0 rows take : tne = true -> 0 <= take ->
    let T := take + 2 * leading loud (enum_from 0 rows) in
    fst (run rows 0 true take) = flat_map (row_o T) (enum_from 0 rows)
    /\ snd (run rows 0 true take) = (0 <? T) && (T <? zlen rows).
  Proof.
    intros Ht H T. destruct rows as [|r rows].
    - cbn. split; [reflexivity|]. subst T. cbn. lia.
    - destruct (@run_keep (r :: rows) Ht 0 take) as [E|E]; [lia|exact E|discriminate].
  Qed.

  (** Collapse mode. *)
  Lemma run_collapse_skip rows : tne = false -> 0 < skip -> forall take, 0 <= take ->
    run rows 0 true take = (map (fun _ => OCall) rows, false).
  Proof.
    intros Ht Hs. induction rows as [|r rows IH]; intros take Hk; [reflexivity|].
    cbn [run]. unfold row_cells_out. replace (skip <=? 0) with false by lia. cbn [is_nil andb map app].
    rewrite Ht. cbn [negb orb]. unfold stops. replace ((0 <? take) && (take <? 0)) with false by lia.
    rewrite IH by exact Hk. reflexivity.
  Qed.

  Lemma run_collapse rows : tne = false -> skip = 0 -> forall take, 0 <= take ->
    let e := leading (fun r => negb (is_nil (exp_row 0 r))) rows in
    let rest := skipn (Z.to_nat e) rows in
    fst (run rows 0 true take)
      = map (fun _ => OCall) (firstn (Z.to_nat e) rows) ++ flat_map (row_o take) (enum_from 0 rest)
    /\ snd (run rows 0 true take) = (0 <? take) && (take <? zlen rest).
  Proof.
    intros Ht Hs. induction rows as [|r rows IH]; intros take Hk e rest.
    - subst e rest. cbn. split; [reflexivity|lia].
    - subst e rest. cbn [run leading].
      replace (row_cells_out 0 r) with (exp_row 0 r)
        by (unfold row_cells_out; rewrite Hs; reflexivity).
      pose proof (@leading_nonneg _ (fun r => negb (is_nil (exp_row 0 r))) rows) as Hn.
      cbn [andb]. destruct (is_nil (exp_row 0 r)) eqn:Ec; cbn [negb].
      + replace (Z.to_nat (1 + leading (fun r0 => negb (is_nil (exp_row 0 r0))) rows))
          with (S (Z.to_nat (leading (fun r0 => negb (is_nil (exp_row 0 r0))) rows))) by lia.
        rewrite Ht. cbn [orb andb skipn firstn map app].
        unfold stops. replace ((0 <? take) && (take <? 0)) with false by lia.
        destruct (IH take Hk) as [E1 E2]. destruct (run rows 0 true take) as [o st]. cbn [fst snd] in *.
        subst o st. destruct (exp_row 0 r); [|discriminate]. split; reflexivity.
      + cbn [orb andb Z.to_nat skipn firstn map app enum_from flat_map].
        unfold row_o at 1. cbn [fst snd]. replace (in_lim take 0) with true by (unfold in_lim; lia).
        replace (row_cells_out 0 r) with (exp_row 0 r) by (unfold row_cells_out; rewrite Hs; reflexivity).
        rewrite zlen_cons. pose proof (zlen_nonneg rows).
        unfold stops. replace ((0 <? take) && (take <? 0 + 1)) with false by lia.
        destruct (@run_started rows 1 take) as [E1 E2]; [lia|unfold in_lim; lia|].
        change (0 + 1) with 1.
        destruct (run rows 1 false take) as [o st]. cbn [fst snd] in *. subst o st.
        split; [now rewrite <- app_assoc|lia].
  Qed.
End Worker.
