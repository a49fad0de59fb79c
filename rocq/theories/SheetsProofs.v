From Verif Require Import Py PyFacts PyText Biff BiffRecs BiffSpec Utf16 Utf16Spec Utf16Proofs Xlsx Xlsb XlsbSpec XlsbProofs XlsbParts
  XlsxSpec Sheets SheetsSpec.
From Coq Require Import ZifyBool ZifyNat.
Set Implicit Arguments.
Unset Strict Implicit.

Lemma last_segment_app acc p g : existsb (Z.eqb 47) g = false ->
  last_segment_from acc (p ++ 47 :: g) = g.
Proof.
  revert acc. induction p as [|c p IH]; intros acc H.
  - cbn [app last_segment_from]. change (47 =? 47) with true. cbv iota.
    assert (G : forall a, last_segment_from a g = rev a ++ g).
    { clear acc. revert H. induction g as [|c g IHg]; intros H a; [cbn; now rewrite app_nil_r|].
      cbn [existsb] in H. apply orb_false_elim in H as [Hc H]. cbn [last_segment_from].
      replace (c =? 47) with false by lia. rewrite IHg by exact H. cbn [rev]. now rewrite <- app_assoc. }
    now rewrite G.
  - cbn [app last_segment_from]. destruct (c =? 47); apply IH; exact H.
Qed.

Definition to_rel (p : str * (str * str)) : rel := mkRel (fst p) (fst (snd p)) (snd (snd p)).
Lemma scan_rels_ok l : forallb ritem_ok l = true ->
  scan_rels (flat_map ritem_events l) = Ok (map to_rel (rel_list l)).
Proof.
  induction l as [|x l IH]; intro H; [reflexivity|]. cbn [forallb] in H. apply andb_prop in H as [Hx H].
  cbn [flat_map]. destruct x as [i p g t more|e]; cbn [ritem_ok ritem_events] in *.
  - cbn [app scan_rels]. change (str_eqb (s "Relationship") (s "Relationship")) with true. cbv iota.
    match goal with |- context [attr_req ?a (s "Id")] =>
      change (attr_req a (s "Id")) with (@Ok str i);
      change (attr_req a (s "Type")) with (@Ok str (p ++ 47 :: g));
      change (attr_req a (s "Target")) with (@Ok str t) end.
    cbn [bind]. rewrite IH by exact H. cbn [bind]. apply negb_true_iff in Hx.
    unfold last_segment. rewrite last_segment_app by exact Hx. reflexivity.
  - destruct e as [t a|t|t]; cbn [app scan_rels]; try (now apply IH).
    cbn [tag_in existsb] in Hx. rewrite orb_false_r in Hx. apply negb_true_iff in Hx. rewrite Hx. now apply IH.
Qed.

Lemma xlsx_names_ok l : forall d, forallb witem_ok l = true ->
  xlsx_names (flat_map witem_events l) d = Ok (fold_left (fun d p => dset str_eqb d (snd p) (fst p)) (sheet_list l) d).
Proof.
  induction l as [|x l IH]; intros d H; [reflexivity|]. cbn [forallb] in H. apply andb_prop in H as [Hx H].
  cbn [flat_map]. destruct x as [n i more|e]; cbn [witem_ok witem_events] in *.
  - cbn [app xlsx_names]. change (str_eqb (s "sheet") (s "sheet")) with true. cbv iota.
    match goal with |- context [attr_req ?a (s "name")] =>
      change (attr_req a (s "name")) with (@Ok str n); change (attr_req a (s "r:id")) with (@Ok str i) end.
    cbn [bind]. now rewrite IH.
  - destruct e as [t a|t|t]; cbn [app xlsx_names]; try (now apply IH).
    cbn [tag_in existsb] in Hx. rewrite orb_false_r in Hx. apply negb_true_iff in Hx. rewrite Hx. now apply IH.
Qed.

Lemma dget_none_str A (d : list (str * A)) k : ~ In k (map fst d) -> dget str_eqb d k = None.
Proof.
  induction d as [|[x y] d IH]; intro H; [reflexivity|]. cbn [dget]. destruct (str_eqb k x) eqn:E.
  - apply str_eqb_eq in E. subst. exfalso. apply H. now left.
  - apply IH. intro G. apply H. now right.
Qed.
Lemma dset_new_str A (d : list (str * A)) k v : ~ In k (map fst d) -> dset str_eqb d k v = d ++ [(k, v)].
Proof.
  induction d as [|[x y] d IH]; intro H; [reflexivity|]. cbn [dset]. destruct (str_eqb k x) eqn:E.
  - apply str_eqb_eq in E. subst. exfalso. apply H. now left.
  - cbn [app]. f_equal. apply IH. intro G. apply H. now right.
Qed.

Lemma fold_dset_new A (f : A -> str) (g : A -> str) l : forall d,
  NoDup (map fst d ++ map f l) ->
  fold_left (fun d p => dset str_eqb d (f p) (g p)) l d = d ++ map (fun p => (f p, g p)) l.
Proof.
  induction l as [|x l IH]; intros d H; [now rewrite app_nil_r|]. cbn [fold_left map] in *.
  rewrite dset_new_str.
  - rewrite IH; [now rewrite <- app_assoc|]. rewrite map_app. cbn [map]. rewrite <- app_assoc. exact H.
  - intro G. apply NoDup_remove_2 in H. apply H. apply in_or_app. now left.
Qed.

(** Worksheet relationships by id, distinct ids. *)
Lemma xlsx_files_get l : forall d id, (forall x, In x (map fst d) -> ~ In x (map fst l)) -> NoDup (map fst l) ->
  dget str_eqb (fold_left (fun d r => if str_eqb (r_type r) (s "worksheet")
                        then dset str_eqb d (r_id r) (s "xl/" ++ r_target r) else d) (map to_rel l) d) id
  = match dget str_eqb l id with
    | Some (g, t) => if str_eqb g (s "worksheet") then Some (s "xl/" ++ t) else dget str_eqb d id
    | None => dget str_eqb d id
    end.
Proof.
  induction l as [|[i [g t]] l IH]; intros d id Hd Hn; [reflexivity|].
  cbn [map fst] in Hd, Hn. inversion Hn as [|? ? Hi Hn']; subst.
  cbn [map fold_left to_rel fst snd r_id r_type r_target dget].
  assert (G : dget str_eqb l i = None) by now apply dget_none_str.
  destruct (str_eqb g (s "worksheet")) eqn:Eg.
  - rewrite IH.
    2: { intros x Hx Hx'. rewrite dset_keys_str in Hx.
         assert (Hx2 : In x (map fst d) \/ x = i).
         { destruct (mem_str i (map fst d)); [now left|]. apply in_app_or in Hx as [Hx|[Hx|[]]]; [now left|now right]. }
         destruct Hx2 as [Hx2| ->]; [apply (Hd x Hx2); now right|contradiction]. }
    2: exact Hn'.
    rewrite dget_dset_str. destruct (str_eqb id i) eqn:E.
    + apply str_eqb_eq in E. subst id. rewrite G, Eg. reflexivity.
    + reflexivity.
  - rewrite IH; [|intros x Hx Hx'; apply (Hd x Hx); now right|exact Hn'].
    destruct (str_eqb id i) eqn:E; [|reflexivity]. apply str_eqb_eq in E. subst id. now rewrite G, Eg.
Qed.

Lemma xlsx_join_ok rels names : forall d,
  NoDup (map fst d ++ map snd names) ->
  (forall i n, In (i, n) names -> exists t, rel_of rels i = Some (s "worksheet", t)) ->
  NoDup (map fst rels) ->
  xlsx_join (xlsx_files (map to_rel rels)) names d
  = Ok (d ++ sheet_table rels (map (fun p => (snd p, fst p)) names)).
Proof.
  induction names as [|[i n] names IH]; intros d Hd Hr Hn; [cbn; now rewrite app_nil_r|].
  cbn [xlsx_join]. destruct (Hr i n (or_introl eq_refl)) as [t Ht].
  unfold xlsx_files at 1. rewrite xlsx_files_get; [|intros x []|exact Hn].
  unfold rel_of in Ht. rewrite Ht. change (str_eqb (s "worksheet") (s "worksheet")) with true. cbv iota.
  cbn [map snd] in Hd.
  rewrite dset_new_str by (intro G; apply NoDup_remove_2 in Hd; apply Hd; apply in_or_app; now left).
  rewrite IH.
  - unfold sheet_table. cbn [map flat_map fst snd]. unfold rel_of at 2. rewrite Ht. rewrite <- app_assoc. reflexivity.
  - rewrite map_app. cbn [map fst]. rewrite <- app_assoc. exact Hd.
  - intros i' n' H. apply (Hr i' n'). now right.
  - exact Hn.
Qed.

Lemma xlsx_sheets_ok rl wl : forallb ritem_ok rl = true -> forallb witem_ok wl = true ->
  NoDup (map fst (rel_list rl)) -> NoDup (map fst (sheet_list wl)) -> NoDup (map snd (sheet_list wl)) ->
  (forall n i, In (n, i) (sheet_list wl) -> exists t, rel_of (rel_list rl) i = Some (s "worksheet", t)) ->
  xlsx_sheets (flat_map ritem_events rl) (flat_map witem_events wl)
  = Ok (sheet_table (rel_list rl) (sheet_list wl)).
Proof.
  intros H1 H2 N1 N2 N3 Hr. unfold xlsx_sheets. rewrite scan_rels_ok by exact H1. cbn [bind].
  rewrite xlsx_names_ok by exact H2. cbn [bind].
  rewrite (@fold_dset_new _ snd fst (sheet_list wl) []) by exact N3. cbn [app].
  rewrite xlsx_join_ok.
  - rewrite map_map. cbn [app fst snd]. rewrite (map_ext _ (fun x => x)); [now rewrite map_id|]. now intros [].
  - cbn [map app]. rewrite map_map. cbn [snd]. exact N2.
  - intros i n H. apply in_map_iff in H as ([n' i'] & E & H). cbn [fst snd] in E.
    assert (i' = i) by congruence. subst. eapply Hr. exact H.
  - exact N1.
Qed.

(** A sheet that is not a worksheet makes the whole table fail. *)
Lemma xlsx_sheets_missing rl wl n i : forallb ritem_ok rl = true -> forallb witem_ok wl = true ->
  NoDup (map fst (rel_list rl)) -> NoDup (map snd (sheet_list wl)) ->
  In (n, i) (sheet_list wl) ->
  (forall t, rel_of (rel_list rl) i <> Some (s "worksheet", t)) ->
  xlsx_sheets (flat_map ritem_events rl) (flat_map witem_events wl) = Err KeyError.
Proof.
  intros H1 H2 N1 N3 Hin Hr. unfold xlsx_sheets. rewrite scan_rels_ok by exact H1. cbn [bind].
  rewrite xlsx_names_ok by exact H2. cbn [bind].
  rewrite (@fold_dset_new _ snd fst (sheet_list wl) []) by exact N3. cbn [app].
  assert (G : dget str_eqb (xlsx_files (map to_rel (rel_list rl))) i = None).
  { unfold xlsx_files. rewrite xlsx_files_get; [|intros x []|exact N1]. unfold rel_of in Hr.
    destruct (dget str_eqb (rel_list rl) i) as [[g t]|]; [|reflexivity].
    destruct (str_eqb g (s "worksheet")) eqn:E; [|reflexivity]. apply str_eqb_eq in E. subst g. now destruct (Hr t). }
  assert (Hin' : In (i, n) (map (fun p : str * str => (snd p, fst p)) (sheet_list wl))).
  { apply in_map_iff. exists (n, i). split; [reflexivity|exact Hin]. }
  generalize (@nil (str * str)). revert Hin'.
  induction (map (fun p : str * str => (snd p, fst p)) (sheet_list wl)) as [|[a b] l IH]; intros H d; [destruct H|].
  cbn [xlsx_join]. destruct H as [H|H].
  - assert (a = i) by congruence. subst a. now rewrite G.
  - destruct (dget str_eqb (xlsx_files (map to_rel (rel_list rl))) a); [now apply IH|reflexivity].
Qed.

Lemma find_rel l id : find (fun x => str_eqb (r_id x) id) (map to_rel l)
  = match rel_of l id with Some (g, t) => Some (mkRel id g t) | None => None end.
Proof.
  unfold rel_of. induction l as [|[i [g t]] l IH]; [reflexivity|]. cbn [map find to_rel fst snd r_id dget].
  destruct (str_eqb i id) eqn:E.
  - apply str_eqb_eq in E. subst. now rewrite str_eqb_refl.
  - destruct (str_eqb id i) eqn:E2; [apply str_eqb_eq in E2; subst; rewrite str_eqb_refl in E; discriminate|exact IH].
Qed.

Lemma filter_bundles l : forallb bitem_ok l = true ->
  filter (fun r => mem_Z (rec_id r) [412]) (map bitem_record l)
  = flat_map (fun x => match x with BI _ _ _ _ _ => [bitem_record x] | BX _ => [] end) l.
Proof.
  induction l as [|x l IH]; intro H; [reflexivity|]. cbn [forallb] in H. apply andb_prop in H as [Hx H].
  cbn [map filter flat_map]. rewrite IH by exact H. destruct x as [st tab i n tl|r]; cbn [bitem_record rec_id bitem_ok] in *.
  - reflexivity.
  - unfold mem_Z. cbn [existsb]. rewrite orb_false_r. apply negb_true_iff in Hx. rewrite Hx. reflexivity.
Qed.

Lemma xlsb_sheets_loop rels l : forall d, forallb bitem_ok l = true ->
  NoDup (map fst d ++ map fst (bsheet_list l)) ->
  (forall n i, In (n, i) (bsheet_list l) -> rel_of rels i <> None) ->
  xlsb_sheets_from (map to_rel rels)
    (flat_map (fun x => match x with BI _ _ _ _ _ => [bitem_record x] | BX _ => [] end) l) d
  = Ok (d ++ sheet_table rels (bsheet_list l)).
Proof.
  induction l as [|x l IH]; intros d H Hn Hr; [cbn; now rewrite app_nil_r|].
  cbn [forallb] in H. apply andb_prop in H as [Hx H]. cbn [flat_map].
  destruct x as [st tab i n tl|r]; [|now apply IH].
  cbn [app xlsb_sheets_from bitem_record bitem_ok] in *.
  apply andb_prop in Hx as [Hx W2]. apply andb_prop in Hx as [Hx W1].
  rewrite bundle_loadr_ok by (try assumption; lia). cbn [bind strRelID strName xstr_value].
  unfold bsheet_list in Hn, Hr. cbn [flat_map app map fst] in Hn, Hr. fold (bsheet_list l) in Hn, Hr.
  rewrite find_rel. destruct (rel_of rels i) as [[g t]|] eqn:E; [|destruct (Hr n i (or_introl eq_refl) E)].
  cbn [r_target]. rewrite dset_new_str by (intro G; apply NoDup_remove_2 in Hn; apply Hn; apply in_or_app; now left).
  rewrite IH.
  - unfold sheet_table, bsheet_list. cbn [flat_map app fst snd]. rewrite E. now rewrite <- app_assoc.
  - exact H.
  - rewrite map_app. cbn [map fst]. rewrite <- app_assoc. exact Hn.
  - intros n' i' G. apply (Hr n' i'). now right.
Qed.

Lemma xlsb_sheets_ok rl bl part : forallb ritem_ok rl = true -> forallb bitem_ok bl = true ->
  forallb rec_ok (map bitem_record bl) = true -> dump_all (map bitem_record bl) = Ok part ->
  NoDup (map fst (bsheet_list bl)) ->
  (forall n i, In (n, i) (bsheet_list bl) -> rel_of (rel_list rl) i <> None) ->
  xlsb_sheets (flat_map ritem_events rl) part = Ok (sheet_table (rel_list rl) (bsheet_list bl)).
Proof.
  intros H1 H2 H3 H4 Hn Hr. unfold xlsb_sheets. rewrite scan_rels_ok by exact H1. cbn [bind].
  rewrite (scan_part_dump 412 [] H3 H4), filter_bundles by exact H2. now apply xlsb_sheets_loop.
Qed.

(** Lookups in the table. *)
Lemma dget_nth A (d : list (str * A)) : NoDup (map fst d) -> forall k n p,
  nth_error d k = Some (n, p) -> dget str_eqb d n = Some p.
Proof. intros H k n p E. apply dget_In_str; [exact H|]. eapply nth_error_In. exact E. Qed.

Lemma sheet_table_nth rels l : (forall n i, In (n, i) l -> rel_of rels i <> None) ->
  forall k n i, nth_error l k = Some (n, i) ->
  exists g t, rel_of rels i = Some (g, t) /\ nth_error (sheet_table rels l) k = Some (n, s "xl/" ++ t).
Proof.
  unfold sheet_table. induction l as [|[n0 i0] l IH]; intros H k n i E; [destruct k; discriminate|].
  cbn [flat_map fst snd]. destruct (rel_of rels i0) as [[g t]|] eqn:E0; [|destruct (H n0 i0 (or_introl eq_refl) E0)].
  destruct k as [|k]; cbn [nth_error app] in *.
  - assert (n0 = n /\ i0 = i) as [-> ->] by (split; congruence). now exists g, t.
  - apply IH; [intros n1 i1 Hin; apply (H n1 i1); now right|exact E].
Qed.
Lemma sheet_table_names rels l : (forall n i, In (n, i) l -> rel_of rels i <> None) ->
  map fst (sheet_table rels l) = map fst l.
Proof.
  unfold sheet_table. induction l as [|[n0 i0] l IH]; intro H; [reflexivity|]. cbn [flat_map fst snd map].
  destruct (rel_of rels i0) as [[g t]|] eqn:E0; [|destruct (H n0 i0 (or_introl eq_refl) E0)].
  cbn [app map fst]. f_equal. apply IH. intros n1 i1 Hin. apply (H n1 i1). now right.
Qed.

(** ** XML round trip *)
Lemma attr_value_plain v rest : forall f, forallb plain_char v = true -> (List.length v < f)%nat ->
  attr_value f (v ++ 34 :: rest) = Some (v, rest).
Proof.
  induction v as [|c v IH]; intros f H Hf; (destruct f as [|f]; [cbn in Hf; lia|]).
  - reflexivity.
  - cbn [forallb] in H. apply andb_prop in H as [Hc H]. cbn [app attr_value]. unfold plain_char in Hc.
    apply andb_prop in Hc as [Hx Hc]. cbn [existsb] in Hc. rewrite Hx. cbn [negb].
    apply negb_true_iff in Hc.
    replace (c =? 34) with false by lia. replace (c =? 60) with false by lia. replace (c =? 38) with false by lia.
    rewrite IH by (try assumption; cbn [List.length] in Hf; lia).
    unfold norm_ws. replace ((c =? 9) || (c =? 10) || (c =? 13)) with false by lia. reflexivity.
Qed.
Lemma parse_attr n v f rest acc : forallb name_char n = true -> n <> [] -> forallb plain_char v = true ->
  mem_str n (map fst acc) = false ->
  parse_attrs (S f) (32 :: n ++ 61 :: 34 :: v ++ 34 :: rest) acc = parse_attrs f rest (acc ++ [(n, v)]).
Proof.
  intros Hn Hne Hv Hm. cbn [parse_attrs].
  assert (T : take_name (n ++ 61 :: 34 :: v ++ 34 :: rest) = (n, 61 :: 34 :: v ++ 34 :: rest)).
  { clear Hne Hm. induction n as [|c n IH]; [reflexivity|]. cbn [forallb] in Hn. apply andb_prop in Hn as [Hc Hn].
    cbn [app take_name]. rewrite Hc, IH by exact Hn. reflexivity. }
  rewrite T. destruct n as [|c n]; [congruence|].
  rewrite attr_value_plain; [|exact Hv|rewrite app_length; cbn [List.length]; lia]. now rewrite Hm.
Qed.

Lemma dump_rel_shape r : dump_rel r =
  60 :: s "Relationship" ++ 32 :: s "Id" ++ 61 :: 34 :: r_id r ++ 34 :: 32 :: s "Type" ++ 61 :: 34
  :: (RELS_NS ++ 47 :: r_type r) ++ 34 :: 32 :: s "Target" ++ 61 :: 34 :: r_target r ++ 34 :: [47; 62].
Proof. unfold dump_rel. rewrite <- (app_assoc RELS_NS). reflexivity. Qed.

Lemma rel_parse r : forallb plain_char (r_id r) = true -> forallb plain_char (r_type r) = true ->
  forallb plain_char (r_target r) = true ->
  parse_empty_element (dump_rel r) =
  Ok [EStart (s "Relationship") [(s "Id", r_id r); (s "Type", RELS_NS ++ 47 :: r_type r); (s "Target", r_target r)];
      EEnd (s "Relationship")].
Proof.
  intros H1 H2 H3. rewrite dump_rel_shape. unfold parse_empty_element.
  assert (T : forall rest, take_name (s "Relationship" ++ 32 :: rest) = (s "Relationship", 32 :: rest)) by reflexivity.
  rewrite T. cbv iota beta.
  set (f := List.length _). assert (Hf : exists k, S f = S (S (S (S k)))).
  { subst f. rewrite !app_length || idtac. cbn [List.length s app]. rewrite !app_length. cbn [List.length].
    eexists. rewrite app_length. cbn [List.length s app]. rewrite !app_length. cbn [List.length app s].
    rewrite Nat.add_comm. cbn. reflexivity. }
  destruct Hf as [k ->].
  rewrite parse_attr; [|reflexivity|discriminate|exact H1|reflexivity].
  rewrite parse_attr; [|reflexivity|discriminate|rewrite forallb_app; cbn [forallb]; rewrite H2; reflexivity|reflexivity].
  rewrite parse_attr; [|reflexivity|discriminate|exact H3|reflexivity].
  reflexivity.
Qed.
