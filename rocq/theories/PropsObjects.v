(** C102, C103: workbook objects under any history of operations. *)
From Coq Require Import ZifyBool ZifyNat.
From Verif Require Import Py PyFacts PyText Biff BiffRecs Cell Xlsb XlsbSpec Xlsx Sheets Workbook WorkbookSpec PropsWorkbook Objects.
Set Implicit Arguments. Unset Strict Implicit.

(** The file does not change: every [__enter__] finds the same archive. *)
Definition same_file (z : archive) (l : list op) : Prop := forall z', In (OpEnter z') l -> z' = z.
(** An object just entered. *)
Definition bnew (z : archive) : bobj := mkBO (Some (z, false)) None None None [].
Definition xnew (z : archive) : xobj := mkXO (Some (z, false)) None None None.
Definition keeps {A} (c : option A) (r : res A) : Prop := match c with Some a => r = Ok a | None => True end.
Lemma cached_keeps A (c : option A) r : keeps c r -> cached c r = cached None r.
Proof. destruct c; [|reflexivity]. cbn. now intros ->. Qed.
Lemma cached_after A (c : option A) r x : keeps c r -> (x = r \/ forall a, x <> Ok a) -> keeps (fst (cached c x)) r.
Proof. intros K H. destruct c; [exact K|]. cbn. destruct x as [a|]; cbn; [|easy]. destruct H as [->|H]; [reflexivity|now destruct (H a)]. Qed.
Lemma no_ok A (e : exn) (a : A) : Err e <> Ok a. Proof. discriminate. Qed.

Section Xlsx.
  Context (expat : bytes -> list event * option exn) (nv : str -> bool) (z : archive).
  Definition xgood (o : xobj) : Prop :=
    (forall z' b, xo_zf o = Some (z', b) -> z' = z) /\ keeps (xo_sheets o) (xbook_sheets expat z) /\ keeps (xo_shared o) (xbook_shared expat z nv) /\ keeps (xo_styles o) (xbook_styles expat z).
  Lemma reach_or A (f : zfile) (g : archive -> res A) : (forall z' b, f = Some (z', b) -> z' = z) -> (z <- reach f ;; g z) = g z \/ forall a, (z <- reach f ;; g z) <> Ok a.
  Proof. intro H. destruct f as [[z' []]|]; cbn; [right; discriminate| |right; discriminate]. rewrite (H z' false eq_refl). now left. Qed.
  Lemma xgood_do o p : (forall z', p = OpEnter z' -> z' = z) -> xgood o -> xgood (fst (xdo expat nv o p)).
  Proof.
    intros Hp (H0 & H1 & H2 & H3). destruct p as [z'| | | | |w]; cbn [xdo].
    - cbn. split; [|now repeat split]. intros z0 b E. injection E as <- _. now apply Hp.
    - cbn. split; [|now repeat split]. intros z0 b E. destruct (xo_zf o) as [[z1 b1]|] eqn:F; [|discriminate]. injection E as <- _. exact (H0 z1 b1 eq_refl).
    - pose proof (cached_after H1 (reach_or (xbook_sheets expat) H0)) as K. destruct (cached (xo_sheets o) _) as [c r]. cbn in *. now repeat split.
    - pose proof (cached_after H2 (reach_or (fun z => xbook_shared expat z nv) H0)) as K. destruct (cached (xo_shared o) _) as [c r]. cbn in *. now repeat split.
    - pose proof (cached_after H3 (reach_or (xbook_styles expat) H0)) as K. destruct (cached (xo_styles o) _) as [c r]. cbn in *. now repeat split.
    - destruct (xo_zf o) as [f|] eqn:F; [|cbn; split; [now rewrite F|now repeat split]].
      pose proof (cached_after H1 (reach_or (xbook_sheets expat) H0)) as K. destruct (cached (xo_sheets o) _) as [c r]. cbn [fst] in K. cbn [xo_zf xo_styles].
      match goal with |- context [match ?m with Ok _ => _ | Err _ => _ end] => destruct m as [b|] end; [|cbn; now repeat split].
      pose proof (cached_after H3 (reach_or (xbook_styles expat) H0)) as K3. destruct (cached (xo_styles o) _) as [c' r']. cbn in *. now repeat split.
  Qed.
  Lemma xgood_history l : forall o, same_file z l -> xgood o -> xgood (xhistory expat nv o l).
  Proof.
    induction l as [|p l IH]; intros o S G; [exact G|]. cbn [xhistory]. apply IH; [intros z' H; apply S; now right|]. apply xgood_do; [|exact G]. intros z' ->. apply S. now left.
  Qed.
  Lemma xgood_same o b p : xgood o -> xo_zf o = Some (z, b) -> b = false -> snd (xdo expat nv o p) = snd (xdo expat nv (xnew z) p).
  Proof.
    intros (H0 & H1 & H2 & H3) F ->. destruct p as [z'| | | | |w]; cbn [xdo]; rewrite ?F; cbn [reach bind xnew xo_zf xo_sheets xo_shared xo_styles]; [reflexivity|reflexivity| | | |].
    - rewrite (cached_keeps H1). now destruct (cached None _).
    - rewrite (cached_keeps H2). now destruct (cached None _).
    - rewrite (cached_keeps H3). now destruct (cached None _).
    - rewrite (cached_keeps H1), (cached_keeps H3). destruct (cached None (xbook_sheets expat z)) as [c r].
      match goal with |- context [match ?m with Ok _ => _ | Err _ => _ end] => destruct m as [b|] end; [|reflexivity]. now destruct (cached None (xbook_styles expat z)).
  Qed.
End Xlsx.

(** ** C102 *)
(** Full claim: what an operation on an open workbook gives depends on the file and the
    arguments only, not on what was done with the object before.  For .xlsx it holds. *)
Theorem C102_xlsx expat nv z l p : same_file z l -> xo_zf (xhistory expat nv xobj_new l) = Some (z, false) ->
  snd (xdo expat nv (xhistory expat nv xobj_new l) p) = snd (xdo expat nv (xnew z) p).
Proof. intros S F. apply (@xgood_same expat nv z _ false); [|exact F|reflexivity]. apply xgood_history; [exact S|]. now repeat split. Qed.
Print Assumptions C102_xlsx.

Section Xlsb.
  Context (expat : bytes -> list event * option exn) (nv : str -> bool) (z : archive).
  Local Notation shared_z := (p <- bbook_shared z nv ;; Ok (fst p)).
  Definition bgood (o : bobj) : Prop :=
    (forall z' b, bo_zf o = Some (z', b) -> z' = z) /\ keeps (bo_sheets o) (b_sheets_of expat z) /\ keeps (bo_shared o) shared_z /\ keeps (bo_styles o) (bbook_styles z).
  Lemma gen_or (r r' : res (list (str * str))) : (r' = r \/ forall a, r' <> Ok a) -> in_generator r' = r \/ forall a, in_generator r' <> Ok a.
  Proof. intros [->|H]; [|right; intro a; destruct r' as [x|[]]; cbn; try discriminate; apply H]. destruct r as [x|[]]; cbn; try (now left); right; discriminate. Qed.
  Lemma bgood_do o p : (forall z', p = OpEnter z' -> z' = z) -> bgood o -> bgood (fst (bdo expat nv o p)).
  Proof.
    intros Hp (H0 & H1 & H2 & H3). destruct p as [z'| | | | |w]; cbn [bdo].
    - cbn. split; [|now repeat split]. intros z0 b E. injection E as <- _. now apply Hp.
    - cbn. split; [|now repeat split]. intros z0 b E. destruct (bo_zf o) as [[z1 b1]|] eqn:F; [|discriminate]. injection E as <- _. exact (H0 z1 b1 eq_refl).
    - pose proof (cached_after H1 (reach_or (b_sheets_of expat) H0)) as K. destruct (cached (bo_sheets o) _) as [c r]. cbn in *. now repeat split.
    - pose proof (cached_after H2 (reach_or (fun z => p <- bbook_shared z nv ;; Ok (fst p)) H0)) as K. destruct (cached (bo_shared o) _) as [c r]. cbn in *. now repeat split.
    - pose proof (cached_after H3 (reach_or bbook_styles H0)) as K. destruct (cached (bo_styles o) _) as [c r]. cbn in *. now repeat split.
    - destruct (bo_zf o) as [f|] eqn:F; [|cbn; split; [now rewrite F|now repeat split]]. rewrite <- F in *.
      pose proof (cached_after H1 (gen_or (reach_or (b_sheets_of expat) H0))) as K. destruct (cached (bo_sheets o) _) as [c r]. cbn [fst] in K. cbn [bo_zf bo_styles set_sheets bo_nulls].
      match goal with |- context [match ?m with Ok _ => _ | Err _ => _ end] => destruct m as [b|] end; [|cbn; now repeat split].
      pose proof (cached_after H3 (reach_or bbook_styles H0)) as K3. destruct (cached (bo_styles o) _) as [c' r']. cbn [fst] in K3.
      match goal with |- context [if ?m then _ else _] => destruct m end; cbn; now repeat split.
  Qed.
  Lemma bgood_history l : forall o, same_file z l -> bgood o -> bgood (bhistory expat nv o l).
  Proof.
    induction l as [|p l IH]; intros o S G; [exact G|]. cbn [bhistory]. apply IH; [intros z' H; apply S; now right|]. apply bgood_do; [|exact G]. intros z' ->. apply S. now left.
  Qed.
  Lemma iter_nulls st n n' skip take tne cols b : (forall k, mem_str k n = mem_str k n') ->
    xlsb_iter st nv (fun _ k => mem_str k n) skip take tne cols b = xlsb_iter st nv (fun _ k => mem_str k n') skip take tne cols b.
  Proof.
    intro E. unfold xlsb_iter. destruct (skip <? 0); [reflexivity|]. destruct (take <? 0); [reflexivity|]. generalize (-1), false, O. induction (scan_part xlsb_ids b) as [|r rs IH]; intros row em m; [reflexivity|].
    cbn [xlsb_loop]. destruct (rec_id r =? 0); [destruct (_ && _)%bool; [reflexivity|]; now rewrite IH|]. destruct (row <? skip); [apply IH|]. destruct (rec_id r =? 402); [reflexivity|].
    assert (X : xlsb_cell st nv (fun _ k => mem_str k n) skip cols m row r = xlsb_cell st nv (fun _ k => mem_str k n') skip cols m row r) by (unfold xlsb_cell; now rewrite E).
    rewrite X. clear X. destruct (xlsb_cell _ _ _ _ _ _ _ _) as [[c|]|]; [rewrite (IH row false (S m)); reflexivity|apply IH|reflexivity].
  Qed.
  Lemma bgood_same o n p : bgood o -> bo_zf o = Some (z, false) -> (forall k, mem_str k (bo_nulls o) = mem_str k n) ->
    snd (bdo expat nv o p) = snd (bdo expat nv (mkBO (Some (z, false)) None None None n) p).
  Proof.
    intros (H0 & H1 & H2 & H3) F E. destruct p as [z'| | | | |w]; cbn [bdo]; rewrite ?F; cbn [reach bind bo_zf bo_sheets bo_shared bo_styles bo_nulls]; [reflexivity|reflexivity| | | |].
    - rewrite (cached_keeps H1). now destruct (cached None _).
    - rewrite (cached_keeps H2). now destruct (cached None _).
    - rewrite (cached_keeps H3). now destruct (cached None _).
    - assert (K : snd (cached (bo_sheets o) (in_generator (b_sheets_of expat z))) = snd (cached None (in_generator (b_sheets_of expat z)))).
      { destruct (bo_sheets o) as [d|]; [|reflexivity]. cbn in H1. rewrite H1. reflexivity. }
      destruct (cached (bo_sheets o) _) as [c r], (cached None (in_generator (b_sheets_of expat z))) as [c' r']. cbn [snd] in K. subst r'. cbn [set_sheets bo_zf bo_styles bo_nulls]. rewrite F. cbn [reach bind].
      match goal with |- context [match ?m with Ok _ => _ | Err _ => _ end] => destruct m as [b|] end; [|reflexivity]. rewrite (cached_keeps H3).
      destruct (cached None (bbook_styles z)) as [c2 st]. cbn [snd]. now rewrite (iter_nulls st _ _ _ _ b E).
  Qed.
End Xlsb.
Section Nulls.
  Context (expat : bytes -> list event * option exn) (nv : str -> bool) (z : archive).
  Local Notation bdo := (bdo expat nv).
  Lemma iter_keeps o w : bo_zf (fst (bdo o (OpIter w))) = bo_zf o /\ bo_shared (fst (bdo o (OpIter w))) = bo_shared o /\ bo_nulls (fst (bdo o (OpIter w))) = bo_nulls o.
  Proof.
    cbn [Objects.bdo]. destruct (bo_zf o) as [f|] eqn:F; [|cbn [fst]; now rewrite F]. destruct (cached (bo_sheets o) _) as [c r]. cbn [set_sheets bo_zf bo_shared bo_styles bo_nulls].
    match goal with |- context [match ?m with Ok _ => _ | Err _ => _ end] => destruct m as [b|] end; [|cbn; now rewrite F]. destruct (cached (bo_styles o) _) as [c' r'].
    match goal with |- context [if ?m then _ else _] => destruct m end; cbn; now rewrite F.
  Qed.
  Lemma nulls_do o p : (forall z', p = OpEnter z' -> z' = z) -> (forall z' b, bo_zf o = Some (z', b) -> z' = z) ->
    (forall k, In k (bo_nulls o) -> In k (b_null_keys nv z)) -> forall k, In k (bo_nulls (fst (bdo o p))) -> In k (b_null_keys nv z).
  Proof.
    intros Hp H0 H k. destruct p as [z'| | | | |w]; [exact (H k)|exact (H k)| | | |destruct (iter_keeps o w) as (_ & _ & ->); exact (H k)]; cbn [Objects.bdo].
    - destruct (cached (bo_sheets o) _). exact (H k).
    - destruct (cached (bo_shared o) _). cbn. intro I. apply in_app_or in I. destruct I as [I|I]; [now apply H|]. destruct (bo_shared o); [easy|].
      destruct (bo_zf o) as [[z' []]|]; cbn in I; try easy. now rewrite (H0 z' false eq_refl) in I.
    - destruct (cached (bo_styles o) _). exact (H k).
  Qed.
  Definition is_shared (p : op) : bool := match p with OpShared => true | _ => false end.
  Definition stays (p : op) : bool := match p with OpExit => false | _ => true end.
  (** [b]: the shared strings have been asked for. *)
  Definition nulls_are (b : bool) (o : bobj) : Prop :=
    bo_zf o = Some (z, false) /\ (b = false -> bo_shared o = None) /\ forall k, mem_str k (bo_nulls o) = b && mem_str k (b_null_keys nv z).
  Lemma mem_app k (a b : list str) : mem_str k (a ++ b) = mem_str k a || mem_str k b.
  Proof. unfold mem_str. apply existsb_app. Qed.
  Lemma nulls_are_do b o p : (forall z', p = OpEnter z' -> z' = z) -> stays p = true -> nulls_are b o -> nulls_are (b || is_shared p) (fst (bdo o p)).
  Proof.
    intros Hp St (F & H1 & H2). destruct p as [z'| | | | |w]; cbn [is_shared]; [| discriminate| | | |]; rewrite ?orb_false_r.
    - rewrite (Hp z' eq_refl). now repeat split.
    - cbn [Objects.bdo]. destruct (cached (bo_sheets o) _). now repeat split.
    - cbn [Objects.bdo]. rewrite F. cbn [reach bind]. destruct (cached (bo_shared o) _). rewrite orb_true_r. split; [reflexivity|]. split; [discriminate|]. intro k. cbn [fst bo_nulls].
      rewrite mem_app, H2. destruct b; cbn [andb]; [|rewrite (H1 eq_refl); reflexivity]. destruct (bo_shared o); cbn; [apply orb_false_r|apply orb_diag].
    - cbn [Objects.bdo]. destruct (cached (bo_styles o) _). now repeat split.
    - destruct (iter_keeps o w) as (E1 & E2 & E3). split; [now rewrite E1|]. split; [now rewrite E2|]. now rewrite E3.
  Qed.
  Lemma nulls_are_history l : forall b o, same_file z l -> forallb stays l = true -> nulls_are b o -> nulls_are (b || existsb is_shared l) (bhistory expat nv o l).
  Proof.
    induction l as [|p l IH]; intros b o S St N; cbn [bhistory existsb]; [now rewrite orb_false_r|]. cbn [forallb] in St. apply andb_prop in St. destruct St as [St1 St2].
    rewrite orb_assoc. apply IH; [intros z' H; apply S; now right|exact St2|]. apply nulls_are_do; [|exact St1|exact N]. intros z' ->. apply S. now left.
  Qed.
End Nulls.

(** For .xlsb, while the object stays open: everything but [null_shared] is as on a new object, and
    that holds the null shared strings if and only if [shared] has been asked for. *)
Theorem C102_xlsb_exact expat nv z l p : same_file z l -> forallb stays l = true ->
  snd (bdo expat nv (bhistory expat nv bobj_new (OpEnter z :: l)) p) =
  snd (bdo expat nv (mkBO (Some (z, false)) None None None (if existsb is_shared l then b_null_keys nv z else [])) p).
Proof.
  intros S St. assert (S' : same_file z (OpEnter z :: l)) by (intros z' [H|H]; [congruence|now apply S]).
  pose proof (@nulls_are_history expat nv z l false (fst (bdo expat nv bobj_new (OpEnter z))) S St ltac:(now repeat split)) as (F & _ & N).
  change (bhistory expat nv bobj_new (OpEnter z :: l)) with (bhistory expat nv (fst (bdo expat nv bobj_new (OpEnter z))) l).
  apply bgood_same; [|exact F|intro k; rewrite N; cbn [orb]; now destruct (existsb is_shared l)].
  apply bgood_history; [exact S|]. split; [|now repeat split]. intros z' b E. cbn in E. congruence.
Qed.
Print Assumptions C102_xlsb_exact.
(** What [shared] leaves there if it succeeds are the keys of C11. *)
Lemma null_keys_ok nv rs : forall i t n, xlsb_shared_from nv i rs = Ok (t, n) -> null_keys nv i rs = n.
Proof.
  induction rs as [|r rs IH]; intros i t n; cbn [xlsb_shared_from null_keys]; [intro H; now injection H as _ <-|].
  destruct (sst_text (rec_data r)) as [y|]; [|discriminate]. cbn [bind]. destruct (nv y).
  - destruct (pack_I i) as [k|]; [|discriminate]. cbn [bind]. destruct (xlsb_shared_from nv (i + 1) rs) as [[t' n']|] eqn:E; [|discriminate]. intro H. injection H as _ <-. cbn. f_equal. exact (IH _ _ _ E).
  - cbn [bind]. destruct (xlsb_shared_from nv (i + 1) rs) as [[t' n']|] eqn:E; [|discriminate]. intro H. injection H as _ <-. exact (IH _ _ _ E).
Qed.
Theorem C102_null_keys nv z t n : bbook_shared z nv = Ok (t, n) -> b_null_keys nv z = n.
Proof. unfold bbook_shared, b_null_keys. destruct (zopen z _) as [b|]; [|discriminate]. apply null_keys_ok. Qed.
Print Assumptions C102_null_keys.
(** So the claim holds, over all histories, if no shared string is null, ... *)
Lemma null_keys_nil nv rs : (forall r y, In r rs -> sst_text (rec_data r) = Ok y -> nv y = false) -> forall i, null_keys nv i rs = [].
Proof.
  induction rs as [|r rs IH]; intros H i; cbn [null_keys]; [reflexivity|]. destruct (sst_text (rec_data r)) as [y|] eqn:E; [|reflexivity]. rewrite (H r y (or_introl eq_refl) E). apply IH. intros r' y' Hr. apply H. now right.
Qed.
Theorem C102_xlsb_partial expat nv z l p : same_file z l -> bo_zf (bhistory expat nv bobj_new l) = Some (z, false) ->
  (forall b r y, zopen z (s "xl/sharedStrings.bin") = Ok b -> In r (scan_part [19] b) -> sst_text (rec_data r) = Ok y -> nv y = false) ->
  snd (bdo expat nv (bhistory expat nv bobj_new l) p) = snd (bdo expat nv (bnew z) p).
Proof.
  intros S F H. assert (K : b_null_keys nv z = []).
  { unfold b_null_keys. destruct (zopen z _) as [b|] eqn:E; [|reflexivity]. apply null_keys_nil. intros r y. exact (H b r y eq_refl). }
  assert (G0 : bgood expat nv z bobj_new) by now repeat split.
  assert (G1 : forall l o, same_file z l -> bgood expat nv z o -> bo_nulls o = [] -> bo_nulls (bhistory expat nv o l) = []).
  { clear -K. induction l as [|p l IH]; intros o S G N; [exact N|]. cbn [bhistory]. assert (Hp : forall z', p = OpEnter z' -> z' = z) by (intros z' ->; apply S; now left).
    apply IH; [intros z' H; apply S; now right|now apply bgood_do|]. pose proof (@nulls_do expat nv z o p Hp (proj1 G)) as D. rewrite N, K in D. specialize (D ltac:(easy)).
    destruct (bo_nulls (fst (bdo expat nv o p))) as [|y q]; [reflexivity|]. destruct (D y (or_introl eq_refl)). }
  apply bgood_same; [now apply bgood_history|exact F|]. intro k. now rewrite (G1 l bobj_new S G0 eq_refl).
Qed.
Print Assumptions C102_xlsb_partial.
(** ... and not in general: the cells of null shared strings are delivered by the first
    [iter_worksheet], not after [shared], ... *)
Definition places (r : bres) : list (Z * Z) := match r with BCells t => map (fun c => (c_row c, c_col c)) (Cell.cells_of (fst t)) | _ => [] end.
Definition nulls_z : str -> bool := xlsb_null (NList [s "z"]).
Theorem C102_xlsb_refuted :
  let run l := places (snd (bdo exb_expat nulls_z (bhistory exb_expat nulls_z bobj_new l) (OpIter (ex_w true)))) in let z := exb_files exb_rows exb_sl in
  run [OpEnter z] = [(0, 0); (0, 2); (1, 0); (1, 2); (3, 0); (3, 2)] /\
  run [OpEnter z; OpShared] = [(0, 0); (0, 2); (1, 0); (1, 2); (3, 2)] /\
  (* ... even if that failed at a later entry of the table *)
  let z' := map (fun m => if str_eqb (fst m) (s "xl/sharedStrings.bin") then (fst m, dumped (map sitem_record exb_sl ++ [mkRec 19 []])) else m) z in
  (match snd (bdo exb_expat nulls_z (bhistory exb_expat nulls_z bobj_new [OpEnter z']) OpShared) with BErr StructError => true | _ => false end) = true /\
  run [OpEnter z'] = run [OpEnter z] /\ run [OpEnter z'; OpShared] = run [OpEnter z; OpShared].
Proof. cbv zeta. split; [vm_compute; reflexivity|]. split; [vm_compute; reflexivity|]. split; [vm_compute; reflexivity|]. split; vm_compute; reflexivity. Qed.
Print Assumptions C102_xlsb_refuted.
(** An object entered again, when the file has been replaced by another, keeps what it had loaded. *)
Theorem C102_reopened_refuted expat nv z z' d x : b_sheets_of expat z = Ok d -> xbook_sheets expat z = Ok x ->
  snd (bdo expat nv (bhistory expat nv bobj_new [OpEnter z; OpSheets; OpExit; OpEnter z']) OpSheets) = BSheets d /\
  snd (xdo expat nv (xhistory expat nv xobj_new [OpEnter z; OpSheets; OpExit; OpEnter z']) OpSheets) = XSheets x.
Proof. intros H H'. cbn [bhistory bdo xhistory xdo bobj_new xobj_new bo_zf bo_sheets xo_zf xo_sheets fst snd reach bind]. rewrite H, H'. split; reflexivity. Qed.
Print Assumptions C102_reopened_refuted.
(** A history meeting the hypotheses of the theorems above. *)
Example C102_example :
  let z := exb_files exb_rows exb_sl in let nv := xlsb_null NNone in
  let l := [OpEnter z; OpIter (ex_w true); OpShared; OpExit; OpEnter z; OpSheets; OpIter (ex_w false)] in
  same_file z l /\ bo_zf (bhistory exb_expat nv bobj_new l) = Some (z, false) /\
  (forall b r y, zopen z (s "xl/sharedStrings.bin") = Ok b -> In r (scan_part [19] b) -> sst_text (rec_data r) = Ok y -> nv y = false) /\
  places (snd (bdo exb_expat nv (bhistory exb_expat nv bobj_new l) (OpIter (ex_w true)))) = [(0, 0); (0, 2); (1, 0); (1, 2); (3, 0); (3, 2)].
Proof.
  cbv zeta. split; [intros z' H; cbn in H; decompose [or] H; try discriminate; try easy; congruence|]. split; [vm_compute; reflexivity|]. split; [|vm_compute; reflexivity].
  intros b r y _ _ _. apply XlsbParts.xlsb_null_none.
Qed.

(** ** C103 *)
(** Full claim: an object gives values of its file only while it is open; otherwise its
    operations raise, and opening a file that is no workbook leaves nothing open.

    Never entered: RuntimeError. *)
Definition wants_file (p : op) : bool := match p with OpEnter _ | OpExit => false | _ => true end.
Definition brefused (e : exn) (r : bres) : Prop := r = BErr e \/ r = BCells ([], Some e).
Definition xrefused (e : exn) (r : xres) : Prop := r = XErr e \/ r = XCells ([], Some e).
Theorem C103_not_entered expat nv l p : (forall z, ~ In (OpEnter z) l) -> wants_file p = true ->
  brefused RuntimeError (snd (bdo expat nv (bhistory expat nv bobj_new l) p)) /\ xrefused RuntimeError (snd (xdo expat nv (xhistory expat nv xobj_new l) p)).
Proof.
  intros N W.
  assert (B : forall l n, (forall z, ~ In (OpEnter z) l) -> bhistory expat nv (mkBO None None None None n) l = mkBO None None None None n).
  { clear. induction l as [|p l IH]; intros n N; [reflexivity|]. cbn [bhistory]. assert (N' : forall z, ~ In (OpEnter z) l) by (intros z H; apply (N z); now right).
    destruct p as [z| | | | |w]; [destruct (N z (or_introl eq_refl))| | | | |]; cbn; rewrite ?app_nil_r; exact (IH n N'). }
  assert (X : forall l, (forall z, ~ In (OpEnter z) l) -> xhistory expat nv xobj_new l = xobj_new).
  { clear. induction l as [|p l IH]; intros N; [reflexivity|]. cbn [xhistory]. assert (N' : forall z, ~ In (OpEnter z) l) by (intros z H; apply (N z); now right).
    destruct p as [z| | | | |w]; [destruct (N z (or_introl eq_refl))| | | | |]; exact (IH N'). }
  unfold bobj_new. rewrite (B l [] N), (X l N). destruct p; try discriminate; split; solve [now left|now right].
Qed.
Print Assumptions C103_not_entered.
(** Closed: no cell is delivered, the iteration raises. *)
Theorem C103_closed expat nv l w :
  (exists e, snd (bdo expat nv (bhistory expat nv bobj_new (l ++ [OpExit])) (OpIter w)) = BCells ([], Some e)) /\
  (exists e, snd (xdo expat nv (xhistory expat nv xobj_new (l ++ [OpExit])) (OpIter w)) = XCells ([], Some e)).
Proof.
  split.
  - generalize bobj_new. induction l as [|p l IH]; intro o; [|exact (IH _)]. cbn [app bhistory bdo fst]. cbn [bo_zf]. destruct (bo_zf o) as [[z b]|]; [|cbn; now eexists]. cbn [bo_sheets bo_styles bo_nulls reach bind].
    destruct (cached (bo_sheets o) _) as [c r]. cbn [set_sheets bo_zf reach bind].
    destruct r as [d|]; cbn [bind]; [|now eexists]. destruct (select_sheet d (wo_sheet w)); cbn [bind]; [|now eexists]. destruct (wo_skip w <? 0); [now eexists|]. destruct (wo_take w <? 0); now eexists.
  - generalize xobj_new. induction l as [|p l IH]; intro o; [|exact (IH _)]. cbn [app xhistory xdo fst]. cbn [xo_zf]. destruct (xo_zf o) as [[z b]|]; [|cbn; now eexists]. cbn [xo_sheets xo_styles reach bind].
    destruct (cached (xo_sheets o) _) as [c r]. cbn [xo_zf reach bind].
    destruct r as [d|]; cbn [bind]; [|now eexists]. destruct (select_sheet d (wo_sheet w)); cbn [bind]; [|now eexists]. destruct (wo_skip w <? 0); [now eexists|]. destruct (wo_take w <? 0); now eexists.
Qed.
Print Assumptions C103_closed.
(** ... and what had not been loaded cannot be loaded; what had been loaded stays available. *)
Theorem C103_closed_exact expat nv l : let o := bhistory expat nv bobj_new l in let c := bhistory expat nv bobj_new (l ++ [OpExit]) in
  let x := xhistory expat nv xobj_new l in let y := xhistory expat nv xobj_new (l ++ [OpExit]) in bo_zf o <> None -> xo_zf x <> None ->
  snd (bdo expat nv c OpSheets) = match bo_sheets o with Some d => BSheets d | None => BErr ValueError end /\
  snd (bdo expat nv c OpShared) = match bo_shared o with Some d => BShared d | None => BErr ValueError end /\
  snd (bdo expat nv c OpStyles) = match bo_styles o with Some d => BStyles d | None => BErr ValueError end /\
  snd (xdo expat nv y OpSheets) = match xo_sheets x with Some d => XSheets d | None => XErr ValueError end /\
  snd (xdo expat nv y OpShared) = match xo_shared x with Some d => XShared d | None => XErr ValueError end /\
  snd (xdo expat nv y OpStyles) = match xo_styles x with Some d => XStyles d | None => XErr ValueError end.
Proof.
  cbv zeta.
  assert (B : forall l o, bhistory expat nv o (l ++ [OpExit]) = fst (bdo expat nv (bhistory expat nv o l) OpExit)) by (clear; induction l; intro o; [reflexivity|apply IHl]).
  assert (X : forall l o, xhistory expat nv o (l ++ [OpExit]) = fst (xdo expat nv (xhistory expat nv o l) OpExit)) by (clear; induction l; intro o; [reflexivity|apply IHl]).
  rewrite B, X. intros N N'. destruct (bhistory expat nv bobj_new l) as [[[z b]|] c1 c2 c3 ns]; [|easy]. destruct (xhistory expat nv xobj_new l) as [[[z' b']|] d1 d2 d3]; [|easy].
  cbn. repeat split; [destruct c1|destruct c2|destruct c3|destruct d1|destruct d2|destruct d3]; reflexivity.
Qed.
Print Assumptions C103_closed_exact.
(** A property once loaded stays as it is, whatever is done afterwards (also when the file is replaced). *)
Definition property (p : op) : bool := match p with OpSheets | OpShared | OpStyles => true | _ => false end.
Lemma bcaches expat nv o p : let o' := fst (bdo expat nv o p) in
  (forall a, bo_sheets o = Some a -> bo_sheets o' = Some a) /\ (forall a, bo_shared o = Some a -> bo_shared o' = Some a) /\ (forall a, bo_styles o = Some a -> bo_styles o' = Some a).
Proof.
  cbv zeta. assert (C : forall A (c : option A) r a, c = Some a -> fst (cached c r) = Some a) by (intros A c r a ->; reflexivity). destruct p as [z| | | | |w]; cbn [bdo].
  - now repeat split.
  - now repeat split.
  - pose proof (C _ (bo_sheets o) (z <- reach (bo_zf o) ;; b_sheets_of expat z)) as K. destruct (cached (bo_sheets o) _). cbn in *. now repeat split.
  - pose proof (C _ (bo_shared o) (z <- reach (bo_zf o) ;; p <- bbook_shared z nv ;; Ok (fst p))) as K. destruct (cached (bo_shared o) _). cbn in *. now repeat split.
  - pose proof (C _ (bo_styles o) (z <- reach (bo_zf o) ;; bbook_styles z)) as K. destruct (cached (bo_styles o) _). cbn in *. now repeat split.
  - destruct (bo_zf o) as [f|] eqn:F; [|now repeat split]. rewrite <- F. pose proof (C _ (bo_sheets o) (in_generator (z <- reach (bo_zf o) ;; b_sheets_of expat z))) as K. destruct (cached (bo_sheets o) _) as [c r]. cbn [fst set_sheets bo_zf bo_styles bo_nulls] in *.
    match goal with |- context [match ?m with Ok _ => _ | Err _ => _ end] => destruct m as [b|] end; [|cbn; now repeat split]. pose proof (C _ (bo_styles o) (z <- reach (bo_zf o) ;; bbook_styles z)) as K3. destruct (cached (bo_styles o) _) as [c' r']. cbn [fst] in K3.
    match goal with |- context [if ?m then _ else _] => destruct m end; cbn; now repeat split.
Qed.
Lemma xcaches expat nv o p : let o' := fst (xdo expat nv o p) in
  (forall a, xo_sheets o = Some a -> xo_sheets o' = Some a) /\ (forall a, xo_shared o = Some a -> xo_shared o' = Some a) /\ (forall a, xo_styles o = Some a -> xo_styles o' = Some a).
Proof.
  cbv zeta. assert (C : forall A (c : option A) r a, c = Some a -> fst (cached c r) = Some a) by (intros A c r a ->; reflexivity). destruct p as [z| | | | |w]; cbn [xdo].
  - now repeat split.
  - now repeat split.
  - pose proof (C _ (xo_sheets o) (z <- reach (xo_zf o) ;; xbook_sheets expat z)) as K. destruct (cached (xo_sheets o) _). cbn in *. now repeat split.
  - pose proof (C _ (xo_shared o) (z <- reach (xo_zf o) ;; xbook_shared expat z nv)) as K. destruct (cached (xo_shared o) _). cbn in *. now repeat split.
  - pose proof (C _ (xo_styles o) (z <- reach (xo_zf o) ;; xbook_styles expat z)) as K. destruct (cached (xo_styles o) _). cbn in *. now repeat split.
  - destruct (xo_zf o) as [f|] eqn:F; [|now repeat split]. rewrite <- F. pose proof (C _ (xo_sheets o) (z <- reach (xo_zf o) ;; xbook_sheets expat z)) as K. destruct (cached (xo_sheets o) _) as [c r]. cbn [fst xo_zf xo_styles] in *.
    match goal with |- context [match ?m with Ok _ => _ | Err _ => _ end] => destruct m as [b|] end; [|cbn; now repeat split]. pose proof (C _ (xo_styles o) (z <- reach (xo_zf o) ;; xbook_styles expat z)) as K3. destruct (cached (xo_styles o) _) as [c' r']. cbn in *. now repeat split.
Qed.
Theorem C103_loaded_stays expat nv l p q : property p = true ->
  (forall r, (forall e, r <> BErr e) -> snd (bdo expat nv (bhistory expat nv bobj_new l) p) = r -> snd (bdo expat nv (bhistory expat nv bobj_new (l ++ p :: q)) p) = r) /\
  (forall r, (forall e, r <> XErr e) -> snd (xdo expat nv (xhistory expat nv xobj_new l) p) = r -> snd (xdo expat nv (xhistory expat nv xobj_new (l ++ p :: q)) p) = r).
Proof.
  intro P.
  assert (B : forall l o, bhistory expat nv o (l ++ p :: q) = bhistory expat nv (fst (bdo expat nv (bhistory expat nv o l) p)) q) by (clear; induction l; intro o; [reflexivity|apply IHl]).
  assert (X : forall l o, xhistory expat nv o (l ++ p :: q) = xhistory expat nv (fst (xdo expat nv (xhistory expat nv o l) p)) q) by (clear; induction l; intro o; [reflexivity|apply IHl]).
  rewrite B, X. generalize (bhistory expat nv bobj_new l), (xhistory expat nv xobj_new l). clear B X l. intros o x.
  assert (B : forall q o, (forall a, bo_sheets o = Some a -> bo_sheets (bhistory expat nv o q) = Some a) /\ (forall a, bo_shared o = Some a -> bo_shared (bhistory expat nv o q) = Some a) /\ (forall a, bo_styles o = Some a -> bo_styles (bhistory expat nv o q) = Some a)).
  { clear. induction q as [|p q IH]; intro o; [now repeat split|]. cbn [bhistory]. destruct (bcaches expat nv o p) as (A1 & A2 & A3). destruct (IH (fst (bdo expat nv o p))) as (B1 & B2 & B3). repeat split; intros a H; auto. }
  assert (X : forall q o, (forall a, xo_sheets o = Some a -> xo_sheets (xhistory expat nv o q) = Some a) /\ (forall a, xo_shared o = Some a -> xo_shared (xhistory expat nv o q) = Some a) /\ (forall a, xo_styles o = Some a -> xo_styles (xhistory expat nv o q) = Some a)).
  { clear. induction q as [|p q IH]; intro o; [now repeat split|]. cbn [xhistory]. destruct (xcaches expat nv o p) as (A1 & A2 & A3). destruct (IH (fst (xdo expat nv o p))) as (B1 & B2 & B3). repeat split; intros a H; auto. }
  specialize (B q (fst (bdo expat nv o p))). specialize (X q (fst (xdo expat nv x p))). destruct B as (B1 & B2 & B3), X as (X1 & X2 & X3).
  assert (C : forall A (c : option A) r, (exists a, snd (cached c r) = Ok a /\ fst (cached c r) = Some a) \/ exists e, snd (cached c r) = Err e) by (intros A [a|] [a'|e]; cbn; eauto).
  split; intros r N E; destruct p; try discriminate; cbn [bdo xdo] in *.
  - destruct (C _ (bo_sheets o) (z <- reach (bo_zf o) ;; b_sheets_of expat z)) as [(a & C1 & C2)|[e C1]]; destruct (cached (bo_sheets o) _) as [c r']; cbn in *; subst r' r; [|now destruct (N e)]. now rewrite (B1 a C2).
  - destruct (C _ (bo_shared o) (z <- reach (bo_zf o) ;; p <- bbook_shared z nv ;; Ok (fst p))) as [(a & C1 & C2)|[e C1]]; destruct (cached (bo_shared o) _) as [c r']; cbn in *; subst r' r; [|now destruct (N e)]. now rewrite (B2 a C2).
  - destruct (C _ (bo_styles o) (z <- reach (bo_zf o) ;; bbook_styles z)) as [(a & C1 & C2)|[e C1]]; destruct (cached (bo_styles o) _) as [c r']; cbn in *; subst r' r; [|now destruct (N e)]. now rewrite (B3 a C2).
  - destruct (C _ (xo_sheets x) (z <- reach (xo_zf x) ;; xbook_sheets expat z)) as [(a & C1 & C2)|[e C1]]; destruct (cached (xo_sheets x) _) as [c r']; cbn in *; subst r' r; [|now destruct (N e)]. now rewrite (X1 a C2).
  - destruct (C _ (xo_shared x) (z <- reach (xo_zf x) ;; xbook_shared expat z nv)) as [(a & C1 & C2)|[e C1]]; destruct (cached (xo_shared x) _) as [c r']; cbn in *; subst r' r; [|now destruct (N e)]. now rewrite (X2 a C2).
  - destruct (C _ (xo_styles x) (z <- reach (xo_zf x) ;; xbook_styles expat z)) as [(a & C1 & C2)|[e C1]]; destruct (cached (xo_styles x) _) as [c r']; cbn in *; subst r' r; [|now destruct (N e)]. now rewrite (X3 a C2).
Qed.
Print Assumptions C103_loaded_stays.
(** A file without workbook part is refused, but its archive stays open in the object - a [with]
    statement never closes it. *)
Theorem C103_failed_open_refuted expat nv z : has_member z (s "xl/workbook.bin") = false -> has_member z (s "xl/workbook.xml") = false ->
  snd (bdo expat nv bobj_new (OpEnter z)) = BErr AssertionError /\ bo_zf (fst (bdo expat nv bobj_new (OpEnter z))) = Some (z, false) /\
  snd (xdo expat nv xobj_new (OpEnter z)) = XErr AssertionError /\ xo_zf (fst (xdo expat nv xobj_new (OpEnter z))) = Some (z, false).
Proof. intros H H'. cbn [bdo xdo fst snd]. rewrite H, H'. now repeat split. Qed.
Print Assumptions C103_failed_open_refuted.
Example C103_example :
  let z := exb_files exb_rows exb_sl in let nv := xlsb_null NNone in
  (match snd (bdo exb_expat nv (bhistory exb_expat nv bobj_new [OpEnter z; OpShared; OpExit]) OpShared) with BShared l => l | _ => [] end) = [s "name"; s "z"] /\
  (match snd (bdo exb_expat nv (bhistory exb_expat nv bobj_new [OpEnter z; OpShared; OpExit]) OpSheets) with BErr ValueError => true | _ => false end) = true /\
  has_member [(s "a", [])] (s "xl/workbook.bin") = false /\ has_member [(s "a", [])] (s "xl/workbook.xml") = false.
Proof. cbv zeta. split; [vm_compute; reflexivity|]. split; [vm_compute; reflexivity|]. split; reflexivity. Qed.
