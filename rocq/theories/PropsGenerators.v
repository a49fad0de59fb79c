(** C104: iterations of one workbook object at the same time. *)
From Coq Require Import ZifyBool ZifyNat.
From Verif Require Import Py PyFacts PyText Biff BiffRecs Cell Xlsb XlsbSpec Xlsx Sheets Workbook WorkbookSpec PropsWorkbook Objects PropsObjects Generators.
Set Implicit Arguments. Unset Strict Implicit.

(** What is seen of an iteration giving [l] and ending with [e] when [n] cells are asked for. *)
Fixpoint upto (n : nat) (l : list out) (e : option exn) : view :=
  match n with
  | O => ([], None)
  | S m => match l with
           | [] => ([], Some e)
           | OCell c :: l => let '(o, f) := upto m l e in (OCell c :: o, f)
           | OCall :: l => let '(o, f) := upto n l e in (OCall :: o, f)
           end
  end.
Lemma upto_0 l e : upto 0 l e = ([], None). Proof. now destruct l. Qed.
(** How often [next] is called on generator [i]; whether it is closed. *)
Definition nexts (i : nat) (l : list sop) : nat := List.length (filter (is_next i) l).
Definition closes (i : nat) (p : sop) : bool := match p with SClose j => Nat.eqb i j | _ => false end.

Lemma put_other A i j (a : A) : forall l, i <> j -> nth_error (put j a l) i = nth_error l i.
Proof. revert j. induction i as [|i IH]; intros [|j] [|x l] H; cbn; try easy. apply IH. congruence. Qed.
Lemma put_same A i (a g : A) : forall l, nth_error l i = Some g -> nth_error (put i a l) i = Some a.
Proof. induction i as [|i IH]; intros [|x l] H; cbn in *; try easy. now apply IH. Qed.
Lemma next_is i p : is_next i p = true -> p = SNext i.
Proof. destruct p as [| |j|]; try discriminate. cbn. intro H. apply Nat.eqb_eq in H. now subst. Qed.

Section Xlsx.
  Context (expat : bytes -> list event * option exn) (nv : str -> bool).
  Local Notation xsdo := (xsdo expat nv). Local Notation xseen := (xseen expat nv).
  Definition xwhole (o : xobj) (w : wopts) : trace := match snd (xdo expat nv o (OpIter w)) with XCells t => t | _ => ([], None) end.
  Lemma xopen_is o w : snd (xopen expat nv o w) = match snd (xwhole o w) with None => Ok (Cell.cells_of (fst (xwhole o w))) | Some e => Err e end.
  Proof.
    unfold xopen, xwhole. cbn [xdo]. destruct (xo_zf o) as [f|]; [|reflexivity]. destruct (cached (xo_sheets o) _) as [c r]. cbn [xo_zf xo_styles].
    match goal with |- context [match ?m with Ok _ => _ | Err _ => _ end] => destruct m as [b|] end; [|reflexivity]. destruct (cached (xo_styles o) _) as [c' r']. cbn [snd].
    destruct r' as [st|]; cbn [bind snd]; [|reflexivity]. now destruct (expat b).
  Qed.
  Lemma xwhole_err o w e : snd (xwhole o w) = Some e -> Cell.cells_of (fst (xwhole o w)) = [].
  Proof.
    unfold xwhole. cbn [xdo]. destruct (xo_zf o) as [f|]; [|reflexivity]. destruct (cached (xo_sheets o) _) as [c r]. cbn [xo_zf xo_styles].
    match goal with |- context [match ?m with Ok _ => _ | Err _ => _ end] => destruct m as [b|] end; [|reflexivity]. destruct (cached (xo_styles o) _) as [c' r']. cbn [snd].
    destruct r' as [st|]; [|reflexivity]. destruct (expat b). discriminate.
  Qed.
  Lemma xsdo_other i y g p : is_next i p = false -> closes i p = false -> nth_error (snd y) i = Some g -> nth_error (snd (fst (xsdo y p))) i = Some g.
  Proof.
    destruct y as [o gs]. intros N M H. destruct p as [p|w|j|j]; cbn in *; [exact H|rewrite nth_error_app1; [exact H|apply nth_error_Some; now rewrite H]| |].
    - destruct (nth_error gs j) as [g'|]; [|exact H]. destruct (xnext expat nv o g') as [o' [a g'']]. cbn. rewrite put_other; [exact H|]. intros ->. now rewrite Nat.eqb_refl in N.
    - rewrite put_other; [exact H|]. intros ->. now rewrite Nat.eqb_refl in M.
  Qed.
  Lemma xseen_run i l : existsb (closes i) l = false -> forall y cs, nth_error (snd y) i = Some (XRun cs) -> xseen i y l = upto (nexts i l) (map OCell cs) None.
  Proof.
    unfold nexts. induction l as [|p l IH]; intros C y cs H; [symmetry; apply upto_0|]. cbn [existsb] in C. apply orb_false_elim in C. destruct C as [C1 C2]. cbn [Generators.xseen filter].
    destruct (is_next i p) eqn:N; [|apply (IH C2 _ cs); now apply xsdo_other].
    apply next_is in N. subst p. destruct y as [o gs]. cbn in H. cbn [Generators.xsdo]. rewrite H. cbn [xnext]. destruct cs as [|c cs]; cbn; [reflexivity|].
    rewrite (IH C2 _ cs); [reflexivity|]. cbn. now apply put_same with (g := XRun (c :: cs)).
  Qed.
End Xlsx.

(** ** C104 *)
(** Full claim: once started, an iteration gives what it would have given if run to its end at
    once, whatever is done with the workbook in between: other iterations, properties, closing,
    opening another file.  For .xlsx it holds. *)
Theorem C104_xlsx expat nv o gs i w l t : nth_error gs i = Some (XNew w) -> existsb (closes i) l = false ->
  snd (xdo expat nv o (OpIter w)) = XCells t ->
  xseen expat nv i (o, gs) (SNext i :: l) = upto (S (nexts i l)) (map OCell (Cell.cells_of (fst t))) (snd t).
Proof.
  intros H C T. assert (W : xwhole expat nv o w = t) by (unfold xwhole; now rewrite T). cbn [xseen is_next]. rewrite Nat.eqb_refl. cbn [xsdo]. rewrite H. cbn [xnext].
  pose proof (xopen_is expat nv o w) as X. destruct (xopen expat nv o w) as [o' r]. cbn [snd] in X. subst r. rewrite W.
  destruct (snd t) as [e|] eqn:E; [rewrite <- W in E; apply xwhole_err in E; rewrite W in E; rewrite E; reflexivity|].
  destruct (Cell.cells_of (fst t)) as [|c cs]; cbn; [reflexivity|]. rewrite (xseen_run expat nv C (y := (o', put i (XRun cs) gs)) (cs := cs)); [reflexivity|]. cbn. now apply put_same with (g := XNew w).
Qed.
Print Assumptions C104_xlsx.

Section Xlsb.
  Context (expat : bytes -> list event * option exn) (nv : str -> bool).
  Local Notation bsdo := (bsdo expat nv). Local Notation bseen := (bseen expat nv). Local Notation bsrun := (bsrun expat nv).
  Local Notation loop w st ns := (xlsb_loop st nv ns (wo_skip w) (wo_take w) (wo_tne w) (wo_cols w)).
  Lemma resume_loop st ns w rs : forall row em n,
    loop w st ns rs row em n =
    match bresume nv st (ns n) w rs row em with
    | (k, AYield c, GRun _ rs' row') => let '(o, e) := loop w st ns rs' row' false (S n) in (repeat OCall k ++ OCell c :: o, e)
    | (k, AYield c, _) => (repeat OCall k, None)
    | (k, AStop, _) => (repeat OCall k, None)
    | (k, ARaise e, _) => (repeat OCall k, Some e)
    end.
  Proof.
    induction rs as [|r rs IH]; intros row em n; [reflexivity|]. cbn [xlsb_loop bresume]. destruct (rec_id r =? 0).
    - destruct (_ && _)%bool; [reflexivity|]. rewrite IH. destruct (bresume _ _ _ _ _ _ _) as [[k [c| |e]] [w'|w' rs' row'|]]; try (destruct (wo_skip w <=? _); reflexivity);
      try (destruct (loop w st ns rs' row' false (S n)); destruct (wo_skip w <=? _); reflexivity).
    - destruct (row <? wo_skip w); [apply IH|]. destruct (rec_id r =? 402); [reflexivity|].
      change (xlsb_cell st nv (fun _ : nat => ns n) (wo_skip w) (wo_cols w) 0 row r) with (xlsb_cell st nv ns (wo_skip w) (wo_cols w) n row r).
      destruct (xlsb_cell st nv ns (wo_skip w) (wo_cols w) n row r) as [[c|]|e]; [|apply IH|reflexivity]. cbn. now destruct (loop w st ns rs row false (S n)).
  Qed.
  Lemma resume_yield st ns w rs : forall row em k c g, bresume nv st ns w rs row em = (k, AYield c, g) -> (exists rs' row', g = GRun w rs' row') /\ exists a, st = Ok a.
  Proof.
    induction rs as [|r rs IH]; intros row em k c g; [discriminate|]. cbn [bresume]. destruct (rec_id r =? 0).
    - destruct (_ && _)%bool; [discriminate|]. destruct (bresume nv st ns w rs _ true) as [[k' a'] g'] eqn:E. intro H. injection H as _ -> ->. exact (IH _ _ _ _ _ E).
    - destruct (row <? wo_skip w); [apply IH|]. destruct (rec_id r =? 402); [discriminate|]. destruct (xlsb_cell _ _ _ _ _ _ _ _) as [[c'|]|e] eqn:E; [|apply IH|discriminate].
      intro H. injection H as _ _ <-. split; [now eexists _, _|]. unfold xlsb_cell in E. destruct (unpack_I _); [|discriminate]. cbn [bind] in E. destruct (mem_Z _ _); [discriminate|]. destruct st; [now eexists|discriminate].
  Qed.
  (** The stretch needs [styles] if it yields. *)
  Lemma resume_used st ns w rs : forall row em k c g, bresume nv st ns w rs row em = (k, AYield c, g) -> exists k' g', bresume nv (Err Undefined) ns w rs row em = (k', ARaise Undefined, g').
  Proof.
    induction rs as [|r rs IH]; intros row em k c g; [discriminate|]. cbn [bresume]. destruct (rec_id r =? 0).
    - destruct (_ && _)%bool; [discriminate|]. destruct (bresume nv st ns w rs _ true) as [[k' a'] g'] eqn:E. intro H. injection H as _ -> ->. destruct (IH _ _ _ _ _ E) as (k2 & g2 & ->). now eexists _, _.
    - destruct (row <? wo_skip w); [apply IH|]. destruct (rec_id r =? 402); [discriminate|]. unfold xlsb_cell. destruct (unpack_I _); [|discriminate]. cbn [bind]. destruct (mem_Z _ _); [apply IH|].
      cbn [bind]. intros _. now eexists _, _.
  Qed.
  Lemma cached_err A (c : option A) r e : snd (cached c r) = Err e -> c = None /\ r = Err e.
  Proof. destruct c; [discriminate|]. destruct r; [discriminate|]. cbn. now intro H; injection H as <-. Qed.
  Lemma cached_ok A (c : option A) r a : snd (cached c r) = Ok a -> fst (cached c r) = Some a.
  Proof. destruct c; cbn; [now intro H; injection H as <-|]. destruct r; cbn; [|discriminate]. now intro H; injection H as <-. Qed.
  Lemma stretch_yield o w rs row k c g : snd (bstretch nv o w rs row) = (k, AYield c, g) ->
    (exists rs' row', g = GRun w rs' row') /\ exists a, snd (bstyles o) = Ok a /\ bo_styles (fst (bstretch nv o w rs row)) = Some a.
  Proof.
    intro H. unfold bstretch in *. cbn [fst snd] in *. destruct (resume_yield H) as (G & a & E). split; [exact G|]. exists a. split; [exact E|].
    destruct (resume_used H) as (k' & g' & ->). cbn [set_styles bo_styles]. now apply cached_ok.
  Qed.
  Lemma stretch_nulls o w rs row : bo_nulls (fst (bstretch nv o w rs row)) = bo_nulls o.
  Proof. unfold bstretch. cbn [fst]. match goal with |- context [if ?m then _ else _] => destruct m end; reflexivity. Qed.
  Lemma stretch_styles o w rs row a : bo_styles o = Some a -> bo_styles (fst (bstretch nv o w rs row)) = Some a.
  Proof. intro H. unfold bstretch. cbn [fst]. match goal with |- context [if ?m then _ else _] => destruct m end; [|exact H]. cbn. unfold bstyles. now rewrite H. Qed.
  Lemma open_keeps o w : bo_nulls (fst (bopen expat o w)) = bo_nulls o /\ bo_styles (fst (bopen expat o w)) = bo_styles o /\ bo_zf (fst (bopen expat o w)) = bo_zf o.
  Proof. unfold bopen. destruct (bo_zf o) eqn:F; [|now rewrite ?F]. destruct (cached (bo_sheets o) _). cbn. now rewrite ?F. Qed.
  Lemma next_keeps o g : bo_nulls (fst (bnext expat nv o g)) = bo_nulls o /\ (forall a, bo_styles o = Some a -> bo_styles (fst (bnext expat nv o g)) = Some a).
  Proof.
    destruct g as [w|w rs row|]; cbn [bnext].
    - destruct (open_keeps o w) as (E1 & E2 & _). destruct (bopen expat o w) as [o' [b|]]; cbn [fst] in *; [|split; [exact E1|now rewrite E2]].
      split; [now rewrite stretch_nulls|]. intros a H. apply stretch_styles. now rewrite E2.
    - split; [apply stretch_nulls|intro a; apply stretch_styles].
    - now split.
  Qed.
  Lemma bdo_keeps o p : (exists x, bo_nulls (fst (bdo expat nv o p)) = bo_nulls o ++ x) /\ (forall a, bo_styles o = Some a -> bo_styles (fst (bdo expat nv o p)) = Some a).
  Proof.
    destruct p as [z| | | | |w]; cbn [bdo].
    - split; [exists []; now rewrite app_nil_r|easy].
    - split; [exists []; now rewrite app_nil_r|easy].
    - destruct (cached (bo_sheets o) _). split; [exists []; now rewrite app_nil_r|easy].
    - destruct (cached (bo_shared o) _). split; [now eexists|easy].
    - destruct (bo_styles o) as [a|]; cbn; [split; [exists []; now rewrite app_nil_r|easy]|]. destruct (z <- reach (bo_zf o) ;; bbook_styles z); (split; [exists []; now rewrite app_nil_r|easy]).
    - destruct (bo_zf o) as [f|]; [|split; [exists []; now rewrite app_nil_r|easy]]. destruct (cached (bo_sheets o) _) as [c r]. cbn [set_sheets bo_styles bo_nulls bo_zf].
      match goal with |- context [match ?m with Ok _ => _ | Err _ => _ end] => destruct m as [b|] end; [|split; [exists []; now rewrite app_nil_r|easy]].
      split; [exists []; rewrite app_nil_r; destruct (cached (bo_styles o) _); match goal with |- context [if ?m then _ else _] => destruct m end; reflexivity|].
      intros a Ha. rewrite Ha. cbn. match goal with |- context [if ?m then _ else _] => destruct m end; [reflexivity|exact Ha].
  Qed.
  Lemma bsdo_keeps y p : (exists x, bo_nulls (fst (fst (bsdo y p))) = bo_nulls (fst y) ++ x) /\ (forall a, bo_styles (fst y) = Some a -> bo_styles (fst (fst (bsdo y p))) = Some a).
  Proof.
    destruct y as [o gs]. destruct p as [p|w|j|j]; cbn [Generators.bsdo fst].
    - apply bdo_keeps.
    - split; [exists []; now rewrite app_nil_r|easy].
    - destruct (nth_error gs j) as [g|]; [|split; [exists []; now rewrite app_nil_r|easy]]. destruct (next_keeps o g) as [E1 E2]. destruct (bnext expat nv o g) as [o' [[k a] g']]. cbn in *. split; [exists []; now rewrite app_nil_r|exact E2].
    - split; [exists []; now rewrite app_nil_r|easy].
  Qed.
  Lemma bsrun_nulls l : forall y, exists x, bo_nulls (fst (bsrun y l)) = bo_nulls (fst y) ++ x.
  Proof.
    induction l as [|p l IH]; intro y; [exists []; now rewrite app_nil_r|]. cbn [Generators.bsrun]. destruct (IH (fst (bsdo y p))) as [x ->]. destruct (bsdo_keeps y p) as [[x' ->] _]. exists (x' ++ x). now rewrite app_assoc.
  Qed.
  Lemma bsdo_other i y g p : is_next i p = false -> closes i p = false -> nth_error (snd y) i = Some g -> nth_error (snd (fst (bsdo y p))) i = Some g.
  Proof.
    destruct y as [o gs]. intros N M H. destruct p as [p|w|j|j]; cbn in *; [exact H|rewrite nth_error_app1; [exact H|apply nth_error_Some; now rewrite H]| |].
    - destruct (nth_error gs j) as [g'|]; [|exact H]. destruct (bnext expat nv o g') as [o' [[k a] g'']]. cbn. rewrite put_other; [exact H|]. intros ->. now rewrite Nat.eqb_refl in N.
    - rewrite put_other; [exact H|]. intros ->. now rewrite Nat.eqb_refl in M.
  Qed.
  Lemma loop_same w st ns ns' rs : forall row em n m, (forall j k, ns (n + j)%nat k = ns' (m + j)%nat k) -> loop w st ns rs row em n = loop w st ns' rs row em m.
  Proof.
    induction rs as [|r rs IH]; intros row em n m E; [reflexivity|]. cbn [xlsb_loop]. destruct (rec_id r =? 0); [destruct (_ && _)%bool; [reflexivity|]; now rewrite (IH _ true n m E)|].
    destruct (row <? wo_skip w); [now apply IH|]. destruct (rec_id r =? 402); [reflexivity|].
    assert (X : xlsb_cell st nv ns (wo_skip w) (wo_cols w) n row r = xlsb_cell st nv ns' (wo_skip w) (wo_cols w) m row r) by (unfold xlsb_cell; specialize (E O); rewrite !Nat.add_0_r in E; now rewrite E).
    rewrite X. destruct (xlsb_cell st nv ns' _ _ _ _ _) as [[c|]|]; [|now apply IH|reflexivity]. rewrite (IH row false (S n) (S m)); [reflexivity|]. intros j k. specialize (E (S j) k). now rewrite <- !plus_n_Sm in E.
  Qed.
  Lemma upto_cell k c n l e : upto (S n) (repeat OCall k ++ OCell c :: l) e = (repeat OCall k ++ OCell c :: fst (upto n l e), snd (upto n l e)).
  Proof. induction k as [|k IH]; cbn [repeat app]; [cbn; now destruct (upto n l e)|]. cbn [upto] in *. now rewrite IH. Qed.
  Lemma upto_over k n e : upto (S n) (repeat OCall k) e = (repeat OCall k, Some e).
  Proof. induction k as [|k IH]; [reflexivity|]. cbn [repeat upto] in *. now rewrite IH. Qed.
  Lemma mem_more k (a b : list bytes) : mem_str k a = true -> mem_str k (a ++ b) = true.
  Proof. rewrite mem_app. now intros ->. Qed.
  (** [null_shared] as the iteration meets it. *)
  Definition growing (now final : list bytes) (ns : nat -> bytes -> bool) : Prop :=
    (forall k, mem_str k now = true -> ns O k = true) /\ (forall n k, ns n k = true -> ns (S n) k = true) /\ (forall n k, ns n k = true -> mem_str k final = true).
  Definition first_then (now : list bytes) (ns : nat -> bytes -> bool) (n : nat) : bytes -> bool := match n with O => fun k => mem_str k now | S n => ns n end.
  Lemma growing_then now x final ns : growing (now ++ x) final ns -> growing now final (first_then now ns).
  Proof.
    intros (A & B & C). split; [easy|]. split; intros [|n] k; cbn.
    - intro H. apply A. now apply mem_more.
    - apply B.
    - intro H. apply (C O). apply A. now apply mem_more.
    - apply C.
  Qed.
  Lemma seen_run i l : existsb (closes i) l = false -> forall y w rs row a, nth_error (snd y) i = Some (GRun w rs row) -> bo_styles (fst y) = Some a ->
    exists ns, growing (bo_nulls (fst y)) (bo_nulls (fst (bsrun y l))) ns /\
      let t := loop w (Ok a) ns rs row false O in bseen i y l = upto (nexts i l) (fst t) (snd t).
  Proof.
    cbv zeta. unfold nexts. induction l as [|p l IH]; intros C y w rs row a H St.
    - exists (fun _ (k : bytes) => mem_str k (bo_nulls (fst y))). split; [now split; [|split]|symmetry; apply upto_0].
    - cbn [existsb] in C. apply orb_false_elim in C. destruct C as [C1 C2]. destruct (bsdo_keeps y p) as [[x Ex] Ks]. cbn [Generators.bsrun Generators.bseen filter].
      destruct (is_next i p) eqn:N.
      + apply next_is in N. subst p. destruct y as [o gs]. cbn [fst snd] in *. cbn [Generators.bsdo] in *. rewrite H in *. cbn [bnext] in *.
        assert (R : snd (bstretch nv o w rs row) = bresume nv (Ok a) (fun k : bytes => mem_str k (bo_nulls o)) w rs row false) by (unfold bstretch, bstyles; cbn [snd]; now rewrite St).
        pose proof (fun k c g => @stretch_yield o w rs row k c g) as Y. rewrite R in Y.
        destruct (bstretch nv o w rs row) as [o' r]. cbn [snd fst] in R, Y. subst r.
        destruct (bresume nv (Ok a) (fun k : bytes => mem_str k (bo_nulls o)) w rs row false) as [[k an] g] eqn:R. cbn [fst snd] in *.
        destruct an as [c| |e].
        * destruct (Y k c g eq_refl) as ((rs' & row' & ->) & a' & Sa & Sb). unfold bstyles in Sa. rewrite St in Sa. cbn in Sa. injection Sa as <-.
          destruct (IH C2 (o', put i (GRun w rs' row') gs) w rs' row' a (put_same (GRun w rs' row') H) Sb) as (ns & G & E). cbn [fst] in *. rewrite Ex in G. exists (first_then (bo_nulls o) ns). split; [exact (growing_then G)|].
          rewrite E. rewrite (resume_loop (Ok a) (first_then (bo_nulls o) ns) w rs row false 0). cbn [first_then]. rewrite R.
          rewrite (@loop_same w (Ok a) (first_then (bo_nulls o) ns) ns rs' row' false 1 0); [|easy]. destruct (loop w (Ok a) ns rs' row' false 0) as [outs f]. cbn [fst snd List.length]. rewrite upto_cell. now destruct (upto _ outs f).
        * exists (fun _ (k : bytes) => mem_str k (bo_nulls o)). split; [split; [easy|split; [easy|]]|].
          { intros n k' M. destruct (bsrun_nulls l (o', put i g gs)) as [x' ->]. cbn. rewrite Ex. now apply mem_more, mem_more. }
          rewrite (resume_loop (Ok a) (fun _ (k : bytes) => mem_str k (bo_nulls o)) w rs row false 0), R. cbn [fst snd List.length]. now rewrite upto_over.
        * exists (fun _ (k : bytes) => mem_str k (bo_nulls o)). split; [split; [easy|split; [easy|]]|].
          { intros n k' M. destruct (bsrun_nulls l (o', put i g gs)) as [x' ->]. cbn. rewrite Ex. now apply mem_more, mem_more. }
          rewrite (resume_loop (Ok a) (fun _ (k : bytes) => mem_str k (bo_nulls o)) w rs row false 0), R. cbn [fst snd List.length]. now rewrite upto_over.
      + destruct (IH C2 (fst (bsdo y p)) w rs row a (bsdo_other N C1 H) (Ks a St)) as (ns & (A & B & D) & E). exists ns. split; [|exact E]. split; [|now split]. intros k M. apply A. rewrite Ex. now apply mem_more.
  Qed.
  (** The whole iteration with the [styles] of now and any [null_shared]. *)
  Definition bwhole (o : bobj) (w : wopts) (ns : nat -> bytes -> bool) : trace :=
    match snd (bopen expat o w) with
    | Err e => ([], Some e)
    | Ok b => xlsb_iter (snd (bstyles o)) nv ns (wo_skip w) (wo_take w) (wo_tne w) (wo_cols w) b
    end.
  Lemma bwhole_is o w : snd (bdo expat nv o (OpIter w)) = BCells (bwhole o w (fun _ (k : bytes) => mem_str k (bo_nulls o))).
  Proof.
    unfold bwhole, bopen, bstyles. cbn [bdo]. destruct (bo_zf o) as [f|] eqn:F; [|reflexivity]. destruct (cached (bo_sheets o) _) as [c r]. cbn [set_sheets bo_zf bo_styles bo_nulls snd]. rewrite F.
    match goal with |- context [match ?m with Ok _ => _ | Err _ => _ end] => destruct m as [b|] end; [|reflexivity]. now destruct (cached (bo_styles o) _).
  Qed.
  Lemma whole_same o w ns ns' : (forall n k, ns n k = ns' n k) -> bwhole o w ns = bwhole o w ns'.
  Proof.
    intro E. unfold bwhole. destruct (snd (bopen expat o w)) as [b|]; [|reflexivity]. unfold xlsb_iter. destruct (wo_skip w <? 0); [reflexivity|]. destruct (wo_take w <? 0); [reflexivity|].
    apply loop_same. intros j k. apply E.
  Qed.
  Lemma open_ok o w b : snd (bopen expat o w) = Ok b -> (wo_skip w <? 0) = false /\ (wo_take w <? 0) = false.
  Proof.
    unfold bopen. destruct (bo_zf o); [|discriminate]. destruct (cached (bo_sheets o) _) as [c r]. cbn [snd]. destruct r; [|discriminate]. cbn [bind]. destruct (select_sheet _ _); [|discriminate]. cbn [bind].
    destruct (wo_skip w <? 0); [discriminate|]. now destruct (wo_take w <? 0).
  Qed.
End Xlsb.

(** For .xlsb: exactly the same iteration, except that [null_shared] may grow while it runs. *)
Theorem C104_xlsb_exact expat nv o gs i w l : nth_error gs i = Some (GNew w) -> existsb (closes i) l = false ->
  exists ns, (forall k, ns O k = mem_str k (bo_nulls o)) /\ growing (bo_nulls o) (bo_nulls (fst (bsrun expat nv (o, gs) (SNext i :: l)))) ns /\
  let t := bwhole expat nv o w ns in bseen expat nv i (o, gs) (SNext i :: l) = upto (S (nexts i l)) (fst t) (snd t).
Proof.
  cbv zeta. intros H C. cbn [bsrun bseen is_next]. rewrite Nat.eqb_refl. cbn [bsdo]. rewrite H. cbn [bnext].
  destruct (open_keeps expat o w) as (E1 & E2 & E3). pose proof (@open_ok expat o w) as K. unfold bwhole. destruct (bopen expat o w) as [o1 [b|e]]; cbn [fst snd] in *.
  - destruct (K b eq_refl) as [K1 K2]. unfold xlsb_iter. rewrite K1, K2.
    assert (Y : bstyles o1 = bstyles o) by (unfold bstyles; now rewrite E2, E3).
    assert (R : snd (bstretch nv o1 w (scan_part xlsb_ids b) (-1)) = bresume nv (snd (bstyles o)) (fun k : bytes => mem_str k (bo_nulls o)) w (scan_part xlsb_ids b) (-1) false) by (unfold bstretch; cbn [snd]; now rewrite Y, E1).
    pose proof (stretch_nulls nv o1 w (scan_part xlsb_ids b) (-1)) as Nl. pose proof (fun k c g => @stretch_yield nv o1 w (scan_part xlsb_ids b) (-1) k c g) as Yi. rewrite R, Y in Yi.
    destruct (bstretch nv o1 w (scan_part xlsb_ids b) (-1)) as [o' r]. cbn [snd fst] in R, Yi, Nl. subst r. rewrite E1 in Nl.
    destruct (bresume nv (snd (bstyles o)) (fun k : bytes => mem_str k (bo_nulls o)) w (scan_part xlsb_ids b) (-1) false) as [[k an] g] eqn:R. cbn [fst snd].
    assert (M : forall x, forall k', mem_str k' (bo_nulls o) = true -> mem_str k' (bo_nulls (fst (bsrun expat nv (o', x) l))) = true).
    { intros x k' M. destruct (bsrun_nulls expat nv l (o', x)) as [x' ->]. cbn. rewrite Nl. now apply mem_more. }
    destruct an as [c| |e].
    + destruct (Yi k c g eq_refl) as ((rs' & row' & ->) & a & Sa & Sb). destruct (@seen_run expat nv i l C (o', put i (GRun w rs' row') gs) w rs' row' a (put_same (GRun w rs' row') H) Sb) as (ns & G & E). cbn [fst] in *.
      exists (first_then (bo_nulls o) ns). split; [easy|]. split; [rewrite Nl in G; apply growing_then with (x := []); now rewrite app_nil_r|].
      rewrite E. rewrite Sa, (resume_loop nv (Ok a) (first_then (bo_nulls o) ns) w _ (-1) false 0). cbn [first_then]. rewrite Sa in R. rewrite R.
      rewrite (@loop_same nv w (Ok a) (first_then (bo_nulls o) ns) ns rs' row' false 1 0); [|easy]. destruct (xlsb_loop (Ok a) nv ns _ _ _ _ rs' row' false 0) as [outs f]. cbn [fst snd]. rewrite upto_cell. now destruct (upto _ outs f).
    + exists (fun _ (k : bytes) => mem_str k (bo_nulls o)). split; [easy|]. split; [split; [easy|split; [easy|]]; intros _; apply M|].
      rewrite (resume_loop nv (snd (bstyles o)) (fun _ (k : bytes) => mem_str k (bo_nulls o)) w _ (-1) false 0), R. cbn [fst snd]. now rewrite upto_over.
    + exists (fun _ (k : bytes) => mem_str k (bo_nulls o)). split; [easy|]. split; [split; [easy|split; [easy|]]; intros _; apply M|].
      rewrite (resume_loop nv (snd (bstyles o)) (fun _ (k : bytes) => mem_str k (bo_nulls o)) w _ (-1) false 0), R. cbn [fst snd]. now rewrite upto_over.
  - exists (fun _ (k : bytes) => mem_str k (bo_nulls o)). split; [easy|]. split; [split; [easy|split; [easy|]]|reflexivity]. intros n k M. cbn [fst]. destruct (bsrun_nulls expat nv l (o1, put i GEnd gs)) as [x ->]. cbn. rewrite E1. now apply mem_more.
Qed.
Print Assumptions C104_xlsb_exact.
(** So the claim holds when [null_shared] does not change meanwhile, ... *)
Theorem C104_xlsb_partial expat nv o gs i w l t : nth_error gs i = Some (GNew w) -> existsb (closes i) l = false ->
  (forall k, In k (bo_nulls (fst (bsrun expat nv (o, gs) (SNext i :: l)))) -> In k (bo_nulls o)) ->
  snd (bdo expat nv o (OpIter w)) = BCells t ->
  bseen expat nv i (o, gs) (SNext i :: l) = upto (S (nexts i l)) (fst t) (snd t).
Proof.
  intros H C S T. rewrite bwhole_is in T. injection T as <-. destruct (@C104_xlsb_exact expat nv o gs i w l H C) as (ns & N0 & (A & B & D) & E). cbv zeta in E. rewrite E.
  rewrite (@whole_same expat nv o w ns (fun _ (k : bytes) => mem_str k (bo_nulls o))); [reflexivity|]. intros n k. destruct (mem_str k (bo_nulls o)) eqn:M.
  - induction n as [|n IH]; [now apply A|now apply B].
  - destruct (ns n k) eqn:X; [|reflexivity]. apply D, mem_str_In, S, mem_str_In in X. congruence.
Qed.
Print Assumptions C104_xlsb_partial.
(** ... as it does when [shared] is not asked for while the iteration runs, ... *)
Definition unshared (p : sop) : bool := match p with SOp OpShared => false | _ => true end.
Lemma unshared_do expat nv y p : unshared p = true -> bo_nulls (fst (fst (bsdo expat nv y p))) = bo_nulls (fst y).
Proof.
  destruct y as [o gs]. destruct p as [p|w|j|j]; cbn [bsdo fst unshared]; [|reflexivity| |reflexivity].
  - destruct p as [z| | | | |w]; [reflexivity|reflexivity| |discriminate| |intros _; exact (proj2 (proj2 (iter_keeps expat nv o w)))]; intros _; cbn [bdo]; [now destruct (cached (bo_sheets o) _)|now destruct (cached (bo_styles o) _)].
  - intros _. destruct (nth_error gs j) as [g|]; [|reflexivity]. destruct (next_keeps expat nv o g) as [E _]. now destruct (bnext expat nv o g) as [o' [[k a] g']].
Qed.
Theorem C104_xlsb_unshared_partial expat nv o gs i w l t : nth_error gs i = Some (GNew w) -> existsb (closes i) l = false -> forallb unshared l = true ->
  snd (bdo expat nv o (OpIter w)) = BCells t ->
  bseen expat nv i (o, gs) (SNext i :: l) = upto (S (nexts i l)) (fst t) (snd t).
Proof.
  intros H C U T. eapply C104_xlsb_partial; [eassumption..| |eassumption]. intros k. assert (E : forall l y, forallb unshared l = true -> bo_nulls (fst (bsrun expat nv y l)) = bo_nulls (fst y)).
  { clear. induction l as [|p l IH]; intros y U; [reflexivity|]. cbn [forallb] in U. apply andb_prop in U. destruct U as [U1 U2]. cbn [bsrun]. rewrite IH by exact U2. now apply unshared_do. }
  now rewrite E.
Qed.
Print Assumptions C104_xlsb_unshared_partial.
(** ... and when no text is null, which is so without the argument [null_values]. *)
Theorem C104_xlsb_no_nulls_partial expat nv o gs i w l t : nth_error gs i = Some (GNew w) -> existsb (closes i) l = false -> (forall t, nv t = false) ->
  snd (bdo expat nv o (OpIter w)) = BCells t ->
  bseen expat nv i (o, gs) (SNext i :: l) = upto (S (nexts i l)) (fst t) (snd t).
Proof.
  intros H C U T. eapply C104_xlsb_partial; [eassumption..| |eassumption]. intros k. assert (E : forall l y, bo_nulls (fst (bsrun expat nv y l)) = bo_nulls (fst y)).
  { clear -U. induction l as [|p l IH]; intros y; [reflexivity|]. cbn [bsrun]. rewrite IH. destruct (unshared p) eqn:X; [now apply unshared_do|]. destruct p as [[]| | |]; try discriminate. destruct y as [o gs]. cbn [bsdo fst bdo].
    destruct (cached (bo_shared o) _). cbn [fst bo_nulls]. destruct (bo_shared o); [apply app_nil_r|]. destruct (reach (bo_zf o)) as [z|]; [|apply app_nil_r]. unfold b_null_keys. destruct (zopen z _); [|apply app_nil_r].
    rewrite null_keys_nil; [apply app_nil_r|]. intros r0 y0 _ _. apply U. }
  now rewrite E.
Qed.
Print Assumptions C104_xlsb_no_nulls_partial.

(** In the other direction: started, unfinished and closed iterations leave the object as they
    found it, so that every operation gives what it gives on a new object (C102). *)
Definition same_file_s (z : archive) (l : list sop) : Prop := forall z', In (SOp (OpEnter z')) l -> z' = z.
Section ObjectX.
  Context (expat : bytes -> list event * option exn) (nv : str -> bool) (z : archive).
  Lemma xgood_next o g : xgood expat nv z o -> xgood expat nv z (fst (xnext expat nv o g)).
  Proof.
    intro G. destruct g as [w|cs|]; [|exact G..]. cbn [xnext].
    assert (E : fst (xopen expat nv o w) = fst (xdo expat nv o (OpIter w))).
    { unfold xopen. cbn [xdo]. destruct (xo_zf o) as [f|]; [|reflexivity]. destruct (cached (xo_sheets o) _) as [c r]. cbn [xo_zf xo_styles].
      match goal with |- context [match ?m with Ok _ => _ | Err _ => _ end] => destruct m as [b|] end; [|reflexivity]. now destruct (cached (xo_styles o) _) as [c' r']. }
    assert (G' : xgood expat nv z (fst (xopen expat nv o w))) by (rewrite E; apply xgood_do; [discriminate|exact G]). now destruct (xopen expat nv o w) as [o' [cs|]].
  Qed.
  Lemma xgood_run l : forall y, same_file_s z l -> xgood expat nv z (fst y) -> xgood expat nv z (fst (xsrun expat nv y l)).
  Proof.
    induction l as [|p l IH]; intros [o gs] S G; [exact G|]. cbn [xsrun]. apply IH; [intros z' H; apply S; now right|]. destruct p as [p|w|j|j]; cbn [xsdo fst]; [|exact G| |exact G].
    - apply xgood_do; [|exact G]. intros z' ->. apply S. now left.
    - destruct (nth_error gs j) as [g|]; [|exact G]. pose proof (@xgood_next o g G) as G'. now destruct (xnext expat nv o g) as [o' [a g']].
  Qed.
End ObjectX.
Theorem C104_object_xlsx expat nv z l p : same_file_s z l -> xo_zf (fst (xsrun expat nv (xobj_new, []) l)) = Some (z, false) ->
  snd (xdo expat nv (fst (xsrun expat nv (xobj_new, []) l)) p) = snd (xdo expat nv (xnew z) p).
Proof. intros S F. apply (@xgood_same expat nv z _ false); [|exact F|reflexivity]. apply xgood_run; [exact S|]. now repeat split. Qed.
Print Assumptions C104_object_xlsx.

Section ObjectB.
  Context (expat : bytes -> list event * option exn) (nv : str -> bool) (z : archive).
  Lemma good_open o w : bgood expat nv z o -> bgood expat nv z (fst (bopen expat o w)).
  Proof.
    intros (H0 & H1 & H2 & H3). unfold bopen. destruct (bo_zf o) as [f|] eqn:F; [|split; [cbn [fst]; rewrite F; exact H0|now repeat split]]. rewrite <- F in *.
    pose proof (cached_after H1 (gen_or (reach_or (b_sheets_of expat) H0))) as K. destruct (cached (bo_sheets o) _) as [c r]. cbn in *. now repeat split.
  Qed.
  Lemma good_stretch o w rs row : bgood expat nv z o -> bgood expat nv z (fst (bstretch nv o w rs row)).
  Proof.
    intros (H0 & H1 & H2 & H3). unfold bstretch. cbn [fst]. match goal with |- context [if ?m then _ else _] => destruct m end; [|now repeat split].
    unfold bstyles. pose proof (cached_after H3 (reach_or bbook_styles H0)) as K3. cbn in *. now repeat split.
  Qed.
  Lemma good_next o g : bgood expat nv z o -> bgood expat nv z (fst (bnext expat nv o g)).
  Proof.
    intro G. destruct g as [w|w rs row|]; cbn [bnext]; [|now apply good_stretch|exact G]. pose proof (good_open w G) as G'. destruct (bopen expat o w) as [o' [b|]]; [now apply good_stretch|exact G'].
  Qed.
  Lemma next_rest o g : bo_zf (fst (bnext expat nv o g)) = bo_zf o /\ bo_shared (fst (bnext expat nv o g)) = bo_shared o.
  Proof.
    assert (St : forall o w rs row, bo_zf (fst (bstretch nv o w rs row)) = bo_zf o /\ bo_shared (fst (bstretch nv o w rs row)) = bo_shared o).
    { clear. intros. unfold bstretch. cbn [fst]. match goal with |- context [if ?m then _ else _] => destruct m end; now split. }
    destruct g as [w|w rs row|]; cbn [bnext]; [|apply St|now split].
    assert (E : bo_shared (fst (bopen expat o w)) = bo_shared o) by (unfold bopen; destruct (bo_zf o); [|reflexivity]; now destruct (cached (bo_sheets o) _)).
    destruct (open_keeps expat o w) as (_ & _ & E3). destruct (bopen expat o w) as [o' [b|]]; cbn [fst] in *; [|now split]. destruct (St o' w (scan_part xlsb_ids b) (-1)) as [-> ->]. now split.
  Qed.
  Definition asks (p : sop) : bool := negb (unshared p).
  Definition stays_s (p : sop) : bool := match p with SOp OpExit => false | _ => true end.
  Lemma all_run l : forall b y, same_file_s z l -> forallb stays_s l = true -> bgood expat nv z (fst y) -> nulls_are nv z b (fst y) ->
    bgood expat nv z (fst (bsrun expat nv y l)) /\ nulls_are nv z (b || existsb asks l) (fst (bsrun expat nv y l)).
  Proof.
    induction l as [|p l IH]; intros b [o gs] S St G N; [rewrite orb_false_r; now split|]. cbn [bsrun existsb]. cbn [forallb] in St. apply andb_prop in St. destruct St as [St1 St2]. rewrite orb_assoc.
    assert (Hp : forall z', p = SOp (OpEnter z') -> z' = z) by (intros z' ->; apply S; now left).
    apply IH; [intros z' H; apply S; now right|exact St2| |]; destruct p as [p|w|j|j]; cbn [bsdo fst asks unshared negb] in *; rewrite ?orb_false_r; try assumption.
    - apply bgood_do; [|exact G]. intros z' ->. now apply Hp.
    - destruct (nth_error gs j) as [g|]; [|exact G]. pose proof (@good_next o g G) as G'. now destruct (bnext expat nv o g) as [o' [[k a] g']].
    - assert (E : asks (SOp p) = is_shared p) by now destruct p. rewrite E. apply nulls_are_do; [intros z' ->; now apply Hp|now destruct p|exact N].
    - destruct (nth_error gs j) as [g|]; [|exact N]. destruct (next_rest o g) as [E1 E2]. destruct (next_keeps expat nv o g) as [E3 _]. destruct (bnext expat nv o g) as [o' [[k a] g']]. cbn in *.
      destruct N as (N1 & N2 & N3). unfold nulls_are. rewrite E1, E2, E3. now split.
  Qed.
End ObjectB.
Theorem C104_object_xlsb expat nv z l p : same_file_s z l -> forallb stays_s l = true ->
  snd (bdo expat nv (fst (bsrun expat nv (bnew z, []) l)) p) =
  snd (bdo expat nv (mkBO (Some (z, false)) None None None (if existsb asks l then b_null_keys nv z else [])) p).
Proof.
  intros S St. assert (G : bgood expat nv z (bnew z)) by (split; [intros z' b E; cbn in E; congruence|now repeat split]).
  destruct (@all_run expat nv z l false (bnew z, []) S St G ltac:(now repeat split)) as [G' N]. apply bgood_same; [exact G'|exact (proj1 N)|]. intro k. rewrite (proj2 (proj2 N)). cbn [orb]. now destruct (existsb asks l).
Qed.
Print Assumptions C104_object_xlsb.

(** The first step of an iteration loads the list of sheets, for good: it is there after the file
    has been closed (see C103). *)
Theorem C104_sheets_loaded expat nv w :
  (forall o d, bo_zf o <> None -> snd (bdo expat nv o OpSheets) = BSheets d ->
     snd (bdo expat nv (fst (bdo expat nv (fst (bnext expat nv o (GNew w))) OpExit)) OpSheets) = BSheets d) /\
  (forall o d, xo_zf o <> None -> snd (xdo expat nv o OpSheets) = XSheets d ->
     snd (xdo expat nv (fst (xdo expat nv (fst (xnext expat nv o (XNew w))) OpExit)) OpSheets) = XSheets d).
Proof.
  split; intros o d Z H.
  - assert (E : bo_sheets (fst (bnext expat nv o (GNew w))) = Some d).
    { assert (K : bo_sheets (fst (bopen expat o w)) = Some d).
      { unfold bopen. destruct (bo_zf o) as [f|] eqn:F; [|easy]. cbn [bdo] in H. unfold cached in *. destruct (bo_sheets o) as [d'|]; [cbn in *; congruence|].
        rewrite F in H. destruct (z <- reach (Some f) ;; b_sheets_of expat z) as [d'|e]; cbn in *; [congruence|discriminate]. }
      cbn [bnext]. destruct (bopen expat o w) as [o' [b|e]]; cbn [fst] in *; [|exact K]. unfold bstretch. cbv zeta. cbn [fst].
      destruct (match bresume _ _ _ _ _ _ _ with (_, ARaise Undefined, _) => true | _ => false end); exact K. }
    cbn [bdo fst bo_sheets]. rewrite E. reflexivity.
  - assert (E : xo_sheets (fst (xnext expat nv o (XNew w))) = Some d).
    { assert (K : xo_sheets (fst (xopen expat nv o w)) = Some d).
      { unfold xopen. destruct (xo_zf o) as [f|] eqn:F; [|easy]. cbn [xdo] in H. unfold cached in *. destruct (xo_sheets o) as [d'|].
        - cbn in H. injection H as <-. match goal with |- context [match ?m with Ok b => _ | Err e => _ end] => destruct m end; [|reflexivity]. cbn [xo_styles xo_zf].
          destruct (xo_styles o); [reflexivity|]. cbn [fst]. match goal with |- context [match ?m with Ok a => (Some a, Ok a) | Err e => (None, Err e) end] => destruct m end; reflexivity.
        - rewrite F in H. destruct (z <- reach (Some f) ;; xbook_sheets expat z) as [d'|e]; cbn in H; [|discriminate]. injection H as <-.
          match goal with |- context [match ?m with Ok b => _ | Err e => _ end] => destruct m end; [|reflexivity]. cbn [xo_styles xo_zf].
          destruct (xo_styles o); [reflexivity|]. cbn [fst]. match goal with |- context [match ?m with Ok a => (Some a, Ok a) | Err e => (None, Err e) end] => destruct m end; reflexivity. }
      cbn [xnext]. destruct (xopen expat nv o w) as [o' [b|e]]; exact K. }
    cbn [xdo fst xo_sheets]. rewrite E. reflexivity.
Qed.
Print Assumptions C104_sheets_loaded.
Example C104_sheets_loaded_example :
  let z := exb_files exb_rows exb_sl in let r o := match snd (bdo exb_expat nulls_z o OpSheets) with BSheets d => map fst d | _ => [] end in
  let closed o := fst (bdo exb_expat nulls_z o OpExit) in
  r (bnew z) <> [] /\ r (closed (bnew z)) = [] /\ r (closed (fst (bnext exb_expat nulls_z (bnew z) (GNew (ex_w true))))) = r (bnew z).
Proof. cbv zeta. split; [vm_compute; discriminate|]. split; vm_compute; reflexivity. Qed.

(** Not in general for .xlsb: if [shared] is asked for while an iteration runs, its remaining cells
    of null shared strings are not delivered. *)
Definition spots (v : view) : list (Z * Z) * bool := (map (fun c => (c_row c, c_col c)) (Cell.cells_of (fst v)), match snd v with None => false | Some _ => true end).
Theorem C104_xlsb_refuted :
  let z := exb_files exb_rows exb_sl in let see l := spots (bseen exb_expat nulls_z 0 (bnew z, [GNew (ex_w true)]) l) in let n := SNext 0 in
  see [n; n; n; n; n; n; n] = ([(0, 0); (0, 2); (1, 0); (1, 2); (3, 0); (3, 2)], true) /\
  see [n; n; SOp OpShared; n; n; n; n; n] = ([(0, 0); (0, 2); (1, 0); (1, 2); (3, 2)], true).
Proof. cbv zeta. split; vm_compute; reflexivity. Qed.
Print Assumptions C104_xlsb_refuted.
(** Two iterations in turns; the archive is closed and another one opened in between. *)
Example C104_example :
  let z := exb_files exb_rows exb_sl in let l := [SNext 1; SNext 0; SOp OpExit; SNext 0; SOp (OpEnter [(s "a", [])]); SNext 1; SOp OpSheets; SNext 0; SNext 0; SNext 1; SNext 0; SNext 0]%nat in
  let y := (bnew z, [GNew (ex_w true); GNew (ex_w false)]) in
  existsb (closes 0) l = false /\ forallb unshared l = true /\
  spots (bseen exb_expat nulls_z 0 y (SNext 0%nat :: l)) = ([(0, 0); (0, 2); (1, 0); (1, 2); (3, 0); (3, 2)], true) /\
  spots (bseen exb_expat nulls_z 1 y (SNext 0%nat :: l)) = ([(0, 0); (0, 2); (1, 0)], false).
Proof. cbv zeta. split; [reflexivity|]. split; [reflexivity|]. split; vm_compute; reflexivity. Qed.
Example C104_object_example :
  let z := exb_files exb_rows exb_sl in let l := [SMake (ex_w true); SNext 0; SMake (ex_w true); SNext 1; SNext 0; SOp OpShared; SClose 0; SNext 1]%nat in
  same_file_s z l /\ forallb stays_s l = true /\
  places (snd (bdo exb_expat nulls_z (fst (bsrun exb_expat nulls_z (bnew z, []) l)) (OpIter (ex_w true)))) = [(0, 0); (0, 2); (1, 0); (1, 2); (3, 2)].
Proof. cbv zeta. split; [intros z' H; cbn in H; decompose [or] H; try discriminate; easy|]. split; [reflexivity|]. vm_compute. reflexivity. Qed.
