(** Claims about columns (C31, C32). *)
From Verif Require Import Py PyFacts PyText Cell Casts Chunk ChunkSpec ChunkProofs ChunkWindow ChunkRun ChunkClosed ChunkConcat PropsChunk Utf8 Series SeriesSpec SeriesProofs.
From Coq Require Import ZifyBool ZifyNat.
From Flocq Require Import IEEE754.Bits.
Set Implicit Arguments. Unset Strict Implicit.

(** *** Histories of calls *)
Section Exec.
  Context (o : oracle) (sc : sconf).
  Definition answer_of (r : res array) : answer := match r with Ok a => Values a | Err e => Raised e end.
  Definition step (x : series) (q : op) : series * answer :=
    match q with
    | Add c => match add o sc x c with Ok x' => (x', Row (se_erow x')) | Err e => (x, Raised e) end
    | Arrow off len idx => let '(x, r) := to_arrow o sc x off len idx in (x, answer_of r)
    | Utf off len idx => let '(x, r) := to_utf8 o sc x off len idx in (x, answer_of r)
    end.
  Fixpoint exec (x : series) (h : list op) : series * list answer :=
    match h with
    | [] => (x, [])
    | q :: h => let '(x, a) := step x q in let '(x, l) := exec x h in (x, a :: l)
    end.
  Lemma exec_app x h h' : exec x (h ++ h') = let '(x1, a1) := exec x h in let '(x2, a2) := exec x1 h' in (x2, a1 ++ a2).
  Proof.
    revert x. induction h as [|q h IH]; intro x; cbn [app exec]; [now destruct (exec x h')|].
    destruct (step x q) as [x1 a]. rewrite IH. destruct (exec x1 h) as [x2 l]. now destruct (exec x2 h').
  Qed.
  Lemma pull_some_erow x x' : pull_some o sc x = Ok x' -> se_erow x' = se_erow x.
  Proof.
    unfold pull_some, pull. destruct (se_chunk x); [congruence|]. destruct (make_chunk o sc (se_xdtr x) _); cbn; [|discriminate].
    intro H. inversion H. reflexivity.
  Qed.
  Lemma add_erow x c x' : add o sc x c = Ok x' -> se_erow x' = Z.max (se_erow x) (c_row c).
  Proof.
    unfold add. destruct (c_row c <=? se_erow x) eqn:E; [intro H; inversion H; subst; lia|]. intro H.
    match type of H with bind ?a _ = _ => destruct a as [y|] end; [|discriminate]. cbn [bind] in H.
    match type of H with bind ?a _ = _ => destruct a as [z|] end; [|discriminate]. cbn [bind] in H. inversion H. cbn. lia.
  Qed.
  Lemma reads_erow x off len idx : se_erow (fst (to_arrow o sc x off len idx)) = se_erow x /\ se_erow (fst (to_utf8 o sc x off len idx)) = se_erow x.
  Proof.
    unfold to_arrow, to_utf8. destruct (pull_some o sc x) as [x'|] eqn:P; [|now split]. apply pull_some_erow in P.
    destruct (se_chunks x'); [now split|]. destruct (concatenate _ _ _ _ _ _). now split.
  Qed.
  Lemma exec_erow h : forall x, se_erow (fst (exec x h)) = last_added (se_erow x) (snd (exec x h)).
  Proof.
    induction h as [|q h IH]; intro x; [reflexivity|]. cbn [exec]. destruct (step x q) as [x1 a] eqn:E.
    specialize (IH x1). destruct (exec x1 h) as [x2 l]. cbn [fst snd last_added] in *. rewrite IH.
    destruct q as [c|off len idx|off len idx]; cbn [step] in E.
    - destruct (add o sc x c) as [x'|] eqn:A; inversion E; subst; reflexivity.
    - pose proof (proj1 (reads_erow x off len idx)) as R. destruct (to_arrow o sc x off len idx) as [x' r]. cbn [fst] in R.
      inversion E; subst. rewrite <- R. now destruct r.
    - pose proof (proj2 (reads_erow x off len idx)) as R. destruct (to_utf8 o sc x off len idx) as [x' r]. cbn [fst] in R.
      inversion E; subst. rewrite <- R. now destruct r.
  Qed.
End Exec.

(** ** C32: the first cell of a row wins *)
(** In any history of calls an [add] for a row not after the last added one answers with that
    last row, and all other calls answer as if it had not been made. *)
Theorem C32_first_wins o sc h c h' :
  let before := snd (exec o sc se_new h) in
  let last := last_added (-1) before in
  c_row c <= last ->
  exists after, snd (exec o sc se_new (h ++ Add c :: h')) = before ++ Row last :: after /\
                snd (exec o sc se_new (h ++ h')) = before ++ after.
Proof.
  intros before last H. rewrite !exec_app. pose proof (exec_erow o sc h se_new) as E.
  subst last before. destruct (exec o sc se_new h) as [x l]. cbn [fst snd se_new se_erow] in *.
  cbn [exec step]. unfold add. rewrite E. replace (c_row c <=? last_added (-1) l) with true by lia.
  destruct (exec o sc x h') as [x2 l2]. cbn [snd]. exists l2. rewrite E. now split.
Qed.
Print Assumptions C32_first_wins.
(** And the last added row is the greatest row ever added. *)
Lemma step_erow o sc x q : se_erow x <= se_erow (fst (step o sc x q)) /\ forall r, snd (step o sc x q) = Row r -> r = se_erow (fst (step o sc x q)).
Proof.
  destruct q as [c|off len idx|off len idx]; cbn [step].
  - destruct (add o sc x c) as [x'|] eqn:A; cbn [fst snd]; [|split; [lia|discriminate]]. rewrite (add_erow A). split; [lia|]. intros r H. now inversion H.
  - pose proof (proj1 (reads_erow o sc x off len idx)) as R. destruct (to_arrow o sc x off len idx) as [x' [?|?]]; cbn in *; (split; [lia|discriminate]).
  - pose proof (proj2 (reads_erow o sc x off len idx)) as R. destruct (to_utf8 o sc x off len idx) as [x' [?|?]]; cbn in *; (split; [lia|discriminate]).
Qed.
Theorem C32_last_is_greatest o sc h : forall r, In (Row r) (snd (exec o sc se_new h)) -> r <= last_added (-1) (snd (exec o sc se_new h)).
Proof.
  assert (G : forall x, se_erow x <= last_added (se_erow x) (snd (exec o sc x h)) /\
    forall r, In (Row r) (snd (exec o sc x h)) -> r <= last_added (se_erow x) (snd (exec o sc x h))).
  2: { exact (proj2 (G se_new)). }
  induction h as [|q h IH]; intro x; [split; [cbn; lia|intros r []]|].
  rewrite <- exec_erow. cbn [exec]. pose proof (step_erow o sc x q) as [S1 S2]. destruct (step o sc x q) as [x1 a]. cbn [fst snd] in S1, S2.
  specialize (IH x1). rewrite <- exec_erow in IH. destruct (exec o sc x1 h) as [x2 l]. cbn [fst snd] in *. destruct IH as [I1 I2].
  split; [lia|]. intros r [->|Hr]; [rewrite (S2 r eq_refl); lia|now apply I2].
Qed.
Print Assumptions C32_last_is_greatest.
(** ** C31: a column holds its cells at their rows *)
Section Column.
  Context (o : oracle) (sc : sconf).
  Local Notation cf := (sc_conf sc).
  Local Notation Inv := (SeriesProofs.Inv o sc).

  Lemma tles_nth a b : Forall2 tle a b -> forall i, tle (nth i a tnull) (nth i b tnull).
  Proof. induction 1 as [|x y a b R F IH]; intros [|i]; cbn; try apply tle_refl; [exact R|apply IH]. Qed.
  Lemma tles_masked a b : Forall2 tle a b -> forall m, Forall2 tle (masked a m) (masked b m).
  Proof.
    unfold masked. induction 1 as [|x y a b R F IH]; intros [|[|] m]; cbn; try constructor; try exact R; apply IH.
  Qed.
  Lemma tles_window a l off n : increasing (-1) l = true -> Forall2 tle a (layout o sc 0 l) -> 0 <= off ->
    Forall2 tle (window tnull a off n) (at_rows o sc l off n).
  Proof.
    intros Inc F Ho. unfold window, at_rows. induction (seq 0 (Z.to_nat n)) as [|i s IH]; constructor; [|exact IH].
    rewrite <- (@layout_nth o sc l 0 (off + Z.of_nat i)); [|exact Inc|lia].
    replace (Z.to_nat (off + Z.of_nat i - 0)) with (Z.to_nat off + i)%nat by lia. now apply tles_nth.
  Qed.
  Lemma tles_selection st l off len idx : increasing (-1) l = true -> Forall2 tle (cells o st) (layout o sc 0 l) -> 0 <= off ->
    Forall2 tle (selection o st off len idx) (wanted o sc l off len idx).
  Proof.
    intros Inc F Ho. unfold selection, wanted. destruct idx as [m|]; [apply tles_masked; now apply tles_window|].
    destruct ((off =? 0) && (len =? 0)); [|now apply tles_window].
    assert (E : cells o st = window tnull (cells o st) 0 (last_row l + 1)).
    { pose proof (Forall2_zlen F) as L. rewrite layout_length, next_row_last in L by exact Inc.
      unfold window. cbn [Z.to_nat Nat.add]. replace (Z.to_nat (last_row l + 1)) with (List.length (cells o st)) by (unfold zlen in L; lia).
      clear. induction (cells o st) as [|x r IH]; [reflexivity|]. cbn [List.length seq map nth]. f_equal. rewrite IH at 1. rewrite <- seq_shift, map_map. reflexivity. }
    rewrite E. now apply tles_window.
  Qed.
  Lemma delivers_tle t x y a : tle x y -> delivers o cf t x a -> delivers o cf t y a.
  Proof.
    intros (T1 & T2 & _) (v & V1 & V2). exists v. split; [|exact V2]. destruct y as [[k r'] w]. unfold t_kind, t_val in T1, T2. cbn in T1, T2.
    destruct V1 as [x|r x D|r v x N1 N2|r v D N|r v x D N1 N2]; cbn in T1, T2; subst; try (now econstructor).
    exact (cv_same o cf (fst (fst x), r', snd x)).
  Qed.
  Lemma blocked_tle a b : Forall2 tle a b -> blocked cf b = false -> blocked cf a = false.
  Proof.
    intros F H. unfold blocked, some_kind, some_raw in *.
    assert (E : existsb (fun x => kind_eqb (t_kind x) KTemp) a = existsb (fun x => kind_eqb (t_kind x) KTemp) b /\
      (existsb t_raw a = true -> existsb t_raw b = true)).
    { clear H. induction F as [|x y a b (R1 & R2 & R3) F [I1 I2]]; [now split|]. cbn [existsb]. rewrite R1, I1. split; [reflexivity|].
      intro H. apply orb_prop in H. destruct H as [H|H]; [now rewrite (R3 H)|]. rewrite (I2 H). apply orb_true_r. }
    destruct E as [-> E]. destruct (cf_datetime cf); [|reflexivity]. cbn [andb] in *.
    destruct (existsb (fun x => kind_eqb (t_kind x) KTemp) b); [|reflexivity]. cbn [andb] in *.
    destruct (existsb t_raw a); [|reflexivity]. now rewrite (E eq_refl) in H.
  Qed.

  Lemma inv_column l x : Inv l x -> se_chunk x = [] -> l <> [] -> column (se_chunks x) = true /\ Forall2 tle (cells o (se_chunks x)) (layout o sc 0 l).
  Proof.
    intros (run & I1 & I2 & I3 & I4 & I5 & I6 & I7 & I8 & I9) E Ne. rewrite E in I1. assert (run = []) by (destruct run; [reflexivity|discriminate]). subst run.
    rewrite (I5 eq_refl) in I3. cbn [Z.to_nat repeat map app] in I3. rewrite app_nil_r in I3. split; [|exact I3].
    unfold column. fold (solid (se_chunks x)). rewrite I6. destruct (I9 Ne) as [H|H]; [|congruence]. now destruct (se_chunks x).
  Qed.
  Lemma inv_chunks l x st : Inv l x -> se_chunk x = [] -> Forall2 (eqv o) (se_chunks x) st -> Inv l (with_chunks x st).
  Proof.
    intros (run & I1 & I2 & I3 & I4 & I5 & I6 & I7 & I8 & I9) E F. rewrite E in I1. assert (run = []) by (destruct run; [reflexivity|discriminate]). subst run.
    exists []. cbn [with_chunks se_chunk se_xdtr se_choff se_chunks se_erow se_srow]. rewrite (I5 eq_refl) in *. cbn [Z.to_nat repeat map app] in *.
    rewrite app_nil_r in *. split; [exact E|]. split; [now intros c []|]. split; [now apply tles_trans with (cells o (se_chunks x)); [apply eqv_tle|]|].
    split; [lia|]. split; [reflexivity|]. split.
    { clear -F I6. unfold solid in *. induction F as [|a b s1 s2 R F IH]; [reflexivity|]. cbn [forallb] in *. apply andb_prop in I6. destruct I6 as [A B].
      rewrite (IH B). destruct R as (_ & -> & _ & _ & -> & _). lia. }
    split; [exact I7|]. split; [exact I8|]. intro Ne. left. destruct (I9 Ne) as [H|H]; [|congruence]. destruct F; congruence.
  Qed.
  Lemma concatenate_calm st off len idx : column st = true -> calm cf off len idx = true ->
    Forall2 (eqv o) st (fst (concatenate o cf st off len idx)).
  Proof.
    intros C H. unfold calm in H. apply andb_prop in H. destruct H as [R H].
    destruct (windowed off len idx) eqn:W; [now apply concatenate_windowed|].
    unfold windowed in W. destruct idx; [rewrite orb_true_r in W; discriminate|]. rewrite orb_false_r in W.
    assert (off = 0 /\ len = 0) as [-> ->] by lia. cbn in H. apply concatenate_whole; [exact C|]. unfold resolving.
    destruct (cf_datetime cf), (cf_numerics cf); try discriminate. now destruct (has_T _).
  Qed.
  Lemma read_inv l x off len idx : Inv l x -> calm cf off len idx = true ->
    Inv l (fst (to_arrow o sc x off len idx)) /\ Inv l (fst (to_utf8 o sc x off len idx)).
  Proof.
    intros I H. unfold to_arrow, to_utf8. destruct (pull_inv I) as (x' & -> & I' & E & _). destruct (se_chunks x') as [|c st] eqn:Es; [now split|].
    rewrite <- Es. assert (Ne : l <> []).
    { intros ->. destruct I' as (run & I1 & _ & I3 & _ & _ & I6 & _). rewrite Es in I3, I6. cbn [layout cells flat_map] in I3. inversion I3 as [J|]. clear I3.
      cbn [solid forallb] in I6. apply andb_prop in I6. destruct I6 as [I6 _]. apply andb_prop in I6. destruct I6 as [S Z0].
      symmetry in J. apply app_eq_nil in J. destruct J as [J _]. apply app_eq_nil in J. destruct J as [J _]. unfold cells_of in J.
      pose proof (@ChunkProofs.stored_len o c S) as Dl. apply map_eq_nil in J. rewrite J in Dl. unfold zlen in Dl. cbn in Dl. lia. }
    destruct (inv_column I' E Ne) as [C F]. pose proof (concatenate_calm C H) as Q.
    destruct (concatenate o cf (se_chunks x') off len idx) as [st' r]. cbn [fst] in *. split; now apply inv_chunks.
  Qed.

  (** Histories: cells well formed and in row order, reads calm. *)
  Definition orderly (h : list op) : bool := forallb (good o sc) (adds h) && increasing (-1) (adds h) && forallb (calm_op cf) h.

  Lemma increasing_app l1 l2 k : increasing k (l1 ++ l2) = true -> increasing k l1 = true /\ forall c l, l2 = c :: l -> last_row l1 < c_row c \/ l1 = [] /\ k < c_row c.
  Proof.
    revert k. induction l1 as [|a l1 IH]; intros k; cbn.
    - intro H. split; [reflexivity|]. intros c l ->. cbn in H. right. split; [reflexivity|lia].
    - intro H. apply andb_prop in H. destruct H as [H1 H2]. destruct (IH _ H2) as [I1 I2]. split; [lia|]. intros c l E. left.
      unfold last_row. cbn [rev]. destruct (I2 c l E) as [J|[-> J]]; [|cbn; exact J].
      unfold last_row in J. destruct l1 as [|b l1]; [subst l2; cbn in *; lia|]. destruct (rev (b :: l1)) as [|z zs] eqn:Z; [apply (f_equal (@rev cell)) in Z; rewrite rev_involutive in Z; discriminate|]. exact J.
  Qed.
  Lemma last_row_ge l : increasing (-1) l = true -> -1 <= last_row l.
  Proof.
    induction l as [|c l IH] using rev_ind; [cbn; lia|]. intro H. destruct (increasing_app H) as [H1 H2].
    unfold last_row. rewrite rev_app_distr. cbn. specialize (IH H1). destruct (H2 c [] eq_refl) as [J|[_ J]]; lia.
  Qed.
  Lemma exec_inv h : forall l x, Inv l x -> forallb (good o sc) (adds h) = true -> increasing (-1) (l ++ adds h) = true -> forallb (calm_op cf) h = true ->
    Inv (l ++ adds h) (fst (exec o sc x h)).
  Proof.
    induction h as [|q h IH]; intros l x I G Inc Ca; [cbn; now rewrite app_nil_r|].
    cbn [forallb] in Ca. apply andb_prop in Ca. destruct Ca as [Ca1 Ca2]. cbn [exec]. destruct q as [c|off len idx|off len idx].
    - cbn [adds flat_map] in *. fold (adds h) in *. cbn [app forallb] in G. apply andb_prop in G. destruct G as [G1 G2].
      cbn [app] in Inc. destruct (increasing_app Inc) as [A1 A2]. 
      assert (L : last_row l < c_row c /\ -1 < c_row c).
      { destruct (A2 c (adds h) eq_refl) as [L|[-> L]]; [|cbn; lia]. split; [exact L|]. pose proof (last_row_ge A1). lia. }
      destruct (@add_inv o sc l x c I A1 G1 (proj1 L) (proj2 L)) as (x' & E & I'). cbn [step]. rewrite E.
      specialize (IH (l ++ [c]) x' I' G2). rewrite <- app_assoc in IH. cbn [app] in IH. specialize (IH Inc Ca2). now destruct (exec o sc x' h).
    - cbn [adds flat_map] in *. fold (adds h) in *. pose proof (proj1 (read_inv I Ca1)) as I'. cbn [step].
      destruct (to_arrow o sc x off len idx) as [x' r]. cbn [fst] in I'. specialize (IH l x' I' G Inc Ca2). destruct r; now destruct (exec o sc x' h).
    - cbn [adds flat_map] in *. fold (adds h) in *. pose proof (proj2 (read_inv I Ca1)) as I'. cbn [step].
      destruct (to_utf8 o sc x off len idx) as [x' r]. cbn [fst] in I'. specialize (IH l x' I' G Inc Ca2). destruct r; now destruct (exec o sc x' h).
  Qed.
  (** The state after an orderly history, ready to be read. *)
  Lemma orderly_column h : orderly h = true -> adds h <> [] ->
    exists x, pull_some o sc (fst (exec o sc se_new h)) = Ok x /\ column (se_chunks x) = true /\
      Forall2 tle (cells o (se_chunks x)) (layout o sc 0 (adds h)) /\ increasing (-1) (adds h) = true.
  Proof.
    unfold orderly. intros H Ne. apply andb_prop in H. destruct H as [H Ca]. apply andb_prop in H. destruct H as [G Inc].
    pose proof (exec_inv (inv_new o sc) G Inc Ca) as I. cbn [app] in I. destruct (pull_inv I) as (x & P & I' & E & _).
    exists x. split; [exact P|]. destruct (inv_column I' E Ne) as [C F]. now repeat split.
  Qed.
  Lemma to_arrow_read x x' off len idx : pull_some o sc x = Ok x' -> column (se_chunks x') = true ->
    snd (to_arrow o sc x off len idx) = read o cf (se_chunks x') off len idx.
  Proof.
    intros P C. unfold to_arrow, read. rewrite P. destruct (se_chunks x') as [|c l]; [discriminate|]. now destruct (concatenate o cf (c :: l) off len idx).
  Qed.
  Lemma to_utf8_read x x' off len idx : pull_some o sc x = Ok x' -> column (se_chunks x') = true ->
    snd (to_utf8 o sc x off len idx) = (a <- read o cf (se_chunks x') off len idx ;; if dtype_eqb (a_type a) TUtf8 then Ok a else unsafe_cast o a TUtf8).
  Proof.
    intros P C. unfold to_utf8, read. rewrite P. destruct (se_chunks x') as [|c l]; [discriminate|]. now destruct (concatenate o cf (c :: l) off len idx).
  Qed.
  Lemma tles_kinds a b : Forall2 tle a b -> (forall k, some_kind k a = some_kind k b) /\ integral o cf a = integral o cf b.
  Proof.
    induction 1 as [|x y a b (R1 & R2 & R3) F [I1 I2]]; [now split|]. split.
    - intro k. unfold some_kind in *. cbn [existsb]. now rewrite R1, I1.
    - unfold integral in *. cbn [forallb]. rewrite I2. unfold num_of. now rewrite R1, R2.
  Qed.
  Lemma Forall2_tle_l (P : tag -> option aval -> Prop) a b vs : (forall x y v, tle x y -> P x v -> P y v) -> Forall2 tle a b -> Forall2 P a vs -> Forall2 P b vs.
  Proof.
    intros H F. revert vs. induction F as [|x y a b R F IH]; intros vs G; inversion G; subst; constructor; [now apply (H x)|now apply IH].
  Qed.
End Column.

(** A text form of array elements. *)
Definition shown o (a : option aval) : option aval :=
  match a with
  | None => None
  | Some (AS t) => Some (AS t)
  | Some (AF x) => Some (AS (o_show_f o x))
  | Some (AI n) => Some (AS (o_show_i o n))
  | Some (AT m) => Some (AS (o_show_t o m))
  end.

(** Full claim: any sequence of cells with increasing rows.  Missing: cells that are malformed
    (and, in .xlsx files, numeric cells whose text is no number: see below); whole-column reads
    between the additions in the converting modes (they rewrite the column, C35); reads that
    raise (C41).  Values may be converted in those modes (relation [delivers]). *)
Theorem C31_values_partial o sc h off len idx : orderly o sc h = true -> adds h <> [] -> request off len idx = true ->
  blocked (sc_conf sc) (wanted o sc (adds h) off len idx) = false ->
  exists t vs, snd (to_arrow o sc (fst (exec o sc se_new h)) off len idx) = Ok (mkA t vs) /\
    Forall2 (delivers o (sc_conf sc) t) (wanted o sc (adds h) off len idx) vs.
Proof.
  intros H Ne R B. destruct (orderly_column H Ne) as (x & P & C & F & Inc). rewrite (to_arrow_read off len idx P C).
  assert (Ho : 0 <= off) by (unfold request in R; destruct idx; lia).
  pose proof (tles_selection len idx Inc F Ho) as S. destruct (read_delivers C R (blocked_tle S B)) as (t & vs & E & D).
  exists t, vs. split; [exact E|]. revert S D. apply Forall2_tle_l. intros a b v. apply delivers_tle.
Qed.
Print Assumptions C31_values_partial.

(** Exactly the values, in every mode, when the rows read hold one kind of cells. *)
Theorem C31_uniform o sc h off len idx : orderly o sc h = true -> adds h <> [] -> request off len idx = true ->
  let sel := wanted o sc (adds h) off len idx in
  one_kind sel = true ->
  exists t vs, snd (to_arrow o sc (fst (exec o sc se_new h)) off len idx) = Ok (mkA t vs) /\
    Forall2 (fun x a => match t_val x with
                        | CNull => a = None
                        | CText y => a = Some (AS y)
                        | CTime m => a = Some (AT m)
                        | CNum y => if integral o (sc_conf sc) sel then t = TI8 /\ a = Some (AI (f8_to_i64 (o_oob o) y))
                                    else t = TF8 /\ a = Some (AF y)
                        end) sel vs.
Proof.
  intros H Ne R sel K. destruct (orderly_column H Ne) as (x & P & C & F & Inc). rewrite (to_arrow_read off len idx P C).
  assert (Ho : 0 <= off) by (unfold request in R; destruct idx; lia).
  pose proof (tles_selection len idx Inc F Ho) as S. destruct (@tles_kinds o sc _ _ S) as [K1 K2].
  destruct (@C38_values o (sc_conf sc) (se_chunks x) off len idx C R) as (t & vs & E & D).
  { unfold one_kind in *. now rewrite !K1. }
  exists t, vs. split; [exact E|]. rewrite K2 in D. revert S D. apply Forall2_tle_l. intros a b v (_ & -> & _). easy.
Qed.
Print Assumptions C31_uniform.

(** Exactly the values whatever the kinds, in mode "no". *)
Theorem C31_mode_no o sc h off len idx : orderly o sc h = true -> adds h <> [] -> request off len idx = true ->
  cf_datetime (sc_conf sc) = false -> cf_numerics (sc_conf sc) = false ->
  exists t vs, snd (to_arrow o sc (fst (exec o sc se_new h)) off len idx) = Ok (mkA t vs) /\
    Forall2 (fun x a => render o t (t_val x) = Ok a) (wanted o sc (adds h) off len idx) vs.
Proof.
  intros H Ne R D N. destruct (orderly_column H Ne) as (x & P & C & F & Inc). rewrite (to_arrow_read off len idx P C).
  assert (Ho : 0 <= off) by (unfold request in R; destruct idx; lia).
  pose proof (tles_selection len idx Inc F Ho) as S.
  destruct (@read_plain o (sc_conf sc) (se_chunks x) off len idx C R) as (vs & E & Q).
  { unfold resolving. rewrite D, N. now destruct (has_T _). }
  eexists. exists vs. split; [exact E|]. revert S Q. apply Forall2_tle_l. intros a b v (_ & -> & _). easy.
Qed.
Print Assumptions C31_mode_no.

(** [to_utf8]: the text form of what [to_arrow] would return. *)
Theorem C31_text_partial o sc h off len idx : orderly o sc h = true -> adds h <> [] -> request off len idx = true ->
  blocked (sc_conf sc) (wanted o sc (adds h) off len idx) = false ->
  exists t ws, snd (to_utf8 o sc (fst (exec o sc se_new h)) off len idx) = Ok (mkA TUtf8 (map (shown o) ws)) /\
    Forall2 (delivers o (sc_conf sc) t) (wanted o sc (adds h) off len idx) ws.
Proof.
  intros H Ne R B. destruct (C31_values_partial H Ne R B) as (t & vs & E & D). exists t, vs. split; [|exact D].
  destruct (orderly_column H Ne) as (x & P & C & _). rewrite (to_arrow_read off len idx P C) in E.
  rewrite (to_utf8_read off len idx P C), E. cbn [bind a_type].
  assert (A : forall a, In a vs -> (t = TUtf8 -> match a with None | Some (AS _) => True | _ => False end)).
  { clear -D. induction D as [|y a l vs (v & _ & Rv) D IH]; [easy|]. intros b [<-|Hb] T; [|now apply (IH b)]. subst t. destruct v; inversion Rv; exact I. }
  destruct (dtype_eqb t TUtf8) eqn:T.
  - assert (t = TUtf8) by (destruct t; easy). subst t. do 2 f_equal. clear -A. induction vs as [|a vs IH]; [reflexivity|]. cbn [map].
    rewrite <- IH; [|intros b Hb; apply A; now right]. pose proof (A a (or_introl eq_refl) eq_refl). now destruct a as [[]|].
  - unfold unsafe_cast. cbn [a_vals a_type]. assert (M : mapM (cast_opt o t TUtf8) vs = Ok (map (shown o) vs)); [|now rewrite M].
    clear. induction vs as [|a vs IH]; [reflexivity|]. cbn [mapM map]. rewrite IH. now destruct a as [[]|].
Qed.
Print Assumptions C31_text_partial.

(** *** Examples and counterexamples *)
Definition ex_float (b : bytes) : option f8 :=
  if str_eqb b (s "1") then Some (f8_of_Z 1) else if str_eqb b (s "43831") then Some (f8_of_Z 43831) else None.
Definition ex_o2 : oracle :=
  mkO ex_float ex_parse_f (fun x => dec (f8_to_i64 (fun _ => 0) x)) (fun m => dec m ++ s "ms") dec ex_strptime true 0
      (f8_of_Z 0) (fun _ => 0).
(** A shared string in row 2, a date and an RK number in rows 3 and 5; read in between. *)
Definition ex_binary := mkSC ex_table true mode_no.
Definition ex_history : list op :=
  [Add (mkCell 2 0 0x11 (VBytes [2; 0; 0; 0])); Add (mkCell 3 0 0x24 (VBytes [0; 0; 0; 0; 0xE0; 0x66; 0xE5; 0x40]));
   Utf 0 0 None; Arrow 1 2 None; Add (mkCell 5 0 0x21 (VBytes [0x2A; 0; 0; 0]))].
Example C31_history_example :
  orderly ex_o2 ex_binary ex_history = true /\ adds ex_history <> [] /\ request 1 6 None = true /\
  blocked mode_no (wanted ex_o2 ex_binary (adds ex_history) 1 6 None) = false /\
  one_kind (wanted ex_o2 ex_binary (adds ex_history) 4 6 None) = true /\
  show (snd (to_arrow ex_o2 ex_binary (fst (exec ex_o2 ex_binary se_new ex_history)) 1 6 None)) =
    Ok (TUtf8, [None; Some (inl (s "007")); Some (inl (s "1577836800000ms")); None; Some (inl (s "10")); None]) /\
  show (snd (to_arrow ex_o2 ex_binary (fst (exec ex_o2 ex_binary se_new ex_history)) 4 6 None)) =
    Ok (TI8, [None; Some (inr 10); None; None; None; None]) /\
  show (snd (to_utf8 ex_o2 ex_binary (fst (exec ex_o2 ex_binary se_new ex_history)) 4 2 None)) =
    Ok (TUtf8, [None; Some (inl (s "10"))]).
Proof. repeat (apply conj); try (vm_compute; reflexivity). discriminate. Qed.
(** An [add] that comes too late. *)
Example C32_example :
  c_row (mkCell 2 0 0x18 (VStr (s "late"))) <= last_added (-1) (snd (exec ex_o2 ex_binary se_new ex_history)) /\
  exists l, snd (exec ex_o2 ex_binary se_new (ex_history ++ [Add (mkCell 2 0 0x18 (VStr (s "late")))])) = l ++ [Row 5].
Proof.
  split; [vm_compute; discriminate|]. rewrite exec_app. pose proof (exec_erow ex_o2 ex_binary ex_history se_new) as E.
  assert (L : last_added (-1) (snd (exec ex_o2 ex_binary se_new ex_history)) = 5) by (vm_compute; reflexivity).
  destruct (exec ex_o2 ex_binary se_new ex_history) as [x l]. cbn [fst snd se_new se_erow] in *. rewrite L in E.
  cbn [exec step]. unfold add. rewrite E. cbn. rewrite E. now exists l.
Qed.
(** In .xlsx files a numeric text that is no number turns its whole run into text: the number
    of the row above is then read as a text, even on its own. *)
Theorem C31_run_refuted o table cf b1 b2 t1 t2 x1 : o_float o b1 = Some x1 -> o_float o b2 = None ->
  decode8 b1 = Some t1 -> decode8 b2 = Some t2 ->
  let sc := mkSC table false cf in
  let c1 := mkCell 0 0 0x20 (VBytes b1) in let c2 := mkCell 1 0 0x20 (VBytes b2) in
  at_row o sc [c1; c2] 0 = num x1 /\
  snd (to_arrow o sc (fst (exec o sc se_new [Add c1; Add c2])) 0 1 None) = Ok (mkA TUtf8 [Some (AS t1)]).
Proof.
  intros F1 F2 D1 D2 sc c1 c2. split.
  { unfold at_row, tag_of, cell_tag. cbn. now rewrite F1. }
  assert (P : pull_some o sc (fst (exec o sc se_new [Add c1; Add c2])) =
    Ok (mkSer [mkC (DStr [Some t1; Some t2]) 0x18 2 []] [] 0x20 0 1 0)).
  { cbn. unfold pull. cbn. unfold xlsx_numeric. cbn. rewrite F1, F2. cbn. rewrite D1, D2. reflexivity. }
  rewrite (to_arrow_read 0 1 None P); [|reflexivity]. erewrite read_runs; [|reflexivity|reflexivity|vm_compute; reflexivity].
  cbn [map snd]. unfold desc_of, p_run, p_resolve. cbn. now destruct (cf_datetime cf), (cf_numerics cf).
Qed.
Print Assumptions C31_run_refuted.
Example C31_run_example : ex_float (s "1") = Some (f8_of_Z 1) /\ ex_float (s "x") = None /\ decode8 (s "1") = Some (s "1") /\ decode8 (s "x") = Some (s "x").
Proof. repeat (apply conj); reflexivity. Qed.
