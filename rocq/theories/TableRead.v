(** A sheet read returns exactly the expected table. *)
From Coq Require Import Sorted ZifyBool ZifyNat.
From Verif Require Import Py PyFacts PyText Cell Casts Chunk ChunkSpec ChunkProofs ChunkWindow ChunkRun ChunkClosed ChunkConcat ReadSpec ReadProofs ReadState
  PropsChunk Utf8 Series SeriesSpec SeriesProofs PropsSeries Reader ReaderSpec ReaderProofs ReaderSteps ReaderRead PropsRead TableSpec TableProofs TableSteps.
Set Implicit Arguments. Unset Strict Implicit.

(** *** Lengths *)
Lemma mapM_length A B (f : A -> res B) l : forall v, mapM f l = Ok v -> List.length v = List.length l.
Proof.
  induction l as [|x l IH]; intros v; cbn [mapM]; [intro H; now injection H as <-|]. destruct (f x); cbn [bind]; [|discriminate].
  destruct (mapM f l) as [w|]; cbn [bind]; [|discriminate]. intro H. injection H as <-. cbn. f_equal. now apply IH.
Qed.
Lemma expected_length o cf rs a : expected o cf rs = Ok a -> List.length (a_vals a) = List.length (List.concat rs).
Proof.
  unfold expected. destruct rs as [|r0 rs0]; [discriminate|]. set (rs := r0 :: rs0). destruct (_ && _ && _); [discriminate|].
  assert (L : List.length (fst (expected_cells o cf rs)) = List.length (List.concat rs)).
  { assert (P : List.length (map (@t_val) (List.concat rs)) = List.length (List.concat rs)) by apply map_length.
    unfold expected_cells. destruct (some_kind KTemp _).
    - destruct (cf_datetime cf); [|exact P]. cbn [fst]. clear. induction rs as [|r rs IH]; [reflexivity|]. cbn [flat_map List.concat]. rewrite !app_length, IH. f_equal.
      unfold to_dates. destruct (is_str r); [|apply map_length]. destruct (dated o cf r); [apply map_length|]. destruct (cf_numerics cf && numeric o r); apply map_length.
    - destruct (some_kind KNum _); [|exact P]. destruct (some_kind KStr _); [|exact P]. destruct (cf_numerics cf); [|exact P]. cbn [fst].
      clear. induction rs as [|r rs IH]; [reflexivity|]. cbn [to_numbers List.concat]. rewrite app_length.
      assert (Q : List.length (flat_map (map (@t_val)) (r :: rs)) = (List.length r + List.length (List.concat rs))%nat).
      { cbn [flat_map]. rewrite app_length, map_length. f_equal. clear. induction rs as [|q rs IH]; [reflexivity|]. cbn [flat_map List.concat]. now rewrite !app_length, map_length, IH. }
      destruct (is_str r); [|now rewrite app_length, map_length, IH]. destruct (numeric o r); [now rewrite app_length, map_length, IH|exact Q]. }
  destruct (expected_cells o cf rs) as [vals t]. cbn [fst] in L. destruct (mapM (render o t) vals) as [vs|] eqn:M; [|discriminate]. cbn [bind]. intro H. injection H as <-.
  cbn [a_vals]. now rewrite (mapM_length M).
Qed.
Lemma chosen_length rs off len : 0 <= off -> 0 < len -> List.length (List.concat (chosen_runs rs off len None)) = Z.to_nat len.
Proof.
  intros Ho Hl. unfold chosen_runs, odd_request. replace (Z.max 0 off) with off by lia. cbv zeta. replace ((len <? 0) || (len =? 0) && negb (off =? 0)) with false by lia.
  rewrite concat_pieces. rewrite (@keep_ext _ _ _ (between (Z.to_nat off) (Z.to_nat len))).
  2:{ intros i _; unfold ReadSpec.chosen, between.
    destruct (Nat.leb_spec (Z.to_nat off) i), (Nat.ltb_spec i (Z.to_nat off + Z.to_nat len)); lia. }
  rewrite keep_between, firstn_length, skipn_length, concat_app, app_length. cbn [List.concat]. rewrite app_nil_r. unfold past_end. rewrite repeat_length. lia.
Qed.
Lemma mapM_ext A B (f g : A -> res B) l : (forall x, In x l -> f x = g x) -> mapM f l = mapM g l.
Proof. induction l as [|x l IH]; intro H; [reflexivity|]. cbn [mapM]. rewrite (H x (or_introl eq_refl)). now rewrite IH by (intros; apply H; now right). Qed.
Lemma mapM_then A B C (f : A -> res B) (G : B -> res C) (G' : B -> C) l : (forall x b, In x l -> f x = Ok b -> G b = Ok (G' b)) ->
  mapM (fun x => b <- f x ;; G b) l = (v <- mapM f l ;; Ok (map G' v)).
Proof.
  induction l as [|x l IH]; intro H; [reflexivity|]. cbn [mapM]. destruct (f x) as [b|e] eqn:E; cbn [bind]; [|reflexivity].
  rewrite (H x b (or_introl eq_refl) E). cbn [bind]. rewrite IH by (intros; eapply H; [right; eassumption|eassumption]). now destruct (mapM f l).
Qed.
Lemma mapM_in A B (f : A -> res B) l v y : mapM f l = Ok v -> In y v -> exists x, In x l /\ f x = Ok y.
Proof.
  revert v. induction l as [|x l IH]; intros v; cbn [mapM]; [intro H; injection H as <-; easy|]. destruct (f x) eqn:E; cbn [bind]; [|discriminate].
  destruct (mapM f l) as [w|]; cbn [bind]; [|discriminate]. intro H. injection H as <-. intros [<-|Hy]; [exists x; split; [now left|exact E]|].
  destruct (IH w eq_refl Hy) as (z & Z1 & Z2). exists z. split; [now right|exact Z2].
Qed.

(** *** First places *)
Lemma find_shift (p : nat -> bool) n : forall a, find p (seq (S a) n) = option_map S (find (fun i => p (S i)) (seq a n)).
Proof. induction n as [|n IH]; intro a; [reflexivity|]. cbn [seq find]. destruct (p (S a)); [reflexivity|]. apply IH. Qed.
Lemma index_place p (l : list (option str)) d : index_of p l = place p l d.
Proof.
  unfold place. induction l as [|x l IH]; [reflexivity|]. cbn [index_of List.length seq find nth]. destruct (p x); [reflexivity|].
  rewrite find_shift. cbn [nth]. rewrite IH. now destruct (find _ _).
Qed.

Lemma firsts_above l : forall last c, In c (firsts last l) -> last < c_row c.
Proof.
  induction l as [|x l IH]; intros last c; [easy|]. cbn [firsts]. destruct (last <? c_row x) eqn:E; [|apply IH]. intros [<-|H]; [lia|]. apply IH in H. lia.
Qed.
Lemma span_pos l k : 0 < span l k.
Proof.
  unfold span, content. generalize (column_cells l k) as m. assert (G : forall m last c r, firsts last m = c :: r -> c_row c <= last_row (c :: r)).
  { induction m as [|x m IH]; intros last c r; [discriminate|]. cbn [firsts]. destruct (last <? c_row x); [|apply IH]. intro H. injection H as <- <-.
    unfold last_row. destruct (rev (x :: firsts (c_row x) m)) as [|y q] eqn:R; [apply (f_equal (@List.length cell)) in R; rewrite rev_length in R; discriminate|].
    assert (Y : In y (x :: firsts (c_row x) m)) by (apply in_rev; rewrite R; now left). destruct Y as [<-|Y]; [lia|]. apply firsts_above in Y. lia. }
  intro m. destruct (firsts (-1) m) as [|c r] eqn:E; [lia|]. apply G in E. lia.
Qed.

Section Steps.
  Context (ro : roracle) (sc : sconf) (l : list cell) (Rows : forall c, In c l -> 0 <= c_row c).
  Local Notation o := (ro_o ro).
  Local Notation cf := (sc_conf sc).
  Local Notation RC := (RC ro sc l).
  Local Notation now := (now ro sc l).
  Local Notation text_at := (text_at ro sc l).
  Local Notation array_at := (array_at ro sc l).

  Lemma text_at_bind h k off len : text_at h k off len = (a <- answer_at ro sc off len None (now h) k ;; Ok (map (text_form o) (a_vals a))).
  Proof. reflexivity. Qed.
  Lemma text_at_length h k off len ts : 0 <= off -> 0 < len -> text_at h k off len = Ok ts -> List.length ts = Z.to_nat len.
  Proof.
    intros Ho Hl. unfold TableSpec.text_at, TableSpec.array_at. destruct (expected _ _ _) as [a|] eqn:E; [|discriminate]. cbn [bind]. intro H. injection H as <-.
    rewrite map_length, (expected_length E). now apply chosen_length.
  Qed.

  (** *** Lookup *)
  Lemma texts_step d h k off len : windowed off len None = true -> RC d (now h) -> In k (order l) ->
    match text_at h k off len with
    | Ok ts => exists d', texts ro sc d k off len = Ok (d', ts) /\ RC d' (now (h ++ [([k], (off, len))]))
    | Err e => texts ro sc d k off len = Err e
    end.
  Proof.
    intros W C K. pose proof (texts_reads W C K) as T. cbv beta in T. rewrite <- text_at_bind in T.
    destruct (text_at h k off len) as [ts|e]; [|exact T]. destruct T as (d' & -> & C'). exists d'. split; [reflexivity|]. apply (rc_ext C'). intros j _. rewrite now_moved.
    unfold moved, mem_Z. cbn [existsb]. rewrite orb_false_r. destruct (j =? k) eqn:E; [|reflexivity]. now replace k with j by lia.
  Qed.
  Lemma search_step p size : size <> 0 -> forall ks before d, RC d (now [(before, (0, size))]) -> order l = before ++ ks ->
    match search ro sc l p size before ks with
    | Ok (r, h) => exists d', find_text ro sc p d ks size = Ok (d', r) /\ RC d' (now h) /\ 0 <= r
    | Err e => find_text ro sc p d ks size = Err e \/ e = ValueError /\ exists d', find_text ro sc p d ks size = Ok (d', -1)
    end.
  Proof.
    intros Hs ks. induction ks as [|k ks IH]; intros before d C O; cbn [search find_text]; [right; split; [reflexivity|now exists d]|].
    assert (W : windowed 0 size None = true) by (unfold windowed; lia).
    assert (K : In k (order l)) by (rewrite O; apply in_or_app; right; now left).
    assert (Nk : mem_Z k before = false).
    { pose proof (order_nodup l) as N. rewrite O in N. apply NoDup_remove_2 in N. destruct (mem_Z k before) eqn:M; [|reflexivity]. exfalso. apply N. apply in_or_app. left. now apply mem_Z_In. }
    assert (E : text_at [(before, (0, size))] k 0 size = text_at [] k 0 size).
    { unfold TableSpec.text_at, TableSpec.array_at, TableSpec.now. cbn [fold_left fst snd]. now rewrite Nk. }
    pose proof (texts_step W C K) as T. rewrite E in T. destruct (text_at [] k 0 size) as [ts|e]; cbn [bind]; [|left; now rewrite T].
    destruct T as (d' & -> & C'). cbn [bind].
    assert (C2 : RC d' (now [(before ++ [k], (0, size))])).
    { apply (rc_ext C'). intros j _. unfold TableSpec.now. cbn [app fold_left fst snd]. unfold mem_Z. rewrite existsb_app. cbn [existsb]. rewrite orb_false_r.
      destruct (existsb (Z.eqb j) before) eqn:Ej; cbn [orb]; [|reflexivity]. destruct (j =? k) eqn:Ek; [|reflexivity]. exfalso. assert (j = k) by lia. subst j. unfold mem_Z in Nk. congruence. }
    rewrite (index_place _ _ None). change (fun x => match x with Some t => p t | None => false end) with (fits p). destruct (place (fits p) ts None) as [i|].
    - exists d'. split; [reflexivity|]. split; [exact C2|lia].
    - apply IH; [exact C2|]. now rewrite <- app_assoc.
  Qed.
  Lemma locate_step op d : (r_lookup op <> None -> r_size op <> 0) -> RC d (now []) ->
    match top_row ro sc l op with
    | Ok (r, h) => exists d', locate ro sc op d = Ok (d', r) /\ RC d' (now h) /\ 0 <= r
    | Err e => locate ro sc op d = Err e
    end.
  Proof.
    intros Hs C. unfold top_row, locate. destruct (r_lookup op) as [[k|t]|]; [| |exists d; split; [reflexivity|]; split; [exact C|lia]].
    - specialize (Hs ltac:(discriminate)). assert (W : windowed 0 (r_size op) None = true) by (unfold windowed; lia). unfold find_header. destruct (mem_Z k (order l)) eqn:M.
      + apply mem_Z_In in M. pose proof (texts_step W C M) as T. destruct (text_at [] k 0 (r_size op)) as [ts|e]; cbn [bind]; [|now rewrite T].
        destruct T as (d' & -> & C'). cbn [bind]. rewrite (index_place _ _ None). change (fun x => match x with Some _ => true | None => false end) with filled.
        destruct (place filled ts None) as [i|]; cbn [row_or]; [|reflexivity]. replace (Z.of_nat i =? -1) with false by lia. exists d'. split; [reflexivity|]. split; [exact C'|lia].
      + unfold texts, ask. destruct (dget Z.eqb d k) as [x|] eqn:G; [|reflexivity]. exfalso. assert (I : In k (order l)) by (rewrite <- (proj1 C); apply dget_In_Z; congruence).
        apply mem_Z_In in I. congruence.
    - specialize (Hs ltac:(discriminate)). assert (W : windowed 0 (r_size op) None = true) by (unfold windowed; lia). unfold find_header. destruct (ro_search ro t) as [p|].
      + assert (C0 : RC d (now [([], (0, r_size op))])) by exact C. rewrite (proj1 C). pose proof (@search_step p (r_size op) Hs (order l) [] d C0 eq_refl) as S.
        destruct (search ro sc l p (r_size op) [] (order l)) as [[r h]|e].
        * destruct S as (d' & -> & C' & Hr). cbn [bind]. replace (r =? -1) with false by lia. now exists d'.
        * destruct S as [->|(-> & d' & ->)]; reflexivity.
      + pose proof (proj1 C) as Ko. destruct (order l) as [|k ks] eqn:O.
        * destruct d as [|[k x] d]; [reflexivity|discriminate].
        * destruct d as [|[k' x] d]; [discriminate|]. injection Ko as -> Ko. assert (K : In k (order l)) by (rewrite O; now left).
          pose proof (texts_step W C K) as T. destruct (text_at [] k 0 (r_size op)) as [ts|e]; cbn [bind]; [|now rewrite T]. destruct T as (d' & -> & _). reflexivity.
  Qed.

  (** *** Names *)
  Lemma reads_ext off len idx A (F : array -> res A) f f' : reads ro sc l off len idx F f -> (forall d k, f d k = f' d k) -> reads ro sc l off len idx F f'.
  Proof. intros H E d g k C K. specialize (H d g k C K). destruct (a <- _ ;; _); rewrite <- E; exact H. Qed.
  Lemma sorted_nodup : NoDup (sorted (order l)).
  Proof.
    pose proof (sorted_sorted (order_nodup l)) as S. induction S as [|a k S IH F]; constructor; [|exact IH]. rewrite Forall_forall in F. intro H. specialize (F a H). lia.
  Qed.
  Lemma heading_step op d top h : (forall n, r_header op = HInt n -> 0 <= n) -> 0 <= top -> RC d (now h) ->
    match heading ro sc l op (sorted (order l)) top h with
    | Ok (n, names, h') => exists d', name_columns ro sc op d top = Ok (d', (n, names)) /\ RC d' (now h') /\ 0 <= n /\ List.length names = List.length (sorted (order l))
    | Err e => name_columns ro sc op d top = Err e
    end.
  Proof.
    intros Hh Ht C. unfold heading, name_columns. pose proof (sorted_length (order l)) as Ls.
    assert (Ld : List.length d = List.length (sorted (order l))) by (rewrite Ls, <- (proj1 C); unfold keys; now rewrite map_length).
    destruct (r_header op) as [n|given].
    - specialize (Hh n eq_refl). destruct (n =? 0) eqn:N0.
      + exists d. unfold unnamed_names. rewrite Ld. repeat split; try apply C; [lia|]. now rewrite map_length, seq_length.
      + assert (W : windowed top n None = true) by (unfold windowed; lia). unfold make_header. rewrite (proj1 C).
        assert (Sub : forall k, In k (sorted (order l)) -> In k (order l)) by (intro k; apply sorted_in).
        assert (Fin : forall d', RC d' (moved top n None (now h) (sorted (order l))) -> RC d' (now (h ++ [(sorted (order l), (top, n))]))).
        { intros d' C'. apply (rc_ext C'). intros j _. now rewrite now_moved. }
        assert (Lt : forall bs : list block, List.length (titles bs) = List.length bs) by (intro bs; unfold titles; now rewrite map_length, seq_length).
        destruct (n =? 1) eqn:N1.
        * assert (n = 1) by lia. subst n.
          pose proof (then_reads (fun b : list (option str) => match b with [] => Err IndexError | x :: _ => Ok (or_unnamed x) end) (texts_reads (ro := ro) (sc := sc) (l := l) W)) as R1.
          assert (R2 : reads ro sc l top 1 None (fun a => b <- Ok (map (text_form o) (a_vals a)) ;; match b with [] => Err IndexError | x :: _ => Ok (or_unnamed x) end)
            (fun d k => ' (d, l) <- texts ro sc d k top 1 ;; match l with [] => Err IndexError | x :: _ => Ok (d, or_unnamed x) end)).
          { apply (reads_ext R1). intros d0 k. destruct (texts ro sc d0 k top 1) as [[d1 [|x ts]]|e]; reflexivity. }
          pose proof (each_reads R2 C sorted_nodup Sub) as E.
          rewrite (@mapM_ext _ _ _ (fun k => b <- text_at h k top 1 ;; match b with [] => Err IndexError | x :: _ => Ok (or_unnamed x) end)) in E
            by (intros k _; rewrite text_at_bind; now destruct (answer_at ro sc top 1 None (now h) k)).
          rewrite (@mapM_then _ _ _ _ _ (fun b => or_unnamed (hd None b))) in E.
          2:{ intros k b _ Hb. apply text_at_length in Hb; [|lia|lia]. destruct b; [discriminate|reflexivity]. }
          destruct (mapM (fun k => text_at h k top 1) (sorted (order l))) as [bs|e] eqn:M; cbn [bind] in *; [|now rewrite E].
          destruct E as (d' & -> & C'). cbn [bind]. exists d'.
          assert (T : titles bs = map (fun b => or_unnamed (hd None b)) bs).
          { assert (B : bs = map (fun x => [x]) (map (hd None) bs)).
            { rewrite map_map. rewrite <- (map_id bs) at 1. apply map_ext_in. intros b Hb. destruct (mapM_in M Hb) as (k & _ & Hk). apply text_at_length in Hk; [|lia|lia].
              destruct b as [|x [|y b]]; try discriminate. reflexivity. }
            rewrite (titles_one B). now rewrite map_map. }
          rewrite T. split; [reflexivity|]. split; [now apply Fin|]. split; [lia|]. rewrite <- T, Lt. exact (mapM_length M).
        * pose proof (each_reads (texts_reads (ro := ro) (sc := sc) (l := l) W) C sorted_nodup Sub) as E.
          rewrite (@mapM_ext _ _ _ (fun k => text_at h k top n)) in E by (intros k _; now rewrite text_at_bind).
          destruct (mapM (fun k => text_at h k top n) (sorted (order l))) as [bs|e] eqn:M; cbn [bind] in *; [|now rewrite E].
          destruct E as (d' & -> & C'). cbn [bind]. exists d'. rewrite (@merge_all (Z.to_nat n)); [|lia|].
          -- split; [reflexivity|]. split; [now apply Fin|]. split; [lia|]. rewrite Lt. exact (mapM_length M).
          -- intros b Hb. destruct (mapM_in M Hb) as (k & _ & Hk). now apply text_at_length in Hk; [|lia|lia].
    - rewrite Ld. destruct (Nat.eqb (List.length given) (List.length (sorted (order l)))) eqn:E; [|reflexivity]. apply Nat.eqb_eq in E.
      exists d. repeat split; try apply C; [lia|exact E].
  Qed.

  (** *** Filters *)
  Lemma selects_match pats name : any_match ro pats name = selects ro pats name.
  Proof.
    unfold selects. induction pats as [|t r IH]; [reflexivity|]. cbn [any_match find]. destruct (ro_match ro t) as [m|] eqn:E; [|now rewrite E].
    destruct (m name); [now rewrite E|exact IH].
  Qed.
  Lemma named_marked pats names : forall ks, List.length names = List.length ks -> named ro pats names ks = (bs <- mapM (selects ro pats) names ;; Ok (marked bs ks)).
  Proof.
    induction names as [|x names IH]; intros [|k ks] L; try discriminate; [reflexivity|]. cbn [named mapM]. rewrite selects_match.
    destruct (selects ro pats x) as [b|]; cbn [bind]; [|reflexivity]. rewrite (IH ks) by (cbn in L; lia). destruct (mapM (selects ro pats) names) as [bs|]; cbn [bind]; [|reflexivity].
    unfold marked. cbn [combine flat_map fst snd]. now destruct b.
  Qed.
  Lemma placed_marked is ks : forall i, placed is (Z.of_nat i) ks = marked (map (fun i => existsb (Z.eqb (Z.of_nat i)) is) (seq i (List.length ks))) ks.
  Proof.
    induction ks as [|k ks IH]; intro i; [reflexivity|]. cbn [placed List.length seq map]. unfold marked. cbn [combine flat_map fst snd]. fold (@marked).
    replace (Z.of_nat i + 1) with (Z.of_nat (S i)) by lia. rewrite IH. unfold mem_Z, marked. now destruct (existsb _ is).
  Qed.
  Lemma marked_none bs : (forall b, In b bs -> b = false) -> forall ks, marked bs ks = [].
  Proof. induction bs as [|b bs IH]; intros H [|k ks]; try reflexivity. unfold marked. cbn [combine flat_map fst snd]. rewrite (H b (or_introl eq_refl)). apply IH. intros; apply H; now right. Qed.
  Lemma filter_step fa names ks : List.length names = List.length ks -> filter_keys ro fa names ks = filter_columns ro fa names ks.
  Proof.
    intro L. unfold filter_keys, filter_columns. destruct fa as [|[|c t]|[|i is]|[|t ts]|]; try reflexivity.
    - now apply named_marked.
    - rewrite marked_none; [reflexivity|]. intros b Hb. apply in_map_iff in Hb. destruct Hb as (i & <- & _). reflexivity.
    - f_equal. apply (placed_marked _ _ 0).
    - assert (E : exists bs, mapM (selects ro []) names = Ok bs /\ forall b, In b bs -> b = false).
      { clear. induction names as [|x names IH]; [now exists []|]. destruct IH as (bs & E & H). exists (false :: bs). cbn [mapM]. rewrite E. split; [reflexivity|]. intros b [<-|Hb]; [reflexivity|now apply H]. }
      destruct E as (bs & -> & H). cbn [bind]. now rewrite marked_none.
    - now apply named_marked.
  Qed.
  Lemma marked_sub bs : forall ks k, In k (marked bs ks) -> In k ks.
  Proof.
    induction bs as [|b bs IH]; intros [|j ks] k; try easy. unfold marked. cbn [combine flat_map fst snd]. intro H. apply in_app_or in H. destruct H as [H|H].
    - destruct b; [|easy]. destruct H as [<-|[]]. now left.
    - right. now apply IH.
  Qed.
  Lemma marked_nodup bs : forall ks, NoDup ks -> NoDup (marked bs ks).
  Proof.
    induction bs as [|b bs IH]; intros [|j ks] N; try constructor. inversion N as [|? ? N1 N2]; subst. unfold marked. cbn [combine flat_map fst snd]. fold (marked bs ks).
    destruct b; [|now apply IH]. constructor; [|now apply IH]. intro H. apply N1. now apply marked_sub in H.
  Qed.
  Lemma filter_sub fa names ks fs : filter_columns ro fa names ks = Ok fs -> NoDup ks -> NoDup fs /\ forall k, In k fs -> In k ks.
  Proof.
    intros H N. assert (G : fs = [] \/ exists bs, fs = marked bs ks).
    { unfold filter_columns in H. destruct fa as [|[|c t]|is|ts|]; try (injection H as <-; now left); try discriminate.
      - destruct (mapM _ names) as [bs|]; [|discriminate]. injection H as <-. right. now exists bs.
      - injection H as <-. right. eexists; reflexivity.
      - destruct (mapM _ names) as [bs|]; [|discriminate]. injection H as <-. right. now exists bs. }
    destruct G as [->|(bs & ->)]; [split; [constructor|easy]|]. split; [now apply marked_nodup|intro k; apply marked_sub].
  Qed.

  Lemma fold_bool_total n ops : forall ls acc, List.length ops = List.length ls -> List.length acc = n ->
    match fold_bool ops acc ls with
    | Ok m => forallb (fun y => Nat.eqb (List.length y) n) ls = true
    | Err e => e = ArrowInvalid /\ forallb (fun y => Nat.eqb (List.length y) n) ls = false
    end.
  Proof.
    induction ops as [|op ops IH]; intros [|x ls] acc L A; try discriminate; [reflexivity|]. cbn [fold_bool forallb]. unfold zip_bool. rewrite A, (Nat.eqb_sym n).
    destruct (Nat.eqb (List.length x) n) eqn:E; cbn [bind andb]; [|now split]. apply IH; [cbn in L; lia|]. rewrite map_length, combine_length. apply Nat.eqb_eq in E. lia.
  Qed.
  Lemma equal_lengths_all A (x : list A) r : equal_lengths (x :: r) = true -> forall y, In y (x :: r) -> List.length y = List.length x.
  Proof. cbn. rewrite forallb_forall. intros H y [<-|Hy]; [reflexivity|]. now apply Nat.eqb_eq, H. Qed.
  Lemma combine_step st x r : combine_filters st (x :: r) =
    match (if Nat.eqb (List.length r) 0 then None else strategy_error st (List.length r)) with
    | Some e => Err e
    | None => if equal_lengths (x :: r) then Ok (map (fun i => keep st (map (fun y => nth i y false) (x :: r))) (seq 0 (List.length x))) else Err ArrowInvalid
    end.
  Proof.
    assert (F : forall ops, List.length ops = List.length r -> r <> [] -> (forall m, fold_bool ops x r = Ok m -> combine_filters st (x :: r) = Ok m) ->
      match fold_bool ops x r with
      | Ok m => equal_lengths (x :: r) = true /\ m = map (fun i => keep st (map (fun y => nth i y false) (x :: r))) (seq 0 (List.length x))
      | Err e => e = ArrowInvalid /\ equal_lengths (x :: r) = false
      end).
    { intros ops Lo Ne H. pose proof (@fold_bool_total (List.length x) ops r x Lo eq_refl) as T. destruct (fold_bool ops x r) as [m|e]; [|exact T]. split; [exact T|].
      apply (@combine_filters_spec st (x :: r) (List.length x)); [discriminate|now apply equal_lengths_all|now apply H]. }
    destruct r as [|y r].
    - cbn. f_equal. symmetry. apply nth_map_seq.
    - cbn [List.length Nat.eqb]. unfold strategy_error. destruct st as [| |ops|]; cbn [combine_filters] in *; [| | |reflexivity].
      + specialize (F (repeat BOr (List.length (y :: r))) (repeat_length _ _) ltac:(discriminate) (fun m H => H)). cbn [List.length] in F.
        destruct (fold_bool _ x (y :: r)); destruct F as [F1 F2]; [rewrite F1; now subst|rewrite F2; now subst].
      + specialize (F (repeat BAnd (List.length (y :: r))) (repeat_length _ _) ltac:(discriminate) (fun m H => H)). cbn [List.length] in F.
        destruct (fold_bool _ x (y :: r)); destruct F as [F1 F2]; [rewrite F1; now subst|rewrite F2; now subst].
      + cbn [List.length] in *. destruct (Nat.eqb (List.length ops) (S (List.length r))) eqn:Lo; cbn [negb andb] in *; [|reflexivity].
        assert (B : existsb (fun x => match x with BOther => true | _ => false end) ops = negb (forallb (fun x => match x with BOther => false | _ => true end) ops)).
        { clear. induction ops as [|[] ops IH]; cbn; try exact IH; reflexivity. }
        rewrite B in *. destruct (forallb _ ops); cbn [negb] in *; [|reflexivity]. apply Nat.eqb_eq in Lo. specialize (F ops Lo ltac:(discriminate) (fun m H => H)).
        destruct (fold_bool _ x (y :: r)); destruct F as [F1 F2]; [rewrite F1; now subst|rewrite F2; now subst].
  Qed.
  Lemma any_true m : existsb (fun b => b) m = negb (true_count m =? 0).
  Proof.
    destruct (existsb (fun b => b) m) eqn:E.
    - apply existsb_exists in E. destruct E as (b & H & ->). apply in_true_count in H. lia.
    - destruct (true_count m =? 0) eqn:T; [reflexivity|]. assert (H : In true m) by (apply true_count_in; lia). exfalso.
      assert (X : existsb (fun b => b) m = true) by (apply existsb_exists; now exists true). congruence.
  Qed.
  Lemma mask_step st d h fs off len : windowed off len None = true -> RC d (now h) -> NoDup fs -> (forall k, In k fs -> In k (order l)) ->
    match rows_kept ro sc l st h fs off len with
    | Ok idx => exists d', row_mask ro sc st d fs off len = Ok (d', idx) /\ RC d' (now (h ++ [(fs, (off, len))]))
    | Err e => row_mask ro sc st d fs off len = Err e
    end.
  Proof.
    intros W C N K. unfold rows_kept, row_mask. destruct fs as [|k0 fs0]; [exists d; split; [reflexivity|]; apply (rc_ext C); intros j _; rewrite now_moved; reflexivity|].
    set (fs := k0 :: fs0) in *.
    pose proof (then_reads (fun a : array => Ok (map non_null (a_vals a))) (arrow_reads (ro := ro) (sc := sc) (l := l) W)) as R1.
    assert (R2 : reads ro sc l off len None (fun a => b <- Ok a ;; Ok (map non_null (a_vals b))) (fun d k => ' (d, a) <- arrow_of ro sc d k off len None ;; Ok (d, map non_null (a_vals a)))).
    { apply (reads_ext R1). intros d0 k. now destruct (arrow_of ro sc d0 k off len None) as [[d1 a]|e]. }
    pose proof (each_reads R2 C N K) as E.
    rewrite (@mapM_ext _ _ _ (fun k => a <- array_at h k off len None ;; Ok (map non_null (a_vals a)))) in E by (intros k _; reflexivity).
    rewrite (@mapM_then _ _ _ _ _ (fun a => map non_null (a_vals a))) in E by (intros; reflexivity).
    destruct (mapM (fun k => array_at h k off len None) fs) as [arrays|e] eqn:M; cbn [bind] in *; [|now rewrite E].
    destruct E as (d' & -> & C'). cbn [bind].
    assert (La : List.length arrays = S (List.length fs0)) by exact (mapM_length M).
    destruct arrays as [|a arrays]; [discriminate|]. cbn [map] in *. rewrite combine_step. rewrite !map_length. injection La as La. rewrite La.
    destruct (if Nat.eqb (List.length fs0) 0 then None else strategy_error st (List.length fs0)) as [e|]; [reflexivity|].
    assert (Le : equal_lengths (map non_null (a_vals a) :: map (fun a => map non_null (a_vals a)) arrays) = equal_lengths (a_vals a :: map (@a_vals) arrays)).
    { cbn [equal_lengths]. clear. induction arrays as [|b arrays IH]; [reflexivity|]. cbn [map forallb]. rewrite IH, !map_length. reflexivity. }
    rewrite Le. destruct (equal_lengths (a_vals a :: map (@a_vals) arrays)); [|reflexivity]. cbn [bind hd].
    assert (Em : map (fun i => keep st (map (fun y => nth i y false) (map non_null (a_vals a) :: map (fun a => map non_null (a_vals a)) arrays))) (seq 0 (List.length (a_vals a))) =
                 map (fun i => keep st (map (fun v => present (nth i v None)) (a_vals a :: map (@a_vals) arrays))) (seq 0 (List.length (a_vals a)))).
    { apply map_ext. intro i. f_equal. cbn [map]. assert (P : forall v, nth i (map non_null v) false = present (nth i v None)) by (intro v; exact (map_nth non_null v None i)).
      rewrite P. f_equal. rewrite !map_map. apply map_ext. intro b. apply P. }
    rewrite Em. rewrite any_true. destruct (true_count _ =? 0); cbn [negb]; [reflexivity|].
    exists d'. split; [reflexivity|]. apply (rc_ext C'). intros j _. now rewrite now_moved.
  Qed.

  (** *** Types *)
  Lemma cast_step a d : cast_col ro a d = convert ro (Some d) a.
  Proof.
    unfold cast_col, convert. rewrite arrow_id_eq, (Z.eqb_sym (u_id d)). destruct (arrow_id (a_type a) =? u_id d); [reflexivity|]. destruct (ro_castable ro (a_type a) d); cbn [andb]; [|reflexivity].
    assert (M : forall vs, mapM (cast_cell ro d) vs = if forallb (fun v => match v with Some v => match ro_cast ro d v with Some _ => true | None => false end | None => true end) vs
      then Ok (map (fun v => match v with Some v => ro_cast ro d v | None => None end) vs) else Err ValueError).
    { induction vs as [|v vs IH]; [reflexivity|]. cbn [mapM forallb map]. rewrite IH. unfold cast_cell. destruct v as [v|]; cbn [bind].
      - destruct (ro_cast ro d v); cbn [bind andb]; [|reflexivity]. now destruct (forallb _ vs).
      - now destruct (forallb _ vs). }
    rewrite M. now destruct (forallb _ (a_vals a)).
  Qed.
  Lemma typed_step dt names arrays : List.length names = List.length arrays -> cast_all ro dt names arrays = typed ro dt names arrays.
  Proof.
    intro L. unfold typed, cast_all. destruct dt as [|d|ds|ds].
    - assert (E : forall i, mapM (fun p => convert ro (type_wanted DTNone (fst (fst p)) (snd (fst p))) (snd p)) (combine (combine (seq i (List.length names)) names) arrays) = Ok (map (Plain ro) arrays)); [|now rewrite E].
      revert arrays L. induction names as [|x names IH]; intros [|a arrays] L i; try discriminate; [reflexivity|]. cbn [List.length seq combine mapM convert type_wanted bind map fst snd].
      now rewrite IH by (cbn in L; lia).
    - assert (E : forall i, mapM (fun p => convert ro (type_wanted (DTOne d) (fst (fst p)) (snd (fst p))) (snd p)) (combine (combine (seq i (List.length names)) names) arrays) = mapM (fun a => cast_col ro a d) arrays); [|now rewrite E].
      revert arrays L. induction names as [|x names IH]; intros [|a arrays] L i; try discriminate; [reflexivity|]. cbn [List.length seq combine mapM type_wanted fst snd].
      rewrite cast_step. now rewrite IH by (cbn in L; lia).
    - assert (E : forall i, mapM (fun p => convert ro (type_wanted (DTDict ds) (fst (fst p)) (snd (fst p))) (snd p)) (combine (combine (seq i (List.length names)) names) arrays) = cast_dict ro names arrays ds); [|now rewrite E].
      revert arrays L. induction names as [|x names IH]; intros [|a arrays] L i; try discriminate; [reflexivity|]. cbn [List.length seq combine mapM type_wanted fst snd cast_dict].
      rewrite IH by (cbn in L; lia). rewrite dget_find. destruct (find _ ds) as [[n d]|]; [now rewrite cast_step|reflexivity].
    - destruct (Nat.eqb (List.length ds) (List.length names)) eqn:Ld; [|reflexivity]. apply Nat.eqb_eq in Ld.
      assert (E : forall arrays, List.length names = List.length arrays -> forall before after, ds = before ++ after -> List.length after = List.length names ->
        mapM (fun p => convert ro (type_wanted (DTSeq ds) (fst (fst p)) (snd (fst p))) (snd p)) (combine (combine (seq (List.length before) (List.length names)) names) arrays) = cast_seq ro arrays after).
      { clear L Ld arrays. induction names as [|x names IH]; intros [|a arrays] L before [|d after] Eq Ld; try discriminate; [reflexivity|].
        cbn [List.length seq combine mapM fst snd cast_seq]. assert (Nd : type_wanted (DTSeq ds) (List.length before) x = Some d).
        { cbn [type_wanted]. rewrite Eq. rewrite nth_error_app2 by lia. now rewrite Nat.sub_diag. }
        rewrite Nd, <- cast_step.
        specialize (IH arrays ltac:(cbn in L; lia) (before ++ [d]) after). rewrite app_length in IH. cbn [List.length] in IH. rewrite Nat.add_1_r in IH. rewrite IH; [reflexivity| |cbn in Ld; lia].
        now rewrite <- app_assoc. }
      symmetry. exact (E arrays L [] ds eq_refl Ld).
  Qed.
  Lemma convert_length w a c : convert ro w a = Ok c -> col_len (ro := ro) c = zlen (a_vals a).
  Proof.
    unfold convert. destruct w as [d|]; [|intro H; now injection H as <-]. destruct (u_id d =? arrow_id (a_type a)); [intro H; now injection H as <-|].
    destruct (_ && _); [|discriminate]. intro H. injection H as <-. cbn [col_len]. unfold zlen. now rewrite map_length.
  Qed.
  Lemma typed_length dt names arrays cs : List.length names = List.length arrays -> typed ro dt names arrays = Ok cs -> map (@col_len ro) cs = map (fun a => zlen (a_vals a)) arrays.
  Proof.
    intro L. unfold typed. destruct (match dt with DTSeq _ => _ | _ => true end); [|discriminate].
    enough (E : forall i cs, mapM (fun p => convert ro (type_wanted dt (fst (fst p)) (snd (fst p))) (snd p)) (combine (combine (seq i (List.length names)) names) arrays) = Ok cs ->
      map (@col_len ro) cs = map (fun a => zlen (a_vals a)) arrays) by apply E.
    clear cs. revert arrays L. induction names as [|x names IH]; intros [|a arrays] L i cs; try discriminate; [intro H; now injection H as <-|].
    cbn [List.length seq combine mapM fst snd]. destruct (convert ro _ a) as [c|] eqn:Ec; cbn [bind]; [|discriminate].
    destruct (mapM _ _) as [v|] eqn:Em; cbn [bind]; [|discriminate]. intro H. injection H as <-. cbn [map]. rewrite (convert_length Ec). f_equal. apply (IH arrays) with (i := S i); [cbn in L; lia|exact Em].
  Qed.
  Lemma mk_step dt names arrays cs : List.length names = List.length arrays -> typed ro dt names arrays = Ok cs ->
    mk_table names cs = if equal_lengths (map (fun a => a_vals a) arrays) then Ok (combine names cs) else Err ArrowInvalid.
  Proof.
    intros L T. apply typed_length in T; [|exact L]. unfold mk_table.
    assert (Lc : List.length cs = List.length arrays) by (apply (f_equal (@List.length Z)) in T; now rewrite !map_length in T).
    rewrite L, Lc, Nat.eqb_refl. cbn [negb]. destruct arrays as [|a arrays], cs as [|c cs]; try discriminate; [now destruct names|].
    cbn [map equal_lengths] in *. injection T as T0 T.
    assert (E : forallb (fun x => col_len x =? col_len c) cs = forallb (fun y => Nat.eqb (List.length y) (List.length (a_vals a))) (map (fun a => a_vals a) arrays)).
    { rewrite T0. clear -T. revert cs T. induction arrays as [|b arrays IH]; intros [|x cs] T; try discriminate; [reflexivity|]. cbn [map forallb] in *. injection T as T1 T. rewrite (IH cs T), T1. f_equal.
      unfold zlen. lia. }
    now rewrite E.
  Qed.
End Steps.

Section Whole.
  Context (ro : roracle) (sc : sconf) (op : ropts) (outs : list out).
  Local Notation l := (Cell.cells_of outs).
  Theorem read_table ks n : readable ro sc l = true -> listing l ks -> tallest l ks n -> (forall h, r_header op = HInt h -> 0 <= h) -> (r_lookup op <> None -> r_size op <> 0) ->
    read_trace ro sc op (outs, None) = expected_table ro sc l op ks n.
  Proof.
    intros S Ls T Hh Hs. assert (Rows : forall c, In c l -> 0 <= c_row c).
    { intros c Hc. unfold readable in S. rewrite forallb_forall in S. specialize (S c Hc). lia. }
    pose proof (listing_order Ls) as Ek. unfold read_trace. cbn [fst snd].
    assert (C0 : TC ro sc [] []) by (split; [reflexivity|easy]).
    destruct (collect_tc C0 S) as (d & -> & C). cbn [bind app] in *. unfold read_columns.
    assert (T' : tallest l (order l) n).
    { destruct T as [(k & K & E) T]. split; [exists k; split; [apply sorted_in; now rewrite Ek|exact E]|]. intros j J. apply T. rewrite <- Ek. now apply sorted_in. }
    rewrite (tallest_max Rows C T'). cbn [bind]. unfold expected_table.
    assert (Hn : 0 < n).
    { destruct T' as [(k & K & ->) _]. apply span_pos. }
    pose proof (rc_start Rows C) as R0. pose proof (locate_step Hs R0) as L1.
    destruct (top_row ro sc l op) as [[top h]|e]; cbn [bind]; [|now rewrite L1]. destruct L1 as (d1 & -> & R1 & Ht). cbn [bind].
    pose proof (heading_step Hh Ht R1) as L2. rewrite Ek in L2.
    destruct (heading ro sc l op ks top h) as [[[height names] h2]|e]; cbn [bind]; [|now rewrite L2]. destruct L2 as (d2 & -> & R2 & Hg & Ln). cbn [bind].
    rewrite (proj1 R2), Ek. rewrite (filter_step _ _ Ln). destruct (filter_columns ro (r_filters op) names ks) as [fs|e] eqn:Ff; cbn [bind]; [|reflexivity].
    assert (Nk : NoDup ks) by (rewrite <- Ek; apply sorted_nodup). destruct (filter_sub Ff Nk) as [Nf Sf].
    set (off := height + top + r_skip_after op). replace (n - top - height - r_skip_after op) with (n - off) by (unfold off; lia).
    assert (W : windowed off (n - off) None = true) by (unfold windowed; lia).
    assert (Kk : forall k, In k ks -> In k (order l)) by (intros k; rewrite <- Ek; apply sorted_in).
    pose proof (mask_step (r_strategy op) W R2 Nf (fun k H => Kk k (Sf k H))) as L3. cbv zeta.
    destruct (rows_kept ro sc l (r_strategy op) h2 fs off (n - off)) as [idx|e]; cbn [bind]; [|now rewrite L3]. destruct L3 as (d3 & -> & R3). cbn [bind].
    rewrite (proj1 R3), Ek.
    assert (W' : windowed off (n - off) idx = true) by (unfold windowed in *; destruct idx; lia).
    pose proof (each_reads (arrow_reads (ro := ro) (sc := sc) (l := l) W') R3 Nk Kk) as L4.
    rewrite (@mapM_ext _ _ _ (fun k => array_at ro sc l (h2 ++ [(fs, (off, n - off))]) k off (n - off) idx)) in L4.
    2:{ intros k _. unfold array_at, answer_at. now destruct (expected _ _ _). }
    destruct (mapM (fun k => array_at ro sc l (h2 ++ [(fs, (off, n - off))]) k off (n - off) idx) ks) as [arrays|e] eqn:M; cbn [bind]; [|now rewrite L4].
    destruct L4 as (d4 & -> & _). cbn [bind]. assert (La : List.length names = List.length arrays) by (rewrite Ln; symmetry; exact (mapM_length M)).
    rewrite (typed_step _ _ La). destruct (typed ro (r_dtypes op) names arrays) as [cs|e] eqn:Ty; cbn [bind]; [|reflexivity]. exact (mk_step La Ty).
  Qed.
End Whole.
