(** Reads of a column depend only on the rows they ask for. *)
From Coq Require Import Sorted ZifyBool ZifyNat.
From Verif Require Import Py PyFacts PyText Cell Casts Chunk ChunkSpec ReadSpec ReadProofs Utf8 Series SeriesSpec SeriesProofs
  Reader ReaderSpec ReaderProofs TableSpec TableFresh TableErrors SameProofs.
Set Implicit Arguments. Unset Strict Implicit.

(** *** Rows kept *)
Lemma keep_app A f (l l' : list A) : forall row, keep_rows row (l ++ l') f = keep_rows row l f ++ keep_rows (row + List.length l) l' f.
Proof.
  induction l as [|x l IH]; intro row; cbn [app keep_rows List.length]; [now rewrite Nat.add_0_r|]. rewrite IH. replace (S row + List.length l)%nat with (row + S (List.length l))%nat by lia.
  now destruct (f row).
Qed.
Lemma keep_none A f (l : list A) : forall row, (forall i, (row <= i < row + List.length l)%nat -> f i = false) -> keep_rows row l f = [].
Proof. induction l as [|x l IH]; intros row H; [reflexivity|]. cbn [keep_rows]. rewrite H by (cbn; lia). apply IH. intros i Hi. apply H. cbn. lia. Qed.
Lemma pieces_nil A (f : nat -> bool) (rs : list (list A)) row : pieces row ([] :: rs) f = pieces row rs f.
Proof. cbn. now rewrite Nat.add_0_r. Qed.
Lemma pieces_some A (f : nat -> bool) (r : list A) rs row : pieces row (some_run r ++ rs) f = pieces row (r :: rs) f.
Proof. destruct r; [|reflexivity]. symmetry. apply pieces_nil. Qed.
Lemma pieces_skip A (f : nat -> bool) (r : list A) rs row : (forall i, (row <= i < row + List.length r)%nat -> f i = false) ->
  pieces row (r :: rs) f = pieces (row + List.length r) rs f.
Proof. intro H. cbn [pieces]. now rewrite keep_none. Qed.
Lemma pieces_past A (f : nat -> bool) (rs : list (list A)) : forall row, (forall i, (row <= i)%nat -> f i = false) -> pieces row rs f = [].
Proof. induction rs as [|r rs IH]; intros row H; [reflexivity|]. rewrite pieces_skip by (intros i Hi; apply H; lia). apply IH. intros i Hi. apply H. lia. Qed.
(** Nulls: only the rows matter. *)
Lemma keep_split A f (x : A) a b row : keep_rows row (repeat x (a + b)) f = keep_rows row (repeat x a) f ++ keep_rows (row + a) (repeat x b) f.
Proof. rewrite repeat_app, keep_app, repeat_length. reflexivity. Qed.
Lemma keep_nulls A (f : nat -> bool) (x : A) a b r r' n n' : (forall i, (i < a \/ b <= i)%nat -> f i = false) ->
  (r <= a)%nat -> (r' <= a)%nat -> (b <= r + n)%nat -> (b <= r' + n')%nat -> keep_rows r (repeat x n) f = keep_rows r' (repeat x n') f.
Proof.
  intros F Hr Hr' Hn Hn'. destruct (Nat.le_gt_cases b a) as [L|L].
  { rewrite !keep_none; [reflexivity| |]; rewrite repeat_length; intros i Hi; apply F; lia. }
  assert (G : forall r n, (r <= a)%nat -> (b <= r + n)%nat -> keep_rows r (repeat x n) f = keep_rows a (repeat x (b - a)) f).
  { clear -F L. intros r n Hr Hn. replace n with ((a - r) + ((b - a) + (n - (a - r) - (b - a))))%nat by lia. rewrite !keep_split.
    rewrite (@keep_none _ f (repeat x (a - r))) by (rewrite repeat_length; intros i Hi; apply F; lia). replace (r + (a - r))%nat with a by lia.
    rewrite (@keep_none _ f (repeat x (n - _ - _))) by (rewrite repeat_length; intros i Hi; apply F; lia). now rewrite app_nil_r. }
  now rewrite (G r n), (G r' n').
Qed.

(** *** Groups of cells in consecutive rows *)
Fixpoint block (row : Z) (g : list cell) : Prop := match g with [] => True | c :: g => c_row c = row /\ block (row + 1) g end.
Fixpoint blocks_from (row : Z) (gs : list (list cell)) : Prop :=
  match gs with
  | [] => True
  | g :: gs => exists a, row <= a /\ g <> [] /\ block a g /\ blocks_from (a + zlen g) gs
  end.
Lemma block_app g c : forall row, block row g -> c_row c = row + zlen g -> block row (g ++ [c]).
Proof.
  induction g as [|d g IH]; intros row H E; cbn [app block] in *; [now split; [rewrite E; change (zlen (@nil cell)) with 0; lia|]|]. destruct H as [H1 H2]. split; [exact H1|]. apply IH; [exact H2|].
  rewrite zlen_cons in E. lia.
Qed.
Lemma grouped_from_blocks l : forall g d row a, increasing (c_row d) l = true -> row <= a -> g <> [] -> block a g -> c_row d + 1 = a + zlen g ->
  blocks_from row (grouped_from g d l).
Proof.
  induction l as [|c l IH]; intros g d row a I R N B E; cbn [grouped_from].
  - exists a. repeat (split; [assumption|]). exact Logic.I.
  - cbn [increasing] in I. apply andb_prop in I as [I1 I2]. destruct (follows d c) eqn:Fo.
    + unfold follows in Fo. apply (IH _ _ _ a); [exact I2|exact R|now destruct g|apply block_app; [exact B|lia]|]. rewrite zlen_app. change (zlen [c]) with 1. lia.
    + exists a. repeat (split; [assumption|]). apply (IH _ _ _ (c_row c)); [exact I2|lia|discriminate|now split|]. change (zlen [c]) with 1. lia.
Qed.
Lemma grouped_blocks l row : increasing (row - 1) l = true -> blocks_from row (grouped l).
Proof.
  destruct l as [|c l]; [easy|]. cbn [increasing grouped]. intro I. apply andb_prop in I as [I1 I2].
  apply (@grouped_from_blocks _ _ _ _ (c_row c)); [exact I2|lia|discriminate|now split|]. change (zlen [c]) with 1. lia.
Qed.

(** *** Rows from [a] to [b] *)
Definition between (a b : Z) (c : cell) : bool := (a <=? c_row c) && (c_row c <? b).
Definition nonempty {A} (l : list A) : bool := match l with [] => false | _ => true end.
Definition cut (a b : Z) (gs : list (list cell)) : list (list cell) := filter nonempty (map (filter (between a b)) gs).
Lemma cut_cons a b g gs : cut a b (g :: gs) = (if nonempty (filter (between a b) g) then [filter (between a b) g] else []) ++ cut a b gs.
Proof. unfold cut. cbn [map filter]. now destruct (nonempty _). Qed.
Lemma filter_none A (p : A -> bool) l : (forall x, In x l -> p x = false) -> filter p l = [].
Proof. induction l as [|x l IH]; intro H; [reflexivity|]. cbn [filter]. rewrite (H x) by now left. apply IH. intros; apply H; now right. Qed.
Lemma filter_every A (p : A -> bool) l : (forall x, In x l -> p x = true) -> filter p l = l.
Proof. induction l as [|x l IH]; intro H; [reflexivity|]. cbn [filter]. rewrite (H x) by now left. f_equal. apply IH. intros; apply H; now right. Qed.
Lemma grouped_head g d l : exists g' gs, grouped_from g d l = (g ++ g') :: gs.
Proof.
  revert g d. induction l as [|c l IH]; intros g d; cbn [grouped_from]; [exists [], []; now rewrite app_nil_r|]. destruct (follows d c).
  - destruct (IH (g ++ [c]) c) as (g' & gs & E). exists (c :: g'), gs. rewrite E, <- app_assoc. reflexivity.
  - exists [], (grouped_from [c] c l). now rewrite app_nil_r.
Qed.
Lemma grouped_cut a b l : forall g d, increasing (c_row d) l = true -> (forall c, In c g -> c_row c <= c_row d) -> In d g ->
  cut a b (grouped_from g d l) =
  if between a b d then grouped_from (filter (between a b) g) d (filter (between a b) l)
  else if c_row d <? a then (if nonempty (filter (between a b) g) then [filter (between a b) g] else []) ++ grouped (filter (between a b) l)
  else if nonempty (filter (between a b) g) then [filter (between a b) g] else [].
Proof.
  induction l as [|c l IH]; intros g d I G D.
  - cbn [grouped_from filter grouped]. rewrite cut_cons. unfold cut at 1. cbn [map filter]. rewrite app_nil_r. destruct (between a b d) eqn:Bd; [|now destruct (c_row d <? a)].
    assert (N : nonempty (filter (between a b) g) = true).
    { assert (X : In d (filter (between a b) g)) by (apply filter_In; now split). now destruct (filter (between a b) g). }
    now rewrite N.
  - cbn [increasing] in I. apply andb_prop in I as [I1 I2]. cbn [grouped_from]. destruct (follows d c) eqn:Fo.
    + rewrite IH; [|exact I2|intros e He; apply in_app_or in He as [He|[<-|[]]]; [specialize (G e He); lia|lia]|apply in_or_app; right; now left].
      unfold follows in Fo. rewrite filter_app. cbn [filter]. destruct (between a b c) eqn:Bc.
      * destruct (between a b d) eqn:Bd.
        { cbn [grouped_from]. replace (follows d c) with true by (symmetry; exact Fo). reflexivity. }
        unfold between in Bc, Bd. replace (c_row d <? a) with true by lia.
        rewrite (@filter_none _ _ g) by (intros e He; specialize (G e He); unfold between; lia). reflexivity.
      * rewrite app_nil_r. destruct (between a b d) eqn:Bd.
        { unfold between in Bc, Bd. replace (c_row c <? a) with false by lia.
          rewrite (@filter_none _ _ l) by (intros e He; pose proof (increasing_all I2 He); unfold between; lia).
          cbn [grouped_from].
          assert (N : nonempty (filter (between a b) g) = true).
          { assert (X : In d (filter (between a b) g)) by (apply filter_In; unfold between; split; [exact D|lia]). now destruct (filter (between a b) g). }
          now rewrite N. }
        unfold between in Bc, Bd. destruct (c_row d <? a) eqn:Da; destruct (c_row c <? a) eqn:Ca; try lia; [reflexivity| |reflexivity].
        rewrite (@filter_none _ _ l) by (intros e He; pose proof (increasing_all I2 He); unfold between; lia). cbn [grouped]. now rewrite app_nil_r.
    + rewrite cut_cons. rewrite IH; [|exact I2|intros e [<-|[]]; lia|now left]. cbn [filter]. destruct (between a b c) eqn:Bc.
      * destruct (between a b d) eqn:Bd.
        { cbn [grouped_from]. rewrite Fo.
          assert (N : nonempty (filter (between a b) g) = true).
          { assert (X : In d (filter (between a b) g)) by (apply filter_In; now split). now destruct (filter (between a b) g). }
          now rewrite N. }
        unfold between in Bc, Bd. replace (c_row d <? a) with true by lia. reflexivity.
      * cbn [nonempty app]. destruct (between a b d) eqn:Bd.
        { unfold between in Bc, Bd. replace (c_row c <? a) with false by lia.
          rewrite (@filter_none _ _ l) by (intros e He; pose proof (increasing_all I2 He); unfold between; lia). rewrite app_nil_r. cbn [grouped_from].
          assert (N : nonempty (filter (between a b) g) = true).
          { assert (X : In d (filter (between a b) g)) by (apply filter_In; unfold between; split; [exact D|lia]). now destruct (filter (between a b) g). }
          now rewrite N. }
        unfold between in Bc, Bd. destruct (c_row c <? a) eqn:Ca.
        { replace (c_row d <? a) with true by lia. reflexivity. }
        rewrite app_nil_r. rewrite (@filter_none _ _ l) by (intros e He; pose proof (increasing_all I2 He); unfold between; lia). cbn [grouped]. rewrite app_nil_r.
        now destruct (c_row d <? a).
Qed.
Lemma cut_grouped a b l last : increasing last l = true -> cut a b (grouped l) = grouped (filter (between a b) l).
Proof.
  destruct l as [|c l]; [reflexivity|]. cbn [increasing grouped]. intro I. apply andb_prop in I as [_ I].
  rewrite grouped_cut; [|exact I|intros e [<-|[]]; lia|now left]. cbn [filter]. destruct (between a b c) eqn:B; [reflexivity|]. cbn [nonempty app].
  destruct (c_row c <? a) eqn:Ca; [reflexivity|]. unfold between in B. rewrite (@filter_none _ _ l); [reflexivity|]. intros e He. pose proof (increasing_all I He). unfold between. lia.
Qed.

(** *** A block cut to the rows from [a] to [b] *)
Section Cut.
  Context (a b : Z) (A0 : 0 <= a).
  Local Notation cutting := (filter (between a b)).
  Lemma block_rows g : forall row c, block row g -> In c g -> row <= c_row c < row + zlen g.
  Proof. induction g as [|d g IH]; intros row c B I; [easy|]. rewrite zlen_cons. destruct B as [B1 B2]. pose proof (zlen_nonneg g). destruct I as [<-|I]; [lia|]. specialize (IH _ _ B2 I). lia. Qed.
  Lemma block_cut g : forall row, block row g -> block (Z.max row a) (cutting g) /\ zlen (cutting g) = Z.max 0 (Z.min (row + zlen g) b - Z.max row a).
  Proof.
    induction g as [|c g IH]; intros row B.
    { cbn [filter block]. split; [exact I|]. change (zlen (@nil cell)) with 0. lia. }
    destruct B as [B1 B2]. cbn [filter]. rewrite zlen_cons. pose proof (zlen_nonneg g). specialize (IH _ B2) as [I1 I2]. destruct (between a b c) eqn:E; unfold between in E.
    - replace (Z.max row a) with row by lia. replace (Z.max (row + 1) a) with (row + 1) in * by lia. cbn [block]. rewrite zlen_cons. split; [now split|lia].
    - destruct (Z_lt_ge_dec row a) as [L|L]; [replace (Z.max (row + 1) a) with (Z.max row a) in * by lia; split; [exact I1|lia]|].
      rewrite filter_none; [split; [exact I|change (zlen (@nil cell)) with 0; lia]|]. intros d Hd. pose proof (block_rows B2 Hd). unfold between. lia.
  Qed.
  Context (f : nat -> bool) (F : forall i, Z.of_nat i < a \/ b <= Z.of_nat i -> f i = false).
  Lemma block_keep T (h : cell -> T) g : forall row, 0 <= row -> block row g ->
    keep_rows (Z.to_nat row) (map h g) f = keep_rows (Z.to_nat (Z.max row a)) (map h (cutting g)) f.
  Proof.
    induction g as [|c g IH]; intros row R B; [reflexivity|]. destruct B as [B1 B2]. cbn [map filter keep_rows]. specialize (IH (row + 1) ltac:(lia) B2).
    replace (S (Z.to_nat row)) with (Z.to_nat (row + 1)) by lia. destruct (between a b c) eqn:E; unfold between in E.
    - replace (Z.max row a) with row by lia. replace (Z.max (row + 1) a) with (row + 1) in IH by lia. cbn [map keep_rows]. replace (S (Z.to_nat row)) with (Z.to_nat (row + 1)) by lia. now rewrite IH.
    - rewrite F by lia. rewrite IH. destruct (Z_lt_ge_dec row a) as [L|L]; [now replace (Z.max (row + 1) a) with (Z.max row a) by lia|].
      rewrite filter_none; [reflexivity|]. intros d Hd. pose proof (block_rows B2 Hd). unfold between. lia.
  Qed.
  Lemma cut_beyond gs : forall row, b <= row -> blocks_from row gs -> cut a b gs = [].
  Proof.
    induction gs as [|g gs IH]; intros row R B; [reflexivity|]. destruct B as (x & X1 & X2 & X3 & X4). rewrite cut_cons, filter_none; [|intros c Hc; pose proof (block_rows X3 Hc); unfold between; lia].
    cbn [nonempty app]. pose proof (zlen_nonneg g). apply (IH (x + zlen g)); [lia|exact X4].
  Qed.
  (** Nulls. *)
  Lemma nulls_end T (x : T) r n n' : b <= r + Z.of_nat n -> b <= r + Z.of_nat n' -> 0 <= r -> keep_rows (Z.to_nat r) (repeat x n) f = keep_rows (Z.to_nat r) (repeat x n') f.
  Proof.
    assert (G : forall n n', (n <= n')%nat -> b <= r + Z.of_nat n -> 0 <= r -> keep_rows (Z.to_nat r) (repeat x n) f = keep_rows (Z.to_nat r) (repeat x n') f).
    { clear n n'. intros n n' L H R. replace n' with (n + (n' - n))%nat by lia. rewrite keep_split. rewrite (@keep_none _ f (repeat x (n' - n))); [now rewrite app_nil_r|].
      rewrite repeat_length. intros i Hi. apply F. lia. }
    intros H H' R. destruct (Nat.le_ge_cases n n') as [L|L]; [now apply G|symmetry; now apply G].
  Qed.
  Lemma nulls_start T (x : T) r e : 0 <= r -> keep_rows (Z.to_nat r) (repeat x (Z.to_nat (e - r))) f = keep_rows (Z.to_nat (Z.max r a)) (repeat x (Z.to_nat (e - Z.max r a))) f.
  Proof.
    intro R. destruct (Z_le_gt_dec a r) as [L|L]; [now replace (Z.max r a) with r by lia|]. replace (Z.max r a) with a by lia. destruct (Z_le_gt_dec e a) as [K|K].
    - rewrite !keep_none; [reflexivity| |]; rewrite repeat_length; intros i Hi; apply F; lia.
    - replace (Z.to_nat (e - r)) with (Z.to_nat (a - r) + Z.to_nat (e - a))%nat by lia. rewrite keep_split, keep_none by (rewrite repeat_length; intros i Hi; apply F; lia).
      cbn [app]. f_equal. lia.
  Qed.

  Context (o : oracle) (sc : sconf) (N : nat) (HN : b <= Z.of_nat N).
  Local Notation runs row gs := (column_runs o sc row gs ++ [repeat tnull N]).
  Definition all_good (gs : list (list cell)) : Prop := forall g, In g gs -> forallb (good o sc) g = true.
  Lemma runs_cons row c g gs : forallb (good o sc) (c :: g) = true -> 0 <= row -> row <= c_row c ->
    pieces (Z.to_nat row) (runs row ((c :: g) :: gs)) f =
    some_run (keep_rows (Z.to_nat row) (repeat tnull (Z.to_nat (c_row c - row))) f) ++
    some_run (keep_rows (Z.to_nat (c_row c)) (map (tag_of o sc) (c :: g)) f) ++ pieces (Z.to_nat (c_row c + zlen (c :: g))) (runs (c_row c + zlen (c :: g)) gs) f.
  Proof.
    intros G R H. cbn [column_runs]. rewrite <- app_assoc, pieces_some, <- app_comm_cons. rewrite (run_good G).
    assert (P : forall T (r : list T) rs row, pieces row (r :: rs) f = some_run (keep_rows row r f) ++ pieces (row + List.length r) rs f).
    { intros T r rs row0. cbn [pieces]. now destruct (keep_rows row0 r f). }
    rewrite P, repeat_length. f_equal. replace (Z.to_nat row + Z.to_nat (c_row c - row))%nat with (Z.to_nat (c_row c)) by lia. rewrite P, map_length. f_equal. f_equal.
    unfold zlen. lia.
  Qed.
  Lemma pieces_cut gs : forall row, 0 <= row -> blocks_from row gs -> all_good gs ->
    pieces (Z.to_nat row) (runs row gs) f = pieces (Z.to_nat (Z.max row a)) (runs (Z.max row a) (cut a b gs)) f.
  Proof.
    induction gs as [|g gs IH]; intros row R B G.
    - cbn [column_runs app cut map filter pieces]. assert (E : keep_rows (Z.to_nat row) (repeat tnull N) f = keep_rows (Z.to_nat (Z.max row a)) (repeat tnull N) f); [|now rewrite E].
      destruct (Z_le_gt_dec a row) as [L|L]; [now replace (Z.max row a) with row by lia|].
      rewrite (@nulls_end _ tnull row N (Z.to_nat (a - row) + N)) by lia. rewrite keep_split, keep_none by (rewrite repeat_length; intros i Hi; apply F; lia).
      cbn [app]. f_equal. lia.
    - destruct B as (x & X1 & X2 & X3 & X4). destruct g as [|c g]; [easy|]. assert (Xc : c_row c = x) by now destruct X3.
      assert (Gg : forallb (good o sc) (c :: g) = true) by (apply G; now left). assert (Gs : all_good gs) by (intros y Hy; apply G; now right).
      rewrite runs_cons by (try exact Gg; lia). rewrite Xc. set (e := x + zlen (c :: g)) in *. assert (He : x < e) by (subst e; rewrite zlen_cons; pose proof (zlen_nonneg g); lia).
      destruct (block_cut X3) as [C1 C2]. fold e in C2. rewrite cut_cons. rewrite (block_keep (tag_of o sc)) by (try exact X3; lia). rewrite nulls_start by lia.
      destruct (cutting (c :: g)) as [|d g'] eqn:Q.
      + cbn [nonempty app map keep_rows some_run]. change (zlen (@nil cell)) with 0 in C2. destruct (Z_le_gt_dec e a) as [L|L].
        * rewrite IH by (try exact X4; try exact Gs; lia). replace (Z.max e a) with a by lia. replace (Z.max row a) with a by lia.
          rewrite keep_none by (rewrite repeat_length; intros i Hi; apply F; lia). reflexivity.
        * assert (Lb : b <= Z.max x a) by lia. rewrite (cut_beyond (row := e)) by (try exact X4; lia).
          rewrite pieces_past by (intros i Hi; apply F; lia). rewrite app_nil_r. cbn [column_runs app pieces].
          assert (E : keep_rows (Z.to_nat (Z.max row a)) (repeat tnull (Z.to_nat (x - Z.max row a))) f = keep_rows (Z.to_nat (Z.max row a)) (repeat tnull N) f).
          { destruct (Z_le_gt_dec b (Z.max row a)) as [K|K]; [rewrite !keep_none; [reflexivity| |]; rewrite repeat_length; intros i Hi; apply F; lia|]. apply nulls_end; lia. }
          rewrite E. now destruct (keep_rows (Z.to_nat (Z.max row a)) (repeat tnull N) f).
      + cbn [nonempty]. change ([d :: g'] ++ cut a b gs) with ((d :: g') :: cut a b gs). assert (Gd : forallb (good o sc) (d :: g') = true).
        { rewrite <- Q. apply forallb_forall. intros y Hy. apply filter_In in Hy as [Hy _]. exact (proj1 (forallb_forall _ _) Gg y Hy). }
        assert (Dr : c_row d = Z.max x a) by now destruct C1. rewrite runs_cons by (try exact Gd; lia). rewrite Dr.
        assert (Pos : 0 < zlen (d :: g')) by (rewrite zlen_cons; pose proof (zlen_nonneg g'); lia).
        f_equal.
        { f_equal. destruct (Z_le_gt_dec a x) as [L|L]; [now replace (Z.max x a) with x by lia|].
          rewrite !keep_none; [reflexivity| |]; rewrite repeat_length; intros i Hi; apply F; lia. }
        f_equal. destruct (Z_le_gt_dec e b) as [L|L].
        * rewrite IH by (try exact X4; try exact Gs; lia). replace (Z.max e a) with e by lia. replace (Z.max x a + zlen (d :: g')) with e by lia. reflexivity.
        * replace (Z.max x a + zlen (d :: g')) with b by lia. rewrite !pieces_past; [reflexivity| |]; intros i Hi; apply F; lia.
  Qed.
End Cut.

(** *** Reads *)
Lemma grouped_good o sc l : forallb (good o sc) l = true -> all_good o sc (grouped l).
Proof.
  assert (G : forall l g d, forallb (good o sc) l = true -> forallb (good o sc) g = true -> all_good o sc (grouped_from g d l)).
  { clear l. induction l as [|c l IH]; intros g d H Hg; cbn [grouped_from]; [intros x [<-|[]]; exact Hg|]. cbn [forallb] in H. apply andb_prop in H as [H1 H2]. destruct (follows d c).
    - apply IH; [exact H2|]. rewrite forallb_app, Hg. cbn. now rewrite H1.
    - intros x [<-|Hx]; [exact Hg|]. revert x Hx. apply IH; [exact H2|]. cbn. now rewrite H1. }
  destruct l as [|c l]; [easy|]. cbn [forallb grouped]. intro H. apply andb_prop in H as [H1 H2]. apply G; [exact H2|]. cbn. now rewrite H1.
Qed.
(** The rows a read asks for end here. *)
Definition read_end (off len : Z) (idx : option (list bool)) : Z := Z.max 0 off + match idx with Some m => zlen m | None => len end.
Lemma runs_cut o sc l off len idx last : increasing (-1) l = true -> forallb (good o sc) l = true -> (idx = None -> 0 < len) -> last = read_end off len idx ->
  chosen_runs (column_runs o sc 0 (grouped l)) off len idx =
  pieces (Z.to_nat (Z.max 0 off)) (column_runs o sc (Z.max 0 off) (grouped (filter (between (Z.max 0 off) last) l)) ++ [past_end (Z.max 0 off) len idx]) (ReadSpec.chosen (Z.max 0 off) len idx).
Proof.
  intros I G L ->. unfold chosen_runs. assert (Odd : odd_request off len idx = false) by (unfold odd_request; destruct idx; [reflexivity|specialize (L eq_refl); lia]).
  rewrite Odd. set (a := Z.max 0 off). assert (A0 : 0 <= a) by lia. unfold past_end. set (b := read_end off len idx).
  assert (Nb : b = a + match idx with Some m => zlen m | None => len end) by reflexivity.
  assert (B0 : 0 <= b) by (rewrite Nb; destruct idx as [m|]; [pose proof (zlen_nonneg m); lia|specialize (L eq_refl); lia]). rewrite <- Nb.
  change 0%nat with (Z.to_nat 0) at 1. rewrite (@pieces_cut a b A0) with (N := Z.to_nat b).
  - replace (Z.max 0 a) with a by lia. now rewrite (cut_grouped a b I).
  - intros i Hi. unfold ReadSpec.chosen. destruct idx as [m|].
    + destruct Hi as [Hi|Hi]; [now replace (a <=? Z.of_nat i) with false by lia|]. rewrite nth_overflow; [apply andb_false_r|]. unfold zlen in Nb. lia.
    + specialize (L eq_refl). lia.
  - lia.
  - lia.
  - now apply grouped_blocks.
  - now apply grouped_good.
Qed.
Lemma array_cut ro sc l l' k off len idx : sheet_ok (ro_o ro) sc l = true -> sheet_ok (ro_o ro) sc l' = true -> (idx = None -> 0 < len) ->
  filter (between (Z.max 0 off) (read_end off len idx)) (content l k) = filter (between (Z.max 0 off) (read_end off len idx)) (content l' k) ->
  array_at ro sc l [] k off len idx = array_at ro sc l' [] k off len idx.
Proof.
  intros S S' L E. unfold array_at, now, sheet_runs. cbn [fold_left].
  rewrite !(@runs_cut _ _ _ off len idx (read_end off len idx)) by (try apply content_increasing; try (now apply content_good); try exact L; easy). now rewrite E.
Qed.
