(** The steps of [read] against their specifications. *)
From Coq Require Import Sorted ZifyBool ZifyNat.
From Verif Require Import Py PyFacts PyText Cell Casts Chunk ChunkSpec ChunkProofs ChunkWindow ChunkRun ChunkClosed ChunkConcat PropsChunk
  Utf8 Series SeriesSpec SeriesProofs PropsSeries Reader ReaderSpec ReaderProofs.
Set Implicit Arguments. Unset Strict Implicit.

(** *** Searching *)
Lemma index_of_some p l i : index_of p l = Some i -> first_at p (Z.of_nat i) l.
Proof.
  revert i. induction l as [|x l IH]; intros i; cbn; [discriminate|]. destruct (p x) eqn:E.
  - intro H. inversion H. exists [], x, l. now repeat split.
  - destruct (index_of p l) as [j|]; [|discriminate]. intro H. inversion H. destruct (IH j eq_refl) as (b & y & a & -> & L & P & F).
    exists (x :: b), y, a. split; [reflexivity|]. split; [rewrite zlen_cons; lia|]. split; [exact P|]. cbn. now rewrite E, F.
Qed.
Lemma index_of_none p l : index_of p l = None -> existsb p l = false.
Proof.
  induction l as [|x l IH]; cbn; [reflexivity|]. destruct (p x); [discriminate|]. destruct (index_of p l); [discriminate|]. now intros _; apply IH.
Qed.
Lemma first_at_unique A (p : A -> bool) r r' l : first_at p r l -> first_at p r' l -> r = r'.
Proof.
  intros (b & x & a & E & -> & P & F) (b' & x' & a' & E' & -> & P' & F'). subst l.
  revert b' E' F'. induction b as [|y b IH]; intros [|y' b'] E' F'; cbn [app forallb] in *; inversion E'; subst; try reflexivity.
  - rewrite P in F'. discriminate.
  - rewrite P' in F. discriminate.
  - rewrite !zlen_cons. f_equal. apply andb_prop in F, F'. apply IH; [apply F|assumption|apply F'].
Qed.

Lemma flat_map_ext_in_ A B (f g : A -> list B) l : (forall x, In x l -> f x = g x) -> flat_map f l = flat_map g l.
Proof. intro H. rewrite !flat_map_concat_map. f_equal. now apply map_ext_in. Qed.

(** *** Headers *)
Lemma joined_commas ps : joined ps = commas (flat_map nonempty ps).
Proof.
  unfold joined. replace (flat_map _ ps) with (flat_map nonempty ps).
  2: { apply flat_map_ext. now intros [[|]|]. }
  assert (N : forall t, In t (flat_map nonempty ps) -> t <> []).
  { intros t H. apply in_flat_map in H. destruct H as (p & _ & H). destruct p as [[|c r]|]; cbn in H; try easy. destruct H as [<-|[]]. discriminate. }
  destruct (flat_map nonempty ps) as [|t r]; [reflexivity|].
  assert (E : join_comma (t :: r) = t ++ flat_map (fun u => s ", " ++ u) r).
  { clear. revert t. induction r as [|u r IH]; intro t; [cbn; now rewrite app_nil_r|].
    change (join_comma (t :: u :: r)) with (t ++ s ", " ++ join_comma (u :: r)). rewrite IH. reflexivity. }
  rewrite E. pose proof (N t (or_introl eq_refl)). destruct t; [easy|reflexivity].
Qed.
Lemma top_depth b : top_index b = if blank b then None else Some (depth b).
Proof.
  induction b as [|[t|] b IH]; cbn; [reflexivity|reflexivity|]. rewrite IH. unfold blank. now destruct (forallb _ b).
Qed.
Lemma depth_le b : (depth b <= List.length b)%nat.
Proof. induction b as [|[t|] b IH]; cbn; lia. Qed.
Lemma depth_none b i : (i < depth b)%nat -> nth i b None = None.
Proof. revert i. induction b as [|[t|] b IH]; intros [|i]; cbn; try easy; try lia. intro H. apply IH. lia. Qed.
Lemma update_top_length prev : forall top parts, List.length (update_top top prev parts) = List.length parts.
Proof. induction prev as [|x prev IH]; intros [|t] [|y parts]; cbn; try reflexivity. now rewrite IH. Qed.
Lemma update_top_nth prev : forall top parts i, List.length prev = List.length parts ->
  nth i (update_top top prev parts) None = if (i <? top)%nat && (i <? List.length parts)%nat then nth i prev None else nth i parts None.
Proof.
  induction prev as [|x prev IH]; intros [|t] [|y parts] [|i] L; cbn in *; try discriminate; try reflexivity.
  - now rewrite andb_false_r.
  - rewrite IH by lia. reflexivity.
Qed.
Lemma nth_map_seq A (l : list A) d : map (fun i => nth i l d) (seq 0 (List.length l)) = l.
Proof. induction l as [|x l IH]; [reflexivity|]. cbn [List.length seq map nth]. f_equal. rewrite <- seq_shift, map_map. exact IH. Qed.
Lemma joined_nth ps : joined ps = commas (flat_map (fun i => nonempty (nth i ps None)) (seq 0 (List.length ps))).
Proof. rewrite joined_commas. f_equal. rewrite <- (nth_map_seq ps None) at 1. rewrite !flat_map_concat_map, map_map. reflexivity. Qed.

Lemma inherit_blank lefts i : forallb blank lefts = true -> inherit lefts i = None.
Proof. induction lefts as [|b r IH]; cbn; [reflexivity|]. intro H. apply andb_prop in H. destruct H as [-> H]. now apply IH. Qed.
Definition left_ok (n : nat) (prev : list (option str)) (lefts : list block) : Prop :=
  (prev = [] /\ forallb blank lefts = true) \/ (List.length prev = n /\ forall i, (i < n)%nat -> nth i prev None = inherit lefts i).
Lemma merge_titles n blocks : (0 < n)%nat -> forall lefts prev, (forall b, In b blocks -> List.length b = n) -> left_ok n prev lefts ->
  merge prev blocks = map (fun i => title (rev (firstn i blocks) ++ lefts) (nth i blocks [])) (seq 0 (List.length blocks)).
Proof.
  intro Hn. induction blocks as [|b blocks IH]; intros lefts prev L H; [reflexivity|].
  cbn [List.length seq map firstn rev app nth]. rewrite <- seq_shift, map_map.
  assert (Lb : List.length b = n) by (apply L; now left).
  assert (T : forall prev', left_ok n prev' (b :: lefts) -> merge prev' blocks =
    map (fun i => title (rev (firstn (S i) (b :: blocks)) ++ lefts) (nth (S i) (b :: blocks) [])) (seq 0 (List.length blocks))).
  { intros prev' H'. rewrite (IH (b :: lefts) prev'); [|intros; apply L; now right|exact H']. apply map_ext. intro i. cbn [firstn rev nth]. now rewrite <- app_assoc. }
  cbn [merge]. rewrite top_depth. unfold title at 1. destruct (blank b) eqn:Bb.
  - f_equal. apply T. destruct H as [[-> H]|[H1 H2]]; [left; cbn; now rewrite Bb, H|]. right. split; [exact H1|]. intros i Hi. cbn. rewrite Bb. now apply H2.
  - set (parts := match prev with [] => b | _ => update_top (depth b) prev b end).
    assert (P : List.length parts = n /\ forall i, (i < n)%nat -> nth i parts None = header_cell lefts b i).
    { unfold parts, header_cell. destruct H as [[-> H]|[H1 H2]].
      - split; [exact Lb|]. intros i Hi. destruct (i <? depth b)%nat eqn:E; [|reflexivity]. rewrite inherit_blank by exact H. apply depth_none. lia.
      - destruct prev as [|x prev]; [cbn in H1; lia|]. split; [now rewrite update_top_length|]. intros i Hi.
        rewrite update_top_nth by congruence. replace (i <? List.length b)%nat with true by lia. rewrite andb_true_r.
        destruct (i <? depth b)%nat; [now apply H2|reflexivity]. }
    destruct P as [P1 P2]. f_equal.
    + rewrite joined_nth, P1, Lb. f_equal. apply flat_map_ext_in_.
      intros i Hi. apply in_seq in Hi. rewrite P2 by lia. reflexivity.
    + apply T. right. split; [exact P1|]. intros i Hi. rewrite P2 by exact Hi. cbn. rewrite Bb. reflexivity.
Qed.
Lemma merge_all n blocks : (0 < n)%nat -> (forall b, In b blocks -> List.length b = n) -> merge [] blocks = titles blocks.
Proof.
  intros Hn L. rewrite (@merge_titles n blocks Hn [] [] L); [|now left]. unfold titles. apply map_ext. intro i. now rewrite app_nil_r.
Qed.
Lemma title_one lefts x : title lefts [x] = or_unnamed x.
Proof. unfold title. destruct x as [[|c r]|]; cbn; try reflexivity. now rewrite app_nil_r. Qed.
Lemma titles_one (bs : list block) xs : bs = map (fun x => [x]) xs -> titles bs = map or_unnamed xs.
Proof.
  intros ->. unfold titles. rewrite map_length. rewrite <- (nth_map_seq xs None) at 2. rewrite map_map. apply map_ext_in.
  intros i Hi. apply in_seq in Hi. etransitivity; [|apply title_one]. f_equal.
  clear -Hi. revert i Hi. induction xs as [|x xs IH]; intros [|i] Hi; cbn in *; try lia; [reflexivity|]. apply IH. lia.
Qed.

Lemma zlen_at_rows o sc l off n : zlen (at_rows o sc l off n) = Z.max 0 n.
Proof. unfold at_rows, zlen. rewrite map_length, seq_length. lia. Qed.
Lemma zlen_wanted o sc l off len : 0 < len -> zlen (wanted o sc l off len None) = len.
Proof. intro H. cbn. replace (len =? 0) with false by lia. rewrite andb_false_r, zlen_at_rows. lia. Qed.
Lemma holds_len o sc l k off len a : 0 < len -> holds o sc l k off len None a -> zlen (a_vals a) = len.
Proof. intros H [A _]. rewrite <- (Forall2_zlen A). now apply zlen_wanted. Qed.
Lemma holds_text_len o sc l k off len ts : 0 < len -> holds_text o sc l k off len ts -> zlen ts = len.
Proof. intros H (a & A & ->). rewrite zlen_map. now apply (holds_len H A). Qed.
Lemma masked_len A (v : list A) m : zlen v = zlen m -> zlen (masked v m) = true_count m.
Proof.
  unfold masked, true_count. revert m. induction v as [|x v IH]; intros [|b m] H; try (unfold zlen in H; cbn in H; lia); [reflexivity|].
  rewrite !zlen_cons in H. cbn [combine filter snd]. destruct b; cbn [map]; rewrite ?zlen_cons, IH; lia.
Qed.
Lemma holds_mask_len o sc l k off len m a : holds o sc l k off len (Some m) a -> zlen (a_vals a) = true_count m.
Proof.
  intros [A _]. rewrite <- (Forall2_zlen A). cbn [wanted]. apply masked_len. rewrite zlen_at_rows. pose proof (zlen_nonneg m). lia.
Qed.

Section Steps.
  Context (ro : roracle) (sc : sconf).
  Local Notation o := (ro_o ro).
  Local Notation cf := (sc_conf sc).
  Local Notation CInv := (CInv ro sc).
  Context (l : list cell) (Rows : forall c, In c l -> 0 <= c_row c).

  Lemma calm_window off len : 0 <= off -> 0 < len -> calm cf off len None = true.
  Proof. intros. unfold calm. cbn. lia. Qed.
  Lemma calm_mask off len m : 0 <= off -> 0 < true_count m -> calm cf off len (Some m) = true.
  Proof. intros. unfold calm. cbn. rewrite andb_false_r. lia. Qed.

  Lemma tallest_max_len d : CInv l d -> l <> [] -> exists n, max_len d = Ok n /\ tallest l (order l) n.
  Proof.
    intros C Ne. destruct C as [K H].
    assert (E : map (fun p => se_len (snd p)) d = map (span l) (order l)).
    { rewrite <- K. unfold keys. rewrite map_map. apply map_ext_in. intros [k x] Hp. cbn [snd fst].
      assert (G : dget Z.eqb d k = Some x).
      { pose proof (order_nodup l) as N. rewrite <- K in N. unfold keys in N. clear -N Hp. induction d as [|[j y] d IH]; [easy|]. cbn in *.
        inversion N as [|? ? N1 N2]; subst. destruct Hp as [Hp|Hp]; [inversion Hp; subst; now rewrite Z.eqb_refl|].
        replace (k =? j) with false; [now apply IH|]. apply eq_sym, Z.eqb_neq. intros ->. apply N1. now apply (in_map fst) in Hp. }
      destruct (H k x G) as (run & _ & _ & _ & _ & _ & _ & E1 & E2 & _). unfold se_len, span. rewrite E1, E2. unfold first_row. destruct (content l k); [reflexivity|lia]. }
    unfold max_len. rewrite E.
    assert (Q : order l <> []).
    { destruct l as [|c r]; [easy|]. intro Q. assert (I : In (c_col c) (order (c :: r))) by (apply order_in; now left). now rewrite Q in I. }
    destruct (order l) as [|k ks]; [easy|]. cbn [map]. eexists. split; [reflexivity|]. clear.
    assert (M : forall ms m, m <= max_list m ms /\ (forall x, In x ms -> x <= max_list m ms) /\ (max_list m ms = m \/ In (max_list m ms) ms)).
    { induction ms as [|x ms IH]; intro m; cbn; [split; [lia|split; [easy|now left]]|]. destruct (IH (Z.max m x)) as (A & B & C).
      split; [lia|]. split; [intros y [->|Hy]; [lia|now apply B]|]. destruct C as [C|C]; [|now right; right].
      destruct (Z.max_spec m x) as [[? E]|[? E]]; rewrite E in *; [right; left; lia|left; lia]. }
    destruct (M (map (span l) ks) (span l k)) as (A & B & C). split.
    - destruct C as [->|C]; [exists k; split; [now left|reflexivity]|]. apply in_map_iff in C. destruct C as (j & E & J). exists j. split; [now right|easy].
    - intros j [->|J]; [exact A|]. apply B. now apply in_map.
  Qed.

  (** *** Lookup *)
  Definition is_blocked (off len : Z) (k : Z) : Prop := blocked cf (wanted o sc (content l k) off len None) = true.
  Lemma find_text_ok p size : 0 < size -> forall ks before d, CInv l d -> order l = before ++ ks ->
    (forall j, In j before -> exists ts, holds_text o sc l j 0 size ts /\ existsb (fits p) ts = false) ->
    (exists d' r, find_text ro sc p d ks size = Ok (d', r) /\ CInv l d' /\ 0 <= r /\ found_text o sc l p size r) \/
    (exists d', find_text ro sc p d ks size = Ok (d', -1) /\ CInv l d' /\
       forall k, In k (order l) -> exists ts, holds_text o sc l k 0 size ts /\ existsb (fits p) ts = false) \/
    ((exists k, In k ks /\ is_blocked 0 size k) /\ find_text ro sc p d ks size = Err ArrowNotImplemented).
  Proof.
    intro Hs. induction ks as [|k ks IH]; intros before d C E H; cbn [find_text].
    - right. left. exists d. rewrite app_nil_r in E. rewrite E. now repeat split; try apply C.
    - assert (K : In k (order l)) by (rewrite E; apply in_app_iff; right; now left).
      destruct (@texts_ok ro sc l Rows d k 0 size C K) as [(d' & ts & -> & C' & T)|(B & ->)]; [apply calm_window; lia| |].
      + cbn [bind]. change (fun x => match x with Some t => p t | None => false end) with (fits p).
        destruct (index_of (fits p) ts) as [i|] eqn:I.
        * left. exists d', (Z.of_nat i). split; [reflexivity|]. split; [exact C'|]. split; [lia|]. exists before, k, ks, ts. split; [exact E|].
          split; [exact T|]. split; [now apply index_of_some|exact H].
        * destruct (IH (before ++ [k]) d' C') as [R|[R|(R1 & R2)]].
          -- now rewrite <- app_assoc.
          -- intros j J. apply in_app_iff in J. destruct J as [J|[<-|[]]]; [now apply H|]. exists ts. split; [exact T|now apply index_of_none].
          -- now left.
          -- right. now left.
          -- right. right. split; [|exact R2]. destruct R1 as (j & J & B). exists j. split; [now right|exact B].
      + right. right. split; [exists k; split; [now left|exact B]|reflexivity].
  Qed.
  Lemma find_col_ok k size d : 0 < size -> CInv l d ->
    (exists d' r, find_header ro sc d (LCol k) size = Ok (d', r) /\ CInv l d' /\ In k (order l) /\
       ((0 <= r /\ found_col o sc l k size r) \/ (r = -1 /\ exists ts, holds_text o sc l k 0 size ts /\ existsb filled ts = false))) \/
    (is_blocked 0 size k /\ find_header ro sc d (LCol k) size = Err ArrowNotImplemented) \/
    (~ In k (order l) /\ find_header ro sc d (LCol k) size = Err KeyError).
  Proof.
    intros Hs C. cbn [find_header]. destruct (in_dec Z.eq_dec k (order l)) as [K|K].
    - destruct (@texts_ok ro sc l Rows d k 0 size C K) as [(d' & ts & -> & C' & T)|(B & ->)]; [apply calm_window; lia| |].
      + left. cbn [bind]. eexists. eexists. split; [reflexivity|]. split; [exact C'|]. split; [exact K|].
        change (fun x : option str => match x with Some _ => true | None => false end) with filled. destruct (index_of filled ts) as [i|] eqn:I; cbn [row_or].
        * left. split; [lia|]. exists ts. split; [exact T|now apply index_of_some].
        * right. split; [reflexivity|]. exists ts. split; [exact T|now apply index_of_none].
      + right. left. now split.
    - right. right. split; [exact K|]. unfold texts, ask. destruct (dget Z.eqb d k) eqn:G; [|reflexivity]. exfalso. apply K.
      rewrite <- (proj1 C). apply dget_In_Z. congruence.
  Qed.
  Definition sizes_ok (op : ropts) : Prop := (r_lookup op <> None -> 0 < r_size op) /\ (forall n, r_header op = HInt n -> 0 <= n) /\ 0 <= r_skip_after op.
  Lemma locate_ok op d d' r : sizes_ok op -> CInv l d -> locate ro sc op d = Ok (d', r) -> CInv l d' /\ 0 <= r /\ located ro sc op l r.
  Proof.
    intros (Hs & _) C. unfold locate, located. destruct (r_lookup op) as [[k|t]|].
    - specialize (Hs ltac:(discriminate)). destruct (find_col_ok k Hs C) as [(d1 & r1 & -> & C' & _ & [(H1 & H2)|(-> & _)])|[(_ & ->)|(_ & ->)]]; cbn [bind]; try discriminate.
      replace (r1 =? -1) with false by lia. intro H. inversion H; subst. now repeat split; try apply C'.
    - specialize (Hs ltac:(discriminate)). cbn [find_header]. destruct (ro_search ro t) as [p|].
      + destruct (@find_text_ok p (r_size op) Hs (keys d) [] d C) as [(d1 & r1 & -> & C' & H1 & H2)|[(d1 & -> & _)|(_ & ->)]]; [now rewrite (proj1 C)|easy| | |]; cbn [bind]; try discriminate.
        replace (r1 =? -1) with false by lia. intro H. inversion H; subst. split; [exact C'|]. split; [exact H1|]. now exists p.
      + destruct d as [|[k x] d]; cbn [bind]; [discriminate|]. destruct (texts ro sc ((k, x) :: d) k 0 (r_size op)) as [[? ?]|]; discriminate.
    - intro H. inversion H; subst. split; [exact C|]. split; [lia|reflexivity].
  Qed.

  (** *** Names *)
  Lemma make_header_ok d first n : 0 <= first -> 0 < n -> CInv l d ->
    (exists d' names, make_header ro sc d first n = Ok (d', names) /\ CInv l d' /\
       exists blocks, Forall2 (fun k b => holds_text o sc l k first n b) (sorted (order l)) blocks /\ names = titles blocks) \/
    ((exists k, In k (sorted (order l)) /\ is_blocked first n k) /\ exists e, make_header ro sc d first n = Err e).
  Proof.
    intros Hf Hn C. unfold make_header. rewrite (proj1 C). destruct (n =? 1) eqn:N1.
    - assert (n = 1) by lia. subst n.
      destruct (@each_ok ro sc l str (fun d k => ' (d, l) <- texts ro sc d k first 1 ;; match l with [] => Err IndexError | x :: _ => Ok (d, or_unnamed x) end)
        (fun k nm => exists x, holds_text o sc l k first 1 [x] /\ nm = or_unnamed x) (is_blocked first 1)) with (ks := sorted (order l)) (d := d) as [(d' & v & -> & C' & F)|(B & e & ->)].
      + intros d1 k C1 K. destruct (@texts_ok ro sc l Rows d1 k first 1 C1 K) as [(d' & ts & -> & C' & T)|(B & ->)]; [apply calm_window; lia| |]; cbn [bind].
        * left. pose proof (holds_text_len Hn T) as L. destruct ts as [|x [|y ts]]; [unfold zlen in L; cbn in L; lia| |rewrite !zlen_cons in L; pose proof (zlen_nonneg ts); lia].
          eexists. eexists. split; [reflexivity|]. split; [exact C'|]. now exists x.
        * right. split; [exact B|eauto].
      + exact C.
      + intros k. now rewrite sorted_in.
      + left. exists d', v. split; [reflexivity|]. split; [exact C'|].
        assert (X : exists xs, Forall2 (fun k x => holds_text o sc l k first 1 [x]) (sorted (order l)) xs /\ v = map or_unnamed xs).
        { clear -F. induction F as [|k nm ks v (x & H & ->) F (xs & IH & ->)]; [exists []; now split|]. exists (x :: xs). split; [now constructor|reflexivity]. }
        destruct X as (xs & X & ->). exists (map (fun x => [x]) xs). split; [|now rewrite (@titles_one _ xs eq_refl)].
        clear -X. induction X; cbn; now constructor.
      + right. split; [exact B|eauto].
    - destruct (@each_ok ro sc l (list (option str)) (fun d k => texts ro sc d k first n)
        (fun k b => holds_text o sc l k first n b) (is_blocked first n)) with (ks := sorted (order l)) (d := d) as [(d' & v & -> & C' & F)|(B & e & ->)].
      + intros d1 k C1 K. destruct (@texts_ok ro sc l Rows d1 k first n C1 K) as [(d' & ts & -> & C' & T)|(B & ->)]; [apply calm_window; lia| |]; [left; eauto|right; eauto].
      + exact C.
      + intros k. now rewrite sorted_in.
      + left. cbn [bind]. eexists. eexists. split; [reflexivity|]. split; [exact C'|]. exists v. split; [exact F|]. apply (@merge_all (Z.to_nat n)); [lia|].
        intros b Hb. destruct (Forall2_in_r F Hb) as (k & _ & T). pose proof (holds_text_len Hn T) as L. unfold zlen in L. lia.
      + right. cbn [bind]. split; [exact B|eauto].
  Qed.
  Lemma name_columns_ok op d first d' h names : sizes_ok op -> 0 <= first -> CInv l d ->
    name_columns ro sc op d first = Ok (d', (h, names)) -> CInv l d' /\ titled ro sc op l (sorted (order l)) first h names /\
      0 <= h /\ List.length names = List.length (order l).
  Proof.
    intros (_ & Hh & _) Hf C. unfold name_columns, titled.
    assert (Ls : List.length (sorted (order l)) = List.length (order l)).
    { clear. assert (I : forall k ks, List.length (insert k ks) = S (List.length ks)) by (intros k ks; induction ks as [|j ks IH]; cbn; [reflexivity|]; destruct (k <=? j); cbn; lia).
      induction (order l) as [|k ks IH]; [reflexivity|]. change (sorted (k :: ks)) with (insert k (sorted ks)). rewrite I, IH. reflexivity. }
    assert (Ld : List.length d = List.length (order l)) by (rewrite <- (proj1 C); unfold keys; now rewrite map_length).
    destruct (r_header op) as [n|given].
    - specialize (Hh n eq_refl). destruct (n =? 0) eqn:N0.
      + intro H. inversion H; subst. unfold unnamed_names. rewrite map_length, seq_length, Ls, Ld. split; [exact C|]. split; [split; [lia|reflexivity]|]. split; [lia|reflexivity].
      + destruct (@make_header_ok d first n Hf ltac:(lia) C) as [(d1 & nm & -> & C' & blocks & F & E)|(_ & e & ->)]; cbn [bind]; [|discriminate].
        intro H. inversion H; subst. split; [exact C'|]. split; [split; [reflexivity|]; now exists blocks|]. split; [lia|].
        unfold titles. rewrite map_length, seq_length. rewrite <- Ls. clear -F. induction F; cbn; congruence.
    - destruct (Nat.eqb _ _) eqn:E; [|discriminate]. intro H. inversion H; subst. apply Nat.eqb_eq in E. split; [exact C|]. split; [|split; [lia|congruence]].
      split; [reflexivity|]. split; [reflexivity|]. congruence.
  Qed.
End Steps.
