(** The runs of a column after a read of a window. *)
From Verif Require Import Py PyFacts PyText Cell Casts Chunk ChunkSpec ChunkProofs ChunkWindow ChunkRun ChunkClosed ChunkConcat ReadSpec ReadProofs.
From Coq Require Import ZifyBool ZifyNat.
Set Implicit Arguments. Unset Strict Implicit.

(** *** A successful run looks up every shared string of its objects *)
Section Looked.
  Context (o : oracle) (cf : conf).
  Definition kept (x : slot) : Prop := ok x /\ (sl_new x = None \/ raw (sl_obj x) = false).
  Lemma walk_kept (I : slot -> Prop) stop f l : (forall x, kept x -> I x -> kept (fst (f x))) -> (forall x, In x l -> kept x /\ I x) ->
    forall x, In x (fst (walk stop f l)) -> kept x.
  Proof.
    intro F. induction l as [|y l IH]; intro H; [easy|]. cbn [walk]. destruct (H y (or_introl eq_refl)) as [Ky Iy]. pose proof (F y Ky Iy) as Fy.
    assert (Hl : forall z, In z l -> kept z /\ I z) by (intros z Hz; apply H; now right). specialize (IH Hl).
    destruct (f y) as [y' [b|e]]; cbn [fst] in *.
    - destruct (b && stop); [intros x [<-|Hx]; [exact Fy|now apply Hl]|].
      destruct (walk stop f l) as [l' rb]. cbn [fst] in *. intros x [<-|Hx]; [exact Fy|now apply IH].
    - intros x [<-|Hx]; [exact Fy|now apply Hl].
  Qed.
  Lemma not_raw c k : shape c = true -> kind_of c = k -> k <> KStr -> raw c = false.
  Proof. intros S K N. destruct (raw c) eqn:R; [|reflexivity]. pose proof (raw_kind S R). congruence. Qed.
  Lemma step_nums_kept x : kept x -> fresh x -> kept (fst (step_nums o x)).
  Proof.
    intros [O _] F. split; [apply (step_nums_ok o O F)|]. unfold step_nums. destruct (kind_eqb (sl_kind x) KNum) eqn:E; [|left; exact F].
    apply kind_eqb_true in E. destruct (as_temporal o None (cur x)); cbn [fst]; [|left; exact F]. right. cbn [sl_obj put].
    apply (@not_raw _ KNum); [apply O| |discriminate]. rewrite <- E. apply O.
  Qed.
  Lemma step_temporal_kept x : kept x -> (sl_kind x = KStr -> fresh x) -> kept (fst (step_utf8_temporal o cf x)).
  Proof.
    intros [O R] F. split; [apply (@step_temporal_ok o cf x O F)|]. unfold step_utf8_temporal. destruct (kind_eqb (sl_kind x) KStr) eqn:E; [|exact R].
    apply kind_eqb_true in E. specialize (F E). pose proof O as (H1 & H2 & H3). assert (Ec : cur x = sl_obj x) by (unfold cur, fresh in *; now rewrite F).
    rewrite Ec. rewrite E in H3. pose proof (@as_temporal_str o cf (sl_obj x) H1 H3) as T.
    destruct (raw (sl_obj x)) eqn:Rw; [rewrite T; now left|].
    destruct (strptime_vals o cf (ChunkSpec.den o (sl_obj x))); [rewrite T; now right|]. rewrite T. destruct (cf_numerics cf); [|now left].
    destruct (@as_numeric_str o (sl_obj x) H1 H3) as (c' & A1 & A2 & A3). rewrite A1, set_cur_fresh by exact F.
    destruct (floats o (ChunkSpec.den o (sl_obj x))); cbn [bind].
    - match goal with |- context [match ?t with Ok _ => _ | Err _ => _ end] => destruct t as [c|[]] end; cbn [fst sl_new sl_obj put]; right; exact A3.
    - now left.
  Qed.
  Lemma step_numeric_kept x : kept x -> (sl_kind x = KStr -> fresh x) -> kept (fst (step_utf8_numeric o x)).
  Proof.
    intros [O R] F. split; [apply (@step_numeric_ok o x O F)|]. unfold step_utf8_numeric. destruct (kind_eqb (sl_kind x) KStr) eqn:E; [|exact R].
    apply kind_eqb_true in E. specialize (F E). pose proof O as (H1 & H2 & H3). assert (Ec : cur x = sl_obj x) by (unfold cur, fresh in *; now rewrite F).
    rewrite Ec. rewrite E in H3. destruct (@as_numeric_str o (sl_obj x) H1 H3) as (c' & A1 & A2 & A3). rewrite A1, set_cur_fresh by exact F.
    destruct (floats o (ChunkSpec.den o (sl_obj x))); [right; exact A3|now left].
  Qed.
  Lemma set_cur_kept x c : kept x -> same o (cur x) c -> kept (set_cur x c).
  Proof.
    intros [O R] S. split; [apply (set_cur_ok O S)|]. unfold set_cur. destruct (sl_new x) as [n|] eqn:N; [|now left]. right. cbn [sl_obj].
    destruct R; [congruence|assumption].
  Qed.
  Lemma step_integer_kept x : kept x -> kept (fst (step_integer o cf x)).
  Proof.
    intros K. unfold step_integer. destruct (k_type (cur x) =? 0) eqn:T; [exact K|].
    destruct (@prepare_ok o (cur x)) as (c & P1 & P2 & _); [apply K|lia|]. rewrite P1.
    pose proof (set_cur_kept K P2) as Q. now destruct (k_data c).
  Qed.
  Lemma resolve_kept l : (forall x, In x l -> ok x /\ fresh x) -> forall x, In x (fst (resolve o cf l)) -> kept x.
  Proof.
    intro H. assert (Hk : forall x, In x l -> kept x) by (intros x Hx; split; [now apply H|left; now apply H]).
    unfold resolve. destruct (has KTemp l).
    - destruct (cf_datetime cf); [|exact Hk].
      pose proof (@walk_kept fresh false (step_nums o) l step_nums_kept (fun x Hx => conj (Hk x Hx) (proj2 (H x Hx)))) as W.
      pose proof (@step_nums_fresh o l (fun x Hx => proj2 (H x Hx))) as W3.
      destruct (walk false (step_nums o) l) as [l1 [b|e]]; cbn [fst] in *; [|exact W].
      apply (@walk_kept (fun x => sl_kind x = KStr -> fresh x) false (step_utf8_temporal o cf) l1 step_temporal_kept).
      intros x Hx. split; [now apply W|now apply W3].
    - destruct (has KNum l && has KStr l); [|exact Hk]. destruct (cf_numerics cf); [|exact Hk].
      apply (@walk_kept (fun x => sl_kind x = KStr -> fresh x) true (step_utf8_numeric o) l step_numeric_kept).
      intros x Hx. split; [now apply Hk|intros _; now apply H].
  Qed.
  Lemma arrows_looked t l v : (forall x, In x l -> kept x) -> snd (arrows o t l) = Ok v -> forall x, In x (fst (arrows o t l)) -> raw (sl_obj x) = false.
  Proof.
    revert v. induction l as [|y l IH]; intros v H; [easy|]. cbn [arrows]. destruct (H y (or_introl eq_refl)) as [Oy Ry].
    destruct (@chunk_arrow_ok o (cur y) t) as (c & C1 & C2 & C3 & C4); [apply Oy|]. rewrite C1.
    assert (Fy : raw (sl_obj (set_cur y c)) = false).
    { unfold set_cur. destruct (sl_new y) as [n|] eqn:N; cbn [sl_obj]; [destruct Ry; [discriminate|assumption]|].
      destruct (Z.eq_dec (k_type (cur y)) 0) as [E|E]; [|now apply C3]. rewrite (C4 E). apply (@not_raw _ KNull); [apply Oy| |discriminate].
      apply kind_null; [apply Oy|exact E]. }
    destruct (mapM (render o t) (ChunkSpec.den o (cur y))) as [w|e]; cbn [bind]; [|discriminate].
    specialize (fun v => IH v (fun z Hz => H z (or_intror Hz))). destruct (arrows o t l) as [l' [w'|e]]; cbn [fst snd bind a_vals] in *; [|discriminate].
    intros _ x [<-|Hx]; [exact Fy|now apply (IH w')].
  Qed.
  Theorem run_looked l a : (forall x, In x l -> ok x /\ fresh x) -> snd (run o cf l) = Ok a -> forall x, In x (fst (run o cf l)) -> raw (sl_obj x) = false.
  Proof.
    intro H. unfold run. pose proof (resolve_kept H) as K. destruct (resolve o cf l) as [l1 [b|e]]; cbn [fst snd] in *; [|discriminate].
    unfold finish.
    assert (G : forall d l2 a, (forall x, In x l2 -> kept x) -> snd (match l2 with [] => ([], Err ValueError) | _ => let '(l, v) := arrows o d l2 in (l, v <- v ;; Ok (mkA d v)) end) = Ok a ->
      forall x, In x (fst (match l2 with [] => ([], Err ValueError) | _ => let '(l, v) := arrows o d l2 in (l, v <- v ;; Ok (mkA d v)) end)) -> raw (sl_obj x) = false).
    { intros d l2 a0 K2. destruct l2 as [|y l2]; [discriminate|]. pose proof (fun v => @arrows_looked d (y :: l2) v K2) as A. destruct (arrows o d (y :: l2)) as [l3 [v|e]]; cbn [fst snd bind] in *; [|discriminate].
      intros _. now apply (A v). }
    destruct b; [now apply G|]. destruct (has KTemp l1); [now apply G|]. destruct (has KNum l1); [|now apply G].
    pose proof (@walk_kept (fun _ => True) true (step_integer o cf) l1 (fun x Kx _ => step_integer_kept Kx) (fun x Hx => conj (K x Hx) I)) as W.
    destruct (walk true (step_integer o cf) l1) as [l2 [b|e]]; cbn [fst snd bind] in *; [|discriminate]. now apply G.
  Qed.
End Looked.

(** *** Which objects a window takes as a whole *)
Section Sources.
  Context (o : oracle).
  Definition sizes (l : list chunk) : Z := fold_right (fun c n => k_size c + n) 0 l.
  Lemma sizes_nonneg l : (forall c, In c l -> 0 < k_size c) -> 0 <= sizes l.
  Proof. induction l as [|c l IH]; intro H; [cbn; lia|]. cbn [sizes fold_right]. fold (sizes l). pose proof (H c (or_introl eq_refl)). specialize (IH (fun x Hx => H x (or_intror Hx))). lia. Qed.
  Definition whole (off len cum a b : Z) : bool := if len =? 0 then a =? off else (off <=? a) && (b <=? off + len - cum).
  Lemma over_len_whole store : forall i off len cum r cum', (forall c, In c store -> stored c = true /\ 0 < k_size c) -> 0 <= off -> 0 <= cum -> (len = 0 -> cum = 0) ->
    over_len (number i store) off len cum = Ok (r, cum') ->
    forall j c, nth_error store j = Some c ->
      (whole off len cum (sizes (firstn j store)) (sizes (firstn j store) + k_size c) = true <-> exists c', In (Some (i + j)%nat, c') r).
  Proof.
    induction store as [|c0 store IH]; intros i off len cum r cum' St Ho Hc Hl; cbn [number over_len]; [now destruct j|].
    destruct (St c0 (or_introl eq_refl)) as [Sc Hz]. assert (Sl : forall c, In c store -> stored c = true /\ 0 < k_size c) by (intros c Hin; apply St; now right).
    assert (Nx : forall r1 cum1 off1 len1 cum2, over_len (number (S i) store) off1 len1 cum1 = Ok (r1, cum2) -> forall c', ~ In (Some i, c') r1).
    { clear. intros r1 cum1 off1 len1 cum2 H c'. assert (G : forall l off cum r cum', over_len l off len1 cum = Ok (r, cum') -> forall k x, In (Some k, x) r -> exists y, In (Some k, y) l).
      { clear. induction l as [|[s c] l IH]; intros off cum r cum' H k x Hx; cbn [over_len] in H.
        - injection H as <- <-. easy.
        - destruct ((0 <? off) && (k_size c <=? off)); [destruct (IH _ _ _ _ H _ _ Hx) as (y & Hy); exists y; now right|].
          destruct (if 0 <? off then _ else _) as [[s1 c1]|] eqn:E1; [|discriminate]. cbn [bind] in H.
          destruct (if negb (len1 =? 0) && _ then _ else _) as [[s2 c2]|] eqn:E2; [|discriminate]. cbn [bind] in H.
          assert (Hs : forall k, s2 = Some k -> s = Some k).
          { intros k0 ->. destruct (negb (len1 =? 0) && (len1 <? cum + k_size c1)); [now destruct (take_chunk c1 _)|]. injection E2 as -> ->.
            destruct (0 <? off); [now destruct (take_chunk c _)|]. congruence. }
          destruct (len1 <=? cum + k_size c1).
          + injection H as <- <-. destruct (k_size c2 =? 0); [easy|]. destruct Hx as [Hx|[]]. injection Hx as -> ->. exists c. left. now rewrite (Hs k eq_refl).
          + destruct (over_len l _ len1 _) as [[l1 cu]|] eqn:E3; [|discriminate]. cbn [bind] in H. injection H as <- <-.
            apply in_app_or in Hx. destruct Hx as [Hx|Hx].
            * destruct (k_size c2 =? 0); [easy|]. destruct Hx as [Hx|[]]. injection Hx as -> ->. exists c. left. now rewrite (Hs k eq_refl).
            * destruct (IH _ _ _ _ E3 _ _ Hx) as (y & Hy). exists y. now right. }
      intro Hin. destruct (G _ _ _ _ _ H _ _ Hin) as (y & Hy). destruct (ChunkConcat.number_in Hy) as (j & E & L & _). injection E as <-. lia. }
    destruct ((0 <? off) && (k_size c0 <=? off)) eqn:E.
    - intros H j c Hj. destruct j as [|j]; cbn [nth_error firstn] in *.
      + injection Hj as <-. cbn [sizes fold_right]. unfold whole. split.
        * destruct (len =? 0) eqn:El; lia.
        * intros (c' & Hc'). rewrite Nat.add_0_r in Hc'. now apply (Nx _ _ _ _ _ H) in Hc'.
      + specialize (IH (Datatypes.S i) (off - k_size c0) len cum r cum' Sl ltac:(lia) Hc Hl H j c Hj).
        replace (i + Datatypes.S j)%nat with (Datatypes.S i + j)%nat by lia. rewrite <- IH. unfold whole. cbn [sizes fold_right]. fold (sizes (firstn j store)).
        destruct (len =? 0) eqn:El; lia.
    - assert (P : exists src1 c1, (if 0 <? off then c <- take_chunk c0 (from off) ;; Ok (None, c) else Ok (Some i, c0)) = Ok (src1, c1) /\
          k_size c1 = k_size c0 - off /\ src1 = (if 0 <? off then None else Some i)).
      { destruct (0 <? off) eqn:E0.
        - destruct (@take_from o c0 off Sc) as (c1 & T1 & T2 & T3 & T6); [lia|]. exists None, c1. rewrite T1. cbn [bind]. auto.
        - exists (Some i), c0. split; [reflexivity|]. split; [lia|reflexivity]. }
      destruct P as (src1 & c1 & P1 & P2 & P3). rewrite P1. cbn [bind]. cbv zeta.
      destruct (if negb (len =? 0) && (len <? cum + k_size c1) then _ else _) as [[s2 c2]|] eqn:E2; [|discriminate]. cbn [bind].
      assert (Hs : (negb (len =? 0) && (len <? cum + k_size c1) = true /\ s2 = None) \/ (negb (len =? 0) && (len <? cum + k_size c1) = false /\ s2 = src1 /\ c2 = c1)).
      { destruct (negb (len =? 0) && (len <? cum + k_size c1)); [left|right]; [split; [reflexivity|]; destruct (take_chunk c1 _); [cbn [bind] in E2; congruence|discriminate]|]. split; [reflexivity|]. split; congruence. }
      assert (Q : forall c', In (s2, c') (if k_size c2 =? 0 then [] else [(s2, c2)]) -> c' = c2) by (intros c'; destruct (k_size c2 =? 0); [easy|]; intros [H|[]]; congruence).
      assert (Head : whole off len cum 0 (k_size c0) = true <-> exists c', In (Some i, c') (if k_size c2 =? 0 then [] else [(s2, c2)])).
      { unfold whole. split.
        - intro H. destruct Hs as [[H1 H2]|(H1 & -> & ->)]; [destruct (len =? 0) eqn:El; lia|].
          assert (off = 0) by (destruct (len =? 0) eqn:El; lia). subst off. change (0 <? 0) with false in P3. subst src1. replace (k_size c1 =? 0) with false by lia. exists c1. now left.
        - intros (c' & H). assert (s2 = Some i) by (destruct (k_size c2 =? 0); [easy|]; destruct H as [H|[]]; congruence).
          destruct Hs as [[H1 H2]|(H1 & H2 & H3)]; [congruence|]. destruct (0 <? off) eqn:E0; [congruence|]. destruct (len =? 0) eqn:El; lia. }
      assert (NoSome : forall k c', In (Some k, c') (if k_size c2 =? 0 then [] else [(s2, c2)]) -> k = i).
      { intros k c' H. destruct (k_size c2 =? 0); [easy|]. destruct H as [H|[]]. injection H as H _. destruct Hs as [[H1 H2]|(H1 & H2 & H3)]; [congruence|].
        destruct (0 <? off); congruence. }
      destruct (len <=? cum + k_size c1) eqn:E3.
      + intro H. injection H as <- <-. intros j c Hj. destruct j as [|j]; cbn [nth_error firstn] in *.
        * injection Hj as <-. rewrite Nat.add_0_r. exact Head.
        * cbn [sizes fold_right]. fold (sizes (firstn j store)). split.
          -- assert (0 <= sizes (firstn j store)). { apply sizes_nonneg. intros x Hx. apply Sl. rewrite <- (firstn_skipn j store). apply in_or_app. now left. }
             pose proof (nth_error_In _ _ Hj) as Hc'. apply Sl in Hc'. unfold whole. destruct (len =? 0) eqn:El; lia.
          -- intros (c' & H). apply NoSome in H. lia.
      + destruct (over_len (number (Datatypes.S i) store) (if 0 <? off then 0 else off) len (cum + k_size c1)) as [[l1 cu]|] eqn:E4; [|discriminate]. cbn [bind].
        intro H. injection H as <- <-. intros j c Hj. destruct j as [|j]; cbn [nth_error firstn] in *.
        * injection Hj as <-. rewrite Nat.add_0_r. cbn [sizes fold_right]. rewrite Z.add_0_l. rewrite Head. split; intros (c' & H).
          -- exists c'. apply in_or_app. now left.
          -- apply in_app_or in H. destruct H as [H|H]; [now exists c'|]. now apply (Nx _ _ _ _ _ E4) in H.
        * assert (E0 : (if 0 <? off then 0 else off) = 0) by (destruct (0 <? off) eqn:E0; lia). rewrite E0 in E4.
          specialize (IH (Datatypes.S i) 0 len (cum + k_size c1) l1 cu Sl ltac:(lia) ltac:(lia) ltac:(lia) E4 j c Hj).
          replace (i + Datatypes.S j)%nat with (Datatypes.S i + j)%nat by lia.
          assert (0 <= sizes (firstn j store)). { apply sizes_nonneg. intros x Hx. apply Sl. rewrite <- (firstn_skipn j store). apply in_or_app. now left. }
          transitivity (exists c', In (Some (Datatypes.S i + j)%nat, c') l1).
          -- rewrite <- IH. unfold whole. cbn [sizes fold_right]. fold (sizes (firstn j store)). destruct (len =? 0) eqn:El; lia.
          -- split; intros (c' & H'); exists c'; [apply in_or_app; now right|]. apply in_app_or in H'. destruct H' as [H'|H']; [|exact H']. apply NoSome in H'. lia.
  Qed.
End Sources.

(** *** The column afterwards *)
Section After.
  Context (o : oracle) (cf : conf).
  Lemma set_nth_nth A (l : list A) i x j : nth_error (set_nth i x l) j = if Nat.eqb i j then (if (j <? List.length l)%nat then Some x else None) else nth_error l j.
  Proof.
    revert i j. induction l as [|y l IH]; intros i j.
    - assert (E : set_nth i x [] = []) by now destruct i. rewrite E. replace (j <? List.length (@nil A))%nat with false by (cbn [List.length]; lia).
      assert (N : nth_error (@nil A) j = None) by now destruct j. rewrite N. now destruct (Nat.eqb i j).
    - destruct i as [|i]; cbn [set_nth]; destruct j as [|j]; try reflexivity. cbn [nth_error]. rewrite IH. reflexivity.
  Qed.
  Lemma set_nth_len A (l : list A) i x : List.length (set_nth i x l) = List.length l.
  Proof. revert i. induction l as [|y l IH]; intros [|i]; cbn; try reflexivity. now rewrite IH. Qed.
  Lemma write_back_len st l : List.length (write_back st l) = List.length st.
  Proof.
    unfold write_back. revert st. induction l as [|x l IH]; intro st; [reflexivity|]. cbn [fold_left]. rewrite IH. destruct (sl_src x); [apply set_nth_len|reflexivity].
  Qed.
  Lemma write_back_nth l : forall st j, (j < List.length st)%nat ->
    (nth_error (write_back st l) j = nth_error st j /\ forall x, In x l -> sl_src x <> Some j) \/
    exists x, In x l /\ sl_src x = Some j /\ nth_error (write_back st l) j = Some (sl_obj x).
  Proof.
    induction l as [|x l IH]; intros st j Hj; [left; now split|]. unfold write_back. cbn [fold_left].
    set (st1 := match sl_src x with Some i => set_nth i (sl_obj x) st | None => st end).
    assert (L1 : List.length st1 = List.length st) by (unfold st1; destruct (sl_src x); [apply set_nth_len|reflexivity]).
    destruct (IH st1 j) as [[H1 H2]|(y & Y1 & Y2 & Y3)]; [lia| |].
    - unfold write_back in H1. rewrite H1. destruct (sl_src x) as [i|] eqn:E.
      + unfold st1. rewrite set_nth_nth. destruct (Nat.eqb i j) eqn:Ej.
        * right. exists x. apply Nat.eqb_eq in Ej. subst. split; [now left|]. split; [exact E|]. now replace (j <? List.length st)%nat with true by lia.
        * left. split; [reflexivity|]. intros y [<-|Hy]; [rewrite E; intro Q; injection Q as ->; now rewrite Nat.eqb_refl in Ej|now apply H2].
      + left. split; [reflexivity|]. intros y [<-|Hy]; [congruence|now apply H2].
    - right. exists y. split; [now right|]. now split.
  Qed.
  Lemma runs_after_nth off len rs : forall row j, nth_error (runs_after row rs off len) j =
    option_map (fun r => let a := row + zlen (List.concat (firstn j rs)) in if covered off len a (a + zlen r) then map looked_up r else r) (nth_error rs j).
  Proof.
    induction rs as [|r rs IH]; intros row [|j]; cbn [runs_after nth_error firstn List.concat option_map]; try reflexivity.
    - change (zlen (@nil tag)) with 0. cbv zeta. now rewrite Z.add_0_r.
    - rewrite IH. cbv zeta. rewrite zlen_app. now rewrite Z.add_assoc.
  Qed.
  Lemma runs_after_len off len rs : forall row, List.length (runs_after row rs off len) = List.length rs.
  Proof. induction rs as [|r rs IH]; intro row; [reflexivity|]. cbn. now rewrite IH. Qed.
  Lemma sizes_cells l : (forall c, In c l -> stored c = true /\ 0 < k_size c) -> sizes l = zlen (List.concat (map (cells_of o) l)).
  Proof.
    induction l as [|c l IH]; intro H; [reflexivity|]. cbn [sizes fold_right map List.concat]. fold (sizes l). rewrite zlen_app.
    rewrite IH by (intros; apply H; now right). f_equal. symmetry. apply (@stored_len o c). now apply H; left.
  Qed.
  Lemma cells_of_eqv c c' : eqv o c c' -> raw c' = false -> cells_of o c' = map looked_up (cells_of o c).
  Proof.
    intros (E1 & E2 & E3 & E4 & E5 & E6) R. unfold cells_of. rewrite E3, E4. rewrite map_map. apply map_ext. intro v. cbn [looked_up t_kind t_val].
    unfold looked_up. cbn. f_equal. f_equal. exact R.
  Qed.
  Lemma eq_nth A (l l' : list A) : (forall j, nth_error l j = nth_error l' j) -> l = l'.
  Proof.
    revert l'. induction l as [|x l IH]; intros [|y l'] H; try reflexivity.
    - now specialize (H O).
    - now specialize (H O).
    - f_equal; [specialize (H O); now injection H|]. apply IH. intro j. exact (H (S j)).
  Qed.

  Definition at_place (j : nat) (e : entry) : bool := match fst e with Some i => Nat.eqb i j | None => false end.
  Theorem read_state store off len idx a : column store = true -> windowed off len idx = true ->
    snd (concatenate o cf store off len idx) = Ok a ->
    let st := fst (concatenate o cf store off len idx) in
    column st = true /\
    map (cells_of o) st = match idx with None => runs_after 0 (map (cells_of o) store) off len | Some _ => map (cells_of o) store end.
  Proof.
    intros C W. destruct (@picked_any o store off len idx C) as (es & P1 & P2 & P3 & P5). unfold picked in P1. rewrite W in P1. unfold concatenate. rewrite W, P1.
    assert (Sh : forall e, In e es -> shape (snd e) = true) by (intros e He; apply stored_shape; now apply P2).
    destruct (@run_new o cf es Sh) as [R1 _].
    pose proof (fun a => @run_looked o cf (map new_slot es) a) as L.
    destruct (run o cf (map new_slot es)) as [l' r]. cbn [fst snd] in *. intros -> .
    assert (Lk : forall x, In x l' -> raw (sl_obj x) = false).
    { apply (L a); [|reflexivity]. intros x Hx. apply in_map_iff in Hx. destruct Hx as (e & <- & He). specialize (Sh e He). split; [|reflexivity]. now repeat split. }
    clear L.
    assert (Src : forall x i, In x l' -> sl_src x = Some i -> exists c, nth_error store i = Some c /\ eqv o c (sl_obj x) /\ In (Some i, c) es).
    { intros x i Hx E. destruct (Forall2_in_r R1 Hx) as (y & Hy & Q1 & Q2 & Q3 & _).
      apply in_map_iff in Hy. destruct Hy as (e & <- & He). destruct e as [k c]. cbn in Q2, Q3. rewrite E in Q2. subst k.
      destruct (P5 _ He) as [Hs|Hs]; [|cbn in Hs; congruence]. destruct (ChunkConcat.number_in Hs) as (j & Ej & _ & En).
      rewrite Nat.sub_0_r in En. exists c. split; [congruence|]. split; [|exact He]. apply same_eqv; [|exact Q3]. now apply (P2 (Some i, c)). }
    assert (Src' : forall i c, In (Some i, c) es -> exists x, In x l' /\ sl_src x = Some i).
    { intros i c He. clear -R1 He. revert l' R1. induction es as [|e es IH]; [easy|]. intros l' R1. cbn [map] in R1. inversion R1 as [|? y ? l2 Ry R2]; subst.
      destruct He as [->|He]; [exists y; split; [now left|]; now destruct Ry as (_ & -> & _)|].
      destruct (IH He l2 R2) as (x & X1 & X2). exists x. split; [now right|exact X2]. }
    pose proof (column_ok C) as [_ Hs]. cbv zeta.
    assert (F : Forall2 (eqv o) store (write_back store l')).
    { apply write_back_eqv.
      - intros x i Hx E. destruct (Src x i Hx E) as (c & C1 & C2 & _). now exists c.
      - clear -Hs. induction store as [|c l IH]; constructor; [apply eqv_refl, Hs; now left|apply IH; intros; apply Hs; now right]. }
    split; [now apply (column_eqv F)|].
    assert (Nth : forall j c, nth_error store j = Some c -> exists c', nth_error (write_back store l') j = Some c' /\
      cells_of o c' = if existsb (at_place j) es then map looked_up (cells_of o c) else cells_of o c).
    { intros j c Hj. assert (Lj : (j < List.length store)%nat) by (apply nth_error_Some; congruence).
      destruct (@write_back_nth l' store j Lj) as [[H1 H2]|(x & X1 & X2 & X3)].
      - exists c. split; [congruence|]. destruct (existsb (at_place j) es) eqn:E; [|reflexivity]. apply existsb_exists in E. destruct E as ([[i|] c1] & E1 & E2); [|easy].
        apply Nat.eqb_eq in E2. cbn in E2. subst i. destruct (Src' _ _ E1) as (x & X1 & X2). now elim (H2 x X1).
      - destruct (Src x j X1 X2) as (c1 & C1 & C2 & C3). assert (c1 = c) by congruence. subst c1. exists (sl_obj x). split; [exact X3|].
        replace (existsb (at_place j) es) with true; [apply cells_of_eqv; [exact C2|now apply Lk]|]. symmetry. apply existsb_exists. exists (Some j, c). split; [exact C3|]. apply Nat.eqb_refl. }
    assert (Len : List.length (write_back store l') = List.length store) by apply write_back_len.
    assert (Cov : forall j c, nth_error store j = Some c -> existsb (at_place j) es =
      match idx with None => covered off len (sizes (firstn j store)) (sizes (firstn j store) + k_size c) | Some _ => false end).
    { intros j c Hj. destruct idx as [m|].
      - destruct (existsb (at_place j) es) eqn:E; [|reflexivity]. apply existsb_exists in E. destruct E as ([[i|] c1] & E1 & E2); [|easy].
        exfalso. unfold take_over in P1. destruct (true_count m =? 0); [injection P1 as <-; easy|].
        destruct (over_mask (number 0 store) off 0 0 m) as [[r cum]|] eqn:Eo; [|discriminate]. cbn [bind] in P1.
        assert (N : forall l off ioff cum r cum' i c, over_mask l off ioff cum m = Ok (r, cum') -> ~ In (Some i, c) r).
        { clear. induction l as [|[sr c] l IH]; intros off ioff cum r cum' i c' H; cbn [over_mask] in H; [injection H as <- <-; easy|].
          destruct ((0 <? off) && (k_size c <=? off)); [now apply (IH _ _ _ _ _ _ _ H)|].
          destruct (if 0 <? off then _ else _) as [c1|]; [|discriminate]. cbn [bind] in H. destruct (true_count _ =? 0); [now apply (IH _ _ _ _ _ _ _ H)|].
          destruct (take_chunk c1 _) as [c2|]; [|discriminate]. cbn [bind] in H. destruct (take_chunk c2 _) as [c3|]; [|discriminate]. cbn [bind] in H.
          destruct (k_size c3 =? 0); [now apply (IH _ _ _ _ _ _ _ H)|]. destruct (over_mask l _ _ _ m) as [[l1 cu]|] eqn:E; [|discriminate]. cbn [bind] in H. injection H as <- <-.
          intros [Q|Q]; [discriminate|]. exact (IH _ _ _ _ _ _ _ E Q). }
        injection P1 as <-. cbn [negb andb] in E1. destruct (cum <? true_count m); [apply in_app_or in E1; destruct E1 as [E1|[E1|[]]]; [|discriminate]|]; exact (N _ _ _ _ _ _ _ _ Eo E1).
      - unfold take_over in P1. destruct (over_len (number 0 store) off len 0) as [[r cum]|] eqn:Eo; [|discriminate]. cbn [bind] in P1.
        assert (En : over_len (number 0 store) (Z.max 0 off) len 0 = Ok (r, cum)).
        { destruct (Z.le_gt_cases off 0); [|now replace (Z.max 0 off) with off by lia]. replace (Z.max 0 off) with 0 by lia. now rewrite <- (@over_len_neg _ off). }
        pose proof (@over_len_whole o store 0 (Z.max 0 off) len 0 r cum Hs ltac:(lia) ltac:(lia) ltac:(lia) En j c Hj) as Wh. cbn [Nat.add] in Wh.
        assert (Ec : covered off len (sizes (firstn j store)) (sizes (firstn j store) + k_size c) = whole (Z.max 0 off) len 0 (sizes (firstn j store)) (sizes (firstn j store) + k_size c)).
        { unfold covered, whole, windowed in *. destruct (len =? 0) eqn:El; [|lia]. replace (off =? 0) with false by lia. cbn [orb]. reflexivity. }
        rewrite Ec. apply eq_iff_eq_true. rewrite Wh. rewrite existsb_exists. injection P1 as <-. split.
        + intros ([[i|] c1] & E1 & E2); [|easy]. apply Nat.eqb_eq in E2. cbn in E2. subst i. exists c1.
          destruct (negb (len =? 0) && (cum <? len)); [|exact E1]. apply in_app_or in E1. destruct E1 as [E1|[E1|[]]]; [exact E1|discriminate].
        + intros (c1 & E1). exists (Some j, c1). split; [|apply Nat.eqb_refl]. destruct (negb (len =? 0) && (cum <? len)); [apply in_or_app; now left|exact E1]. }
    apply eq_nth. intro j. rewrite nth_error_map. destruct (nth_error store j) as [c|] eqn:Hj.
    - destruct (Nth j c Hj) as (c' & N1 & N2). rewrite N1. cbn [option_map]. rewrite N2, (Cov j c Hj). destruct idx as [m|].
      + now rewrite nth_error_map, Hj.
      + rewrite runs_after_nth, nth_error_map, Hj. cbn [option_map]. cbv zeta. rewrite !Z.add_0_l. rewrite firstn_map, <- sizes_cells.
        * assert (Lc : zlen (cells_of o c) = k_size c) by (apply (@stored_len o c), Hs, (nth_error_In _ _ Hj)). now rewrite Lc.
        * intros x Hx. apply Hs. rewrite <- (firstn_skipn j store). apply in_or_app. now left.
    - assert (nth_error (write_back store l') j = None) as ->. { apply nth_error_None. apply nth_error_None in Hj. lia. }
      cbn [option_map]. destruct idx as [m|]; [now rewrite nth_error_map, Hj|]. rewrite runs_after_nth, nth_error_map, Hj. reflexivity.
  Qed.
End After.
