(** Claim C51 for every length: booleans that come out wrong. *)
From Verif Require Import Py PyFacts Casts CastsSpec FloatFacts CastsProofs CastsProofs2 PropsCasts.
From Coq Require Import ZifyBool ZifyNat.
Open Scope nat_scope.

Lemma last_block : forall f (l : list bool), List.length l <= f -> l <> [] ->
  exists bs b, blocks_fuel f l = bs ++ [b] /\ b <> [] /\ nth 0 b false = nth (8 * ((List.length l - 1) / 8)) l false.
Proof.
  induction f as [|f IH]; intros l Hf Hl; [destruct l; [congruence|cbn in Hf; lia]|].
  destruct l as [|x l]; [congruence|]. cbn [blocks_fuel]. destruct (le_lt_dec (List.length (x :: l)) 8) as [S8|S8].
  - rewrite (skipn_all2 (x :: l)) by exact S8. exists [], (firstn 8 (firstn 8 (x :: l) ++ repeat false 8)). split; [now destruct f|].
    split; [discriminate|]. rewrite Nat.div_small by lia. reflexivity.
  - destruct (IH (skipn 8 (x :: l))) as (bs & b & E & Nb & V).
    + rewrite skipn_length. lia.
    + intro H. apply (f_equal (@List.length bool)) in H. rewrite skipn_length in H. cbn [List.length] in *. lia.
    + exists (firstn 8 (firstn 8 (x :: l) ++ repeat false 8) :: bs), b. split; [now rewrite E|]. split; [exact Nb|]. rewrite V, skipn_length.
      set (n := List.length (x :: l)) in *. replace (n - 1) with (n - 8 - 1 + 1 * 8) by lia. rewrite Nat.div_add by lia.
      set (k := (n - 8 - 1) / 8). replace (8 * (k + 1)) with (8 + 8 * k) by lia. generalize (8 * k). intro i. clear.
      rewrite <- (firstn_skipn 8 (x :: l)) at 2. generalize (x :: l). intro m. destruct (le_lt_dec 8 (List.length m)).
      * rewrite app_nth2; rewrite firstn_length; [f_equal; lia|lia].
      * rewrite skipn_all2 by lia. rewrite app_nil_r, nth_overflow by (cbn; lia). rewrite nth_overflow; [reflexivity|rewrite firstn_length; lia].
Qed.

(** Every array whose first value differs from the value at the start of its last byte comes out
    wrong, whatever its length. *)
Theorem C51_general_refuted l : l <> [] -> nth 0 l false <> nth (8 * ((List.length l - 1) / 8)) l false ->
  bool_arrow_to_numpy (bitmap l) (zlen l) <> l.
Proof.
  intros Hl N E. rewrite C51_exact in E. unfold blocks in E. destruct (@last_block (List.length l) l (le_n _) Hl) as (bs & b & B & Nb & V).
  rewrite B, rev_app_distr in E. cbn [rev app List.concat] in E. apply (f_equal (fun x => nth 0 x false)) in E. apply N. rewrite <- V. rewrite <- E.
  destruct l as [|x l]; [congruence|]. destruct b as [|y b]; [congruence|]. reflexivity.
Qed.
Print Assumptions C51_general_refuted.
(** So no length above eight is safe: of every such length there is an array that comes out wrong. *)
Theorem C51_every_length_refuted n : 8 < n -> exists l, List.length l = n /\ bool_arrow_to_numpy (bitmap l) (zlen l) <> l.
Proof.
  intro H. exists (true :: repeat false (n - 1)). assert (L : List.length (true :: repeat false (n - 1)) = n) by (cbn; rewrite repeat_length; lia).
  split; [exact L|]. apply C51_general_refuted; [discriminate|]. rewrite L.
  assert (Q : 1 <= (n - 1) / 8) by (apply Nat.div_le_lower_bound; lia). remember (8 * ((n - 1) / 8)) as i. destruct i as [|i]; [lia|].
  cbn [nth]. rewrite nth_repeat. discriminate.
Qed.
Print Assumptions C51_every_length_refuted.
Example C51_general_example : let l := [true; true; true; true; true; true; true; true; false; true] in
  l <> [] /\ nth 0 l false <> nth (8 * ((List.length l - 1) / 8)) l false /\
  bool_arrow_to_numpy (bitmap l) (zlen l) = [false; true; false; false; false; false; false; false; true; true].
Proof. split; [discriminate|]. split; [discriminate|]. vm_compute. reflexivity. Qed.
