(** The compiled column decoder. *)
From Verif Require Import Py PyText Utf8 Cell Casts Xlsx XlsxSpec XlsxProofs.
Set Implicit Arguments. Unset Strict Implicit.

(** ** Model: xlsx.py:76-79, the body of lines 66-73 compiled by numba for one signature,
    [int32 (bytes)]: locals are int64 and wrap, the result is cut to int32. *)
Definition i64 (x : Z) : Z := (x + 2 ^ 63) mod 2 ^ 64 - 2 ^ 63.
Fixpoint col_idx_nb_rev (l : bytes) (a i : Z) : Z :=
  match l with
  | [] => a
  | x :: r => if 64 <? x then col_idx_nb_rev r (i64 (a + i64 ((x - 64) * i64 (26 ^ i)))) (i + 1)
              else col_idx_nb_rev r a i
  end.
Definition col_idx_nb (b : bytes) : Z := to_i32 (to_u32 (col_idx_nb_rev (rev b) (-1) 0)).

(** ** C96: the compiled column decoder *)
Lemma i64_mod x : (i64 x) mod 2 ^ 32 = x mod 2 ^ 32.
Proof.
  unfold i64. pose proof (Z.div_mod (x + 2 ^ 63) (2 ^ 64) ltac:(lia)) as E.
  replace ((x + 2 ^ 63) mod 2 ^ 64 - 2 ^ 63) with (x + - ((x + 2 ^ 63) / 2 ^ 64 * 2 ^ 32) * 2 ^ 32) by lia.
  apply Z.mod_add. lia.
Qed.
Lemma nb_rev_mod l : forall a a' i, a mod 2 ^ 32 = a' mod 2 ^ 32 ->
  (col_idx_nb_rev l a i) mod 2 ^ 32 = (col_idx_rev l a' i) mod 2 ^ 32.
Proof.
  induction l as [|x l IH]; intros a a' i E; cbn [col_idx_nb_rev col_idx_rev]; [exact E|].
  destruct (64 <? x); [|now apply IH]. apply IH. rewrite i64_mod.
  rewrite Z.add_mod, i64_mod, Z.mul_mod, i64_mod, <- Z.mul_mod, E, <- Z.add_mod by lia. reflexivity.
Qed.
Lemma nb_mod b : col_idx_nb b = to_i32 (to_u32 (col_idx b)).
Proof. unfold col_idx_nb, to_u32. now rewrite (@nb_rev_mod (rev b) (-1) (-1) 0 eq_refl). Qed.

(** Every reference: the decoded number as long as it fits; otherwise cut to 32 bits, signed. *)
Theorem C96_exact : forall b,
  -2 ^ 31 <= col_idx_nb b < 2 ^ 31 /\ exists k, col_idx_nb b = col_idx b + k * 2 ^ 32.
Proof.
  intro b. rewrite nb_mod. unfold to_i32, to_u32.
  pose proof (Z.mod_pos_bound (col_idx b) (2 ^ 32) ltac:(lia)).
  pose proof (Z.div_mod (col_idx b) (2 ^ 32) ltac:(lia)).
  destruct (Z.ltb_spec (col_idx b mod 2 ^ 32) (2 ^ 31)).
  - split; [lia|]. exists (- (col_idx b / 2 ^ 32)). lia.
  - split; [lia|]. exists (- (col_idx b / 2 ^ 32) - 1). lia.
Qed.
Print Assumptions C96_exact.

(** Column letters of every number below 2^31 (Excel's last is 16383) decode to that number. *)
Theorem C96_letters_partial : forall n ds, 0 <= n < 2 ^ 31 -> forallb is_digit ds = true ->
  col_idx_nb (utf8 (letters n ++ ds)) = n.
Proof.
  intros n ds Hn Hd. rewrite ref_ascii by exact Hd. destruct (C96_exact (letters n ++ ds)) as (B & k & E).
  rewrite col_idx_letters in E by (trivial; lia). lia.
Qed.
Print Assumptions C96_letters_partial.

(** Beyond, different letters decode to the same column, for every column and every row. *)
Theorem C96_letters_refuted : forall n ds, 0 <= n -> forallb is_digit ds = true ->
  letters (n + 2 ^ 32) <> letters n /\
  col_idx_nb (utf8 (letters (n + 2 ^ 32) ++ ds)) = col_idx_nb (utf8 (letters n ++ ds)).
Proof.
  intros n ds Hn Hd. split.
  - intro E. pose proof (@col_idx_letters (n + 2 ^ 32) ds ltac:(lia) Hd) as A.
    rewrite E, col_idx_letters in A by (trivial; lia). lia.
  - rewrite !ref_ascii by exact Hd. rewrite !nb_mod, !col_idx_letters by (trivial; lia). unfold to_u32.
    now rewrite <- (Z.mod_add n 1 (2 ^ 32)) by lia.
Qed.
Print Assumptions C96_letters_refuted.
Example C96_example :
  col_idx_nb (s "XFD1048576") = 16383 /\ col_idx_nb (s "MWLQKWW7") = 0 /\ col_idx_nb (s "A7") = 0 /\
  col_idx_nb (s "FXSHRXY") = -2 ^ 31.
Proof. repeat (apply conj); vm_compute; reflexivity. Qed.
