(** C111: texts read as integers, and texts without the space around them. *)
From Verif Require Import Py PyFacts PyText Cell Casts Chunk Series Xlsx XlsxParts IntText PropsChunk.
From Coq Require Import ZifyBool.
Set Implicit Arguments. Unset Strict Implicit.

(** ** Integers *)
Theorem C111_integer t n : py_int t = Ok n <-> int_text t n.
Proof. apply py_int_text. Qed.
Print Assumptions C111_integer.
Theorem C111_no_integer t e : py_int t = Err e <-> e = ValueError /\ ~ exists n, int_text t n.
Proof. apply py_int_error. Qed.
Print Assumptions C111_no_integer.
(** The text of a number is read as that number. *)
Theorem C111_written n : 0 <= n -> int_text (dec n) n.
Proof. intro H. apply py_int_text. now apply py_int_dec. Qed.
Print Assumptions C111_written.
(** Cell formats with a built-in format: those whose id is an integer text of one of the ids; an id
    that is none raises ValueError. *)
Theorem C111_styles ids l :
  match builtin_keys ids l with
  | Ok ks => forall x, In x ks <-> exists y n, In (x, y) l /\ int_text y n /\ In n ids
  | Err e => e = ValueError
  end /\ ((exists ks, builtin_keys ids l = Ok ks) <-> forall x y, In (x, y) l -> exists n, int_text y n).
Proof.
  induction l as [|[x y] l [IH IO]]; cbn [builtin_keys].
  - split; [|split; [easy|intros _; now exists []]]. intro x. split; [intros []|intros (y & n & [] & _)].
  - destruct (py_int y) as [n|e] eqn:P; cbn [bind].
    + apply py_int_text in P as T. assert (U : forall m, int_text y m -> m = n) by (intros m M; apply py_int_text in M; congruence).
      destruct (builtin_keys ids l) as [ks|e]; cbn [bind].
      * split.
        -- intro z. destruct (mem_Z n ids) eqn:M.
           ++ cbn [In]. rewrite IH. split.
              ** intros [<-|(y' & n' & I & T' & J)]; [exists y, n; split; [now left|]; split; [exact T|now apply mem_Z_In]|exists y', n'; split; [now right|now split]].
              ** intros (y' & n' & [[= <- <-]|I] & T' & J); [now left|right; now exists y', n'].
           ++ rewrite IH. split.
              ** intros (y' & n' & I & T' & J). exists y', n'. split; [now right|now split].
              ** intros (y' & n' & [[= <- <-]|I] & T' & J); [|now exists y', n']. rewrite (U _ T') in J. apply mem_Z_In in J. congruence.
        -- split; [|intros _; now eexists]. intros _ z y' [[= <- <-]|I]; [now exists n|]. refine (proj1 IO _ z y' I). now exists ks.
      * split; [exact IH|]. split; [intros [ks H]; discriminate|]. intro H. apply IO. intros z y' I. apply (H z). now right.
    + apply py_int_error in P as [-> N]. split; [reflexivity|]. split; [intros [ks H]; discriminate|]. intro H. exfalso. apply N, (H x). now left.
Qed.
Print Assumptions C111_styles.
(** Indices of shared strings in an .xlsx sheet: a run of such cells becomes the integers their
    texts stand for; a text that is none raises ValueError (unless an earlier one is an integer
    numpy does not take, which is not modelled). *)
Theorem C111_shared shared bs :
  (forall c, xlsx_strings shared (map VBytes bs) true = Ok c <->
     exists l, c = mkC (DIdx l) 0x11 (zlen bs) shared /\ Forall2 (fun b i => int_text b i /\ 0 <= i < 2 ^ 32) bs l) /\
  (forall e, xlsx_strings shared (map VBytes bs) true = Err e -> e = ValueError /\ (exists b, In b bs /\ ~ exists n, int_text b n) \/ e = Undefined).
Proof.
  unfold xlsx_strings. set (f := fun v => b <- val_bytes v ;; i <- py_int b ;; if (0 <=? i) && (i <? 2 ^ 32) then Ok i else Err Undefined).
  assert (F : forall b i, f (VBytes b) = Ok i <-> int_text b i /\ 0 <= i < 2 ^ 32).
  { intros b i. unfold f. cbn [val_bytes bind]. rewrite <- py_int_text. destruct (py_int b) as [k|e]; cbn [bind]; [|split; [discriminate|intros [H _]; discriminate]].
    destruct ((0 <=? k) && (k <? 2 ^ 32)) eqn:R; [split; [intros [= <-]; split; [reflexivity|lia]|intros [[= <-] _]; reflexivity]|split; [discriminate|intros [[= <-] H]; lia]]. }
  assert (G : forall l, mapM f (map VBytes bs) = Ok l <-> Forall2 (fun b i => int_text b i /\ 0 <= i < 2 ^ 32) bs l).
  { induction bs as [|b bs IH]; intro l; cbn [map mapM]; [split; [intros [= <-]; constructor|now inversion 1]|]. split.
    - destruct (f (VBytes b)) as [i|e] eqn:E; cbn [bind]; [|discriminate]. destruct (mapM f (map VBytes bs)) as [l'|e] eqn:M; cbn [bind]; [|discriminate]. intros [= <-]. constructor; [now apply F|now apply IH].
    - intro H. inversion H as [|b' i bs' l' Hb Hl]; subst. apply F in Hb. rewrite Hb. cbn [bind]. apply IH in Hl. rewrite Hl. reflexivity. }
  assert (Z : zlen (map VBytes bs) = zlen bs) by (unfold zlen; now rewrite map_length). rewrite Z. split.
  - intro c. split.
    + destruct (mapM f (map VBytes bs)) as [l|e] eqn:M; cbn [bind]; [|discriminate]. intros [= <-]. exists l. split; [reflexivity|now apply G].
    + intros (l & -> & H). apply G in H. rewrite H. reflexivity.
  - intros e H. destruct (mapM f (map VBytes bs)) as [l|e'] eqn:M; cbn [bind] in H; [discriminate|]. injection H as <-. clear G Z. revert M. induction bs as [|b bs IH]; cbn [map mapM]; [discriminate|].
    destruct (f (VBytes b)) as [i|e] eqn:E; cbn [bind].
    + destruct (mapM f (map VBytes bs)) as [l|e] eqn:M; cbn [bind]; [discriminate|]. intros [= <-]. destruct (IH eq_refl) as [(-> & b' & I & N)| ->]; [left; split; [reflexivity|]; exists b'; split; [now right|exact N]|now right].
    + intros [= <-]. unfold f in E. cbn [val_bytes bind] in E. destruct (py_int b) as [k|x] eqn:P; cbn [bind] in E.
      * destruct ((0 <=? k) && (k <? 2 ^ 32)); [discriminate|]. right. congruence.
      * apply py_int_error in P as [-> N]. left. split; [congruence|]. exists b. split; [now left|exact N].
Qed.
Print Assumptions C111_shared.

(** ** Space around a text *)
(** Unicode's White_Space characters, and the four separators U+001C to U+001F Python adds. *)
Definition spaces : list Z :=
  [9; 10; 11; 12; 13; 28; 29; 30; 31; 32; 0x85; 0xA0; 0x1680;
   0x2000; 0x2001; 0x2002; 0x2003; 0x2004; 0x2005; 0x2006; 0x2007; 0x2008; 0x2009; 0x200A; 0x2028; 0x2029; 0x202F; 0x205F; 0x3000].
Definition stripped (t u : str) : Prop :=
  exists a b, t = a ++ u ++ b /\ (forall c, In c (a ++ b) -> In c spaces) /\
    (u = [] \/ exists x y v w, u = x :: v /\ u = w ++ [y] /\ ~ In x spaces /\ ~ In y spaces).
Lemma space_iff c : is_space c = true <-> In c spaces.
Proof. unfold is_space, spaces. cbn [In]. lia. Qed.
Lemma lstrip_split t : exists a, t = a ++ lstrip t /\ (forall c, In c a -> In c spaces) /\ (lstrip t = [] \/ exists x v, lstrip t = x :: v /\ ~ In x spaces).
Proof.
  induction t as [|c t (a & E & A & F)]; cbn [lstrip]; [exists []; split; [reflexivity|]; split; [easy|now left]|]. destruct (is_space c) eqn:S.
  - exists (c :: a). split; [cbn [app]; now rewrite <- E|]. split; [|exact F]. intros x [<-|I]; [now apply space_iff|now apply A].
  - exists []. split; [reflexivity|]. split; [easy|]. right. exists c, t. split; [reflexivity|]. rewrite <- space_iff. congruence.
Qed.
Lemma lstrip_app a t : (forall c, In c a -> In c spaces) -> lstrip (a ++ t) = lstrip t.
Proof. induction a as [|c a IH]; intro A; [reflexivity|]. cbn [app lstrip]. rewrite (proj2 (space_iff c) (A c (or_introl eq_refl))). apply IH. intros x I. apply A. now right. Qed.
Lemma lstrip_all a : (forall c, In c a -> In c spaces) -> lstrip a = [].
Proof. intro A. rewrite <- (app_nil_r a) at 1. rewrite (lstrip_app [] A). reflexivity. Qed.
Theorem C111_strip t u : strip t = u <-> stripped t u.
Proof.
  unfold strip, stripped. split.
  - intros <-. destruct (lstrip_split t) as (a & E & A & F). destruct (lstrip_split (rev (lstrip t))) as (b & G & B & H). exists a, (rev b).
    assert (L : lstrip t = rev (lstrip (rev (lstrip t))) ++ rev b) by (rewrite <- rev_app_distr, <- G; symmetry; apply rev_involutive).
    split; [rewrite <- L; exact E|]. split; [intros c I; apply in_app_or in I as [I|I]; [now apply A|apply B; now apply in_rev in I]|].
    destruct H as [H|(y & v & H & Y)]; [left; now rewrite H|]. right. destruct F as [F|(x & w & F & X)]; [rewrite F in H; discriminate|].
    rewrite H in L |- *. cbn [rev] in L |- *. destruct (rev v) as [|x' v'] eqn:R.
    + exists y, y, [], []. now repeat split.
    + rewrite F in L. cbn [app] in L. injection L as <- _. exists x, y, (v' ++ [y]), (x :: v'). now repeat split.
  - intros (a & b & -> & S & F). rewrite lstrip_app by (intros c I; apply S; apply in_or_app; now left). assert (B : forall c, In c (rev b) -> In c spaces) by (intros c I; apply S; apply in_or_app; right; now apply in_rev).
    destruct F as [->|(x & y & v & w & E1 & E2 & X & Y)].
    + cbn [app]. assert (Lb : lstrip b = []) by (apply lstrip_all; intros c I; apply S; apply in_or_app; now right). now rewrite Lb.
    + assert (Lx : lstrip (u ++ b) = u ++ b) by (rewrite E1; cbn [app lstrip]; destruct (is_space x) eqn:Q; [apply space_iff in Q; contradiction|reflexivity]). rewrite Lx, rev_app_distr, lstrip_app by exact B.
      assert (Ly : lstrip (rev u) = rev u) by (rewrite E2, rev_app_distr; cbn [rev app lstrip]; destruct (is_space y) eqn:Q; [apply space_iff in Q; contradiction|reflexivity]). rewrite Ly. apply rev_involutive.
Qed.
Print Assumptions C111_strip.
Example C111_example :
  int_text (s " +1_000 ") 1000 /\ int_text (s "-07") (-7) /\ (forall n, ~ int_text (s "1__0") n) /\ (forall n, ~ int_text (s "1:") n) /\ (forall n, ~ int_text (s "_1") n) /\ (forall n, ~ int_text [] n) /\
  stripped [0xA0; 65; 32; 66; 0x3000; 10] [65; 32; 66] /\ ~ stripped [65; 0x200B] [65] /\
  builtin_keys [14; 22] [(s "0", s "14"); (s "1", s "0"); (s "2", s " 22")] = Ok [s "0"; s "2"] /\ builtin_keys [14] [(s "0", s "x")] = Err ValueError.
Proof.
  rewrite <- !C111_integer, <- !C111_strip. split; [vm_compute; reflexivity|]. split; [vm_compute; reflexivity|].
  assert (N : forall t, py_int t = Err ValueError -> forall n, ~ int_text t n) by (intros t H n I; apply C111_integer in I; congruence).
  split; [apply N; vm_compute; reflexivity|]. split; [apply N; vm_compute; reflexivity|]. split; [apply N; vm_compute; reflexivity|]. split; [apply N; vm_compute; reflexivity|].
  split; [vm_compute; reflexivity|]. split; [vm_compute; discriminate|]. split; vm_compute; reflexivity.
Qed.
