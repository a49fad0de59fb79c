(** C101: a row callback that raises. *)
From Coq Require Import ZifyBool ZifyNat.
From Verif Require Import Py PyFacts PyText Cell Xlsx Queue QueueProofs QueueCalls Casts Chunk ChunkSpec Series SeriesSpec PropsSeries Reader ReaderSpec ReaderProofs PropsReader.
Set Implicit Arguments. Unset Strict Implicit.

(** ** Specification: what comes before the first call that raises *)
Section Until.
  Context (bad : Z -> bool).
  Fixpoint until (n : Z) (l : list out) : list out :=
    match l with
    | [] => []
    | OCell c :: l => OCell c :: until n l
    | OCall :: l => if bad n then [] else OCall :: until (n + 1) l
    end.
  Definition raises (l : list out) : Prop := exists a b, l = a ++ OCall :: b /\ bad (calls_of a) = true /\ forall p q, a = p ++ OCall :: q -> bad (calls_of p) = false.
End Until.

(** ** The two threads *)
Section Threads.
  Context (bad : Z -> bool) (t : list out) (B0 : bad 0 = false).
  Record cinv (x : csys) : Prop := mkCInv {
    ci_alive : k_dead x = false;
    ci_cells : q_got (k_sys x) ++ qcells (q_queue (k_sys x)) ++ Cell.cells_of (until bad (q_calls (k_sys x)) (q_todo (k_sys x))) = Cell.cells_of (until bad 0 t);
    ci_calls : 0 <= q_calls (k_sys x);
    ci_fin : q_fin (k_sys x) = true -> q_todo (k_sys x) = [];
    ci_open : q_stat (k_sys x) <> CClosed;
    ci_run : q_stat (k_sys x) = CRun -> exists l, q_queue (k_sys x) = map Some l ++ (if q_fin (k_sys x) then [None] else []);
    ci_done : q_stat (k_sys x) = CDone -> q_fin (k_sys x) = true /\ q_queue (k_sys x) = [] }.
  Lemma cinv_init : cinv (csys_init t).
  Proof. constructor; cbn; try reflexivity; try discriminate; try lia. intros _. now exists []. Qed.
  Lemma cinv_step x y : cinv x -> cstep bad x y -> cinv y.
  Proof.
    intros [H0 H1 H2 H3 H6 H4 H5] S. destruct S; cbn [k_dead k_sys q_todo q_fin q_queue q_got q_calls q_stat until] in *.
    - constructor; cbn [k_dead k_sys q_todo q_fin q_queue q_got q_calls q_stat]; try assumption; try reflexivity; try discriminate.
      + rewrite <- H1, qcells_app. cbn. now rewrite <- app_assoc.
      + intro E. destruct (H4 E) as [l ->]. exists (l ++ [c]). now rewrite map_app, !app_nil_r.
      + intro E. destruct (H5 E). discriminate.
    - rewrite H in H1. constructor; cbn [k_dead k_sys q_todo q_fin q_queue q_got q_calls q_stat]; try assumption; try reflexivity; try discriminate; lia.
    - rewrite H in H1. constructor; cbn [k_dead k_sys q_todo q_fin q_queue q_got q_calls q_stat until]; try assumption; try reflexivity; try discriminate; lia.
    - congruence.
    - constructor; cbn [k_dead k_sys q_todo q_fin q_queue q_got q_calls q_stat until]; try assumption; try reflexivity.
      + rewrite <- H1, qcells_app. cbn [qcells flat_map app]. now rewrite !app_nil_r.
      + intro E. destruct (H4 E) as [l ->]. exists l. now rewrite app_nil_r.
      + intro E. destruct (H5 E). discriminate.
    - constructor; cbn [k_dead k_sys q_todo q_fin q_queue q_got q_calls q_stat]; try assumption; try discriminate.
      + rewrite <- H1. cbn. now rewrite <- app_assoc.
      + intros _. destruct (H4 eq_refl) as [l El]. destruct l as [|c' l]; cbn [map app] in El; [destruct f; discriminate|]. exists l. congruence.
    - constructor; cbn [k_dead k_sys q_todo q_fin q_queue q_got q_calls q_stat]; try assumption; try discriminate.
      intros _. destruct (H4 eq_refl) as [l El]. destruct l as [|c' l]; cbn [map app] in El; [|discriminate].
      destruct f; [split; [reflexivity|]|discriminate]. now injection El.
  Qed.
  Lemma cinv_steps n : forall x y, cinv x -> csteps bad n x y -> cinv y.
  Proof. induction n as [|n IH]; intros x y H S; inversion S; subst; [exact H|]. eapply IH; [eapply cinv_step; eassumption|eassumption]. Qed.
  Lemma cstuck x : cinv x -> (forall y, ~ cstep bad x y) -> q_stat (k_sys x) = CDone /\ q_got (k_sys x) = Cell.cells_of (until bad 0 t).
  Proof.
    intros [H0 H1 H2 H3 H6 H4 H5] Hs. destruct x as [d [td f q g n st]]. cbn [k_dead k_sys q_todo q_fin q_queue q_got q_calls q_stat] in *. subst d.
    destruct f.
    2:{ exfalso. destruct td as [|[c|] td]; [eapply Hs; constructor|eapply Hs; constructor|]. destruct (bad n) eqn:E; [|eapply Hs; now apply KCall].
        eapply Hs. apply KRaise; [exact E|]. assert (n <> 0) by congruence. lia. }
    rewrite (H3 eq_refl) in *. destruct st; [|split; [reflexivity|]|congruence].
    - exfalso. destruct (H4 eq_refl) as [l ->]. destruct l; cbn in Hs; eapply Hs; constructor.
    - destruct (H5 eq_refl) as [_ ->]. cbn in H1. now rewrite app_nil_r in H1.
  Qed.
End Threads.
Lemma cstep_work bad x y : cstep bad x y -> (work (k_sys y) < work (k_sys x))%nat.
Proof. destruct 1; unfold work; cbn [k_sys q_todo q_fin q_queue List.length]; rewrite ?app_length; cbn [List.length]; lia. Qed.
Lemma csteps_work bad n : forall x y, csteps bad n x y -> (n + work (k_sys y) <= work (k_sys x))%nat.
Proof. induction n as [|n IH]; intros x y S; inversion S; subst; [lia|]. apply IH in H1. apply cstep_work in H0. lia. Qed.

(** Full claim: when the callback raises, reading ends and raises the exception of the callback.

    .xlsx, a later call than the first: every execution ends, but as if the sheet ended there,
    without an error. *)
Theorem C101_xlsx_later_refuted bad t n x : bad 0 = false -> csteps bad n (csys_init t) x ->
  (n <= 2 * List.length t + 2)%nat /\
  ((forall y, ~ cstep bad x y) -> q_stat (k_sys x) = CDone /\ q_got (k_sys x) = Cell.cells_of (until bad 0 t)).
Proof.
  intros B0 S. split; [apply csteps_work in S; unfold work in S at 2; cbn in S; lia|]. apply cstuck; [exact B0|].
  eapply cinv_steps; [exact B0|apply cinv_init; exact B0|exact S].
Qed.
Print Assumptions C101_xlsx_later_refuted.
(** The first call: whatever the sheet and the other arguments, the caller never gets a cell, nor an
    end, nor an exception - it waits for a dead thread. *)
Theorem C101_xlsx_first_refuted bad styles nv skip take tne skip_cols es fail : bad 0 = true -> 0 <= skip -> 0 <= take ->
  let t := fst (xlsx_iter styles nv skip take tne skip_cols es fail) in
  (forall n x, csteps bad n (csys_init t) x -> (n <= 1)%nat /\ q_stat (k_sys x) = CRun /\ q_got (k_sys x) = []) /\
  exists x, csteps bad 1 (csys_init t) x /\ k_dead x = true /\ forall y, ~ cstep bad x y.
Proof.
  intros B0 Hs Ht t. assert (E : exists r, t = OCall :: r).
  { unfold t, xlsx_iter. replace (skip <? 0) with false by lia. replace (take <? 0) with false by lia. unfold worker. destruct (worker_loop _ _ _ _ _ _ _ _) as [o e]. now exists o. }
  destruct E as [r ->]. set (dead := mkCS true (mkSys [] false [] [] 1 CRun)).
  assert (One : forall y, cstep bad (csys_init (OCall :: r)) y -> y = dead).
  { intros y H. unfold csys_init, sys_init in H. inversion H; subst; [congruence|lia|reflexivity]. }
  assert (No : forall y, ~ cstep bad dead y) by (intros y H; unfold dead in H; inversion H).
  split.
  - intros n x S. inversion S; subst; [split; [lia|now split]|]. apply One in H. subst y. inversion H0; subst; [split; [lia|now split]|]. now apply No in H.
  - exists dead. split; [|now split]. eapply Kn; [|apply Kz]. now apply KFirst.
Qed.
Print Assumptions C101_xlsx_first_refuted.

(** .xlsb: the exception reaches the caller of [read], if the cells before it are legible. *)
Lemma called_until bad e fail : forall l n, fst (called bad e n l fail) = until bad n l.
Proof.
  induction l as [|[c|] l IH]; intro n; cbn [called until]; [reflexivity| |].
  - specialize (IH n). destruct (called bad e n l fail). cbn in *. now rewrite IH.
  - destruct (bad n); [reflexivity|]. specialize (IH (n + 1)). destruct (called bad e (n + 1) l fail). cbn in *. now rewrite IH.
Qed.
Lemma called_raises bad e fail b : forall a n, bad (n + calls_of a) = true -> (forall p q, a = p ++ OCall :: q -> bad (n + calls_of p) = false) ->
  snd (called bad e n (a ++ OCall :: b) fail) = Some e.
Proof.
  induction a as [|[c|] a IH]; intros n H1 H2; cbn [app called].
  - cbn in H1. rewrite Z.add_0_r in H1. now rewrite H1.
  - rewrite calls_cons_cell in H1. specialize (IH n H1). destruct (called bad e n (a ++ OCall :: b) fail). apply IH. intros p q ->. exact (H2 (OCell c :: p) q eq_refl).
  - pose proof (H2 [] a eq_refl) as H0. cbn in H0. rewrite Z.add_0_r in H0. rewrite H0. rewrite calls_cons_call in H1. replace (n + (1 + calls_of a)) with (n + 1 + calls_of a) in H1 by lia.
    specialize (IH (n + 1) H1). destruct (called bad e (n + 1) (a ++ OCall :: b) fail). apply IH. intros p q ->. specialize (H2 (OCall :: p) q eq_refl). rewrite calls_cons_call in H2. now replace (n + 1 + calls_of p) with (n + (1 + calls_of p)) by lia.
Qed.
Theorem C101_xlsb_partial ro sc op bad e outs fail : raises bad outs -> sheet_ok (ro_o ro) sc (Cell.cells_of (until bad 0 outs)) = true ->
  read_trace ro sc op (called bad e 0 outs fail) = Err e.
Proof.
  intros (a & b & -> & H1 & H2) S. unfold read_trace. rewrite called_until.
  destruct (@collect_inv ro sc (until bad 0 (a ++ OCall :: b)) [] []) as (d & -> & _); [apply cinv_nil|exact S|].
  cbn [bind]. now rewrite (@called_raises bad e fail b a 0 H1 H2).
Qed.
Print Assumptions C101_xlsb_partial.

(** ** Examples *)
(** Two rows; the call after the first row raises: the caller gets the first row and a normal end. *)
Definition ex_rows2 : list out := [OCall; OCell (mkCell 0 0 0x18 (VBytes [65])); OCall; OCell (mkCell 1 0 0x18 (VBytes [66])); OCall].
Example C101_later_example :
  let bad := fun n => n =? 1 in until bad 0 ex_rows2 = [OCall; OCell (mkCell 0 0 0x18 (VBytes [65]))] /\
  exists n x, csteps bad n (csys_init ex_rows2) x /\ (forall y, ~ cstep bad x y) /\ q_stat (k_sys x) = CDone /\ map c_row (q_got (k_sys x)) = [0].
Proof.
  cbv zeta. split; [reflexivity|]. exists 6%nat, (mkCS false (mkSys [] true [] [mkCell 0 0 0x18 (VBytes [65])] 2 CDone)). split.
  - unfold csys_init, sys_init, ex_rows2. eapply Kn; [now apply KCall|]. eapply Kn; [apply KCell|]. eapply Kn; [now apply KRaise|]. eapply Kn; [apply KGet|]. eapply Kn; [apply KEnd|]. eapply Kn; [apply KStop|]. apply Kz.
  - split; [|now split]. intros y H. inversion H.
Qed.
(** As .xlsb: the exception of the third call, after two rows. *)
Example C101_xlsb_example :
  let outs := [OCall; words 0 0 (s "a"); OCall; rk 1 0 5; OCall; OCall] in let bad := fun n => 2 <=? n in
  raises bad outs /\ sheet_ok ex_o2 ex_binary (Cell.cells_of (until bad 0 outs)) = true /\
  match read_trace ex_ro ex_binary opts0 (called bad RuntimeError 0 outs None) with Err RuntimeError => true | _ => false end = true.
Proof.
  cbv zeta. split; [|split; vm_compute; reflexivity]. exists [OCall; words 0 0 (s "a"); OCall; rk 1 0 5], [OCall]. split; [reflexivity|]. split; [reflexivity|].
  intros p q E. destruct p as [|o1 p]; [reflexivity|]. injection E as <- E. destruct p as [|o2 p]; [discriminate|]. injection E as <- E. destruct p as [|o3 p]; [reflexivity|]. injection E as <- E.
  destruct p as [|o4 p]; [discriminate|]. injection E as <- E. now destruct p.
Qed.
