From Verif Require Import Py PyFacts Cell Queue.
From Coq Require Import ZifyBool ZifyNat.
Set Implicit Arguments.
Unset Strict Implicit.

Definition qcells (q : list qitem) : list cell := flat_map (fun x => match x with Some c => [c] | None => [] end) q.
Definition ncalls (l : list out) : Z := calls_of l.

(** What holds in every reachable state when [t] is the worker's trace. *)
Record inv (t : list out) (x : sys) : Prop := mkInv {
  i_cells : q_got x ++ qcells (q_queue x) ++ cells_of (q_todo x) = cells_of t;
  i_calls : q_calls x + calls_of (q_todo x) = calls_of t;
  i_fin : q_fin x = true -> q_todo x = [];
  i_run : q_stat x = CRun ->
    exists l, q_queue x = map Some l ++ (if q_fin x then [None] else []);
  i_done : q_stat x = CDone -> q_fin x = true /\ q_queue x = [] }.

Lemma qcells_app a b : qcells (a ++ b) = qcells a ++ qcells b.
Proof. apply flat_map_app. Qed.

Lemma inv_init t : inv t (sys_init t).
Proof. constructor; cbn; try reflexivity; try discriminate. intros _. exists []. reflexivity. Qed.

Lemma calls_cons_call r : calls_of (OCall :: r) = 1 + calls_of r.
Proof. unfold calls_of. cbn [filter]. now rewrite zlen_cons. Qed.
Lemma calls_cons_cell c r : calls_of (OCell c :: r) = calls_of r.
Proof. reflexivity. Qed.

Lemma inv_step t x y : inv t x -> step x y -> inv t y.
Proof.
  intros [H1 H2 H3 H4 H5] S. destruct S; cbn [q_todo q_fin q_queue q_got q_calls q_stat] in *.
  - constructor; cbn [q_todo q_fin q_queue q_got q_calls q_stat].
    + rewrite <- H1, qcells_app. cbn. now rewrite <- app_assoc.
    + now rewrite calls_cons_cell in H2.
    + discriminate.
    + intro E. destruct (H4 E) as [l ->]. exists (l ++ [c]). rewrite map_app, !app_nil_r. reflexivity.
    + intro E. destruct (H5 E). discriminate.
  - constructor; cbn [q_todo q_fin q_queue q_got q_calls q_stat]; try assumption.
    + rewrite calls_cons_call in H2. lia.
    + discriminate.
  - constructor; cbn [q_todo q_fin q_queue q_got q_calls q_stat]; try assumption.
    + rewrite <- H1, qcells_app. cbn [qcells flat_map app]. now rewrite !app_nil_r.
    + reflexivity.
    + intro E. destruct (H4 E) as [l ->]. exists l. now rewrite app_nil_r.
    + intro E. destruct (H5 E). discriminate.
  - constructor; cbn [q_todo q_fin q_queue q_got q_calls q_stat]; try assumption.
    + rewrite <- H1. cbn. now rewrite <- app_assoc.
    + intros _. destruct (H4 eq_refl) as [l El]. destruct l as [|c' l]; cbn [map app] in El.
      * destruct f; discriminate.
      * exists l. congruence.
    + discriminate.
  - constructor; cbn [q_todo q_fin q_queue q_got q_calls q_stat]; try assumption.
    + discriminate.
    + intros _. destruct (H4 eq_refl) as [l El]. destruct l as [|c' l]; cbn [map app] in El; [|discriminate].
      destruct f; [split; [reflexivity|]|discriminate]. now injection El.
Qed.

Lemma inv_steps t n : forall x y, inv t x -> steps step n x y -> inv t y.
Proof.
  induction n as [|n IH]; intros x y H S; inversion S; subst; [exact H|].
  eapply IH; [eapply inv_step; eassumption|eassumption].
Qed.

(** Work left: bounds the length of every execution. *)
Definition work (x : sys) : nat :=
  (2 * List.length (q_todo x) + (if q_fin x then 0 else 2) + List.length (q_queue x))%nat.
Lemma step_work x y : step x y -> (work y < work x)%nat.
Proof. destruct 1; unfold work; cbn [q_todo q_fin q_queue List.length]; rewrite ?app_length; cbn [List.length]; lia. Qed.
Lemma steps_work n : forall x y, steps step n x y -> (n + work y <= work x)%nat.
Proof.
  induction n as [|n IH]; intros x y S; inversion S; subst; [lia|].
  apply IH in H1. apply step_work in H0. lia.
Qed.

Lemma stuck_done t x : inv t x -> q_stat x <> CClosed -> (forall y, ~ step x y) ->
  q_stat x = CDone /\ q_got x = cells_of t /\ q_calls x = calls_of t.
Proof.
  intros I Hc Hs. pose proof I as I'. destruct x as [td f q g n st].
  destruct I as [H1 H2 H3 H4 H5]. cbn [q_todo q_fin q_queue q_got q_calls q_stat] in *.
  destruct f.
  2:{ exfalso. destruct td as [|[c|] td]; eapply Hs; constructor. }
  rewrite (H3 eq_refl) in *. destruct st; [|split; [reflexivity|]|congruence].
  - exfalso. destruct (H4 eq_refl) as [l ->]. destruct l; cbn in Hs; eapply Hs; constructor.
  - destruct (H5 eq_refl) as [_ ->]. cbn in *. rewrite app_nil_r in H1. split; [exact H1|].
    change (calls_of []) with 0 in H2. lia.
Qed.

Lemma step_not_closed x y : step x y -> q_stat x <> CClosed -> q_stat y <> CClosed.
Proof. destruct 1; cbn; congruence. Qed.
Lemma steps_not_closed n : forall x y, steps step n x y -> q_stat x <> CClosed -> q_stat y <> CClosed.
Proof.
  induction n as [|n IH]; intros x y S; inversion S; subst; [tauto|].
  intro H. eapply IH; [eassumption|]. eapply step_not_closed; eassumption.
Qed.

(** When the worker has put its sentinel, the consumer alone gets everything. *)
Lemma consumer_alone l : forall td g n,
  steps step (S (List.length l)) (mkSys td true (map Some l ++ [None]) g n CRun)
    (mkSys td true [] (g ++ l) n CDone).
Proof.
  induction l as [|c l IH]; intros td g n; cbn [map app List.length].
  - rewrite app_nil_r. econstructor; [constructor|constructor].
  - econstructor; [constructor|]. replace (g ++ c :: l) with ((g ++ [c]) ++ l) by (now rewrite <- app_assoc). apply IH.
Qed.

(** With early closing: whatever was delivered is a prefix. *)
Definition any_step x y := step x y \/ close_step x y.
Definition pinv (t : list out) (x : sys) : Prop :=
  (q_stat x <> CClosed -> inv t x) /\ exists rest, q_got x ++ rest = cells_of t.
Lemma pinv_step t x y : pinv t x -> any_step x y -> pinv t y.
Proof.
  intros [H [rest Hr]] [S|S].
  - assert (D : q_stat x = CClosed \/ q_stat x <> CClosed) by (destruct (q_stat x); [right|right|left]; congruence).
    destruct D as [D|D].
    + destruct S; cbn in *; try discriminate; subst; (split; [cbn; congruence|exists rest; exact Hr]).
    + pose proof (inv_step (H D) S) as I. split; [intros _; exact I|]. destruct I as [I1 _ _ _ _]. eexists. exact I1.
  - destruct S; cbn in *; (split; [cbn; congruence|exists rest; exact Hr]).
Qed.
Lemma pinv_steps t n : forall x y, pinv t x -> steps any_step n x y -> pinv t y.
Proof.
  induction n as [|n IH]; intros x y H S; inversion S; subst; [exact H|].
  eapply IH; [eapply pinv_step; eassumption|eassumption].
Qed.
