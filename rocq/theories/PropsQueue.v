(** C25, C26: the parser thread of the .xlsx reader. *)
From Verif Require Import Py PyText Cell Xlsx XlsbSpec XlsxSpec XlsxNorm Queue QueueProofs.
From Coq Require Import ZifyNat.

(** ** C25 *)
(** Every execution is finite, with a bound depending only on the trace. *)
Theorem C25_every_schedule_ends : forall t n x, steps step n (sys_init t) x ->
  (n <= 2 * List.length t + 2)%nat.
Proof. intros t n x S. apply steps_work in S. unfold work in S at 2. cbn in S. lia. Qed.
Print Assumptions C25_every_schedule_ends.
(** When nothing can move any more, the consumer has ended normally with exactly the
    parser's cells, in order, and all callbacks were made. *)
Theorem C25_every_schedule_result : forall t n x, steps step n (sys_init t) x ->
  (forall y, ~ step x y) -> q_stat x = CDone /\ q_got x = cells_of t /\ q_calls x = calls_of t.
Proof.
  intros t n x S Hx. apply stuck_done; [|eapply steps_not_closed; [exact S|discriminate]|exact Hx].
  eapply inv_steps; [apply inv_init|exact S].
Qed.
Print Assumptions C25_every_schedule_result.
(** The consumer can only end with the complete list; before that it holds a prefix. *)
Theorem C25_no_early_end : forall t n x, steps step n (sys_init t) x ->
  (q_stat x = CDone -> q_got x = cells_of t) /\ exists rest, q_got x ++ rest = cells_of t.
Proof.
  intros t n x S. assert (I : inv t x) by (eapply inv_steps; [apply inv_init|exact S]).
  destruct I as [H1 H2 H3 H4 H5]. split; [|eexists; exact H1]. intro E. destruct (H5 E) as [Hf Hq].
  rewrite Hq, (H3 Hf) in H1. cbn in H1. now rewrite app_nil_r in H1.
Qed.
Print Assumptions C25_no_early_end.
(** Once the parser has finished, the consumer never blocks: it can end on its own. *)
Theorem C25_no_blocking : forall t n x, steps step n (sys_init t) x -> q_fin x = true ->
  q_stat x = CDone \/
  exists k y, steps step k x y /\ q_stat y = CDone /\ q_got y = cells_of t.
Proof.
  intros t n x S Hf. assert (I : inv t x) by (eapply inv_steps; [apply inv_init|exact S]).
  assert (Hc : q_stat x <> CClosed) by (eapply steps_not_closed; [exact S|discriminate]).
  destruct I as [H1 H2 H3 H4 H5]. destruct x as [td f q g c st]. cbn in *. subst f.
  destruct st; [right|now left|congruence]. destruct (H4 eq_refl) as [l ->].
  eexists _, _. split; [apply consumer_alone|]. split; [reflexivity|]. cbn [q_got].
  rewrite (H3 eq_refl) in H1. cbn [cells_of flat_map] in H1. rewrite app_nil_r, qcells_app in H1.
  change (qcells [None]) with (@nil cell) in H1. rewrite app_nil_r in H1.
  assert (E : qcells (map Some l) = l) by (clear; induction l as [|a l IH]; [reflexivity|]; cbn; f_equal; exact IH).
  now rewrite E in H1.
Qed.
Print Assumptions C25_no_blocking.
(** A caller that closes the generator early has seen a prefix of the cells. *)
Theorem C25_early_close_prefix : forall t n x, steps any_step n (sys_init t) x ->
  exists rest, q_got x ++ rest = cells_of t.
Proof.
  intros t n x S. assert (P : pinv t x) by (eapply pinv_steps; [|exact S]; split; [intros _; apply inv_init|exists (cells_of t); reflexivity]).
  apply P.
Qed.
Print Assumptions C25_early_close_prefix.
Definition ex_cell (i : Z) : cell := mkCell i 0 0x18 (VBytes [65]).
Definition ex_trace : list out := [OCall; OCell (ex_cell 0); OCall; OCell (ex_cell 1)].
(** An interleaving: the consumer takes the first cell before the parser has made the second. *)
Example C25_example : steps step 8 (sys_init ex_trace) (mkSys [] true [] [ex_cell 0; ex_cell 1] 2 CDone)
  /\ steps step 3 (sys_init ex_trace) (mkSys [OCall; OCell (ex_cell 1)] false [] [ex_cell 0] 1 CRun).
Proof.
  split; unfold ex_trace, sys_init.
  - eapply Sn; [apply WCall|]. eapply Sn; [apply WCell|]. eapply Sn; [apply CGet|]. eapply Sn; [apply WCall|].
    eapply Sn; [apply WCell|]. eapply Sn; [apply CGet|]. eapply Sn; [apply WEnd|]. eapply Sn; [apply CEnd|]. apply Sz.
  - eapply Sn; [apply WCall|]. eapply Sn; [apply WCell|]. eapply Sn; [apply CGet|]. apply Sz.
Qed.

(** ** C26: false *)
(** Whatever error ends the parser thread, and wherever it happens, the consumer ends
    normally with the cells before that point: the outcome does not depend on [fail]. *)
Theorem C26_error_swallowed_refuted : forall styles nv skip take tne skip_cols es e n x,
  let t := xlsx_iter styles nv skip take tne skip_cols es (Some e) in
  steps step n (sys_init (fst t)) x -> (forall y, ~ step x y) ->
  q_stat x = CDone /\ q_got x = cells_of (fst (xlsx_iter styles nv skip take tne skip_cols es None)).
Proof.
  intros styles nv skip take tne sc es e n x t S Hx.
  destruct (@C25_every_schedule_result (fst t) n x S Hx) as (H1 & H2 & _). split; [exact H1|]. rewrite H2. subst t.
  unfold xlsx_iter. destruct (skip <? 0); [reflexivity|]. destruct (take <? 0); [reflexivity|].
  unfold worker.
  assert (G : forall es w, fst (worker_loop styles nv skip tne sc es (Some e) w) = fst (worker_loop styles nv skip tne sc es None w)).
  { clear. induction es as [|[t a|t|t] es IH]; intro w; cbn [worker_loop].
    - reflexivity.
    - destruct (cell_sh styles skip w t a); [apply IH|reflexivity].
    - destruct (cell_th nv skip sc w t) as [w' o]. specialize (IH w').
      destruct (worker_loop _ _ _ _ _ es (Some e) w'), (worker_loop _ _ _ _ _ es None w'). cbn in *. now rewrite IH.
    - destruct (cell_eh tne w t) as [[w' o] []]; [reflexivity|]. specialize (IH w').
      destruct (worker_loop _ _ _ _ _ es (Some e) w'), (worker_loop _ _ _ _ _ es None w'). cbn in *. now rewrite IH. }
  specialize (G es (mkW 0 true (take + skip) 0 0 [] None)).
  destruct (worker_loop _ _ _ _ _ es (Some e) _), (worker_loop _ _ _ _ _ es None _). cbn in *. now rewrite G.
Qed.
Print Assumptions C26_error_swallowed_refuted.
(** A concrete file: broken XML inside the second cell; the caller gets two cells and no error. *)
Example C26_example :
  let es := [EStart (s "row") []; EStart (s "c") [(s "r", s "A1")]; EStart (s "v") []; EText (s "1"); EEnd (s "v");
             EEnd (s "c"); EStart (s "c") [(s "r", s "B1")]; EStart (s "v") []; EText (s "2")] in
  let t := xlsx_iter (fun _ => None) (fun _ => false) 0 0 true [] es (Some ValueError) in
  snd t = Some ValueError /\ map c_col (cells_of (fst t)) = [0; 1].
Proof. split; vm_compute; reflexivity. Qed.
