(** Things in a worksheet that cannot matter: attributes of elements other than [<c>],
    and blank text. *)
From Verif Require Import Py PyFacts PyText Cell Xlsx XlsbSpec XlsxSpec XlsxProofs.
From Coq Require Import ZifyBool ZifyNat.
Set Implicit Arguments.
Unset Strict Implicit.

Definition norm1 (e : event) : list event :=
  match e with
  | EStart t a => if str_eqb t (s "c") then [EStart t a] else [EStart t []]
  | EText t => if blank t then [] else [EText t]
  | EEnd t => [EEnd t]
  end.
Definition norm (es : list event) : list event := flat_map norm1 es.

Lemma norm_ignored styles nv skip tne sc es fail : forall w,
  worker_loop styles nv skip tne sc (norm es) fail w = worker_loop styles nv skip tne sc es fail w.
Proof.
  induction es as [|e es IH]; intro w; [reflexivity|]. unfold norm in *. cbn [flat_map].
  destruct e as [t a|t|t]; cbn [norm1].
  - assert (E : str_eqb t (s "c") = false -> cell_sh styles skip w t a = cell_sh styles skip w t []).
    { intro H. unfold cell_sh. rewrite H. reflexivity. }
    destruct (str_eqb t (s "c")); cbn [app worker_loop].
    + destruct (cell_sh styles skip w t a); [apply IH|reflexivity].
    + rewrite E by reflexivity. destruct (cell_sh styles skip w t []); [apply IH|reflexivity].
  - destruct (blank t) eqn:Eb; cbn [app worker_loop].
    + assert (E : cell_th nv skip sc w t = (w, [])).
      { unfold cell_th. destruct (w_row w <? skip); [reflexivity|]. rewrite <- blank_strip, Eb. cbn [negb].
        rewrite andb_false_r. reflexivity. }
      rewrite E, IH. destruct (worker_loop styles nv skip tne sc es fail w); reflexivity.
    + destruct (cell_th nv skip sc w t) as [w' o]. rewrite IH. reflexivity.
  - cbn [app worker_loop]. destruct (cell_eh tne w t) as [[w' o] st]. rewrite IH. reflexivity.
Qed.

Lemma xlsx_norm styles nv skip take tne sc es fail :
  xlsx_iter styles nv skip take tne sc (norm es) fail = xlsx_iter styles nv skip take tne sc es fail.
Proof. unfold xlsx_iter, worker. now rewrite norm_ignored. Qed.

(** A worksheet part with the given rows: its events are those of the rows with anything
    around them, up to attributes of other elements and blank text. *)
Definition is_xsheet (rows : list xrow) (es : list event) : Prop :=
  exists pre post, xsheet_ok pre rows post = true /\ norm es = norm (xsheet_events pre rows post).
Lemma xlsx_of_sheet styles nv skip take tne sc rows es fail : is_xsheet rows es ->
  exists pre post, xsheet_ok pre rows post = true /\
    xlsx_iter styles nv skip take tne sc es fail
    = xlsx_iter styles nv skip take tne sc (xsheet_events pre rows post) fail.
Proof.
  intros (pre & post & H & E). exists pre, post. split; [exact H|].
  now rewrite <- xlsx_norm, E, xlsx_norm.
Qed.
