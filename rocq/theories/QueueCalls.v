(** Model of a [row_callback] that raises, extending Queue.v.

    In the .xlsx reader the callback runs in the worker thread: its first call (xlsx.py:319-322)
    comes before the [try] whose [finally] puts the sentinel, all later ones (xlsx.py:403-404,
    from [ParseFile]) are inside.  The exception goes to the thread's excepthook or is swallowed
    (xlsx.py:428-435), in both cases not to the consumer.
    In the .xlsb reader it is called by the generator itself (xlsb.py:236-249).

    [bad n]: the call made after [n] other calls raises. *)
From Verif Require Import Py Cell Queue.

Section Calls.
  Context (bad : Z -> bool).
  (** The thread is dead: it ended without its sentinel. *)
  Record csys := mkCS { k_dead : bool; k_sys : sys }.
  (** xlsx.py:319-460; [q_calls] counts the calls. *)
  Inductive cstep : csys -> csys -> Prop :=
    | KCell c r q g n st : cstep (mkCS false (mkSys (OCell c :: r) false q g n st)) (mkCS false (mkSys r false (q ++ [Some c]) g n st))
    | KCall r q g n st : bad n = false -> cstep (mkCS false (mkSys (OCall :: r) false q g n st)) (mkCS false (mkSys r false q g (n + 1) st))
    | KRaise r q g n st : bad n = true -> 0 < n -> cstep (mkCS false (mkSys (OCall :: r) false q g n st)) (mkCS false (mkSys [] false q g (n + 1) st))
    | KFirst r q g st : bad 0 = true -> cstep (mkCS false (mkSys (OCall :: r) false q g 0 st)) (mkCS true (mkSys [] false q g 1 st))
    | KEnd q g n st : cstep (mkCS false (mkSys [] false q g n st)) (mkCS false (mkSys [] true (q ++ [None]) g n st))
    | KGet d c q g n t f : cstep (mkCS d (mkSys t f (Some c :: q) g n CRun)) (mkCS d (mkSys t f q (g ++ [c]) n CRun))
    | KStop d q g n t f : cstep (mkCS d (mkSys t f (None :: q) g n CRun)) (mkCS d (mkSys t f q g n CDone)).
  Definition csys_init (t : list out) : csys := mkCS false (sys_init t).
  Inductive csteps : nat -> csys -> csys -> Prop :=
    | Kz x : csteps 0 x x
    | Kn n x y z : cstep x y -> csteps n y z -> csteps (S n) x z.

  (** xlsb.py:236-249: the generator's outputs end with the exception [e] of the callback. *)
  Fixpoint called (e : exn) (n : Z) (l : list out) (fail : option exn) : trace :=
    match l with
    | [] => ([], fail)
    | OCell c :: l => let '(o, x) := called e n l fail in (OCell c :: o, x)
    | OCall :: l => if bad n then ([], Some e) else let '(o, x) := called e (n + 1) l fail in (OCall :: o, x)
    end.
End Calls.
