(** Model of the two threads of rxls/reader/xlsx.py:426-460: the worker thread puts cells
    into an unbounded FIFO queue, the generator takes them out until it sees the sentinel.

    Simplifications: [queue.Queue] is a correct unbounded FIFO whose [put] never blocks
    (CPython library, not repository code); a worker step is one callback or one [put];
    a callback that raises is modelled in QueueCalls.v. *)
From Verif Require Import Py Cell.

(** Queue elements: a cell or (None) the sentinel object. *)
Definition qitem := option cell.
(** The consuming generator: inside [yield from iter(o_q.get, sentinel)], finished by the
    sentinel, or closed by its caller ([GeneratorExit] at the yield; the [with] closes the file). *)
Inductive cstat := CRun | CDone | CClosed.
Record sys := mkSys {
  q_todo : list out;         (* what the worker still has to do before its [finally] *)
  q_fin : bool;              (* the worker has put the sentinel *)
  q_queue : list qitem;
  q_got : list cell;         (* yielded to the caller *)
  q_calls : Z;               (* row_callback calls made *)
  q_stat : cstat }.

(** xlsx.py:439-458: the thread is started with an empty queue. *)
Definition sys_init (t : list out) : sys := mkSys t false [] [] 0 CRun.

(** One step of the worker (callbacks and puts of worker(), then [finally: o_q.put(sentinel)],
    xlsx.py:436-437) or of the consumer (xlsx.py:460). *)
Inductive step : sys -> sys -> Prop :=
  | WCell c r q g n st : step (mkSys (OCell c :: r) false q g n st) (mkSys r false (q ++ [Some c]) g n st)
  | WCall r q g n st : step (mkSys (OCall :: r) false q g n st) (mkSys r false q g (n + 1) st)
  | WEnd q g n st : step (mkSys [] false q g n st) (mkSys [] true (q ++ [None]) g n st)
  | CGet c q g n t f : step (mkSys t f (Some c :: q) g n CRun) (mkSys t f q (g ++ [c]) n CRun)
  | CEnd q g n t f : step (mkSys t f (None :: q) g n CRun) (mkSys t f q g n CDone).
(** The caller closes the generator early; afterwards the worker may stop at any read
    (the ValueError / AttributeError of the closed file is swallowed, xlsx.py:428-433). *)
Inductive close_step : sys -> sys -> Prop :=
  | CClose t f q g n : close_step (mkSys t f q g n CRun) (mkSys t f q g n CClosed)
  | WAbort t q g n : close_step (mkSys t false q g n CClosed) (mkSys [] false q g n CClosed).

Inductive steps (R : sys -> sys -> Prop) : nat -> sys -> sys -> Prop :=
  | Sz x : steps R 0 x x
  | Sn n x y z : R x y -> steps R n y z -> steps R (S n) x z.
