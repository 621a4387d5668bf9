(** Model of Threadlet (twink/sched_basic.py:17-54). *)

From Verif Require Export Py.

(** The thread: not started, running, finished.  [t_queue]: the result queue
    holds an item; [t_result]: self.result is not None; [t_value]. *)
Inductive thr : Type := NotStarted | Running | Finished.

Definition outcome_ : Type := (pyval + exn)%type.

(** A caller of get(): before the test of line 42, after it, inside the queue's
    get() of line 43, between lines 43 and 44 with what it took, between lines
    44 and 45, finished. *)
Inductive getter : Type :=
| GNew
| GTested
| GBlocked
| GTook (o : outcome_)
| GCleared (o : outcome_)
| GRet (v : pyval)
| GRaise (e : exn).

Record thrl : Type := mkThrl {
  t_thread : thr;
  t_queue : option outcome_;
  t_result : bool;
  t_value : pyval;
  t_gets : list getter
}.

(** sched_basic.py:18-30: a new Threadlet. *)
Definition thr_new : thrl := mkThrl NotStarted None true VNone [].

Definition set_get (s : thrl) (i : nat) (g : getter) : list getter :=
  firstn i (t_gets s) ++ g :: skipn (S i) (t_gets s).

(** Events:
    - [TSpawn]: start() (32-33; spawn() of 51-54 does this at once);
    - [TFinish o]: the function returns or raises; its outcome is put into
      the queue (20-26);
    - [TGet]: a thread calls get(); it starts the thread if that was not done
      (39-40: [self.thread.ident is None]);
    - [TStep i]: the i-th caller goes on: test (42), evaluation of
      [self.result.get] (43), taking from the queue (43; only if it is not
      empty: the call blocks with block=True, timeout=None), clearing
      self.result (44), storing the value or raising (45-49). *)
Inductive tev : Type := TSpawn | TFinish (o : outcome_) | TGet | TStep (i : nat).

Definition tstep (s : thrl) (e : tev) : option thrl :=
  match e with
  | TSpawn =>
      match t_thread s with
      | NotStarted => Some (mkThrl Running (t_queue s) (t_result s) (t_value s) (t_gets s))
      | _ => None
      end
  | TFinish o =>
      match t_thread s with
      | Running => Some (mkThrl Finished (Some o) (t_result s) (t_value s) (t_gets s))
      | _ => None
      end
  | TGet =>
      Some (mkThrl (match t_thread s with NotStarted => Running | x => x end)
        (t_queue s) (t_result s) (t_value s) (t_gets s ++ [GNew]))
  | TStep i =>
      match nth_error (t_gets s) i with
      | Some GNew =>
          Some (mkThrl (t_thread s) (t_queue s) (t_result s) (t_value s)
            (set_get s i (if t_result s then GTested else GRet (t_value s))))
      | Some GTested =>
          Some (mkThrl (t_thread s) (t_queue s) (t_result s) (t_value s)
            (set_get s i (if t_result s then GBlocked else GRaise AttributeError)))
      | Some GBlocked =>
          match t_queue s with
          | Some o => Some (mkThrl (t_thread s) None (t_result s) (t_value s) (set_get s i (GTook o)))
          | None => None
          end
      | Some (GTook o) =>
          Some (mkThrl (t_thread s) (t_queue s) false (t_value s) (set_get s i (GCleared o)))
      | Some (GCleared (inl v)) =>
          Some (mkThrl (t_thread s) (t_queue s) (t_result s) v (set_get s i (GRet v)))
      | Some (GCleared (inr x)) =>
          Some (mkThrl (t_thread s) (t_queue s) (t_result s) (t_value s) (set_get s i (GRaise x)))
      | _ => None
      end
  end.

Fixpoint tsteps (s : thrl) (es : list tev) : option thrl :=
  match es with
  | [] => Some s
  | e :: es' => match tstep s e with Some s' => tsteps s' es' | None => None end
  end.
