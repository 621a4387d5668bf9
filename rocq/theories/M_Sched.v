(** Model of the choice of a scheduler (twink/base.py:13-28) and of
    [serve_forever] (twink/sched_basic.py:57-71, twink/sched_gevent.py:12-20). *)

From Verif Require Export Py.
Local Open Scope Z_scope.

(** * The scheduler proxy *)

Inductive smod : Type := SchedBasic | SchedGevent.

(** base.py:13: the module variable [_use_gevent]. *)
Record bglob : Type := mkBglob { use_gevent_var : bool }.
Definition base_init : bglob := mkBglob false.

(** base.py:14-15 [use_gevent]: the assignment binds a local variable (there
    is no [global] statement), so the module variable keeps its value. *)
Definition use_gevent (g : bglob) : bglob :=
  let local_use_gevent := true in g.

(** base.py:24: the names handed out. *)
Definition sched_names : list string :=
  ["subprocess"; "socket"; "Queue"; "Lock"; "Event"; "spawn"; "serve_forever"]%string.

(** base.py:18-26 [_sched_proxy.__getattr__]: the attribute [name] of the
    scheduler module, or AttributeError.  Both modules define every name of
    their [__all__] (sched_basic.py:12, sched_gevent.py:9), the same list. *)
Definition sched_getattr (g : bglob) (name : string) : res (smod * string) :=
  let m := if use_gevent_var g then SchedGevent else SchedBasic in
  if existsb (String.eqb name) sched_names then Ok (m, name) else Err AttributeError.

(** A program: calls of use_gevent() and looked-up names. *)
Inductive sop : Type := SUse | SGet (name : string).
Fixpoint srun (g : bglob) (os : list sop) : bglob * list (res (smod * string)) :=
  match os with
  | [] => (g, [])
  | SUse :: os' => srun (use_gevent g) os'
  | SGet n :: os' =>
      match srun g os' with (g', rs) => (g', sched_getattr g n :: rs) end
  end.

(** * serve_forever *)

(** A server: what its start() and stop() do (None: return). *)
Record server : Type := mkServer { sv_start : option exn; sv_stop : option exn }.

(** Observable calls, servers numbered by their position. *)
Inductive sev : Type := EvSignal | EvStart (i : nat) | EvWait | EvStop (i : nat).

(** sched_basic.py:63-64: start() of each server in turn; an exception leaves
    the function. *)
Fixpoint start_all (i : nat) (l : list server) : list sev * option exn :=
  match l with
  | [] => ([], None)
  | s :: l' =>
      match sv_start s with
      | Some e => ([EvStart i], Some e)
      | None => match start_all (S i) l' with (t, r) => (EvStart i :: t, r) end
      end
  end.

(** sched_basic.py:70-71: stop() of each server in turn, likewise. *)
Fixpoint stop_all (i : nat) (l : list server) : list sev * option exn :=
  match l with
  | [] => ([], None)
  | s :: l' =>
      match sv_stop s with
      | Some e => ([EvStop i], Some e)
      | None => match stop_all (S i) l' with (t, r) => (EvStop i :: t, r) end
      end
  end.

(** What the event does, wait after wait: still not set after the timeout, or
    the wait raises (KeyboardInterrupt); at the end of the list it is set. *)
Inductive wout : Type := WStill | WExn (e : exn).

(** sched_basic.py:67-68: [while not ev.is_set(): ev.wait(timeout=0.5)]. *)
Fixpoint wait_basic (ws : list wout) : list sev * option exn :=
  match ws with
  | [] => ([], None)
  | WStill :: ws' => match wait_basic ws' with (t, r) => (EvWait :: t, r) end
  | WExn e :: _ => ([EvWait], Some e)
  end.

(** [finally]: the exception of the cleanup replaces the pending one. *)
Definition finally (r c : option exn) : option exn :=
  match c with Some e => Some e | None => r end.

(** sched_basic.py:57-71.  [main] tells whether an event was given; without
    one a handler for SIGINT is installed, which raises ValueError outside the
    main thread ([sig]). *)
Definition serve_basic (main : bool) (sig : option exn) (l : list server) (ws : list wout)
  : list sev * option exn :=
  let pre := if main then ([], None) else ([EvSignal], sig) in
  match pre with
  | (t0, Some e) => (t0, Some e)
  | (t0, None) =>
      match start_all 0 l with
      | (t1, Some e) => (t0 ++ t1, Some e)
      | (t1, None) =>
          match wait_basic ws with
          | (t2, r) =>
              match stop_all 0 l with
              | (t3, c) => (t0 ++ t1 ++ t2 ++ t3, finally r c)
              end
          end
      end
  end.

(** sched_gevent.py:18-20: each stop() runs in its own greenlet, all are
    spawned first and then joined; an exception stays in its greenlet. *)
Fixpoint stop_spawned (i : nat) (l : list server) : list sev :=
  match l with
  | [] => []
  | _ :: l' => EvStop i :: stop_spawned (S i) l'
  end.

(** sched_gevent.py:12-20.  One wait; [w] is its exception, if any (an explicit
    main=None has no wait: AttributeError). *)
Definition serve_gevent (l : list server) (w : option exn) : list sev * option exn :=
  match start_all 0 l with
  | (t1, Some e) => (t1, Some e)
  | (t1, None) => (t1 ++ [EvWait] ++ stop_spawned 0 l, w)
  end.
