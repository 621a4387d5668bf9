(** Model of [DgramServer] (twink/base.py:660-701). *)

From Verif Require Export M_Channel.
Local Open Scope Z_scope.

(** A remote address, as a hashable value (base.py:684-685). *)
Definition addr : Type := Z.

(** What happens to the thread of [run] next: [stop()] of another thread, or
    one call of the receive function that returned a datagram and its sender
    together with the outcome of [ch.start()] if a channel is made for it, or
    raised socket.timeout, or raised something else. *)
Inductive dev : Type :=
| DvStop
| DvGram (data : bytes) (a : addr) (start : option exn)
| DvTimeout
| DvRaise (e : exn).

(** A job given to sched.spawn (base.py:693): locked_loop with a channel, a
    lock and the datagram.  Channels and locks are numbered in the order in
    which they are made. *)
Record job : Type := mkJob { j_ch : nat; j_lock : nat; j_data : bytes }.

(** Server state (base.py:662-667): [g_remotes] and [g_locks] are the two
    dictionaries, [g_chans] the addresses of the channels made (also those
    whose start() failed), [g_hello] those started, [g_jobs] the jobs
    spawned, [g_end] how the thread of [run] ended, if it did. *)
Inductive gend : Type := Running | Returned | Died (e : exn).
Record dgs : Type := mkDgs {
  g_accepting : bool;
  g_remotes : list (addr * nat);
  g_locks : list (addr * nat);
  g_chans : list addr;
  g_hello : list addr;
  g_jobs : list job;
  g_sock_open : bool;
  g_end : gend
}.

(** base.py:662-671 [__init__] and [start]. *)
Definition dg_start : dgs := mkDgs true [] [] [] [] [] true Running.

Fixpoint assoc (a : addr) (l : list (addr * nat)) : option nat :=
  match l with
  | [] => None
  | (b, n) :: l' => if b =? a then Some n else assoc a l'
  end.

(** base.py:673-694 [run], one pass of the loop, given what the receive call
    did; the loop condition is tested first. *)
Definition dg_pass (s : dgs) (v : dev) : dgs :=
  let die e := mkDgs (g_accepting s) (g_remotes s) (g_locks s) (g_chans s) (g_hello s)
                 (g_jobs s) (g_sock_open s) (Died e) in
  match v with
  | DvStop => s
  | DvTimeout => s
  | DvRaise e => die e
  | DvGram data a st =>
      match assoc a (g_remotes s) with
      | Some ch =>
          match assoc a (g_locks s) with
          | Some lk => mkDgs (g_accepting s) (g_remotes s) (g_locks s) (g_chans s) (g_hello s)
                         (g_jobs s ++ [mkJob ch lk data]) (g_sock_open s) (g_end s)
          | None => die KeyError
          end
      | None =>
          let ch := length (g_chans s) in
          match st with
          | Some e => mkDgs (g_accepting s) (g_remotes s) (g_locks s) (g_chans s ++ [a])
                        (g_hello s) (g_jobs s) (g_sock_open s) (Died e)
          | None =>
              let lk := length (g_locks s) in
              mkDgs (g_accepting s) (g_remotes s ++ [(a, ch)]) (g_locks s ++ [(a, lk)])
                (g_chans s ++ [a]) (g_hello s ++ [a])
                (g_jobs s ++ [mkJob ch lk data]) (g_sock_open s) (g_end s)
          end
      end
  end.

(** One event.  base.py:700-701 [stop]; line 675: the condition is false, line
    694 closes the socket and the thread returns.  [rcv] is the receive call
    of line 677: it turns the state of the network into what the call does. *)
Definition dg_step (rcv : dev -> dev) (s : dgs) (v : dev) : dgs :=
  match g_end s with
  | Running =>
      match v with
      | DvStop => mkDgs false (g_remotes s) (g_locks s) (g_chans s) (g_hello s) (g_jobs s)
                    (g_sock_open s) (g_end s)
      | _ =>
          if g_accepting s then dg_pass s (rcv v)
          else mkDgs false (g_remotes s) (g_locks s) (g_chans s) (g_hello s) (g_jobs s)
                 false Returned
      end
  | _ =>
      match v with
      | DvStop => mkDgs false (g_remotes s) (g_locks s) (g_chans s) (g_hello s) (g_jobs s)
                    (g_sock_open s) (g_end s)
      | _ => s
      end
  end.

(** base.py:677 as written: [sock.recv()] without its required argument is a
    TypeError before the socket is looked at. *)
Definition rcv_code (v : dev) : dev := DvRaise TypeError.

(** A receive call that returns the datagram and its sender, as line 677
    intends (recvfrom). *)
Definition rcv_meant (v : dev) : dev := v.

Definition dg_run (rcv : dev -> dev) (vs : list dev) : dgs :=
  fold_left (dg_step rcv) vs dg_start.

(** base.py:696-699 [locked_loop]: [StringIO] is not bound in base.py (it is
    neither imported nor defined), so line 698 raises NameError; the lock is
    released by the with statement; ch.loop() is not reached.  Result: the
    exception that ends the job and the messages handled. *)
Definition locked_loop (j : job) : option exn * list bytes := (Some NameError, []).
