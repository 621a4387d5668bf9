(** Model of ControllerChannel under several threads (twink/base.py:382-471): the
    lock seq_lock, what a callback does while it is held, and the places where
    other threads can come in between.  M_Controller.v takes send() and the
    routing of a message as one step each; here they are several. *)

From Verif Require Export M_Controller.
Local Open Scope Z_scope.

(** One call of send() (base.py:383-385) with what happens in it: see
    [locked_send]. *)
Record snd_ : Type := mkSnd { q_h : option nat; q_m : bytes; q_bxid : Z; q_o1 : option exn; q_o2 : option exn }.

(** Who gets a received message. *)
Inductive who : Type := WCb (f : nat) | WDefault | WAsync.

(** The instructions of a thread.
    - [USend]: base.py:384, entering [with self.seq_lock]
    - [UIn]: base.py:388-401 and 411-419, reading [seq] and the weak reference of its
      last element
    - [USep]: base.py:402-410, reading [self.version] and appending; the two readings
      of [self.version] (base.py:403, 406) are taken as one
    - [UPut]: the calls of super().send (base.py:410, 421) still to be made
    - [URel]: leaving the [with] statement
    - [UMsg]: base.py:435-441, up to [with self.seq_lock]
    - [URoute]: base.py:442-463, the routing decision with the first reading of
      [e.callback]
    - [UCall]: base.py:452, 463, the second reading of [e.callback], and the call
    - [UHandle]: the handler of the application, base.py:439, 468; it runs in the thread
      that received the message (with ParallelChannel, in one of its own). *)
Inductive micro : Type :=
| USend (q : snd_)
| UIn (q : snd_)
| USep (q : snd_)
| UPut (q : snd_) (todo : list (bytes * option exn))
| URel
| UMsg (m : bytes)
| URoute (m : bytes)
| UCall (f : nat) (m : bytes)
| UHandle (w : who) (m : bytes).

(** A job of a thread: a call of send(), or a message that was received and is
    handed to handle_proxy. *)
Inductive job : Type := JSend (q : snd_) | JMsg (m : bytes).
Definition start (j : job) : micro := match j with JSend q => USend q | JMsg m => UMsg m end.

(** A thread: what is left of the job it is at, the jobs to come. *)
Record thread : Type := mkTh { t_now : list micro; t_next : list job }.

(** What is seen from outside. *)
Inductive ent : Type :=
| ESent (q : snd_) (r : res unit)
| ERouted (m : bytes) (o : outcome)
| ECalled (w : who) (m : bytes)
| ENotCallable (f : nat) (m : bytes).

(** The channel, the lock (owner and depth), the threads, what happened. *)
Record cfg : Type := mkCfg {
  g_c : cch; g_lock : option (nat * nat); g_th : nat -> thread; g_log : list (nat * ent) }.

Definition upd (f : nat -> thread) (i : nat) (t : thread) : nat -> thread :=
  fun j => if (j =? i)%nat then t else f j.

Definition is_rel (u : micro) : bool := match u with URel => true | _ => false end.

Section Lock.
(** threading.RLock (sched_basic.py:14): true; gevent's Semaphore (sched_gevent.py:6): false. *)
Variable reentrant : bool.
Variable has_async : bool.
(** What a callback or handler sends when called with a message.  Simplification: it does
    nothing else with the channel and lets exceptions through. *)
Variable body : who -> bytes -> list snd_.

(** [with self.seq_lock] by thread [i]: None if it has to wait. *)
Definition acquire (i : nat) (l : option (nat * nat)) : option (option (nat * nat)) :=
  match l with
  | None => Some (Some (i, 0%nat))
  | Some (j, d) => if (j =? i)%nat && reentrant then Some (Some (i, S d)) else None
  end.
Definition release (l : option (nat * nat)) : option (nat * nat) :=
  match l with Some (j, S d) => Some (j, d) | _ => None end.


(** One step of thread [i]; None when it has to wait for the lock.  An exception
    ([raise]) leaves the [with] statements on the way out and ends the job; a
    thread that ends with it is one that is not run any more. *)
Definition tstep (i : nat) (g : cfg) : option cfg :=
  let t := g_th g i in
  let c := g_c g in
  let go c' l' now lg := Some (mkCfg c' l' (upd (g_th g) i (mkTh now (t_next t))) (g_log g ++ map (pair i) lg)) in
  match t_now t with
  | [] =>
      match t_next t with
      | [] => None
      | j :: js => Some (mkCfg c (g_lock g) (upd (g_th g) i (mkTh [start j] js)) (g_log g))
      end
  | u :: k =>
      let raise c' lg := go c' (g_lock g) (filter is_rel k) lg in
      match u with
      | USend q =>
          match acquire i (g_lock g) with
          | None => None
          | Some l => go c l (UIn q :: URel :: k) []
          end
      | UIn q =>
          match parse_ofp_header (q_m q) with
          | Err e => raise c [ESent q (Err e)]
          | Ok h =>
              if is_barrier_req h then
                go (with_seq c (k_seq c ++ [SBarrier (h_xid h) (q_h q)])) (g_lock g) (UPut q [(q_m q, q_o2 q)] :: k) []
              else
                match last_of (k_seq c) with
                | Some (SChunk cb) =>
                    if negb (cb_eqb (live (k_dead c) cb) (q_h q)) then go c (g_lock g) (USep q :: k) []
                    else go c (g_lock g) (UPut q [(q_m q, q_o2 q)] :: k) []
                | Some (SBarrier _ _) =>
                    go (with_seq c (k_seq c ++ [SChunk (q_h q)])) (g_lock g) (UPut q [(q_m q, q_o2 q)] :: k) []
                | None =>
                    if negb (cb_eqb self_callback (q_h q))
                    then go (with_seq c [SChunk (q_h q)]) (g_lock g) (UPut q [(q_m q, q_o2 q)] :: k) []
                    else go c (g_lock g) (UPut q [(q_m q, q_o2 q)] :: k) []
                end
          end
      | USep q =>
          match barrier_msg (k_version c) (q_bxid q) with
          | Err e => raise c [ESent q (Err e)]
          | Ok msg =>
              go (with_seq c (k_seq c ++ [SBarrier (q_bxid q) None; SChunk (q_h q)])) (g_lock g)
                 (UPut q [(msg, q_o1 q); (q_m q, q_o2 q)] :: k) []
          end
      | UPut q [] => go c (g_lock g) k [ESent q (Ok tt)]
      | UPut q ((m, o) :: todo) =>
          match k_put c m o with
          | (c', Ok _) => go c' (g_lock g) (UPut q todo :: k) []
          | (c', Err e) => raise c' [ESent q (Err e)]
          end
      | URel => go c (release (g_lock g)) k []
      | UMsg m =>
          match parse_ofp_header m with
          | Err e => raise c [ERouted m (FailExn e)]
          | Ok h =>
              if has_async && ((h_type h =? 10) || (h_type h =? 11) || (h_type h =? 12))
              then go c (g_lock g) (UHandle WAsync m :: k) [ERouted m ToAsync]
              else
                match acquire i (g_lock g) with
                | None => None
                | Some l => go c l (URoute m :: URel :: k) []
                end
          end
      | URoute m =>
          (* the lock is held; [URel] follows in [k] *)
          let '(c', o) := intercept has_async c m in
          match o with
          | ToCallback f => go c' (g_lock g) (UCall f m :: k) [ERouted m o]
          | ToDefault =>
              match k with
              | URel :: k' => go c' (g_lock g) (URel :: UHandle WDefault m :: k') [ERouted m o]
              | _ => None
              end
          | ToAsync => None
          | Swallowed => go c' (g_lock g) k [ERouted m o]
          | FailAssert _ | FailExn _ => raise c' [ERouted m o]
          end
      | UCall f m =>
          match live (k_dead c) (Some f) with
          | Some _ => go c (g_lock g) (map USend (body (WCb f) m) ++ k) [ECalled (WCb f) m]
          | None => raise c [ENotCallable f m]      (* None(message, self): TypeError *)
          end
      | UHandle w m => go c (g_lock g) (map USend (body w m) ++ k) [ECalled w m]
      end
  end.

(** What can happen: a thread runs, a callback is collected, the version is
    (re)negotiated by recv(), which does not take the lock (base.py:230). *)
Inductive ev : Type := Run (i : nat) | Die (f : nat) | Version (v : Z).
Definition k_die (c : cch) (f : nat) : cch :=
  mkCch (k_seq c) (f :: k_dead c) (k_version c) (k_wire c) (k_datapath c) (k_aux c).
Definition k_ver (c : cch) (v : Z) : cch :=
  mkCch (k_seq c) (k_dead c) (Some v) (k_wire c) (k_datapath c) (k_aux c).
Definition gstep (g : cfg) (e : ev) : cfg :=
  match e with
  | Run i => match tstep i g with Some g' => g' | None => g end
  | Die f => mkCfg (k_die (g_c g) f) (g_lock g) (g_th g) (g_log g)
  | Version v => mkCfg (k_ver (g_c g) v) (g_lock g) (g_th g) (g_log g)
  end.
Definition grun (g : cfg) (es : list ev) : cfg := fold_left gstep es g.
Definition g_init (progs : nat -> list job) : cfg :=
  mkCfg k_new None (fun i => mkTh [] (progs i)) [].
End Lock.
