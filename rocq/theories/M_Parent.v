(** Model of ParentChannel with its monitors and jack-in clients
    (twink/base.py:561-600, 704-825). *)

From Verif Require Export M_Controller.
Local Open Scope Z_scope.

(** *** Helper sockets *)

Inductive suffix : Type := Jackin | Monitor.

(** A path of base.py:566-575 [helper_path]: "unknown-<id>.<suffix>" ([None])
    or "<datapath>-<id>.<suffix>".  The channel's own id() is left out: paths
    of one channel are never those of another. *)
Definition path : Type := (suffix * option Z)%type.

Definition suffix_eqb (a b : suffix) : bool :=
  match a, b with Jackin, Jackin | Monitor, Monitor => true | _, _ => false end.
Definition path_eqb (p q : path) : bool :=
  suffix_eqb (fst p) (fst q) &&
  match snd p, snd q with Some x, Some y => x =? y | None, None => true | _, _ => false end.

Definition exists_path (fs : list path) (p : path) : bool := existsb (path_eqb p) fs.
Definition del_path (fs : list path) (p : path) : list path := filter (fun q => negb (path_eqb p q)) fs.

(** base.py:566-575.  [fs]: the socket files that exist.  os.rename replaces an
    existing target; OSError (no such file) is ignored; other file system
    errors are not modelled.  A datapath of 0 is false. *)
Definition helper_path (fs : list path) (datapath : option Z) (x : suffix) : list path * path :=
  match datapath with
  | Some d =>
      if d =? 0 then (fs, (x, None))
      else if exists_path fs (x, None)
           then ((x, Some d) :: del_path (del_path fs (x, None)) (x, Some d), (x, Some d))
           else (fs, (x, Some d))
  | None => (fs, (x, None))
  end.

(** base.py:581-600 [bound_socket] of a path: bind() of an existing name fails
    with EADDRINUSE (98). *)
Definition bind_path (fs : list path) (p : path) : list path * res unit :=
  if exists_path fs p then (fs, Err (SocketError 98)) else (p :: fs, Ok tt).

(** *** recv with monitors *)

(** [n_jackin], [n_monitor]: class attributes.  [n_cur]: the monitor server
    whose [channels] is [self.monitors] ([None]: the class attribute, empty).
    [n_next]: number of monitor servers created so far.  [n_members]: the
    clients registered with each server.  [n_out]: what was written to
    clients.  [n_got]: the messages recv() returned to loop(), which hands
    them to handle_proxy(handle). *)
Record parent : Type := mkParent {
  n_jackin : bool;
  n_monitor : bool;
  n_ctl : cch;
  n_fs : list path;
  n_cur : option nat;
  n_next : nat;
  n_members : list (nat * nat);
  n_out : list (nat * bytes);
  n_got : list bytes
}.

Definition parent_new (jackin monitor : bool) : parent :=
  mkParent jackin monitor k_new [] None 0 [] [] [].

Definition with_ctl (s : parent) (c : cch) : parent :=
  mkParent (n_jackin s) (n_monitor s) c (n_fs s) (n_cur s) (n_next s) (n_members s) (n_out s) (n_got s).
Definition with_fs (s : parent) (fs : list path) : parent :=
  mkParent (n_jackin s) (n_monitor s) (n_ctl s) fs (n_cur s) (n_next s) (n_members s) (n_out s) (n_got s).

(** base.py:733-736 with 755-761: the jack-in server.  What its clients do is
    below. *)
Definition open_jackin (s : parent) : parent * res unit :=
  if n_jackin s then
    let '(fs, p) := helper_path (n_fs s) (k_datapath (n_ctl s)) Jackin in
    let '(fs', r) := bind_path fs p in (with_fs s fs', r)
  else (s, Ok tt).

(** base.py:738-742 with 763-769: the monitor server. *)
Definition open_monitor (s : parent) : parent * res unit :=
  if n_monitor s then
    let '(fs, p) := helper_path (n_fs s) (k_datapath (n_ctl s)) Monitor in
    let '(fs', r) := bind_path fs p in
    match r with
    | Ok _ => (mkParent (n_jackin s) (n_monitor s) (n_ctl s) fs' (Some (n_next s)) (S (n_next s))
                 (n_members s) (n_out s) (n_got s), Ok tt)
    | Err e => (with_fs s fs', Err e)
    end
  else (s, Ok tt).

(** base.py:744-748: FEATURES_REPLY renames the helper sockets. *)
Definition rename_helpers (s : parent) : parent :=
  let s1 := if n_jackin s then with_fs s (fst (helper_path (n_fs s) (k_datapath (n_ctl s)) Jackin)) else s in
  if n_monitor s1 then with_fs s1 (fst (helper_path (n_fs s1) (k_datapath (n_ctl s1)) Monitor)) else s1.

(** The clients in [self.monitors]. *)
Definition monitors (s : parent) : list nat :=
  match n_cur s with
  | None => []
  | Some k => map snd (filter (fun x => (fst x =? k)%nat) (n_members s))
  end.

(** base.py:750-751: [for ch in list(self.monitors): ch.send(message)].
    [fail c]: the exception raised by sending to client c. *)
Fixpoint to_monitors (fail : nat -> option exn) (m : bytes) (s : parent) (cs : list nat) : parent * res unit :=
  match cs with
  | [] => (s, Ok tt)
  | c :: cs' =>
      match fail c with
      | Some e => (s, Err e)
      | None =>
          to_monitors fail m
            (mkParent (n_jackin s) (n_monitor s) (n_ctl s) (n_fs s) (n_cur s) (n_next s) (n_members s)
               (n_out s ++ [(c, m)]) (n_got s)) cs'
      end
  end.

Definition returned (s : parent) (m : bytes) : parent :=
  mkParent (n_jackin s) (n_monitor s) (n_ctl s) (n_fs s) (n_cur s) (n_next s) (n_members s)
    (n_out s) (n_got s ++ [m]).

(** base.py:728-753 [ParentChannel.recv], for a message [m] that the transport
    and the negotiation have delivered.  [order]: the order in which the set
    of monitors is listed. *)
Definition parent_recv (order : list nat -> list nat) (fail : nat -> option exn) (s : parent) (m : bytes)
  : parent * res unit :=
  match ctl_recv (n_ctl s) m with
  | (c, Err e) => (with_ctl s c, Err e)
  | (c, Ok _) =>
      let s1 := with_ctl s c in
      match m with
      | [] => (returned s1 m, Ok tt)
      | _ :: _ =>
          match parse_ofp_header m with
          | Err e => (s1, Err e)
          | Ok h =>
              if h_type h =? 0 then
                match open_jackin s1 with
                | (s2, Err e) => (s2, Err e)
                | (s2, Ok _) =>
                    match open_monitor s2 with
                    | (s3, Err e) => (s3, Err e)
                    | (s3, Ok _) => (returned s3 m, Ok tt)
                    end
                end
              else
                let s2 := if h_type h =? 6 then rename_helpers s1 else s1 in
                match to_monitors fail m s2 (order (monitors s2)) with
                | (s3, Err e) => (s3, Err e)
                | (s3, Ok _) => (returned s3 m, Ok tt)
                end
          end
      end
  end.

(** Histories: a message arrives; a client registers with the current monitor
    server (base.py:640-641: its thread has started), a client deregisters
    (base.py:644-645).  A client of an earlier server may still leave. *)
Inductive nop : Type :=
| NRecv (m : bytes) (fail : nat -> option exn)
| NJoin (c : nat)
| NLeave (c : nat).

Definition nstep (order : list nat -> list nat) (s : parent) (o : nop) : parent * res unit :=
  match o with
  | NRecv m fail => parent_recv order fail s m
  | NJoin c =>
      match n_cur s with
      | Some k =>
          if existsb (fun x => (fst x =? k)%nat && (snd x =? c)%nat) (n_members s) then (s, Ok tt)
          else (mkParent (n_jackin s) (n_monitor s) (n_ctl s) (n_fs s) (n_cur s) (n_next s)
                  (n_members s ++ [(k, c)]) (n_out s) (n_got s), Ok tt)
      | None => (s, Ok tt)
      end
  | NLeave c =>
      (mkParent (n_jackin s) (n_monitor s) (n_ctl s) (n_fs s) (n_cur s) (n_next s)
         (filter (fun x => negb (snd x =? c)%nat) (n_members s)) (n_out s) (n_got s), Ok tt)
  end.

(** Until an exception leaves recv(): it ends the parent's loop. *)
Fixpoint nrun (order : list nat -> list nat) (s : parent) (os : list nop) : parent * res unit :=
  match os with
  | [] => (s, Ok tt)
  | o :: os' =>
      match nstep order s o with
      | (s', Ok _) => nrun order s' os'
      | (s', Err e) => (s', Err e)
      end
  end.

(** *** Jack-in clients *)

(** The clients' callbacks ([self.cbfunc], base.py:814-817) are numbered as in
    M_Controller.v, and a client is identified with its callback; after close()
    (base.py:824-826) it is None.

    base.py:338-346 over 819-822: a message arrives at the handler of a client
    (class JackinCChannel: JackinChildChannel, AutoEchoChannel, ..., so the
    proxy of AutoEchoChannel runs first and JackinChildChannel.handle last).
    [inr]: an echo request and the reply sent to the client. [inl]: what
    parent.send(message, callback=cbfunc) did to the parent; a HELLO changes
    nothing. *)
Definition jackin_handle (version : option Z) (c : cch) (cb : option nat) (m : bytes) (bxid : Z)
    (o1 o2 : option exn) : (cch * res unit) + (res bytes) :=
  match m with
  | [] => inl (c, Ok tt)
  | _ :: _ =>
      match parse_ofp_header m with
      | Err e => inl (c, Err e)
      | Ok h =>
          if h_type h =? 2 then
            inr (match packs "!BBHI" [vint version; VInt 3; VInt (h_length h); VInt (h_xid h)] with
                 | Ok p => Ok (p ++ skipn 8 m)
                 | Err e => Err e
                 end)
          else if negb (h_type h =? 0) then inl (locked_send c cb m bxid o1 o2)
          else inl (c, Ok tt)
      end
  end.

(** base.py:806-813 [WeakCallback.__call__], called by the parent's
    handle_proxy (base.py:443-466) with a message from the switch: the message
    goes to the client.  [fail]: the exception the client's transport raises;
    it leaves the parent's handle_proxy and loop(). *)
Definition weak_callback (f : nat) (m : bytes) (fail : option exn) : list (nat * bytes) * res unit :=
  match fail with
  | None => ([(f, m)], Ok tt)
  | Some e => ([], Err e)
  end.
