(** Model of channel start-up, the server loop and the automatic echo reply
    (twink/base.py:93-98, 207-237, 316-346). *)

From Verif Require Export M_Channel M_Hello.
Local Open Scope Z_scope.

(** *** start() and attach() *)

(** State: [_start] is True, the current socket (an id; [None]: no socket and
    no sendto), everything written so far with the socket it was written to.
    [WStart] marks what start() wrote, [WUser] what the application sent. *)
Inductive origin : Type := WStart | WUser.
Record lst : Type := mkLst {
  l_started : bool;
  l_sock : option nat;
  l_wire : list (nat * (origin * bytes))
}.

(** base.py:113-119 [Channel.send]; [ok] tells whether socket.send works (else
    it raises socket.error with the given errno). *)
Definition base_send (s : lst) (o : origin) (m : bytes) (ok : option Z) : lst * res unit :=
  match l_sock s with
  | None => (s, Err ValueError)
  | Some k =>
      match ok with
      | None => (mkLst (l_started s) (l_sock s) (l_wire s ++ [(k, (o, m))]), Ok tt)
      | Some e => (s, Err (SocketError e))
      end
  end.

(** base.py:215-218 [OpenflowChannel.start]. *)
Definition start (accept : versions) (s : lst) (xid : Z) (ok : option Z) : lst * res unit :=
  if l_started s then (s, Ok tt)
  else
    match hello accept xid with
    | Err e => (s, Err e)
    | Ok m =>
        match base_send s WStart m ok with
        | (s', Ok _) => (mkLst true (l_sock s') (l_wire s'), Ok tt)
        | (s', Err e) => (s', Err e)
        end
    end.

(** base.py:210-213 [OpenflowChannel.attach] over base.py:93-98
    [Channel.attach]: the socket is replaced. *)
Definition attach (accept : versions) (s : lst) (sock : nat) (autostart : bool)
    (xid : Z) (ok : option Z) : lst * res unit :=
  let s1 := mkLst (l_started s) (Some sock) (l_wire s) in
  if autostart then start accept s1 xid ok else (s1, Ok tt).

Inductive lop : Type :=
| LStart (xid : Z) (ok : option Z)
| LAttach (sock : nat) (autostart : bool) (xid : Z) (ok : option Z)
| LSend (m : bytes) (ok : option Z).

Definition lstep (accept : versions) (s : lst) (o : lop) : lst * res unit :=
  match o with
  | LStart xid ok => start accept s xid ok
  | LAttach k a xid ok => attach accept s k a xid ok
  | LSend m ok => base_send s WUser m ok
  end.

Fixpoint lrun (accept : versions) (s : lst) (os : list lop) : lst :=
  match os with
  | [] => s
  | o :: os' => lrun accept (fst (lstep accept s o)) os'
  end.

(** A new channel, with or without a socket (base.py:78-91). *)
Definition lnew (sock : option nat) : lst := mkLst false sock [].

(** *** Handlers *)

(** Application part of a serving channel: negotiated version and messages
    sent ([och]), messages that reached the application's own handle(). *)
Record app : Type := mkApp { a_och : och; a_seen : list bytes }.

Definition handler : Type := app -> bytes -> app * res unit.

Definition app_send (a : app) (m : bytes) : app :=
  mkApp (mkOch (o_version (a_och a)) (o_sent (a_och a) ++ [m])) (a_seen a).

(** The application's handle(): an arbitrary function of the messages it has
    seen so far; it may send messages and may raise.  (Sending succeeds.) *)
Definition user_handle (h : list bytes -> bytes -> list bytes * res unit) : handler :=
  fun a m =>
    let '(out, r) := h (a_seen a) m in
    (fold_left app_send out (mkApp (a_och a) (a_seen a ++ [m])), r).

(** base.py:327-328 [OpenflowServerChannel.handle_proxy]. *)
Definition server_proxy (hd : handler) : handler := hd.

Definition vint (v : option Z) : pyval := match v with Some z => VInt z | None => VNone end.

(** base.py:338-346 [AutoEchoChannel.handle_proxy]; [next] is
    super().handle_proxy(handle). *)
Definition auto_echo_proxy (next : handler) : handler :=
  fun a m =>
    match m with
    | [] => (a, Ok tt)
    | _ :: _ =>
        match parse_ofp_header m with
        | Err e => (a, Err e)
        | Ok h =>
            if h_type h =? 2 then
              match packs "!BBHI" [vint (o_version (a_och a)); VInt 3; VInt (h_length h); VInt (h_xid h)] with
              | Ok p => (app_send a (p ++ skipn 8 m), Ok tt)
              | Err e => (a, Err e)
              end
            else next a m
        end
    end.

(** Run a proxy over a list of received messages, stopping at an exception. *)
Fixpoint handle_all (hd : handler) (a : app) (ms : list bytes) : app * res unit :=
  match ms with
  | [] => (a, Ok tt)
  | m :: ms' =>
      match hd a m with
      | (a', Ok _) => handle_all hd a' ms'
      | (a', Err e) => (a', Err e)
      end
  end.

(** *** The server loop *)

Record srv : Type := mkSrv { s_chan : chan; s_app : app }.

(** base.py:220-237: recv() of the channel with negotiation. *)
Definition of_recv (accept : versions) (order : list Z -> list Z) (xid : Z) (s : srv)
  : srv * rcv :=
  match recv (s_chan s) with
  | (c, Got m) =>
      match negotiate accept order xid (a_och (s_app s)) m with
      | (o, Ok m') => (mkSrv c (mkApp o (a_seen (s_app s))), Got m')
      | (o, Err e) => (mkSrv c (mkApp o (a_seen (s_app s))), Raised e)
      end
  | (c, r) => (mkSrv c (s_app s), r)
  end.

(** How loop() ended: returned normally, raised out of loop(), or is still
    waiting for the transport.  *)
Inductive lend : Type := LReturned | LRaised (e : exn) | LWaiting.

Definition srv_close (s : srv) : srv := mkSrv (chan_close (s_chan s)) (s_app s).

(** base.py:317-325 [OpenflowServerChannel.loop]; [hd] is
    handle_proxy(self.handle).  Fuel bounds the number of messages. *)
Fixpoint loop (accept : versions) (order : list Z -> list Z) (xid : Z) (hd : handler)
    (fuel : nat) (s : srv) : srv * lend :=
  match fuel with
  | O => (s, LRaised OutOfFuel)
  | S f =>
      match of_recv accept order xid s with
      | (s1, Got []) => (s1, LReturned)
      | (s1, Got m) =>
          match hd (s_app s1) m with
          | (a, Ok _) => loop accept order xid hd f (mkSrv (s_chan s1) a)
          | (a, Err ChannelClose) => (srv_close (mkSrv (s_chan s1) a), LReturned)
          | (a, Err e) => (mkSrv (s_chan s1) a, LRaised e)
          end
      | (s1, Raised ChannelClose) => (srv_close s1, LReturned)
      | (s1, Raised e) => (s1, LRaised e)
      | (s1, Waiting) => (s1, LWaiting)
      end
  end.
