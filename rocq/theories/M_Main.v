(** Model of the standalone controller (twink/__main__.py:10-18) on one
    connection: all layers of its channel class together, from the bytes the
    transport delivers to the messages handed to the transport. *)

From Coq Require Import String.
From Verif Require Export M_Dispatch.
Local Open Scope string_scope.
Local Open Scope Z_scope.
Local Open Scope list_scope.

(** twink/__main__.py:17 type("TcpChannel", (ControllerChannel,
    AutoEchoChannel, LoggingChannel), {"accept_versions":[4,],
    "handle":staticmethod(handle)}). *)
Definition tcp_cls : cls :=
  mkCls "TcpChannel" ["ControllerChannel"; "AutoEchoChannel"; "LoggingChannel"] ["accept_versions"; "handle"] [] [] [].
Definition main_tab : ctab := match define repo_tab tcp_cls with Some t => t | None => [] end.
Definition main_accepts : versions := VsSeq [VI 4].

(** The channel object: receiving part, ControllerChannel part, and the
    messages that handle() (__main__.py:13-14, which does nothing) was given. *)
Record conn : Type := mkConn { w_chan : chan; w_k : cch; w_seen : list bytes }.

(** self.send(m) without callback for each message; the transport takes
    everything.  [bxid]: what hms_xid() would return for a barrier. *)
Fixpoint k_sends (bxid : Z) (k : cch) (ms : list bytes) : cch * res unit :=
  match ms with
  | [] => (k, Ok tt)
  | m :: r =>
      match locked_send k None m bxid None None with
      | (k', Ok _) => k_sends bxid k' r
      | (k', Err e) => (k', Err e)
      end
  end.

(** base.py:215-218 start() of the new channel (base.py:637). *)
Definition conn_start (xid bxid : Z) (c : conn) : conn * res unit :=
  match hello main_accepts xid with
  | Err e => (c, Err e)
  | Ok m => match k_sends bxid (w_k c) [m] with (k, r) => (mkConn (w_chan c) k (w_seen c), r) end
  end.

Definition with_version (k : cch) (v : option Z) : cch :=
  mkCch (k_seq k) (k_dead k) v (k_wire k) (k_datapath k) (k_aux k).

(** recv() of TcpChannel: ControllerChannel.recv (base.py:423-432) around
    OpenflowChannel.recv (220-237) around LoggingChannel.recv (195-199: passes
    the message on) around OpenflowBaseChannel.recv (153-176), as
    [chain main_tab "TcpChannel" "recv"] says. *)
Definition conn_recv (order : list Z -> list Z) (xid bxid : Z) (c : conn) : conn * rcv :=
  match recv (w_chan c) with
  | (ch, Got m) =>
      match negotiate main_accepts order xid (mkOch (k_version (w_k c)) []) m with
      | (o, r) =>
          match k_sends bxid (with_version (w_k c) (o_version o)) (o_sent o) with
          | (k1, Err e) => (mkConn ch k1 (w_seen c), Raised e)
          | (k1, Ok _) =>
              match r with
              | Err e => (mkConn ch k1 (w_seen c), Raised e)
              | Ok m' =>
                  match ctl_recv k1 m' with
                  | (k2, Ok _) => (mkConn ch k2 (w_seen c), Got m')
                  | (k2, Err e) => (mkConn ch k2 (w_seen c), Raised e)
                  end
              end
          end
      end
  | (ch, r) => (mkConn ch (w_k c) (w_seen c), r)
  end.

(** base.py:106-111 under 201-204. *)
Definition conn_close (c : conn) : conn := mkConn (logging_close (w_chan c)) (w_k c) (w_seen c).

(** base.py:317-325 loop() with handle_proxy(self.handle) as [dispatch] puts
    it together.  There are no callbacks and no handle_async. *)
Fixpoint conn_loop (order : list Z -> list Z) (xid bxid : Z) (fuel : nat) (c : conn) : conn * lend :=
  match fuel with
  | O => (c, LRaised OutOfFuel)
  | S f =>
      match conn_recv order xid bxid c with
      | (c1, Got []) => (c1, LReturned)
      | (c1, Got m) =>
          match dispatch main_tab "TcpChannel" 0 bxid (w_k c1) m with
          | (k, (_, ToDefault)) => conn_loop order xid bxid f (mkConn (w_chan c1) k (w_seen c1 ++ [m]))
          | (k, (_, FailExn ChannelClose)) => (conn_close (mkConn (w_chan c1) k (w_seen c1)), LReturned)
          | (k, (_, FailExn e)) => (mkConn (w_chan c1) k (w_seen c1), LRaised e)
          | (k, (_, FailAssert _)) => (mkConn (w_chan c1) k (w_seen c1), LRaised AssertionError)
          | (k, _) => conn_loop order xid bxid f (mkConn (w_chan c1) k (w_seen c1))
          end
      | (c1, Raised ChannelClose) => (conn_close c1, LReturned)
      | (c1, Raised e) => (c1, LRaised e)
      | (c1, Waiting) => (c1, LWaiting)
      end
  end.

(** base.py:636-645 for one accepted socket: the channel is made, started and
    its loop run to the end, then closed.  [sxid]: transaction id of the HELLO. *)
Definition serve_main (order : list Z -> list Z) (sxid xid bxid : Z) (fuel : nat) (es : list env) : conn * lend :=
  match conn_start sxid bxid (mkConn (new_chan es) k_new []) with
  | (c, Err e) => (c, LRaised e)
  | (c, Ok _) =>
      match conn_loop order xid bxid fuel c with
      | (c1, LReturned) => (conn_close c1, LReturned)
      | r => r
      end
  end.
