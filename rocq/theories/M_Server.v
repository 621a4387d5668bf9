(** Model of StreamServer (twink/base.py:609-658) as an interleaving of the
    accepting thread, one thread per connection, and a thread calling stop(). *)

From Verif Require Export M_Channel.
Local Open Scope Z_scope.

(** Where the thread of a connection is:
    - [NNew]: constructed (line 633), not spawned yet; nothing runs for it;
    - [NRun]: _loop_runner spawned (635), before line 641;
    - [NTop]: in ch.loop(), about to receive (642; base.py:317-325, 153-176);
    - [NBlocked]: inside the transport's read;
    - [NHandle]: a message was received, recv()'s decoding and the handler run;
    - [NEnded]: ch.loop() returned; [NClosed]: after ch.close() (643);
    - [NGone]: after the removal (645), the thread is over;
    - [NFailed]: an exception left _loop_runner. *)
Inductive nphase : Type :=
| NNew | NRun | NTop | NBlocked | NHandle | NEnded | NClosed | NGone | NFailed (e : exn).

(** [n_reads] is a ghost counter of the transport reads begun. *)
Record conn : Type := mkConn {
  n_phase : nphase;
  n_buf : bytes;
  n_closed : bool;
  n_reads : nat
}.

(** Where the accepting thread is: start() not called; at the loop condition
    (line 627); inside accept() (629); between accept() and the end of
    ch.start() (633-634); before the spawn (635); left the loop, listening
    socket closed (637), with or without an exception. *)
Inductive rpc : Type := RIdle | RTop | RAccept | RStart | RSpawn | REnd (e : option exn).

Record server : Type := mkServer {
  v_accepting : bool;
  v_run : rpc;
  v_conns : list conn;
  v_channels : list nat;                (* self.channels *)
  v_stop : option (list nat)            (* stop() in progress: still to close *)
}.

(** base.py:611-616. *)
Definition server_new : server := mkServer false RIdle [] [] None.

(** Outcome of accept(): a connection, socket.timeout, another error. *)
Inductive acc : Type := AConn | ATimeout | AErr (e : exn).

(** Events. *)
Inductive vev : Type :=
| VStart                              (* start() *)
| VRun (a : acc) (hello : res unit)   (* next step of the accepting thread *)
| VConn (i : nat) (r : rd) (h : res unit)
                                      (* next step of connection i; [r]: what its
                                         read returns, [h]: what decoding and
                                         handler do *)
| VClose (i : nat)                    (* the application closes channel i *)
| VStopFlag | VStopList | VStopClose. (* stop(), lines 654-657, step by step *)

Definition upd (l : list conn) (i : nat) (c : conn) : list conn :=
  firstn i l ++ c :: skipn (S i) l.

(** base.py:618-623 [start]. *)
Definition v_start (s : server) : option server :=
  match v_run s with
  | RIdle => Some (mkServer true RTop (v_conns s) (v_channels s) (v_stop s))
  | _ => None
  end.

(** base.py:625-637 [run]. *)
Definition v_run_step (s : server) (a : acc) (hello : res unit) : option server :=
  let go p := Some (mkServer (v_accepting s) p (v_conns s) (v_channels s) (v_stop s)) in
  match v_run s with
  | RTop => if v_accepting s then go RAccept else go (REnd None)
  | RAccept =>
      match a with
      | ATimeout => go RTop
      | AErr e => go (REnd (Some e))
      | AConn => Some (mkServer (v_accepting s) RStart (v_conns s ++ [mkConn NNew [] false 0])
                   (v_channels s) (v_stop s))
      end
  | RStart => match hello with Ok _ => go RSpawn | Err e => go (REnd (Some e)) end
  | RSpawn =>
      let i := (length (v_conns s) - 1)%nat in
      match nth_error (v_conns s) i with
      | Some c => Some (mkServer (v_accepting s) RTop
                    (upd (v_conns s) i (mkConn NRun (n_buf c) (n_closed c) (n_reads c)))
                    (v_channels s) (v_stop s))
      | None => None
      end
  | RIdle | REnd _ => None
  end.

(** The length announced by a buffered header (base.py:163-164). *)
Definition want (b : bytes) : nat := Z.to_nat (nth 2 b 0 * 256 + nth 3 b 0).

(** A complete message at the front of the buffer (base.py:155, 166). *)
Definition whole (b : bytes) : bool := (8 <=? length b)%nat && (want b <=? length b)%nat.

(** base.py:153-176 and 317-325 in steps, with the read wrappers of base.py:61-66
    (closed) and 647-652 (server stopped) in front of default_wrapper. *)
Definition conn_step (accepting : bool) (c : conn) (r : rd) (h : res unit) : option conn :=
  let go p := Some (mkConn p (n_buf c) (n_closed c) (n_reads c)) in
  match n_phase c with
  | NRun => go NTop
  | NTop =>
      if whole (n_buf c) then
        if (want (n_buf c) =? 0)%nat then go NEnded
        else Some (mkConn NHandle (skipn (want (n_buf c)) (n_buf c)) (n_closed c) (n_reads c))
      else if n_closed c || negb accepting then go NEnded
      else Some (mkConn NBlocked (n_buf c) (n_closed c) (S (n_reads c)))
  | NBlocked =>
      match default_wrapper r with
      | Ok None => go NTop
      | Ok (Some []) => go NEnded
      | Ok (Some d) => Some (mkConn NTop (n_buf c ++ d) (n_closed c) (n_reads c))
      | Err e => go (NFailed e)
      end
  | NHandle =>
      match h with
      | Ok _ => go NTop
      | Err ChannelClose => Some (mkConn NEnded (n_buf c) true (n_reads c))
      | Err e => go (NFailed e)
      end
  | NEnded => Some (mkConn NClosed (n_buf c) true (n_reads c))
  | NClosed => go NGone
  | NNew | NGone | NFailed _ => None
  end.

Definition close_conn (c : conn) : conn := mkConn (n_phase c) (n_buf c) true (n_reads c).

Definition vstep (s : server) (e : vev) : option server :=
  match e with
  | VStart => v_start s
  | VRun a hello => v_run_step s a hello
  | VConn i r h =>
      match nth_error (v_conns s) i with
      | Some c =>
          match conn_step (v_accepting s) c r h with
          | Some c' =>
              (* base.py:639-645: lines 641 and 645 *)
              let chs := match n_phase c with
                         | NRun => i :: v_channels s
                         | NClosed => filter (fun j => negb (j =? i)%nat) (v_channels s)
                         | _ => v_channels s
                         end in
              Some (mkServer (v_accepting s) (v_run s) (upd (v_conns s) i c') chs (v_stop s))
          | None => None
          end
      | None => None
      end
  | VClose i =>
      match nth_error (v_conns s) i with
      | Some c => Some (mkServer (v_accepting s) (v_run s) (upd (v_conns s) i (close_conn c)) (v_channels s) (v_stop s))
      | None => None
      end
  | VStopFlag => Some (mkServer false (v_run s) (v_conns s) (v_channels s) (v_stop s))
  | VStopList =>
      match v_stop s with
      | None => Some (mkServer (v_accepting s) (v_run s) (v_conns s) (v_channels s) (Some (v_channels s)))
      | Some _ => None
      end
  | VStopClose =>
      match v_stop s with
      | Some (i :: l) =>
          match nth_error (v_conns s) i with
          | Some c => Some (mkServer (v_accepting s) (v_run s) (upd (v_conns s) i (close_conn c)) (v_channels s) (Some l))
          | None => None
          end
      | _ => None
      end
  end.

Fixpoint vsteps (s : server) (es : list vev) : option server :=
  match es with
  | [] => Some s
  | e :: es' => match vstep s e with Some s' => vsteps s' es' | None => None end
  end.
