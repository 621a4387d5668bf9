(** Model of the send path and of logging in twink/base.py: [Channel.send],
    [LoggingChannel] and the [with] use of [ReadWrapper]. *)

From Verif Require Export M_Channel.
Local Open Scope Z_scope.

(** What one write call of the transport does: socket.send(m) accepts the
    first [n] bytes and returns (min n (len m)), or raises. *)
Inductive wr : Type :=
| WAccept (n : nat)
| WRaise (e : exn).

(** The transport of a channel (base.py:78-83): [_sendto] given, [_socket]
    given, [closed] (remote_address is None), and what it has carried: the
    bytes of the stream, or the datagrams. *)
Record tr : Type := mkTr {
  t_sendto : bool;
  t_socket : bool;
  t_closed : bool;
  t_wire : bytes;
  t_grams : list bytes
}.

(** base.py:113-119 [Channel.send].  [o] is the outcome of the write call if
    one is made; the return value of socket.send is not used.  With [_sendto]
    the address argument is remote_address: None after close(), a TypeError.
    A closed socket object raises EBADF. *)
Definition send (t : tr) (o : wr) (m : bytes) : tr * res unit :=
  if t_sendto t then
    if t_closed t then (t, Err TypeError)
    else match o with
         | WAccept _ => (mkTr (t_sendto t) (t_socket t) (t_closed t) (t_wire t)
                           (t_grams t ++ [m]), Ok tt)
         | WRaise e => (t, Err e)
         end
  else if t_socket t then
    if t_closed t then (t, Err (SocketError EBADF))
    else match o with
         | WAccept n => (mkTr (t_sendto t) (t_socket t) (t_closed t)
                           (t_wire t ++ firstn n m) (t_grams t), Ok tt)
         | WRaise e => (t, Err e)
         end
  else (t, Err ValueError).

(** base.py:106-111 [Channel.close], seen from the sending side. *)
Definition tr_close (t : tr) : tr :=
  mkTr (t_sendto t) (t_socket t) true (t_wire t) (t_grams t).

(** Several sends, each with its own outcome. *)
Fixpoint sends (t : tr) (ws : list (wr * bytes)) : tr * list (res unit) :=
  match ws with
  | [] => (t, [])
  | (o, m) :: ws' =>
      match send t o m with
      | (t', r) => match sends t' ws' with (t'', rs) => (t'', r :: rs) end
      end
  end.

(** binascii.b2a_hex: two lower-case hexadecimal digits for each byte. *)
Definition hexdigit (d : Z) : Z := if d <? 10 then 48 + d else 87 + d.
Definition b2a_hex (b : bytes) : bytes :=
  flat_map (fun x => [hexdigit (x / 16); hexdigit (x mod 16)]) b.

(** One record given to the logging module: which logger (base.py:180-182),
    and its text. *)
Inductive logger : Type := LgChannel | LgSend | LgRecv.
Definition logline : Type := (logger * bytes)%type.

(** A channel with both directions.  The receiving side is M_Channel.chan;
    [closed] is one attribute, kept in step on both sides. *)
Record dch : Type := mkDch { d_in : chan; d_out : tr }.

(** base.py:106-111 [Channel.close]. *)
Definition dch_close (d : dch) : dch :=
  mkDch (chan_close (d_in d)) (tr_close (d_out d)).

(** What an application does with a channel. *)
Inductive dop : Type :=
| DSend (o : wr) (m : bytes)
| DRecv
| DClose.

(** What it gets back. *)
Inductive dres : Type :=
| RSent (r : res unit)
| RRecv (r : rcv)
| RClosed.

(** The outgoing side learns that the channel was closed during a receive
    (by another thread): the attribute is shared. *)
Definition sync_closed (c : chan) (t : tr) : tr :=
  if closed c then tr_close t else t.

(** An operation on an OpenflowBaseChannel (base.py:106-119, 153-176). *)
Definition plain_step (d : dch) (o : dop) : dch * dres :=
  match o with
  | DSend w m =>
      match send (d_out d) w m with (t, r) => (mkDch (d_in d) t, RSent r) end
  | DRecv =>
      match recv (d_in d) with
      | (c, r) => (mkDch c (sync_closed c (d_out d)), RRecv r)
      end
  | DClose => (dch_close d, RClosed)
  end.

Fixpoint plain_run (d : dch) (os : list dop) : dch * list dres :=
  match os with
  | [] => (d, [])
  | o :: os' =>
      match plain_step d o with
      | (d', r) => match plain_run d' os' with (d'', rs) => (d'', r :: rs) end
      end
  end.

(** base.py:179-204 [LoggingChannel]: [l_repr] is "%s" % self, [l_remote] the
    text set by __init__ (lines 186-187: " from host", or ""). *)
Record lch : Type := mkLch { l_d : dch; l_repr : bytes; l_remote : bytes; l_log : list logline }.

(** Text of "%s %s" % (self, binascii.b2a_hex(message)), base.py:191 and 197. *)
Definition hex_line (rp m : bytes) : bytes := rp ++ [32] ++ b2a_hex m.

(** "%s connect%s" and "%s close%s" % (self, self.remote), base.py:188, 204. *)
Definition s_connect : bytes := [32; 99; 111; 110; 110; 101; 99; 116].
Definition s_close : bytes := [32; 99; 108; 111; 115; 101].

(** base.py:185-188 [LoggingChannel.__init__]. *)
Definition log_init (d : dch) (rp remote : bytes) : lch :=
  mkLch d rp remote [(LgChannel, rp ++ s_connect ++ remote)].

(** base.py:190-192 [send]: the line is written, then the message handed on;
    base.py:194-198 [recv]: a line for a message that is not empty;
    base.py:200-204 [close]: nothing if closed already. *)
Definition log_step (l : lch) (o : dop) : lch * dres :=
  match o with
  | DSend w m =>
      let lg := l_log l ++ [(LgSend, hex_line (l_repr l) m)] in
      match plain_step (l_d l) o with
      | (d, r) => (mkLch d (l_repr l) (l_remote l) lg, r)
      end
  | DRecv =>
      match plain_step (l_d l) o with
      | (d, r) =>
          let lg := match r with
                    | RRecv (Got (x :: m)) =>
                        l_log l ++ [(LgRecv, hex_line (l_repr l) (x :: m))]
                    | _ => l_log l
                    end in
          (mkLch d (l_repr l) (l_remote l) lg, r)
      end
  | DClose =>
      if closed (d_in (l_d l)) then (l, RClosed)
      else match plain_step (l_d l) o with
           | (d, r) => (mkLch d (l_repr l) (l_remote l)
                          (l_log l ++ [(LgChannel, l_repr l ++ s_close ++ l_remote l)]), r)
           end
  end.

Fixpoint log_run (l : lch) (os : list dop) : lch * list dres :=
  match os with
  | [] => (l, [])
  | o :: os' =>
      match log_step l o with
      | (l', r) => match log_run l' os' with (l'', rs) => (l'', r :: rs) end
      end
  end.

(** * ReadWrapper objects (base.py:48-66) *)

(** channel.read_wrap: the wrapper given to the channel (base.py:82), or a
    ReadWrapper object, named by its identity. *)
Inductive wref : Type := WGiven | WObj (i : nat).

(** [rw_cur] is channel.read_wrap; [rw_inst i] is object i's attribute
    installed_wrapper (None: not set yet). *)
Record rws : Type := mkRws { rw_cur : wref; rw_inst : nat -> option wref }.

(** base.py:53-56 [__enter__]. *)
Definition rw_enter (s : rws) (i : nat) : rws :=
  mkRws (WObj i) (fun j => if Nat.eqb j i then Some (rw_cur s) else rw_inst s j).

(** base.py:58-59 [__exit__]; it returns None, so an exception goes on. *)
Definition rw_exit (s : rws) (i : nat) : rws * option exn :=
  match rw_inst s i with
  | Some w => (mkRws w (rw_inst s), None)
  | None => (s, Some AttributeError)
  end.

(** Programs: reads, exceptions, sequences, and [with ReadWrapper i: body]. *)
Inductive wprog : Type :=
| PNop
| PRaise (e : exn)
| PSeq (a b : wprog)
| PRead
| PWith (i : nat) (body : wprog).

(** Running such a program: the state, the exception if any, and for each
    read the wrapper that was current ([ReadWrapper(self, self.read_wrap)] of
    base.py:126 calls self.read_wrap(func)). *)
Fixpoint wrun (p : wprog) (s : rws) : rws * option exn * list wref :=
  match p with
  | PNop => (s, None, [])
  | PRaise e => (s, Some e, [])
  | PSeq a b =>
      match wrun a s with
      | (s1, Some e, l) => (s1, Some e, l)
      | (s1, None, l) => match wrun b s1 with (s2, e, l2) => (s2, e, l ++ l2) end
      end
  | PRead => (s, None, [rw_cur s])
  | PWith i body =>
      match wrun body (rw_enter s i) with
      | (s1, e, l) =>
          match rw_exit s1 i with
          | (s2, None) => (s2, e, l)
          | (s2, Some e2) => (s2, Some e2, l)
          end
      end
  end.
