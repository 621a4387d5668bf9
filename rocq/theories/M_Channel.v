(** Model of the receive path of twink/base.py: transport read outcomes, the
    read wrappers, [Channel] and [OpenflowBaseChannel.recv]. *)

From Verif Require Export Struct.
Local Open Scope Z_scope.

(** errno values (Linux) named in base.py:38-40. *)
Definition EINTR := 4.
Definition EBADF := 9.
Definition EAGAIN := 11.
Definition ECONNRESET := 104.

(** What one call of the transport's read function does: return bytes (empty
    at end of file), raise socket.timeout, raise socket.error with an errno,
    or KeyboardInterrupt. *)
Inductive rd : Type :=
| RData (b : bytes)
| RTimeout
| RErr (errno : Z)
| RKbd.

(** base.py:30-45 [default_wrapper]; the result of the wrapped read function:
    [Ok None] is Python's [None], [Ok (Some b)] the byte string [b]. *)
Definition default_wrapper (r : rd) : res (option bytes) :=
  match r with
  | RData b => Ok (Some b)
  | RTimeout => Ok None
  | RErr e =>
      if (e =? EAGAIN) || (e =? ECONNRESET) || (e =? EBADF) then Ok (Some [])
      else if e =? EINTR then Ok None
      else Err (SocketError e)
  | RKbd => Ok (Some [])
  end.

(** Environment of a channel: the outcomes of its successive transport reads,
    interleaved with [EClose]: another thread calls close() before the next
    read. *)
Inductive env : Type :=
| ERead (r : rd)
| EClose.

(** State of a channel (base.py:69-126, 137-143): receive buffer, [closed]
    (base.py:100-104: remote_address is None), the environment still to come.
    [nreads] is a ghost counter of transport reads, [nclose] one of
    socket.close() calls. *)
Record chan : Type := mkChan {
  buf : bytes;
  closed : bool;
  envs : list env;
  nreads : nat;
  nclose : nat
}.

(** base.py:106-111 [Channel.close] (with a socket): socket.close(), then
    remote_address = None. *)
Definition chan_close (c : chan) : chan :=
  mkChan (buf c) true (envs c) (nreads c) (S (nclose c)).

(** base.py:201-204 [LoggingChannel.close]: only if not closed already (log
    output not modelled). *)
Definition logging_close (c : chan) : chan :=
  if closed c then c else chan_close c.

(** Result of a receive: a returned byte string (possibly b""), an exception,
    or still waiting because the environment described so far is used up. *)
Inductive rcv : Type :=
| Got (b : bytes)
| Raised (e : exn)
| Waiting.

(** base.py:121-126 [Channel._recv] with the ReadWrapper of base.py:61-66 and
    [read_wrap] = default_wrapper, together with the [while len(self.buffer) <
    required_len] loop around it (base.py:155-161 and 166-172).
    [inl] = the loop ended with enough bytes; [inr] = recv is left early.
    The environment list gives the recursion; EClose only sets [closed]. *)
Fixpoint fill (need : nat) (b : bytes) (cl : bool) (es : list env) (n k : nat)
  : chan * option rcv :=
  if (need <=? length b)%nat then (mkChan b cl es n k, None)
  else
    if cl then (mkChan b cl es n k, Some (Got []))
    else
      match es with
      | [] => (mkChan b cl es n k, Some Waiting)
      | EClose :: es' => fill need b true es' n (S k)
      | ERead r :: es' =>
          match default_wrapper r with
          | Err e => (mkChan b cl es' (S n) k, Some (Raised e))
          | Ok None => fill need b cl es' (S n) k
          | Ok (Some []) => (mkChan b cl es' (S n) k, Some (Got []))
          | Ok (Some tmp) => fill need (b ++ tmp) cl es' (S n) k
          end
      end.

Definition fill_chan (need : nat) (c : chan) : chan * option rcv :=
  fill need (buf c) (closed c) (envs c) (nreads c) (nclose c).

(** base.py:153-176 [OpenflowBaseChannel.recv]. *)
Definition recv (c : chan) : chan * rcv :=
  match fill_chan 8 c with
  | (c1, Some r) => (c1, r)
  | (c1, None) =>
      match unpacks "!BBHI" (buf c1) 0 with
      | Ok [_; _; VInt len; _] =>
          let required := Z.to_nat len in
          match fill_chan required c1 with
          | (c2, Some r) => (c2, r)
          | (c2, None) =>
              (mkChan (skipn required (buf c2)) (closed c2) (envs c2)
                 (nreads c2) (nclose c2),
               Got (firstn required (buf c2)))
          end
      | Ok _ => (c1, Raised ValueError)
      | Err e => (c1, Raised e)
      end
  end.

(** base.py:145-151 [OpenflowBaseChannel.__iter__], run to the end: the list
    of yielded messages and how iteration ended ([Got []]: a false value was
    received).  Fuel bounds the number of yielded messages. *)
Fixpoint iterate (fuel : nat) (c : chan) : list bytes * rcv * chan :=
  match fuel with
  | O => ([], Raised OutOfFuel, c)
  | S f =>
      match recv c with
      | (c', Got []) => ([], Got [], c')
      | (c', Got m) =>
          match iterate f c' with (ms, r, c'') => (m :: ms, r, c'') end
      | (c', r) => ([], r, c')
      end
  end.

(** [n] successive recv() calls, whatever they return. *)
Fixpoint recvs (n : nat) (c : chan) : list rcv * chan :=
  match n with
  | O => ([], c)
  | S n' =>
      match recv c with
      | (c', r) => match recvs n' c' with (rs, c'') => (r :: rs, c'') end
      end
  end.

(** A fresh channel (base.py:141-143) on a given environment. *)
Definition new_chan (es : list env) : chan := mkChan [] false es 0 0.

(** Operations an application performs on a channel. *)
Inductive chop : Type := OpRecv | OpClose | OpLogClose.

Definition chan_step (c : chan) (o : chop) : chan * option rcv :=
  match o with
  | OpRecv => match recv c with (c', r) => (c', Some r) end
  | OpClose => (chan_close c, None)
  | OpLogClose => (logging_close c, None)
  end.

Fixpoint chan_run (c : chan) (os : list chop) : chan * list (option rcv) :=
  match os with
  | [] => (c, [])
  | o :: os' =>
      match chan_step c o with
      | (c', r) => match chan_run c' os' with (c'', rs) => (c'', r :: rs) end
      end
  end.
