(** Model of ParallelChannel (twink/base.py:523-558): every message is handled
    in a thread of its own. *)

From Verif Require Export M_Loop.
Local Open Scope Z_scope.

(** A spawned call of [proxy] (base.py:540-548): not started, or finished with
    what [handle] did. *)
Inductive tst : Type := TWait | TDone (r : res unit).

(** The channel and the handler's record, the spawned calls, the calls given
    to async_pool (what RateLimit does with them is M_RateLimit.v), how loop()
    ended. *)
Record par : Type := mkPar {
  q_srv : srv;
  q_tasks : list (bytes * tst);
  q_rated : list bytes;
  q_end : option lend
}.

Definition par_new (c : chan) (a : app) : par := mkPar (mkSrv c a) [] [] None.

(** base.py:550-558 [intercept]: [None] = the message was passed on. *)
Definition par_intercept (rate : Z) (s : par) (m : bytes) : par :=
  let plain := mkPar (q_srv s) (q_tasks s ++ [(m, TWait)]) (q_rated s) (q_end s) in
  if rate =? 0 then plain
  else
    match parse_ofp_header m with
    | Err e => mkPar (q_srv s) (q_tasks s) (q_rated s) (Some (LRaised e))
    | Ok h =>
        if (h_type h =? 10) || (h_type h =? 11) || (h_type h =? 12)
        then mkPar (q_srv s) (q_tasks s) (q_rated s ++ [m]) (q_end s)
        else plain
    end.

(** base.py:317-325: one turn of loop() with this handle_proxy.  A turn that
    finds nothing to read ([Waiting]) is taken again later: what it read so
    far is in the buffer. *)
Definition par_turn (accept : versions) (order : list Z -> list Z) (xid rate : Z) (s : par) : par :=
  match of_recv accept order xid (q_srv s) with
  | (v, Got []) => mkPar v (q_tasks s) (q_rated s) (Some LReturned)
  | (v, Got m) => par_intercept rate (mkPar v (q_tasks s) (q_rated s) (q_end s)) m
  | (v, Raised ChannelClose) => mkPar (srv_close v) (q_tasks s) (q_rated s) (Some LReturned)
  | (v, Raised e) => mkPar v (q_tasks s) (q_rated s) (Some (LRaised e))
  | (v, Waiting) => mkPar v (q_tasks s) (q_rated s) (q_end s)
  end.

(** base.py:540-548 [proxy]; the handler's call is one step.  Both exception
    branches close the channel (base.py:533-535 over 106-111). *)
Definition par_proxy (hd : handler) (s : par) (i : nat) (m : bytes) : par :=
  let '(a, r) := hd (s_app (q_srv s)) m in
  let v := mkSrv (s_chan (q_srv s)) a in
  let v' := match r with Ok _ => v | Err _ => srv_close v end in
  mkPar v' (firstn i (q_tasks s) ++ (m, TDone r) :: skipn (S i) (q_tasks s)) (q_rated s) (q_end s).

(** What can happen: the transport's next read outcome becomes known, a turn
    of the loop, a spawned call runs. *)
Inductive qop : Type := QEnv (r : rd) | QTurn | QTask (i : nat).

Definition qstep (accept : versions) (order : list Z -> list Z) (xid rate : Z) (hd : handler)
    (s : par) (o : qop) : option par :=
  match o with
  | QEnv r =>
      let v := q_srv s in let c := s_chan v in
      Some (mkPar (mkSrv (mkChan (buf c) (closed c) (envs c ++ [ERead r]) (nreads c) (nclose c)) (s_app v))
        (q_tasks s) (q_rated s) (q_end s))
  | QTurn => match q_end s with None => Some (par_turn accept order xid rate s) | Some _ => None end
  | QTask i =>
      match nth_error (q_tasks s) i with
      | Some (m, TWait) => Some (par_proxy hd s i m)
      | _ => None
      end
  end.

Fixpoint qrun (accept : versions) (order : list Z -> list Z) (xid rate : Z) (hd : handler)
    (s : par) (os : list qop) : option par :=
  match os with
  | [] => Some s
  | o :: os' =>
      match qstep accept order xid rate hd s o with
      | Some s' => qrun accept order xid rate hd s' os'
      | None => None
      end
  end.
