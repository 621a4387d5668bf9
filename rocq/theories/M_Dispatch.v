(** Model of how the handle_proxy methods and the send methods of the channel
    classes are put together in a class that inherits several of them. *)

From Coq Require Import String.
From Verif Require Export M_Controller M_Class.
Local Open Scope Z_scope.
Local Open Scope list_scope.

(** *** handle_proxy *)

(** Where a handler is called: by the thread that reads from the switch, in a
    thread of its own, or by the pool of base.py:531. *)
Inductive place : Type := Reader | OwnThread | InPool.

(** A handler function: given the message, who handles it, and where.  What the
    chosen handler does is not part of the step. *)
Definition hfun : Type := cch -> bytes -> cch * (place * outcome).

(** self.handle and self.handle_async as they are. *)
Definition h_handle : hfun := fun s m => (s, (Reader, ToDefault)).
Definition h_async : hfun := fun s m => (s, (Reader, ToAsync)).

(** base.py:537-558 ParallelChannel's [intercept]: [proxy] is run later. *)
Definition in_thread (rate : Z) (h : hfun) : hfun := fun s m =>
  let who := snd (snd (h s m)) in
  if rate =? 0 then (s, (OwnThread, who))
  else
    match parse_ofp_header m with
    | Err e => (s, (Reader, FailExn e))
    | Ok x =>
        if (h_type x =? 10) || (h_type x =? 11) || (h_type x =? 12) then (s, (InPool, who)) else (s, (OwnThread, who))
    end.

(** base.py:339-346 AutoEchoChannel's [intercept] (M_Controller.v [echo_layer],
    with the place). *)
Definition echo_proxy (bxid : Z) (next : hfun) : hfun := fun s m =>
  match m with
  | [] => (s, (Reader, Swallowed))
  | _ :: _ =>
      match parse_ofp_header m with
      | Err e => (s, (Reader, FailExn e))
      | Ok h =>
          if h_type h =? 2 then
            match packs "!BBHI" [vint (k_version s); VInt 3; VInt (h_length h); VInt (h_xid h)] with
            | Ok p => match locked_send s None (p ++ skipn 8 m) bxid None None with
                      | (s', Ok _) => (s', (Reader, Swallowed))
                      | (s', Err e) => (s', (Reader, FailExn e))
                      end
            | Err e => (s, (Reader, FailExn e))
            end
          else next s m
      end
  end.

(** self.handle_proxy(h) where the classes [cs] have a handle_proxy, in the
    order in which super() goes through them: base.py:327-328 (and anything
    unknown: the handler itself), 338-347, 434-471, 537-559. *)
Fixpoint proxied (has_async : bool) (rate bxid : Z) (cs : list string) (h : hfun) : hfun :=
  match cs with
  | [] => h
  | c :: r =>
      if String.eqb c "AutoEchoChannel" then echo_proxy bxid (proxied has_async rate bxid r h)
      else if String.eqb c "ControllerChannel" then fun s m =>
        match intercept has_async s m with
        | (s1, ToAsync) => proxied has_async rate bxid r h_async s1 m
        | (s1, ToDefault) => proxied has_async rate bxid r h s1 m
        | (s1, o) => (s1, (Reader, o))
        end
      else if String.eqb c "ParallelChannel" then proxied has_async rate bxid r (in_thread rate h)
      else h
  end.

(** base.py:323 self.handle_proxy(self.handle)(message, self) for an instance of [d]. *)
Definition dispatch (t : ctab) (d : string) (rate bxid : Z) : hfun :=
  proxied (has_attr t d "handle_async") rate bxid (chain t d "handle_proxy") h_handle.

(** *** send *)

(** A channel object: the queue of ControllerChannel, what the logger "send"
    was given, what the socket was given. *)
Record snd_st : Type := mkSnd { n_cch : cch; n_log : list bytes; n_out : list bytes }.

(** What ControllerChannel.send (base.py:383-421) passes to super().send: the
    messages that [locked_send] writes, all of which succeed. *)
Definition ctl_passes (s : cch) (cb : option nat) (m : bytes) (bxid : Z) : cch * list bytes :=
  let s' := fst (locked_send s cb m bxid None None) in
  (s', skipn (length (k_wire s)) (k_wire s')).

(** self.send(m, callback=cb) through the classes [cs] that have a send: 191-193,
    383-421, 799-800 and 113-119.  The callback does not get past
    ControllerChannel; the others ignore it. *)
Fixpoint send_through (cs : list string) (s : snd_st) (cb : option nat) (m : bytes) (bxid : Z) : snd_st :=
  match cs with
  | [] => s
  | c :: r =>
      if String.eqb c "LoggingChannel" then
        send_through r (mkSnd (n_cch s) (n_log s ++ [m]) (n_out s)) cb m bxid
      else if String.eqb c "ControllerChannel" then
        let '(k, ms) := ctl_passes (n_cch s) cb m bxid in
        fold_left (fun s x => send_through r s None x bxid) ms (mkSnd k (n_log s) (n_out s))
      else if String.eqb c "ChildChannel" then send_through r s cb m bxid
      else mkSnd (n_cch s) (n_log s) (n_out s ++ [m])
  end.

Definition send_on (t : ctab) (d : string) (s : snd_st) (x : option nat * bytes * Z) : snd_st :=
  let '(cb, m, bxid) := x in send_through (chain t d "send") s cb m bxid.
Definition sends_on (t : ctab) (d : string) (k : cch) (xs : list (option nat * bytes * Z)) : snd_st :=
  fold_left (send_on t d) xs (mkSnd k [] []).
