(** Specifications for monitors and jack-in clients. *)

From Verif Require Import Py M_Hello M_Loop M_Controller M_Parent S_Hello S_Controller.
Local Open Scope Z_scope.

Definition is_hello (m : bytes) : bool := byte_at m 1 =? 0.

(** *** Monitors *)

(** What client [c] should get: every message that arrives while it is
    registered, HELLOs excepted. *)
Fixpoint seen_by (c : nat) (joined : bool) (os : list nop) : list bytes :=
  match os with
  | [] => []
  | NRecv m _ :: os' => (if joined && negb (is_hello m) then [m] else []) ++ seen_by c joined os'
  | NJoin c' :: os' => seen_by c (if (c' =? c)%nat then true else joined) os'
  | NLeave c' :: os' => seen_by c (if (c' =? c)%nat then false else joined) os'
  end.

Definition inbox (out : list (nat * bytes)) (c : nat) : list bytes :=
  map snd (filter (fun x => (fst x =? c)%nat) out).

Definition received (os : list nop) : list bytes :=
  flat_map (fun o => match o with NRecv m _ => [m] | _ => [] end) os.

(** *** Jack-in clients *)

(** The parent and a barrier-respecting switch (S_Controller.v), the messages
    that reached the clients' handlers, the echo replies given by the server
    itself, what was sent back to clients for each message from the switch,
    and the exception that ended the parent's loop. *)
Record jsys : Type := mkJ {
  j_sys : sys;
  j_in : list (nat * bytes);
  j_echo : list (nat * bytes);
  j_back : list (frame * list (nat * bytes));
  j_end : option exn
}.

Definition j_new : jsys := mkJ y_new [] [] [] None.

(** [clients f]: callback [f] belongs to a jack-in client. *)
Inductive jop : Type :=
| JClient (f : nat) (m : bytes) (bxid : Z)    (* client f's handler gets a message *)
| JSys (o : sop)                              (* anything else but a delivery *)
| JDeliver (fail : option exn).               (* a message from the switch arrives *)

Definition sys_sent (s : sys) (h : option nat) (c : cch) : sys :=
  mkSys c (y_wire s ++ tag_new h (skipn (length (k_wire (y_ctl s))) (k_wire c)))
    (y_ans s) (y_fifo s) (y_log s) (y_emit s).

(** The parent's own negotiated version is the only one the clients accept
    (base.py:759), so it is that of the client's channel. *)
Definition jstep (clients : nat -> bool) (a : bool) (s : jsys) (o : jop) : option jsys :=
  match o with
  | JClient f m bxid =>
      if clients f && negb (existsb (Nat.eqb f) (k_dead (y_ctl (j_sys s)))) then
        match jackin_handle (k_version (y_ctl (j_sys s))) (y_ctl (j_sys s)) (Some f) m bxid None None with
        | inl (c, _) =>
            Some (mkJ (sys_sent (j_sys s) (Some f) c) (j_in s ++ [(f, m)]) (j_echo s) (j_back s) (j_end s))
        | inr (Ok r) => Some (mkJ (j_sys s) (j_in s ++ [(f, m)]) (j_echo s ++ [(f, r)]) (j_back s) (j_end s))
        | inr (Err _) => Some (mkJ (j_sys s) (j_in s ++ [(f, m)]) (j_echo s) (j_back s) (j_end s))
        end
      else None
  | JSys o =>
      if match o with YDeliver => true | YSend (Some f) _ _ => clients f | _ => false end then None
      else match sstep a (j_sys s) o with
           | Some y => Some (mkJ y (j_in s) (j_echo s) (j_back s) (j_end s))
           | None => None
           end
  | JDeliver fail =>
      match j_end s, y_fifo (j_sys s) with
      | None, f :: _ =>
          match sstep a (j_sys s) YDeliver, snd (cstep a (y_ctl (j_sys s)) (CRecv (frame_bytes f))) with
          | Some y, CGot (ToCallback g) =>
              if clients g then
                let '(w, r) := weak_callback g (frame_bytes f) fail in
                Some (mkJ y (j_in s) (j_echo s) (j_back s ++ [(f, w)])
                        (match r with Ok _ => None | Err e => Some e end))
              else Some (mkJ y (j_in s) (j_echo s) (j_back s ++ [(f, [])]) None)
          | Some y, _ => Some (mkJ y (j_in s) (j_echo s) (j_back s ++ [(f, [])]) None)
          | None, _ => None
          end
      | _, _ => None
      end
  end.

Fixpoint jrun (clients : nat -> bool) (a : bool) (s : jsys) (os : list jop) : option jsys :=
  match os with
  | [] => Some s
  | o :: os' => match jstep clients a s o with Some s' => jrun clients a s' os' | None => None end
  end.

(** The messages of the wire sent on behalf of callback [f]. *)
Definition wired (w : list item) (f : nat) : list bytes :=
  flat_map (fun x => match x with
                     | WReq (Some g) m | WBar (Some g) m => if (g =? f)%nat then [m] else []
                     | _ => []
                     end) w.

(** Operations whose numbers fit the wire format. *)
Definition jop_ok (o : jop) : Prop :=
  match o with
  | JClient _ m bxid => (8 <= length m)%nat /\ 0 <= bxid < 2 ^ 32
  | JSys (YVersion v) => 0 <= v < 256
  | _ => True
  end.
