(** Specifications for the controller channel: a barrier-respecting switch,
    and the rule for separating barriers. *)

From Verif Require Import Py M_Hello M_Loop M_Controller S_Hello.
Local Open Scope Z_scope.

(** *** Barrier messages, by their bytes *)

(** OpenFlow 1.0 (version byte 1) numbers them 18/19, later versions 20/21. *)
Definition barrier_request (m : bytes) : bool :=
  byte_at m 1 =? (if byte_at m 0 =? 1 then 18 else 20).
Definition barrier_reply (m : bytes) : bool :=
  byte_at m 1 =? (if byte_at m 0 =? 1 then 19 else 21).
Definition xid_of (m : bytes) : Z := u32_at m 4.

(** [r] is the reply to the barrier request [m]: same version, same
    transaction, reply type. *)
Definition answers_barrier (r m : bytes) : bool :=
  (8 <=? length r)%nat && (byte_at r 0 =? byte_at m 0) && (byte_at r 1 =? byte_at m 1 + 1)
  && (xid_of r =? xid_of m).

(** Any message a switch may send, as far as the channel decodes it: at least
    a header, and FEATURES_REPLY (type 6) with its fixed part. *)
Definition frame_ok (r : bytes) : bool :=
  (8 <=? length r)%nat && (negb (byte_at r 1 =? 6) || (24 <=? length r)%nat).

(** PACKET_IN, FLOW_REMOVED, PORT_STATUS are never replies. *)
Definition async_type (r : bytes) : bool :=
  (byte_at r 1 =? 10) || (byte_at r 1 =? 11) || (byte_at r 1 =? 12).

(** *** The wire and the switch *)

(** What the controller wrote, with the callback given by the caller (a
    separating barrier has none). *)
Inductive item : Type :=
| WReq (cb : option nat) (m : bytes)
| WBar (cb : option nat) (m : bytes).

Definition is_bar (x : item) : bool := match x with WBar _ _ => true | WReq _ _ => false end.
Definition bars (w : list item) : list item := filter is_bar w.
(** Number of barriers in front of position [i]. *)
Definition bars_before (w : list item) (i : nat) : nat := length (bars (firstn i w)).

Definition to_item (cb : option nat) (m : bytes) : item :=
  if barrier_request m then WBar cb m else WReq cb m.

(** The messages one send() wrote: the last one is the caller's. *)
Fixpoint tag_new (h : option nat) (new : list bytes) : list item :=
  match new with
  | [] => []
  | [m] => [to_item h m]
  | b :: new' => to_item None b :: tag_new h new'
  end.

(** Messages from the switch: a reply to the request at position [i] of the
    wire, the reply to the [n]-th barrier, or a message of its own accord. *)
Inductive frame : Type :=
| FReply (i : nat) (r : bytes)
| FBar (n : nat) (r : bytes)
| FAsync (r : bytes).

Definition frame_bytes (f : frame) : bytes :=
  match f with FReply _ r | FBar _ r | FAsync r => r end.

(** The whole system: the channel, the wire towards the switch, how many
    barriers the switch has answered, the (first-in first-out) way back, what
    the controller did with each message that arrived, everything the switch
    ever sent. *)
Record sys : Type := mkSys {
  y_ctl : cch;
  y_wire : list item;
  y_ans : nat;
  y_fifo : list frame;
  y_log : list (frame * outcome);
  y_emit : list frame
}.

Definition y_new : sys := mkSys k_new [] 0 [] [] [].

Inductive sop : Type :=
| YSend (h : option nat) (m : bytes) (bxid : Z)   (* a caller sends *)
| YReply (i : nat) (r : bytes)                    (* the switch answers request i *)
| YBarrier (r : bytes)                            (* ... answers the next barrier *)
| YAsync (r : bytes)                              (* ... sends something else *)
| YDeliver                                        (* the next message arrives *)
| YDie (f : nat)                                  (* a callback is collected *)
| YVersion (v : Z).                               (* the version is (re)negotiated *)

(** One step; None when the step is not possible.  A reply to request [i] may
    be sent, any number of times, while exactly the barriers before [i] have
    been answered: this is the reordering that barriers permit. *)
Definition sstep (has_async : bool) (s : sys) (o : sop) : option sys :=
  match o with
  | YSend h m bxid =>
      if match h with Some f => existsb (Nat.eqb f) (k_dead (y_ctl s)) | None => false end then None
      else
        let c := fst (locked_send (y_ctl s) h m bxid None None) in
        let new := skipn (length (k_wire (y_ctl s))) (k_wire c) in
        Some (mkSys c (y_wire s ++ tag_new h new) (y_ans s) (y_fifo s) (y_log s) (y_emit s))
  | YReply i r =>
      match nth_error (y_wire s) i with
      | Some (WReq _ _) =>
          if (bars_before (y_wire s) i =? y_ans s)%nat && frame_ok r && negb (barrier_reply r)
             && negb (async_type r)
          then Some (mkSys (y_ctl s) (y_wire s) (y_ans s) (y_fifo s ++ [FReply i r]) (y_log s)
                       (y_emit s ++ [FReply i r]))
          else None
      | _ => None
      end
  | YBarrier r =>
      match nth_error (bars (y_wire s)) (y_ans s) with
      | Some (WBar _ m) =>
          if answers_barrier r m
          then Some (mkSys (y_ctl s) (y_wire s) (S (y_ans s)) (y_fifo s ++ [FBar (y_ans s) r]) (y_log s)
                       (y_emit s ++ [FBar (y_ans s) r]))
          else None
      | _ => None
      end
  | YAsync r =>
      if frame_ok r && negb (barrier_reply r)
      then Some (mkSys (y_ctl s) (y_wire s) (y_ans s) (y_fifo s ++ [FAsync r]) (y_log s)
                   (y_emit s ++ [FAsync r]))
      else None
  | YDeliver =>
      match y_fifo s with
      | [] => None
      | f :: rest =>
          match cstep has_async (y_ctl s) (CRecv (frame_bytes f)) with
          | (c, CGot r) => Some (mkSys c (y_wire s) (y_ans s) rest (y_log s ++ [(f, r)]) (y_emit s))
          | _ => None
          end
      end
  | YDie f =>
      Some (mkSys (fst (cstep has_async (y_ctl s) (CDie f))) (y_wire s) (y_ans s) (y_fifo s) (y_log s) (y_emit s))
  | YVersion v =>
      Some (mkSys (fst (cstep has_async (y_ctl s) (CVersion v))) (y_wire s) (y_ans s) (y_fifo s) (y_log s) (y_emit s))
  end.

Fixpoint srun (has_async : bool) (s : sys) (os : list sop) : option sys :=
  match os with
  | [] => Some s
  | o :: os' => match sstep has_async s o with Some s' => srun has_async s' os' | None => None end
  end.

(** *** Separating barriers *)

(** State of the rule: transaction ids of the unanswered barriers (oldest
    first), the open batch ([None]: no tracked batch; [Some c]: batch of
    callback [c]), the collected callbacks, the version, and everything
    written: [(true, m)] the caller's message, [(false, b)] a separator. *)
Record sep : Type := mkSep {
  p_out : list Z;
  p_batch : option (option nat);
  p_dead : list nat;
  p_version : option Z;
  p_wire : list (bool * bytes)
}.

Definition sep_new : sep := mkSep [] None [] None [].

Definition owner (dead : list nat) (c : option nat) : option nat :=
  match c with Some f => if in_dec Nat.eq_dec f dead then None else Some f | None => None end.

Definition same (a b : option nat) : bool :=
  match a, b with Some x, Some y => (x =? y)%nat | None, None => true | _, _ => false end.

(** The separator, when one can be encoded. *)
Definition separator (version : option Z) (bxid : Z) : option bytes :=
  match version with
  | Some v => if (0 <=? v) && (v <? 256) && (0 <=? bxid) && (bxid <? 4294967296)
              then Some ([v; if v =? 1 then 18 else 20; 0; 8] ++ be 4 bxid) else None
  | None => None
  end.

Definition sep_step (p : sep) (o : cop) : sep :=
  match o with
  | CSend h m bxid _ _ =>
      if (length m <? 8)%nat then p
      else if barrier_request m then
        mkSep (p_out p ++ [xid_of m]) None (p_dead p) (p_version p) (p_wire p ++ [(true, m)])
      else
        match p_batch p with
        | Some c =>
            if same (owner (p_dead p) c) h then
              mkSep (p_out p) (p_batch p) (p_dead p) (p_version p) (p_wire p ++ [(true, m)])
            else
              match separator (p_version p) bxid with
              | Some b => mkSep (p_out p ++ [bxid]) (Some h) (p_dead p) (p_version p)
                            (p_wire p ++ [(false, b); (true, m)])
              | None => p
              end
        | None =>
            mkSep (p_out p)
              (match p_out p, h with [], None => None | _, _ => Some h end)
              (p_dead p) (p_version p) (p_wire p ++ [(true, m)])
        end
  | CRecv m =>
      if (8 <=? length m)%nat && barrier_reply m then
        match p_out p with
        | x :: out => if x =? xid_of m then mkSep out (p_batch p) (p_dead p) (p_version p) (p_wire p) else p
        | [] => p
        end
      else p
  | CDie f => mkSep (p_out p) (p_batch p) (f :: p_dead p) (p_version p) (p_wire p)
  | CVersion v => mkSep (p_out p) (p_batch p) (p_dead p) (Some v) (p_wire p)
  end.

Definition sep_run (os : list cop) : sep := fold_left sep_step os sep_new.

(** No send of the history fails in the transport. *)
Definition transport_ok (o : cop) : Prop :=
  match o with CSend _ _ _ o1 o2 => o1 = None /\ o2 = None | _ => True end.

(** The messages whose send() returned normally. *)
Fixpoint accepted (os : list cop) (rs : list cres) : list bytes :=
  match os, rs with
  | CSend _ m _ _ _ :: os', CSent (Ok _) :: rs' => m :: accepted os' rs'
  | _ :: os', _ :: rs' => accepted os' rs'
  | _, _ => []
  end.

(** Big-endian 64-bit number at an offset. *)
Definition u64_at (m : bytes) (i : nat) : Z := u32_at m i * 4294967296 + u32_at m (i + 4).
