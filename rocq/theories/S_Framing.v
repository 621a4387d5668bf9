(** Specification vocabulary for message framing.  Independent of the model:
    only byte lists and read outcomes. *)

From Verif Require Import Py M_Channel.
Local Open Scope Z_scope.

(** The length announced by an OpenFlow header: bytes 2 and 3, big-endian. *)
Definition announced (m : bytes) : Z := nth 2 m 0 * 256 + nth 3 m 0.

(** A message a peer may write: a full header announcing the true length. *)
Definition msg_wf (m : bytes) : Prop :=
  (8 <= length m)%nat /\ announced m = zlen m.

(** Read outcomes that only delay: timeouts and interrupted reads. *)
Definition is_delay (e : env) : Prop :=
  e = ERead RTimeout \/ e = ERead (RErr 4).

Definition is_data (e : env) : Prop :=
  exists x b, e = ERead (RData (x :: b)).

(** Outcomes of a transport that delivers bytes and never ends. *)
Definition quiet (es : list env) : Prop :=
  Forall (fun e => is_delay e \/ is_data e) es.

(** All bytes delivered by a sequence of outcomes. *)
Fixpoint delivered (es : list env) : bytes :=
  match es with
  | [] => []
  | ERead (RData b) :: es' => b ++ delivered es'
  | _ :: es' => delivered es'
  end.

(** An outcome that means the stream has ended for this channel. *)
Definition is_end (e : env) : Prop :=
  e = ERead (RData []) \/ e = ERead RKbd \/ e = EClose \/
  (exists n, e = ERead (RErr n) /\ In n [9; 11; 104]).

Definition closes (e : env) : bool := match e with EClose => true | _ => false end.

(** The beginning of a message whose rest has not come: no full header, or
    fewer bytes than the header announces. *)
Definition incomplete (b : bytes) : Prop :=
  (length b < 8)%nat \/ zlen b < announced b.

(** Remove the outcomes that only delay. *)
Definition delayb (e : env) : bool :=
  match e with ERead RTimeout => true | ERead (RErr x) => x =? 4 | _ => false end.
Fixpoint strip (es : list env) : list env :=
  match es with
  | [] => []
  | e :: es' => if delayb e then strip es' else e :: strip es'
  end.
