(** Specification of the helper sockets' names. *)

From Verif Require Import Py M_Parent S_Hello S_Controller S_Parent.
Local Open Scope Z_scope.

(** The name a helper socket should have: that of the datapath, if known; 0 is
    no datapath. *)
Definition name_of (datapath : option Z) : option Z :=
  match datapath with Some 0 | None => None | Some d => Some d end.

(** All FEATURES_REPLYs of a history come from datapath [d]. *)
Definition same_switch (d : Z) (os : list nop) : Prop :=
  Forall (fun o => match o with NRecv m _ => byte_at m 1 = 6 -> u64_at m 8 = d | _ => True end) os.

(** A FEATURES_REPLY has been received. *)
Definition known (os : list nop) : bool :=
  existsb (fun o => match o with NRecv m _ => byte_at m 1 =? 6 | _ => false end) os.
(** A HELLO has been received. *)
Definition said_hello (os : list nop) : bool :=
  existsb (fun o => match o with NRecv [] _ => false | NRecv m _ => is_hello m | _ => false end) os.
