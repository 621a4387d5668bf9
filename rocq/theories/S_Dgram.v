(** Specification vocabulary for the datagram server. *)

From Verif Require Import Py M_Dgram.
Local Open Scope Z_scope.

(** The datagrams among the events, with their senders. *)
Fixpoint grams (vs : list dev) : list (bytes * addr) :=
  match vs with
  | [] => []
  | DvGram d a _ :: vs' => (d, a) :: grams vs'
  | _ :: vs' => grams vs'
  end.

(** Addresses in the order of their first datagram. *)
Fixpoint firsts (seen : list addr) (l : list addr) : list addr :=
  match l with
  | [] => seen
  | a :: l' => if existsb (Z.eqb a) seen then firsts seen l' else firsts (seen ++ [a]) l'
  end.

(** Events of a server that is not stopped and whose channels start. *)
Definition serving (v : dev) : Prop :=
  match v with
  | DvGram _ _ None => True
  | DvTimeout => True
  | _ => False
  end.

(** Job [j] carries datagram [d] to the channel made for sender [a]: the
    channel number is the position of [a] among the channels. *)
Definition job_for (chans : list addr) (j : job) (da : bytes * addr) : Prop :=
  j_data j = fst da /\ nth_error chans (j_ch j) = Some (snd da).
