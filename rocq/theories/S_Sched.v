(** Specification vocabulary for starting and stopping servers. *)

From Verif Require Import Py M_Sched.
Local Open Scope Z_scope.

(** The servers started, and those stopped, in order. *)
Fixpoint started (t : list sev) : list nat :=
  match t with [] => [] | EvStart i :: t' => i :: started t' | _ :: t' => started t' end.
Fixpoint stopped (t : list sev) : list nat :=
  match t with [] => [] | EvStop i :: t' => i :: stopped t' | _ :: t' => stopped t' end.

(** Nothing is stopped before everything was started. *)
Definition starts_before_stops (t : list sev) : Prop :=
  exists a b, t = a ++ b /\ stopped a = [] /\ started b = [].
