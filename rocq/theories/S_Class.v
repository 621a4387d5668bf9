(** Specifications for the class hierarchy, in terms of the class statements. *)

From Coq Require Import String Bool List.
From Verif Require Import M_Class.
Import ListNotations.
Local Open Scope string_scope.
Local Open Scope list_scope.

(** [Sub l r]: [r] contains [l] in the same order. *)
Inductive Sub : list string -> list string -> Prop :=
| Sub_nil : forall r, Sub [] r
| Sub_skip : forall x l r, Sub l r -> Sub l (x :: r)
| Sub_take : forall x l r, Sub l r -> Sub (x :: l) (x :: r).

(** [a] stands before [b]. *)
Definition before (l : list string) (a b : string) : Prop :=
  exists l1 l2 l3, l = l1 ++ a :: l2 ++ b :: l3.

(** The list up to the first [x], which is included. *)
Fixpoint upto (x : string) (l : list string) : list string :=
  match l with
  | [] => []
  | y :: r => if String.eqb y x then [y] else y :: upto x r
  end.

(** [anc t a b]: [b] is [a] or one of its bases, or theirs. *)
Inductive anc (t : ctab) : string -> string -> Prop :=
| anc_refl : forall c m, In (c, m) t -> anc t (c_name c) (c_name c)
| anc_base : forall c m b x, In (c, m) t -> In b (c_bases c) -> anc t b x -> anc t (c_name c) x.

(** Tables of classes that can come to be: class statements that Python
    accepts, one after the other. *)
Definition accepted (l : list cls) (t : ctab) : Prop := define_all repo_tab l = Some t.

(** A class of the application: where it overrides [a], it calls
    super(itself, self).a. *)
Definition cooperative (a : string) (c : cls) : Prop :=
  In a (c_attrs c) -> forall k, In (a, (k, a)) (c_supers c) <-> k = c_name c.

(** The methods that the classes of the repository extend step by step, each
    with the class that starts. *)
Definition root_of (a : string) : option string :=
  if String.eqb a "__init__" then Some "Channel"
  else if String.eqb a "send" then Some "Channel"
  else if String.eqb a "close" then Some "Channel"
  else if String.eqb a "recv" then Some "OpenflowBaseChannel"
  else if String.eqb a "handle_proxy" then Some "OpenflowServerChannel"
  else None.

(** What code reads from self without any class or __init__ of its ancestors
    giving it. *)
Definition loose_ends : list (string * string) :=
  [("WeakCallbackCaller", "cbref"); ("ControllerChannel", "handle_async"); ("ParallelChannel", "datapath");
   ("OvsChannel", "temp_server")].

(** Queue elements (base.py:356-370) are no channels: their __init__ calls nobody. *)
Definition no_element (t : ctab) (d : string) : Prop :=
  ~ In "Barrier" (mro t d) /\ ~ In "Chunk" (mro t d).

(** The application's classes leave the method [a] alone. *)
Definition no_override (a : string) (l : list cls) : Prop := Forall (fun c => ~ In a (c_attrs c)) l.
