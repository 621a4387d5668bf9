(** Specification for C109: queues with properties, OpenFlow 1.3 (7.2.2). *)

From Verif Require Import Py Struct S_Hello S_Ports S_Wire4.
Local Open Scope Z_scope.
Local Open Scope list_scope.

(** A property: a rate in tenths of a percent, or an experimenter's bytes. *)
Inductive qprop : Type :=
| QMin (rate : Z)
| QMax (rate : Z)
| QExp (experimenter : Z) (data : bytes).

Definition qprop_type (p : qprop) : Z := match p with QMin _ => 1 | QMax _ => 2 | QExp _ _ => 65535 end.
Definition qprop_body (p : qprop) : list fld :=
  match p with QMin r | QMax r => [U 2 r; P 6] | QExp e d => [U 4 e; P 4; R d] end.
Definition qprop_size (p : qprop) : Z := match p with QMin _ | QMax _ => 16 | QExp _ d => 16 + zlen d end.

(** Type, length of the whole property, four bytes of padding, then the rest. *)
Definition qprop_fields (p : qprop) : list fld := [U 2 (qprop_type p); U 2 (qprop_size p); P 4] ++ qprop_body p.
Definition qprop_wire (p : qprop) : bytes := enc (qprop_fields p).
Definition qprops_wire (ps : list qprop) : bytes := concat (map qprop_wire ps).

Record pqueue : Type := PQueue { q_id : Z; q_port : Z; q_props : list qprop }.
Definition pqueue_fields (q : pqueue) : list fld :=
  [U 4 (q_id q); U 4 (q_port q); U 2 (16 + zlen (qprops_wire (q_props q))); P 6; R (qprops_wire (q_props q))].
Definition pqueue_wire (q : pqueue) : bytes := enc (pqueue_fields q).
Definition pqueue_ok (q : pqueue) : Prop := fits (pqueue_fields q) /\ Forall (fun p => fits (qprop_fields p)) (q_props q).

(** What a caller may write for the header of a property: nothing, a pair whose
    type may be open, or bytes; the length given does not matter. *)
Inductive qhdr_arg (ty : Z) : pyval -> Prop :=
| QH_none : qhdr_arg ty VNone
| QH_tup c t l : type_arg t ty -> qhdr_arg ty (VTup c [t; l])
| QH_list t l : type_arg t ty -> qhdr_arg ty (VList [t; l])
| QH_bytes l rest : u16 l -> qhdr_arg ty (VBytes (enc [U 2 ty; U 2 l] ++ rest)).

Inductive qprop_arg : pyval -> qprop -> Prop :=
| QP_bytes p : qprop_arg (VBytes (qprop_wire p)) p
| QP_min h r : qhdr_arg 1 h -> qprop_arg (VTup "ofp_queue_prop_min_rate" [h; VInt r]) (QMin r)
| QP_max h r : qhdr_arg 2 h -> qprop_arg (VTup "ofp_queue_prop_max_rate" [h; VInt r]) (QMax r)
| QP_exp h e d : qhdr_arg 65535 h -> qprop_arg (VTup "ofp_queue_prop_experimenter" [h; VInt e; VBytes d]) (QExp e d).

Inductive pqueue_arg : pyval -> pqueue -> Prop :=
| PQ_bytes q : pqueue_arg (VBytes (pqueue_wire q)) q
| PQ_obj i p n v ps : list_arg qprop_arg qprop_wire v ps ->
    pqueue_arg (VTup "ofp_packet_queue" [VInt i; VInt p; n; v]) (PQueue i p ps).

(** What the parser of a property is to return: the header, then the values. *)
Definition qprop_view (p : qprop) : pyval :=
  VTup (match p with QMin _ => "ofp_queue_prop_min_rate" | QMax _ => "ofp_queue_prop_max_rate" | QExp _ _ => "ofp_queue_prop_experimenter" end)
    (VTup "ofp_queue_prop_header" [VInt (qprop_type p); VInt (qprop_size p)] :: vals (qprop_body p)).
