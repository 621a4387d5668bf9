(** Specification vocabulary for C121: what the parsers take that nothing in
    the library calls, or that always raise an exception, in the words of
    S_Accept4.v and S_Accept5.v. *)

From Coq Require Import String.
From Verif Require Import Py Struct S_Accept4 S_Accept5.
Local Open Scope Z_scope.
Local Open Scope list_scope.

(** A parser (with fuel for its loops) takes exactly these structures. *)
Definition takes (p : nat -> bytes -> nat -> res (pyval * nat)) (R : bytes -> rel) : Prop :=
  forall m off v o, bytes_ok m ->
    (forall n, p n m off = Ok (v, o) -> R m off v o) /\
    (R m off v o -> exists k, forall n, (k <= n)%nat -> p n m off = Ok (v, o)).

(** A parser always raises [e], or struct.error if fewer than [k] bytes are
    left. *)
Definition raises (p : bytes -> nat -> res (pyval * nat)) (k : nat) (e : exn) : Prop :=
  forall m off, ((off + k <= length m)%nat -> p m off = Err e) /\ ((length m < off + k)%nat -> p m off = Err StructError).

(** *** OpenFlow 1.3 *)

Definition queue_rate (cls : string) (m : bytes) : rel := fun off v o =>
  exists ty len r, here m off [N 2; N 2; G 4; N 2; G 6] [ty; len; r] o /\ v = VTup cls [VTup "ofp_queue_prop_header" [ty; len]; r].
Definition queue_experimenter (m : bytes) : rel := fun off v o =>
  exists ty len x o', here m off [N 2; N 2; G 4; N 4; G 4] [ty; VInt len; x] o' /\
    v = VTup "ofp_queue_prop_experimenter" [VTup "ofp_queue_prop_header" [ty; VInt len]; x; VBytes (slice m o' (end_ off len))] /\ o = end_ off len.
(** A property whose list of instructions or of actions is empty. *)
Definition feature_empty (cls : string) (m : bytes) : rel := fun off v o =>
  exists ty len o', here m off [N 2; N 2] [ty; VInt len] o' /\ len <= 4 /\ v = VTup cls [ty; VInt len; VList []] /\ o = after_padding off o' len.
(** The tables are read from the start of the property. *)
Definition feature_next_tables (m : bytes) : rel := fun off v o =>
  exists ty len o' ids o'', here m off [N 2; N 2] [VInt ty; VInt len] o' /\ 4 <= len /\
    here m off (repeat (N 1) (Z.to_nat (len - 4))) ids o'' /\
    v = VTup "ofp_table_feature_prop_next_tables" [VInt ty; VInt len; VTup "tuple" ids] /\ o = after_padding off o' len.

(** *** OpenFlow 1.4 *)

Definition instruction_experimenter_header (m : bytes) : rel := fun off v o =>
  exists ty len x o', here m off [N 2; N 2; N 4] [ty; VInt len; x] o' /\
    v = VTup "ofp_instruction_experimenter_header" [ty; VInt len; x] /\ o = end_ off len.
(** The name is that of a request; the word of zeros is not returned; the
    instructions go on while they begin before the end. *)
Definition flow_update_full (m : bytes) : rel := fun off v o =>
  exists len a b c d e f g o1 mt o2 is, here m off [N 2; N 2; N 1; N 1; N 2; N 2; N 2; N 4; N 8] [VInt len; a; b; c; d; e; f; VInt 0; g] o1 /\
    a_match m o1 mt o2 /\ many (an_instruction m) (end_ off len) o2 is o /\
    v = VTup "ofp_flow_monitor_request" [VInt len; a; b; c; d; e; f; g; mt; VList is].
Definition flow_update_paused (m : bytes) : rel := fun off v o =>
  exists l e, here m off [N 2; N 2; N 4] [l; e; VInt 0] o /\ v = VTup "ofp_flow_update_paused" [l; e].
Definition role_request (m : bytes) : rel := fun off v o =>
  exists ty len h, header m off ty len h /\ simple m h "ofp_role_request" [N 4; G 4; N 8] off v o.
Definition two_headers (m : bytes) : rel := fun off v o =>
  exists ty len h ty' len' h', header m off ty len h /\ header m (off + 8) ty' len' h' /\ v = VTup "ofp_requestforward_header" [h; h'] /\ o = (off + 16)%nat.
Definition error_experimenter (m : bytes) : rel := fun off v o =>
  exists ty len h, header m off ty len h /\ with_rest m h (end_ off len) "ofp_error_experimenter_msg" [N 2; N 2; N 4] off v o.

(** Properties of statistics. *)
Definition port_stats_prop (m : bytes) : rel := by_type m
  [ ([0], plain_struct "ofp_port_stats_prop_ethernet" ([N 2; N 2; G 4] ++ repeat (N 8) 4) m);
    ([1], plain_struct "ofp_port_stats_prop_optical" ([N 2; N 2; G 4] ++ repeat (N 4) 7 ++ repeat (N 2) 4) m);
    ([65535], with_data "ofp_port_stats_experimenter" [N 4; N 4] after_fields at_padded_end m) ].
Definition queue_stats_prop (m : bytes) : rel := by_type m
  [ ([65535], with_data "ofp_queue_stats_prop_experimenter" [N 4; N 4] after_fields at_padded_end m) ].

(** Statistics that could be read: a length first, other fields, properties. *)
Definition readable (fs : list fld) (R : rel) (m : bytes) (off : nat) : Prop :=
  exists len vs o' l o, here m off fs (VInt len :: vs) o' /\ many R (end_ off len) o' l o.
Definition port_stats_fields : list fld := [N 2; G 2; N 4; N 4; N 4] ++ repeat (N 8) 12 ++ [N 4; N 4].
Definition queue_stats_fields : list fld := [N 2; G 6; N 4; N 4; N 8; N 8; N 8; N 4; N 4].

(** A property of a role status (OpenFlow 1.4): its type is that at [off], what
    is returned is what begins at [start], and the cursor stays. *)
Definition role_property (start : nat) (m : bytes) : rel := fun off v o =>
  typed m off 65535 /\ o = off /\
  exists ty len x t o', here m start [N 2; N 2; N 4; N 4] [ty; VInt len; x; t] o' /\
    v = VTup "ofp_role_prop_experimenter" [ty; VInt len; x; t; VBytes (slice m start (end_ start len))].
