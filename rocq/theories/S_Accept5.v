(** Specification vocabulary for C120: the byte strings the parser of OpenFlow
    1.4 takes, and what it returns for them, as a grammar in the words of
    S_Accept4.v and in the form of tables: the type of a structure tells what
    the structure is.  No formats, no cursor, no loops, no exceptions. *)

From Coq Require Import String.
From Verif Require Import Py Struct S_Accept4.
Local Open Scope Z_scope.
Local Open Scope list_scope.

(** What may stand at an offset: the value it is and the offset where reading
    goes on. *)
Definition rel : Type := nat -> pyval -> nat -> Prop.
Definition nothing : rel := fun _ _ _ => False.

(** A table of types; [d] for the types that are not in it. *)
Fixpoint choose (ty : Z) (l : list (list Z * rel)) (d : rel) : rel :=
  match l with
  | [] => d
  | (tys, R) :: l' => fun off v o => (In ty tys /\ R off v o) \/ (~ In ty tys /\ choose ty l' d off v o)
  end.

(** The type is the first field, a length of two bytes follows it. *)
Definition typed (m : bytes) (off : nat) (ty : Z) : Prop := exists len o, here m off [N 2; N 2] [VInt ty; VInt len] o.
Definition by_type (m : bytes) (l : list (list Z * rel)) : rel :=
  fun off v o => exists ty, typed m off ty /\ choose ty l nothing off v o.

(** A structure of a type, a length, other fields, and data: the bytes from
    [first] to where the length says; reading goes on at [stop].  Both are
    given by the start of the structure, the end of its fields, its length. *)
Definition place : Type := nat -> nat -> Z -> nat.
Definition at_start : place := fun off _ _ => off.
Definition after_fields : place := fun _ o _ => o.
Definition at_end : place := fun off _ len => end_ off len.
Definition at_padded_end : place := fun off _ len => end_ off (up8 len).
(** ... the padding is skipped but not the data. *)
Definition after_padding : place := fun _ o len => (o + Z.to_nat (up8 len - len))%nat.
Definition with_data (cls : string) (fs : list fld) (first stop : place) (m : bytes) : rel := fun off v o =>
  exists ty len vs o', here m off (N 2 :: N 2 :: fs) (VInt ty :: VInt len :: vs) o' /\
    v = VTup cls (VInt ty :: VInt len :: vs ++ [VBytes (slice m (first off o' len) (end_ off len))]) /\ o = stop off o' len.

(** A list that need not end where its structure does ([with_list]: it does). *)
Definition with_many (cls : string) (fs : list fld) (k : nat) (R : rel) (m : bytes) : rel := fun off v o =>
  exists len vs o' l, here m off fs vs o' /\ nth_error vs k = Some (VInt len) /\ many R (end_ off len) o' l o /\
    v = VTup cls (vs ++ [VList l]).

(** *** Actions, instructions, buckets (7.2.3 to 7.2.5) *)

(** Set MPLS TTL (15) is never taken; nor is a type that is not in the table. *)
Definition an_action (m : bytes) : rel := by_type m
  [ ([0], plain_struct "ofp_action_output" [N 2; N 2; N 4; N 2; G 6] m);
    ([22], plain_struct "ofp_action_group" [N 2; N 2; N 4] m);
    ([21], plain_struct "ofp_action_set_queue" [N 2; N 2; N 4] m);
    ([15], nothing);
    ([23], plain_struct "ofp_action_nw_ttl" [N 2; N 2; N 1; G 3] m);
    ([17; 19; 26], plain_struct "ofp_action_push" [N 2; N 2; N 2; G 2] m);
    ([20], plain_struct "ofp_action_pop_mpls" [N 2; N 2; N 2; G 2] m);
    ([25], with_data "ofp_action_set_field" [] after_fields at_end m);
    ([65535], with_data "ofp_action_experimenter_" [N 4] after_fields at_end m);
    ([11; 12; 16; 24; 18; 27], plain_struct "ofp_action_generic" [N 2; N 2; G 4] m) ].

Definition an_instruction (m : bytes) : rel := by_type m
  [ ([1], plain_struct "ofp_instruction_goto_table" [N 2; N 2; N 1; G 3] m);
    ([2], plain_struct "ofp_instruction_write_metadata" [N 2; N 2; G 4; N 8; N 8] m);
    ([3; 4; 5], with_list "ofp_instruction_actions" [N 2; N 2; G 4] 1 (an_action m) m);
    ([6], plain_struct "ofp_instruction_meter" [N 2; N 2; N 4] m);
    ([65535], with_data "ofp_instruction_experimenter_" [N 4] after_fields at_end m) ].

Definition a_bucket (m : bytes) : rel := with_many "ofp_bucket" [N 2; N 2; N 4; N 4; G 4] 0 (an_action m) m.

(** *** Ports (7.2.1): what is returned for a port is its first property. *)
Definition a_port_prop (m : bytes) : rel := by_type m
  [ ([0], plain_struct "ofp_port_desc_prop_ethernet" ([N 2; N 2; G 4] ++ repeat (N 4) 6) m);
    ([1], plain_struct "ofp_port_desc_prop_optical" ([N 2; N 2; G 4] ++ repeat (N 4) 7 ++ [N 2; N 2]) m);
    ([65535], with_data "ofp_port_desc_prop_experimenter" [N 4; N 4] after_fields at_end m) ].
Definition a_port (m : bytes) : rel := fun off v o =>
  exists no len vs o', here m off [N 4; N 2; G 2; T 6; G 2; T 16; N 4; N 4] (VInt no :: VInt len :: vs) o' /\
    (o' < end_ off len)%nat /\ a_port_prop m o' v o.

(** *** Properties of requests that change tables and ports *)
Definition table_mod_prop (m : bytes) : rel := by_type m
  [ ([2], plain_struct "ofp_table_mod_prop_eviction" [N 2; N 2; N 4] m);
    ([3], plain_struct "ofp_table_mod_prop_vacancy" [N 2; N 2; N 1; N 1; N 1; G 1] m);
    ([65535], with_data "ofp_table_mod_prop_experimenter" [N 4; N 4] after_fields at_padded_end m) ].

(** Numbers with a sign, on four bytes. *)
Definition signed4 (z : Z) : Z := if z <? 2 ^ 31 then z else z - 2 ^ 32.
Definition port_mod_optical (m : bytes) : rel := fun off v o =>
  exists ty len c f s g p, here m off (N 2 :: N 2 :: repeat (N 4) 5) [ty; len; c; f; VInt s; g; p] o /\
    v = VTup "ofp_port_mod_prop_optical" [ty; len; c; f; VInt (signed4 s); g; p].
(** The data of an experimenter's begins with the property itself. *)
Definition port_mod_prop (m : bytes) : rel := by_type m
  [ ([0], plain_struct "ofp_port_mod_prop_ethernet" [N 2; N 2; N 4] m);
    ([1], port_mod_optical m);
    ([65535], with_data "ofp_port_mod_prop_experimenter" [N 4; N 4] at_start at_padded_end m) ].

(** *** Bodies of multipart messages (7.3.5) *)

(** Of an identifier of an instruction the header is skipped, not the data. *)
Definition an_instruction_id (m : bytes) : rel := with_data "ofp_instruction_id" [] after_fields after_fields m.
Definition feature_instructions (m : bytes) : rel := fun off v o =>
  exists ty len o' l, here m off [N 2; N 2] [VInt ty; VInt len] o' /\ filling (an_instruction_id m) (end_ off len) o' l /\
    v = VTup "ofp_table_feature_prop_instructions" [VInt ty; VInt len; VList l] /\ o = end_ off (up8 len).
(** The tables are read from the start of the property. *)
Definition feature_tables (m : bytes) : rel := fun off v o =>
  exists ty len o' ids o'', here m off [N 2; N 2] [VInt ty; VInt len] o' /\ 4 <= len /\
    here m off (repeat (N 1) (Z.to_nat (len - 4))) ids o'' /\
    v = VTup "ofp_table_feature_prop_tables" [VInt ty; VInt len; VTup "tuple" ids] /\ o = after_padding off o' len.
Definition feature_oxm (m : bytes) : rel := fun off v o =>
  exists ty len ids o', 4 <= len /\ here m off ([N 2; N 2] ++ repeat (N 4) (Z.to_nat (len / 4 - 1))) ([VInt ty; VInt len] ++ ids) o' /\
    v = VTup "ofp_table_feature_prop_oxm" [VInt ty; VInt len; VTup "tuple" ids] /\ o = after_padding off o' len.
(** Actions (4 to 7) are never taken. *)
Definition feature_prop (m : bytes) : rel := by_type m
  [ ([0; 1], feature_instructions m);
    ([2; 3; 14], feature_tables m);
    ([4; 5; 6; 7], nothing);
    ([8; 9; 10; 11; 12; 13], feature_oxm m);
    ([65534; 65535], with_data "ofp_table_feature_prop_experimenter" [N 4; N 4] after_fields after_padding m) ].
(** A name ends with the first zero or with its field. *)
Definition name_of (field name : bytes) : Prop := ~ In 0 name /\ exists r, field = name ++ r /\ (r = [] \/ exists r', r = 0 :: r').
Definition table_features (m : bytes) : rel := fun off v o =>
  exists len t f nm vs o' ps, here m off [N 2; N 1; G 5; T 32; N 8; N 8; N 4; N 4] (VInt len :: t :: VBytes f :: vs) o' /\
    name_of f nm /\ many (feature_prop m) (end_ off len) o' ps o /\
    v = VTup "ofp_table_feature_prop_header" (VInt len :: t :: VBytes nm :: vs ++ [VList ps]).

Definition flow_stats (m : bytes) : rel := fun off v o =>
  exists len vs o1 mt o2 is,
    here m off [N 2; N 1; G 1; N 4; N 4; N 2; N 2; N 2; N 2; G 4; N 8; N 8; N 8] (VInt len :: vs) o1 /\
    a_match m o1 mt o2 /\ o = end_ off len /\ filling (an_instruction m) o o2 is /\
    v = VTup "ofp_flow_stats" (VInt len :: vs ++ [mt; VList is]).

Definition queue_desc_prop (m : bytes) : rel := by_type m
  [ ([1], plain_struct "ofp_queue_desc_prop_min_rate" [N 2; N 2; N 2; G 2] m);
    ([2], plain_struct "ofp_queue_desc_prop_max_rate" [N 2; N 2; N 2; G 2] m);
    ([65535], with_data "ofp_queue_desc_prop_experimenter" [N 4; N 4] after_fields at_padded_end m) ].

Definition monitor_request (m : bytes) : rel := fun off v o =>
  exists vs o' mt, here m off [N 4; N 4; N 4; N 2; N 1; N 1] vs o' /\ a_match m o' mt o /\ v = VTup "ofp_flow_monitor_request" (vs ++ [mt]).

Definition group_features (m : bytes) : rel := fun off v o =>
  exists t c g1 g2 g3 g4 a1 a2 a3 a4, here m off (repeat (N 4) 10) [t; c; g1; g2; g3; g4; a1; a2; a3; a4] o /\
    v = VTup "ofp_group_features" [t; c; VTup "tuple" [g1; g2; g3; g4]; VTup "tuple" [a1; a2; a3; a4]].

(** The message ends at [e].  Of statistics and configuration of meters (9, 10)
    no request is taken. *)
Definition requests (m : bytes) (e : nat) : list (list Z * rel) :=
  [ ([0; 3; 7; 8; 11; 13; 14], fun off v o => v = VBytes [] /\ o = off);
    ([1], match_request "ofp_flow_stats_request" m);
    ([2], match_request "ofp_aggregate_stats_request" m);
    ([4], plain_struct "ofp_port_stats_request" [N 4; G 4] m);
    ([5], plain_struct "ofp_queue_stats_request" [N 4; N 4] m);
    ([6], plain_struct "ofp_group_stats_request" [N 4; G 4] m);
    ([9; 10], nothing);
    ([15], plain_struct "ofp_queue_desc_request" [N 4; N 4] m);
    ([16], monitor_request m);
    ([12], fun off v o => exists l, many (table_features m) e off l o /\ v = VList l);
    ([65535], fun off v o => v = VBytes (slice m off e) /\ o = e) ].

(** A list up to the end of the message. *)
Definition all (R : rel) (e : nat) : rel := fun off v o => exists l, filling R e off l /\ v = VList l /\ o = e.
(** Statistics of tables, ports and queues (3, 4, 5) and descriptions of tables
    (14) are taken only if there are none. *)
Definition replies (m : bytes) (e : nat) : list (list Z * rel) :=
  [ ([0], plain_struct "ofp_desc" [T 256; T 256; T 256; T 32; T 256] m);
    ([1], all (flow_stats m) e);
    ([2], all (plain_struct "ofp_aggregate_stats_reply" [N 8; N 8; N 4; G 4] m) e);
    ([3], all nothing e);
    ([4], all nothing e);
    ([5], all nothing e);
    ([6], all (with_list "ofp_group_stats" [N 2; G 2; N 4; N 4; G 4; N 8; N 8; N 4; N 4] 0 (plain_struct "ofp_bucket_counter" [N 8; N 8] m) m) e);
    ([7], all (with_list "ofp_group_desc" [N 2; N 1; G 1; N 4] 0 (a_bucket m) m) e);
    ([8], group_features m);
    ([9], all (with_list "ofp_meter_stats" [N 4; N 2; G 6; N 4; N 8; N 8; N 4; N 4] 1 (plain_struct "ofp_meter_band_stats" [N 8; N 8] m) m) e);
    ([10], all (with_list "ofp_meter_config" [N 2; N 2; N 4] 0 (a_band m) m) e);
    ([11], plain_struct "ofp_meter_features" [N 4; N 4; N 4; N 1; N 1; G 2] m);
    ([12], all (table_features m) e);
    ([13], all (a_port m) e);
    ([14], all nothing e);
    ([15], all (with_many "ofp_queue_desc" [N 4; N 4; N 2; G 6] 2 (queue_desc_prop m) m) e);
    ([16], all (plain_struct "ofp_flow_update_header" [N 2; N 2] m) e);
    ([65535], fun off v o => exists vs o', here m off [N 4; N 4] vs o' /\
       v = VTup "ofp_experimenter_multipart_" (vs ++ [VBytes (slice m o' e)]) /\ o = e) ].

(** *** Messages: [h] is the header, [e] the end it announces, [inner] the
    messages that may stand in this one; offsets are those of the header. *)

Definition header (m : bytes) (off : nat) (ty len : Z) (h : pyval) : Prop :=
  exists xid o, here m off [N 1; N 1; N 2; N 4] [VInt 5; VInt ty; VInt len; VInt xid] o /\
    h = VTup "ofp_header" [VInt 5; VInt ty; VInt len; VInt xid].

Section bodies.
Variables (m : bytes) (h : pyval) (e : nat) (inner : rel).

Definition simple (cls : string) (fs : list fld) : rel := fun off v o =>
  exists vs, here m (off + 8) fs vs o /\ v = VTup cls (h :: vs).
Definition with_rest (cls : string) (fs : list fld) : rel := fun off v o =>
  exists vs o', here m (off + 8) fs vs o' /\ v = VTup cls (h :: vs ++ [VBytes (slice m o' e)]) /\ o = e.
(** Fields and a list of what comes before the end of the message. *)
Definition listing (cls : string) (fs : list fld) (R : rel) : rel := fun off v o =>
  exists vs o' l, here m (off + 8) fs vs o' /\ many R e o' l o /\ v = VTup cls (h :: vs ++ [VList l]).

Definition hello : rel := fun off v o =>
  exists l, filling (hello_element m) e (off + 8) l /\ v = VTup "ofp_hello" [h; VList l] /\ o = e.
Definition features : rel := fun off v o =>
  exists d b t x c r, here m (off + 8) [N 8; N 4; N 1; N 1; G 2; N 4; N 4] [d; b; t; x; c; r] o /\ v = VTup "ofp_switch_features" [h; d; b; t; x; c].
Definition packet_in : rel := fun off v o =>
  exists vs o1 mt o2 o3, here m (off + 8) [N 4; N 2; N 1; N 1; N 8] vs o1 /\ a_match m o1 mt o2 /\ here m o2 [G 2] [] o3 /\
    v = VTup "ofp_packet_in" (h :: vs ++ [mt; VBytes (slice m o3 e)]) /\ o = e.
Definition flow_removed : rel := fun off v o =>
  exists vs o1 mt, here m (off + 8) [N 8; N 2; N 1; N 1; N 4; N 4; N 2; N 2; N 8; N 8] vs o1 /\ a_match m o1 mt o /\
    v = VTup "ofp_flow_removed" (h :: vs ++ [mt]).
Definition port_status : rel := fun off v o =>
  exists r o1 p, here m (off + 8) [N 1; G 7] [r] o1 /\ a_port m o1 p o /\ v = VTup "ofp_port_status" [h; r; p].
Definition packet_out : rel := fun off v o =>
  exists b i len o1 acts o2, here m (off + 8) [N 4; N 4; N 2; G 6] [b; i; VInt len] o1 /\ many (an_action m) (end_ o1 len) o1 acts o2 /\
    v = VTup "ofp_packet_out" [h; b; i; VInt len; VList acts; VBytes (slice m o2 e)] /\ o = e.
Definition flow_mod : rel := fun off v o =>
  exists vs o1 mt o2 is, here m (off + 8) [N 8; N 8; N 1; N 1; N 2; N 2; N 2; N 4; N 4; N 4; N 2; N 2] vs o1 /\ a_match m o1 mt o2 /\
    filling (an_instruction m) e o2 is /\ v = VTup "ofp_flow_mod" (h :: vs ++ [mt; VList is]) /\ o = e.
(** The fields of a port modification are read from its header on, and the
    properties begin after the header. *)
Definition port_mod : rel := fun off v o =>
  exists vs o1 l, here m off [N 4; G 4; T 6; G 2; N 4; N 4] vs o1 /\ many (port_mod_prop m) e (off + 8) l o /\
    v = VTup "ofp_port_mod" (h :: vs ++ [VList l]).
Definition request : rel := fun off v o =>
  exists ty fl o1 b, here m (off + 8) [N 2; N 2; G 4] [VInt ty; VInt fl] o1 /\ choose ty (requests m e) nothing o1 b o /\
    v = VTup "ofp_multipart_request" [h; VInt ty; VInt fl; b].
Definition reply : rel := fun off v o =>
  exists ty fl o1 b, here m (off + 8) [N 2; N 2; G 4] [VInt ty; VInt fl] o1 /\ choose ty (replies m e) nothing o1 b o /\
    v = VTup "ofp_multipart_reply" [h; VInt ty; VInt fl; b].
Definition async_prop : rel := by_type m [ ([0; 1; 2; 3; 4; 5; 6; 7; 10; 11], plain_struct "ofp_async_config_prop_reasons" [N 2; N 2; N 4] m) ].
(** The fields of a role status are read from its header on; no property is
    taken. *)
Definition role_status : rel := fun off v o =>
  exists vs o1, here m off [N 4; N 1; G 3; N 8] vs o1 /\ (e <= off + 8)%nat /\ v = VTup "ofp_role_status" (h :: vs ++ [VList []]) /\ o = (off + 8)%nat.
Definition forwarded : rel := fun off v o =>
  exists v', inner (off + 8)%nat v' o /\ v = VTup "ofp_requestforward_" [h; v'].
(** The message added to a bundle must fill the one that adds it: no property
    is taken. *)
Definition bundle_add : rel := fun off v o =>
  exists vs o1 v', here m (off + 8) [N 4; G 2; N 2] vs o1 /\ inner o1 v' o /\ (e <= o)%nat /\
    v = VTup "ofp_bundle_add_msg" (h :: vs ++ [v'; VList []]).
Definition other : rel := fun off v o => v = VTup "ofp_" [h; VBytes (slice m (off + 8) e)] /\ o = e.

Definition bodies : list (list Z * rel) :=
  [ ([0], hello);
    ([1], with_rest "ofp_error_msg" [N 2; N 2]);
    ([6], features);
    ([9; 8], simple "ofp_switch_config" [N 2; N 2]);
    ([10], packet_in);
    ([11], flow_removed);
    ([12], port_status);
    ([13], packet_out);
    ([14], flow_mod);
    ([15], listing "ofp_group_mod" [N 2; N 1; G 1; N 4] (a_bucket m));
    ([16], port_mod);
    ([17], listing "ofp_table_mod" [N 1; G 3; N 4] (table_mod_prop m));
    ([18], request);
    ([19], reply);
    ([4], with_rest "ofp_experimenter_msg" [N 4; N 4]);
    ([28; 27], listing "ofp_async_config" [] async_prop);
    ([29], listing "ofp_meter_mod" [N 2; N 2; N 4] (a_band m));
    ([30], role_status);
    ([31], nothing);
    ([32], forwarded);
    ([33], listing "ofp_bundle_ctrl_msg" [N 4; N 2; N 2] nothing);
    ([34], bundle_add) ].
End bodies.

(** A message that holds messages at most [d - 1] deep. *)
Fixpoint message (d : nat) (m : bytes) : rel :=
  match d with
  | O => nothing
  | S d' => fun off v o => exists ty len h, header m off ty len h /\
      choose ty (bodies m h (end_ off len) (message d' m)) (other m h (end_ off len)) off v o
  end.
Definition a_message (m : bytes) : rel := fun off v o => exists d, message d m off v o.
