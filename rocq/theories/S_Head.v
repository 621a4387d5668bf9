(** Specification for C108: what the header argument of a message builder
    decides.  The numbers are those of enum ofp_type of the OpenFlow 1.3 and
    1.4 specifications. *)

From Verif Require Import Py S_Hello.
From Coq Require Import String List.
Import ListNotations.
Local Open Scope Z_scope.
Local Open Scope list_scope.

(** A field of a header tuple: None leaves it open. *)
Inductive field_says : pyval -> option Z -> Prop :=
| FS_open : field_says VNone None
| FS_given z : field_says (VInt z) (Some z).

(** The version, the type and the transaction id a header argument asks for;
    [dx] is the transaction id drawn for messages that name none. *)
Inductive header_says (dx : Z) : pyval -> option Z -> option Z -> Z -> Prop :=
| HS_none : header_says dx VNone None None dx
| HS_bytes h : (8 <= length h)%nat -> header_says dx (VBytes h) (Some (byte_at h 0)) (Some (byte_at h 1)) (u32_at h 4)
| HS_tuple c v t l x ov ot ox :
    field_says v ov -> field_says t ot -> field_says x ox ->
    header_says dx (VTup c [v; t; l; x]) ov ot (match ox with Some z => z | None => dx end).

(** The types each builder's messages may have, OpenFlow 1.3 ... *)
Definition message_types4 : list (string * list Z) :=
  [ ("ofp_hello"%string, [0]); ("ofp_error_msg"%string, [1]); ("ofp_experimenter_header"%string, [4]);
    ("ofp_switch_features"%string, [6]); ("ofp_switch_config"%string, [8; 9]); ("ofp_packet_in"%string, [10]);
    ("ofp_flow_removed"%string, [11]); ("ofp_port_status"%string, [12]); ("ofp_packet_out"%string, [13]);
    ("ofp_flow_mod"%string, [14]); ("ofp_group_mod"%string, [15]); ("ofp_port_mod"%string, [16]);
    ("ofp_table_mod"%string, [17]); ("ofp_multipart_request"%string, [18]); ("ofp_multipart_reply"%string, [19]);
    ("ofp_queue_get_config_request"%string, [22]); ("ofp_queue_get_config_reply"%string, [23]);
    ("ofp_role_request"%string, [24; 25]); ("ofp_async_config"%string, [27; 28]); ("ofp_meter_mod"%string, [29]) ].

(** ... and 1.4. *)
Definition message_types5 : list (string * list Z) :=
  [ ("ofp_hello"%string, [0]); ("ofp_error_msg"%string, [1]); ("ofp_error_experimenter_msg"%string, [1]);
    ("ofp_experimenter_msg"%string, [4]); ("ofp_switch_features"%string, [6]); ("ofp_switch_config"%string, [8; 9]);
    ("ofp_packet_in"%string, [10]); ("ofp_flow_removed"%string, [11]); ("ofp_port_status"%string, [12]);
    ("ofp_packet_out"%string, [13]); ("ofp_flow_mod"%string, [14]); ("ofp_group_mod"%string, [15]);
    ("ofp_port_mod"%string, [16]); ("ofp_table_mod"%string, [17]); ("ofp_multipart_request"%string, [18]);
    ("ofp_multipart_reply"%string, [19]); ("ofp_role_request"%string, [24; 25]); ("ofp_async_config"%string, [27; 28]);
    ("ofp_table_status"%string, [31]); ("ofp_requestforward_header"%string, [32]);
    ("ofp_bundle_ctrl_msg"%string, [33]); ("ofp_bundle_add_msg"%string, [34]) ].

(** A message whose header is what the header argument asks for: this version,
    a type of the list - the one asked for, or the only one of the list -
    and the transaction id. *)
Definition headed (dx version : Z) (types : list Z) (h : pyval) (b : bytes) : Prop :=
  exists v t x, header_says dx h v t x /\
    (v = None \/ v = Some version) /\ byte_at b 0 = version /\
    In (byte_at b 1) types /\ (t = Some (byte_at b 1) \/ t = None /\ types = [byte_at b 1]) /\
    u32_at b 4 = x.
