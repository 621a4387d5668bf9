(** Specification vocabulary for C119: the byte strings the parser of OpenFlow
    1.3 takes, and what it returns for them, as a grammar.  No formats, no
    cursor, no loops, no exceptions: a structure is a sequence of fields; a
    list is a sequence of structures. *)

From Coq Require Import String.
From Verif Require Import Py Struct S_Name.
Local Open Scope Z_scope.
Local Open Scope list_scope.

(** A field: a number on [w] bytes, [n] bytes as they are, [n] bytes of any
    contents that are skipped. *)
Inductive fld : Type := N (w : nat) | T (n : nat) | G (n : nat).

(** Bytes showing these values. *)
Inductive shows : list fld -> list pyval -> bytes -> Prop :=
| show_nil : shows [] [] []
| show_num w fs z vs b : 0 <= z < 2 ^ (8 * Z.of_nat w) -> shows fs vs b -> shows (N w :: fs) (VInt z :: vs) (be w z ++ b)
| show_text n fs t vs b : length t = n -> shows fs vs b -> shows (T n :: fs) (VBytes t :: vs) (t ++ b)
| show_gap n fs p vs b : length p = n -> shows fs vs b -> shows (G n :: fs) vs (p ++ b).

(** Message [m] shows them from [off] up to [o]. *)
Definition here (m : bytes) (off : nat) (fs : list fld) (vs : list pyval) (o : nat) : Prop :=
  exists pre b post, m = pre ++ b ++ post /\ length pre = off /\ shows fs vs b /\ o = (off + length b)%nat.

(** A structure of these fields only. *)
Definition plain_struct (cls : string) (fs : list fld) (m : bytes) (off : nat) (v : pyval) (o : nat) : Prop :=
  exists vs, here m off fs vs o /\ v = VTup cls vs.

(** One structure after the other, the first at [off], each but the first
    beginning before [e], the last ending at [o]; none if [off] is not before
    [e]. *)
Inductive many (R : nat -> pyval -> nat -> Prop) (e : nat) : nat -> list pyval -> nat -> Prop :=
| many_none off : (e <= off)%nat -> many R e off [] off
| many_some off v o vs o' : (off < e)%nat -> R off v o -> many R e o vs o' -> many R e off (v :: vs) o'.

(** ... the last ending exactly where it should. *)
Definition filling (R : nat -> pyval -> nat -> Prop) (e off : nat) (vs : list pyval) : Prop := many R e off vs e.

(** Length fields count from the start of the structure. *)
Definition end_ (off : nat) (len : Z) : nat := (off + Z.to_nat len)%nat.
(** Padding to a multiple of eight. *)
Definition up8 (z : Z) : Z := (z + 7) / 8 * 8.

(** *** Matches, actions, instructions (7.2.2 to 7.2.5) *)

Definition a_match (m : bytes) (off : nat) (v : pyval) (o : nat) : Prop :=
  exists ty len o', here m off [N 2; N 2] [VInt ty; VInt len] o' /\
    v = VTup "ofp_match" [VInt ty; VInt len; VBytes (slice m (off + 4) (end_ off len))] /\ o = end_ off (up8 len).

(** The actions of fixed size: type, name, fields after type and length. *)
Definition action_table : list (Z * string * list fld) :=
  [ (0, "ofp_action_output"%string, [N 4; N 2; G 6]);
    (22, "ofp_action_group"%string, [N 4]);
    (21, "ofp_action_set_queue"%string, [N 4]);
    (23, "ofp_action_nw_ttl"%string, [N 1; G 3]);
    (17, "ofp_action_push"%string, [N 2; G 2]);
    (19, "ofp_action_push"%string, [N 2; G 2]);
    (26, "ofp_action_push"%string, [N 2; G 2]);
    (20, "ofp_action_pop_mpls"%string, [N 2; G 2]) ].

(** An action: at least eight bytes long, its type and length first.  One of
    fixed size is read by its type, whatever its length says; 25 is a set-field
    and 65535 an experimenter's, which end where the length says; 15 (set MPLS
    TTL) is never taken; every other type is a bare header. *)
Inductive an_action (m : bytes) (off : nat) : pyval -> nat -> Prop :=
| act_fixed ty cls fs v vs o :
    In (ty, cls, fs) action_table -> here m off (N 2 :: N 2 :: fs) (VInt ty :: vs) o ->
    v = VTup cls (VInt ty :: vs) -> an_action m off v o
| act_set_field len o8 :
    here m off [N 2; N 2; G 4] [VInt 25; VInt len] o8 ->
    an_action m off (VTup "ofp_action_set_field" [VInt 25; VInt len; VBytes (slice m (off + 4) (end_ off len))]) (end_ off len)
| act_experimenter len x o8 :
    here m off [N 2; N 2; N 4] [VInt 65535; VInt len; VInt x] o8 ->
    an_action m off (VTup "ofp_action_experimenter_" [VInt 65535; VInt len; VInt x; VBytes (slice m (off + 8) (end_ off len))]) (end_ off len)
| act_bare ty len o :
    ~ In ty [0; 15; 17; 19; 20; 21; 22; 23; 25; 26; 65535] -> here m off [N 2; N 2; G 4] [VInt ty; VInt len] o ->
    an_action m off (VTup "ofp_action_header" [VInt ty; VInt len]) o.

Inductive an_instruction (m : bytes) (off : nat) : pyval -> nat -> Prop :=
| ins_goto v len t o : here m off [N 2; N 2; N 1; G 3] [VInt 1; VInt len; VInt t] o ->
    v = VTup "ofp_instruction_goto_table" [VInt 1; VInt len; VInt t] -> an_instruction m off v o
| ins_metadata v len a b o : here m off [N 2; N 2; G 4; N 8; N 8] [VInt 2; VInt len; VInt a; VInt b] o ->
    v = VTup "ofp_instruction_write_metadata" [VInt 2; VInt len; VInt a; VInt b] -> an_instruction m off v o
| ins_actions v ty len acts o : In ty [3; 4; 5] -> here m off [N 2; N 2; G 4] [VInt ty; VInt len] o ->
    filling (an_action m) (end_ off len) o acts ->
    v = VTup "ofp_instruction_actions" [VInt ty; VInt len; VList acts] -> an_instruction m off v (end_ off len)
| ins_meter v len x o : here m off [N 2; N 2; N 4] [VInt 6; VInt len; VInt x] o ->
    v = VTup "ofp_instruction_meter" [VInt 6; VInt len; VInt x] -> an_instruction m off v o
| ins_experimenter v len x o : here m off [N 2; N 2; N 4] [VInt 65535; VInt len; VInt x] o ->
    v = VTup "ofp_instruction_experimenter" [VInt 65535; VInt len; VInt x; VBytes (slice m (off + 8) (end_ off len))] ->
    an_instruction m off v (end_ off len).

(** A bucket's actions need not end where the bucket does. *)
Definition a_bucket (m : bytes) (off : nat) (v : pyval) (o : nat) : Prop :=
  exists len w p g o' acts, here m off [N 2; N 2; N 4; N 4; G 4] [VInt len; VInt w; VInt p; VInt g] o' /\
    many (an_action m) (end_ off len) o' acts o /\ v = VTup "ofp_bucket" [VInt len; VInt w; VInt p; VInt g; VList acts].

(** An experimenter's band (65535) ends where it begins: what is read next is
    the same band again, so no list with one is ever finished ([many] has no
    infinite lists). *)
Inductive a_band (m : bytes) (off : nat) : pyval -> nat -> Prop :=
| band_drop v len r s o : here m off [N 2; N 2; N 4; N 4; G 4] [VInt 1; VInt len; VInt r; VInt s] o ->
    v = VTup "ofp_meter_band_drop" [VInt 1; VInt len; VInt r; VInt s] -> a_band m off v o
| band_remark v len r s p o : here m off [N 2; N 2; N 4; N 4; N 1; G 3] [VInt 2; VInt len; VInt r; VInt s; VInt p] o ->
    v = VTup "ofp_meter_band_dscp_remark" [VInt 2; VInt len; VInt r; VInt s; VInt p] -> a_band m off v o
| band_experimenter v len r s x o : here m off [N 2; N 2; N 4; N 4; N 4] [VInt 65535; VInt len; VInt r; VInt s; VInt x] o ->
    v = VTup "ofp_meter_band_experimenter" [VInt 65535; VInt len; VInt r; VInt s; VInt x; VBytes (slice m off (end_ off len))] ->
    a_band m off v off.

(** *** Ports and queues (7.2.1) *)

Definition a_port (m : bytes) (off : nat) (v : pyval) (o : nat) : Prop :=
  exists no hw nm cs ws, here m off ([N 4; G 4; T 6; G 2; T 16] ++ repeat (N 4) 8) ([VInt no; VBytes hw; VBytes nm] ++ ws) o /\
    spells nm cs /\ v = VTup "ofp_port" ([VInt no; VBytes hw; VText cs] ++ ws).

(** Queues without properties only. *)
Definition a_queue (m : bytes) (off : nat) (v : pyval) (o : nat) : Prop :=
  exists q p, here m off [N 4; N 4; N 2; G 6] [VInt q; VInt p; VInt 16] o /\
    v = VTup "ofp_packet_queue" [VInt q; VInt p; VInt 16; VList []].

(** *** Bodies of multipart messages (7.3.5) *)

Definition match_request (cls : string) (m : bytes) (off : nat) (v : pyval) (o : nat) : Prop :=
  exists vs o' mt, here m off [N 1; G 3; N 4; N 4; G 4; N 8; N 8] vs o' /\ a_match m o' mt o /\ v = VTup cls (vs ++ [mt]).

Inductive a_request (m : bytes) (e : nat) (off : nat) : Z -> pyval -> nat -> Prop :=
| req_empty ty : In ty [0; 3; 7; 8; 11; 13] -> a_request m e off ty (VBytes []) off
| req_flow v o : match_request "ofp_flow_stats_request" m off v o -> a_request m e off 1 v o
| req_aggregate v o : match_request "ofp_aggregate_stats_request" m off v o -> a_request m e off 2 v o
| req_port v o : plain_struct "ofp_port_stats_request" [N 4; G 4] m off v o -> a_request m e off 4 v o
| req_queue v o : plain_struct "ofp_queue_stats_request" [N 4; N 4] m off v o -> a_request m e off 5 v o
| req_group v o : plain_struct "ofp_group_stats_request" [N 4; G 4] m off v o -> a_request m e off 6 v o
| req_meter ty v o : In ty [9; 10] -> plain_struct "ofp_meter_multipart_request" [N 4; G 4] m off v o -> a_request m e off ty v o
| req_features : (e <= off)%nat -> a_request m e off 12 (VList []) off
| req_experimenter : a_request m e off 65535 (VBytes (slice m off e)) e.

Definition flow_stats (m : bytes) (off : nat) (v : pyval) (o : nat) : Prop :=
  exists len vs o1 mt o2 is,
    here m off [N 2; N 1; G 1; N 4; N 4; N 2; N 2; N 2; N 2; G 4; N 8; N 8; N 8] (VInt len :: vs) o1 /\
    a_match m o1 mt o2 /\ o = end_ off len /\ filling (an_instruction m) o o2 is /\
    v = VTup "ofp_flow_stats" (VInt len :: vs ++ [mt; VList is]).

(** A structure whose first or second field is the length up to which a list
    fills it. *)
Definition with_list (cls : string) (fs : list fld) (k : nat) (R : nat -> pyval -> nat -> Prop) (m : bytes) (off : nat) (v : pyval) (o : nat) : Prop :=
  exists len vs o' l, here m off fs vs o' /\ nth_error vs k = Some (VInt len) /\ o = end_ off len /\ filling R o o' l /\
    v = VTup cls (vs ++ [VList l]).

(** The lists of replies: type and element.  (Port statistics are taken with
    three bytes of padding where the specification has four.) *)
Inductive reply_element (m : bytes) : Z -> (nat -> pyval -> nat -> Prop) -> Prop :=
| el_flow : reply_element m 1 (flow_stats m)
| el_aggregate : reply_element m 2 (plain_struct "ofp_aggregate_stats_reply" [N 8; N 8; N 4; G 4] m)
| el_table : reply_element m 3 (plain_struct "ofp_table_stats" [N 1; G 3; N 4; N 8; N 8] m)
| el_port : reply_element m 4 (plain_struct "ofp_port_stats" ([N 4; G 3] ++ repeat (N 8) 12 ++ [N 4; N 4]) m)
| el_queue : reply_element m 5 (plain_struct "ofp_queue_stats" [N 4; N 4; N 8; N 8; N 8; N 4; N 4] m)
| el_group : reply_element m 6 (with_list "ofp_group_stats" [N 2; G 2; N 4; N 4; G 4; N 8; N 8; N 4; N 4] 0 (plain_struct "ofp_bucket_counter" [N 8; N 8] m) m)
| el_group_desc : reply_element m 7 (with_list "ofp_group_desc" [N 2; N 1; G 1; N 4] 0 (a_bucket m) m)
| el_meter : reply_element m 9 (with_list "ofp_meter_stats" [N 4; N 2; G 6; N 4; N 8; N 8; N 4; N 4] 1 (plain_struct "ofp_meter_band_stats" [N 8; N 8] m) m)
| el_meter_config : reply_element m 10 (with_list "ofp_meter_config" [N 2; N 2; N 4] 0 (a_band m) m)
| el_features : reply_element m 12 (fun _ _ _ => False)
| el_port_desc : reply_element m 13 (a_port m).

Inductive a_reply (m : bytes) (e : nat) (off : nat) : Z -> pyval -> nat -> Prop :=
| rep_desc v o : plain_struct "ofp_desc" [T 256; T 256; T 256; T 32; T 256] m off v o -> a_reply m e off 0 v o
| rep_list ty R l : reply_element m ty R -> filling R e off l -> a_reply m e off ty (VList l) e
| rep_group_features v t c g1 g2 g3 g4 a1 a2 a3 a4 o :
    here m off (repeat (N 4) 10) [t; c; g1; g2; g3; g4; a1; a2; a3; a4] o ->
    v = VTup "ofp_group_features" [t; c; VTup "tuple" [g1; g2; g3; g4]; VTup "tuple" [a1; a2; a3; a4]] -> a_reply m e off 8 v o
| rep_meter_features v o : plain_struct "ofp_meter_features" [N 4; N 4; N 4; N 1; N 1; G 2] m off v o -> a_reply m e off 11 v o
| rep_experimenter v x t o : here m off [N 4; N 4] [VInt x; VInt t] o ->
    v = VTup "ofp_experimenter_multipart_" [VInt x; VInt t; VBytes (slice m o e)] -> a_reply m e off 65535 v e.

(** *** Hello (7.5.1): version bitmaps only, and [len / 4 - 1] words of them. *)
Definition hello_element (m : bytes) (off : nat) (v : pyval) (o : nat) : Prop :=
  exists len ws o', 4 <= len /\ here m off ([N 2; N 2] ++ repeat (N 4) (Z.to_nat (len / 4 - 1))) ([VInt 1; VInt len] ++ ws) o' /\
    v = VTup "ofp_hello_elem_versionbitmap" [VInt 1; VInt len; VTup "tuple" ws] /\
    Z.of_nat o = Z.of_nat o' + up8 len - len.

(** *** Messages *)

(** The header: version 4, then type, length and transaction id. *)
Definition header (m : bytes) (off : nat) (ty len : Z) (h : pyval) : Prop :=
  exists xid o, here m off [N 1; N 1; N 2; N 4] [VInt 4; VInt ty; VInt len; VInt xid] o /\
    h = VTup "ofp_header" [VInt 4; VInt ty; VInt len; VInt xid].

(** What follows a header of this type, the message ending at [e] by its
    header; read up to [o]. *)
Inductive a_body (m : bytes) (e : nat) (off : nat) : Z -> string -> list pyval -> nat -> Prop :=
| body_hello l : filling (hello_element m) e off l -> a_body m e off 0 "ofp_hello" [VList l] e
| body_error t c o : here m off [N 2; N 2] [VInt t; VInt c] o ->
    a_body m e off 1 "ofp_error_msg" [VInt t; VInt c; VBytes (slice m o e)] e
| body_features d b t x c r o : here m off [N 8; N 4; N 1; N 1; G 2; N 4; N 4] [d; b; t; x; c; r] o ->
    a_body m e off 6 "ofp_switch_features" [d; b; t; x; c] o
| body_config ty vs o : In ty [8; 9] -> here m off [N 2; N 2] vs o -> a_body m e off ty "ofp_switch_config" vs o
| body_packet_in vs o1 mt o2 o : here m off [N 4; N 2; N 1; N 1; N 8] vs o1 -> a_match m o1 mt o2 -> here m o2 [G 2] [] o ->
    a_body m e off 10 "ofp_packet_in" (vs ++ [mt; VBytes (slice m o e)]) o
| body_flow_removed vs o1 mt o : here m off [N 8; N 2; N 1; N 1; N 4; N 4; N 2; N 2; N 8; N 8] vs o1 -> a_match m o1 mt o ->
    a_body m e off 11 "ofp_flow_removed" (vs ++ [mt]) o
| body_port_status r o1 p o : here m off [N 1; G 7] [r] o1 -> a_port m o1 p o -> a_body m e off 12 "ofp_port_status" [r; p] o
| body_packet_out b i len o1 acts o : here m off [N 4; N 4; N 2; G 6] [b; i; VInt len] o1 ->
    many (an_action m) (end_ o1 len) o1 acts o ->
    a_body m e off 13 "ofp_packet_out" [b; i; VInt len; VList acts; VBytes (slice m o e)] o
| body_flow_mod vs o1 mt o2 is :
    here m off [N 8; N 8; N 1; N 1; N 2; N 2; N 2; N 4; N 4; N 4; N 2; G 2] vs o1 -> a_match m o1 mt o2 ->
    filling (an_instruction m) e o2 is -> a_body m e off 14 "ofp_flow_mod" (vs ++ [mt; VList is]) e
| body_group_mod vs o1 bs o : here m off [N 2; N 1; G 1; N 4] vs o1 -> many (a_bucket m) e o1 bs o ->
    a_body m e off 15 "ofp_group_mod" (vs ++ [VList bs]) o
| body_table_mod vs o : here m off [N 1; G 3; N 4] vs o -> a_body m e off 17 "ofp_table_mod" vs o
| body_request ty fl o1 v o : here m off [N 2; N 2; G 4] [VInt ty; VInt fl] o1 -> a_request m e o1 ty v o ->
    a_body m e off 18 "ofp_multipart_request" [VInt ty; VInt fl; v] o
| body_reply ty fl o1 v o : here m off [N 2; N 2; G 4] [VInt ty; VInt fl] o1 -> a_reply m e o1 ty v o ->
    a_body m e off 19 "ofp_multipart_reply" [VInt ty; VInt fl; v] o
| body_queue_request vs o : here m off [N 4; G 4] vs o -> a_body m e off 22 "ofp_queue_get_config_request" vs o
| body_queue_reply p o1 qs : here m off [N 4; G 4] [p] o1 -> filling (a_queue m) e o1 qs ->
    a_body m e off 23 "ofp_queue_get_config_reply" [p; VList qs] e
| body_role vs o : here m off [N 4; G 4; N 8] vs o -> a_body m e off 24 "ofp_role_request" vs o
| body_async ty a b c d f g o : In ty [27; 28] -> here m off (repeat (N 4) 6) [a; b; c; d; f; g] o ->
    a_body m e off ty "ofp_async_config" [VTup "tuple" [a; b]; VTup "tuple" [c; d]; VTup "tuple" [f; g]] o
| body_meter_mod vs o1 bs o : here m off [N 2; N 2; N 4] vs o1 -> many (a_band m) e o1 bs o ->
    a_body m e off 29 "ofp_meter_mod" (vs ++ [VList bs]) o
| body_other ty : ~ In ty [0; 1; 4; 6; 8; 9; 10; 11; 12; 13; 14; 15; 16; 17; 18; 19; 22; 23; 24; 27; 28; 29] ->
    a_body m e off ty "ofp_" [VBytes (slice m off e)] e.

(** A message at [off], read up to [o]. *)
Definition a_message (m : bytes) (off : nat) (v : pyval) (o : nat) : Prop :=
  exists ty len h cls vs, header m off ty len h /\ a_body m (end_ off len) (off + 8) ty cls vs o /\ v = VTup cls (h :: vs).
