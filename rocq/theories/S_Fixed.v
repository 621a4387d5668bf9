(** Specification vocabulary for the structures of fixed size of OpenFlow 1.3
    and 1.4: their fields one after the other, as the specification lists
    them, and what the caller may write for each.  Independent of the builders
    and parsers. *)

From Coq Require Import String.
From Verif Require Import Py Struct S_Wire4.
Local Open Scope Z_scope.
Local Open Scope list_scope.

(** A field: an unsigned or a signed number on [w] bytes; a number that may be
    left open, with its default; the type of the structure, 2 bytes, which may
    be left open; a type out of several; a number fixed by the structure,
    whatever the caller writes for it; padding. *)
Inductive cell : Type :=
| Num (w : nat)
| Sig (w : nat)
| Opt (w : nat) (d : Z)
| Kind (z : Z)
| OneOf (zs : list Z)
| Const (w : nat) (z : Z)
| Gap (n : nat).

Definition width (c : cell) : nat :=
  match c with
  | Num w | Sig w | Opt w _ | Const w _ => w
  | Kind _ | OneOf _ => 2%nat
  | Gap n => n
  end.
Definition size (cs : list cell) : nat := fold_right (fun c n => (width c + n)%nat) 0%nat cs.

(** The numbers a field can hold. *)
Definition holds (c : cell) (z : Z) : Prop :=
  match c with
  | Sig w => - 2 ^ (8 * Z.of_nat w - 1) <= z < 2 ^ (8 * Z.of_nat w - 1)
  | _ => 0 <= z < 2 ^ (8 * Z.of_nat (width c))
  end.

(** What the caller writes for a field, and the number meant. *)
Definition means (c : cell) (a : pyval) (z : Z) : Prop :=
  match c with
  | Num _ | Sig _ => a = VInt z
  | Opt _ d => a = VInt z \/ a = VNone /\ z = d
  | Kind t => (a = VInt z \/ a = VNone) /\ z = t
  | OneOf ts => a = VInt z /\ In z ts
  | Const _ k => z = k
  | Gap _ => False
  end.

(** The arguments of a builder say these numbers. *)
Inductive says : list cell -> list pyval -> list Z -> Prop :=
| say_nil : says [] [] []
| say_gap n cs args zs : says cs args zs -> says (Gap n :: cs) args zs
| say_num c cs a args z zs : means c a z -> holds c z -> says cs args zs -> says (c :: cs) (a :: args) (z :: zs).

(** The bytes of a structure with these numbers: big-endian, two's complement,
    the padding zero. *)
Fixpoint laid_out (cs : list cell) (zs : list Z) : bytes :=
  match cs, zs with
  | Gap n :: cs', _ => repeat 0 n ++ laid_out cs' zs
  | c :: cs', z :: zs' => be (width c) (z mod 2 ^ (8 * Z.of_nat (width c))) ++ laid_out cs' zs'
  | _, _ => []
  end.

(** Bytes that hold these numbers, whatever is in the padding. *)
Inductive bears : list cell -> list Z -> bytes -> Prop :=
| bear_nil : bears [] [] []
| bear_gap n cs zs p b : length p = n -> bears cs zs b -> bears (Gap n :: cs) zs (p ++ b)
| bear_num c cs z zs b :
    match c with Gap _ => False | _ => True end -> holds c z -> bears cs zs b ->
    bears (c :: cs) (z :: zs) (be (width c) (z mod 2 ^ (8 * Z.of_nat (width c))) ++ b).

(** Messages leave the lengths and types open: a reader takes whatever number
    is there. *)

(** *** OpenFlow 1.3 *)

Definition tlv (ty len : Z) (l : list cell) : list cell := Kind ty :: Const 2 len :: l.

Local Open Scope string_scope.

(** What is both built and parsed so. *)
Definition shared : list (string * list cell) :=
  [ (* instructions, 7.2.4 *)
    ("ofp_instruction_goto_table", tlv 1 8 [Num 1; Gap 3]);
    ("ofp_instruction_write_metadata", tlv 2 24 [Gap 4; Num 8; Num 8]);
    ("ofp_instruction_meter", tlv 6 8 [Num 4]);
    (* actions, 7.2.5 *)
    ("ofp_action_output", tlv 0 16 [Num 4; Num 2; Gap 6]);
    ("ofp_action_group", tlv 22 8 [Num 4]);
    ("ofp_action_set_queue", tlv 21 8 [Num 4]);
    ("ofp_action_nw_ttl", tlv 23 8 [Num 1; Gap 3]);
    ("ofp_action_push", [OneOf [17; 19; 26]; Const 2 8; Num 2; Gap 2]);
    ("ofp_action_pop_mpls", tlv 20 8 [Num 2; Gap 2]);
    (* meter bands, 7.3.4.4 *)
    ("ofp_meter_band_header", [Num 2; Num 2; Num 4; Num 4]);
    ("ofp_meter_band_drop", tlv 1 16 [Num 4; Num 4; Gap 4]);
    ("ofp_meter_band_dscp_remark", tlv 2 16 [Num 4; Num 4; Num 1; Gap 3]);
    (* multipart messages, 7.3.5 *)
    ("ofp_aggregate_stats_reply", [Num 8; Num 8; Num 4; Gap 4]);
    ("ofp_table_feature_prop_header", [Num 2; Num 2]);
    ("ofp_port_stats_request", [Opt 4 4294967295; Gap 4]);
    ("ofp_queue_stats_request", [Opt 4 4294967295; Num 4]);
    ("ofp_group_stats_request", [Opt 4 4294967292; Gap 4]);
    ("ofp_bucket_counter", [Num 8; Num 8]);
    ("ofp_meter_multipart_request", [Num 4; Gap 4]);
    ("ofp_meter_band_stats", [Num 8; Num 8]);
    ("ofp_meter_features", [Num 4; Num 4; Num 4; Num 1; Num 1; Gap 2]);
    (* hello, 7.5.1 *)
    ("ofp_hello_elem_header", [Num 2; Num 2]) ].

Definition only4 : list (string * list cell) :=
  [ ("ofp_instruction", [Num 2; Num 2]);
    ("ofp_action_header", [Num 2; Num 2; Gap 4]);
    ("ofp_table_stats", [Num 1; Gap 3; Num 4; Num 8; Num 8]);
    ("ofp_queue_stats", [Num 4; Num 4; Num 8; Num 8; Num 8; Num 4; Num 4]);
    ("ofp_queue_prop_header", [Num 2; Opt 2 8; Gap 4]) ].

(** Built so, but with a parser that does not exist or goes wrong. *)
Definition built_only : list (string * list cell) :=
  [ ("ofp_action_mpls_ttl", tlv 15 8 [Num 1; Gap 3]);
    ("ofp_experimenter_multipart_header", [Num 4; Num 4]) ].

Definition built_only4 : list (string * list cell) :=
  [ ("ofp_port_stats", [Num 4; Gap 4; Num 8; Num 8; Num 8; Num 8; Num 8; Num 8; Num 8; Num 8; Num 8; Num 8; Num 8; Num 8; Num 4; Num 4]) ].

Definition built4 : list (string * list cell) := shared ++ only4 ++ built_only ++ built_only4.
Definition parsed4 : list (string * list cell) := shared ++ only4.

(** *** OpenFlow 1.4 *)

Definition only5 : list (string * list cell) :=
  [ (* ports, 7.2.1 *)
    ("ofp_port_desc_prop_header", [Num 2; Num 2]);
    ("ofp_port_desc_prop_ethernet", tlv 0 32 [Gap 4; Num 4; Num 4; Num 4; Num 4; Num 4; Num 4]);
    ("ofp_port_desc_prop_optical", tlv 1 40 [Gap 4; Num 4; Num 4; Num 4; Num 4; Num 4; Num 4; Num 4; Num 2; Num 2]);
    ("ofp_instruction_header", [Num 2; Num 2]);
    ("ofp_action_header", [Num 2; Num 2]);
    ("ofp_action_generic", [OneOf [11; 12; 16; 24; 18; 27]; Const 2 8; Gap 4]);
    (* table modification, 7.3.4.1; the length of the first is the caller's *)
    ("ofp_table_mod_prop_header", [Num 2; Num 2]);
    ("ofp_table_mod_prop_eviction", [Const 2 2; Num 2; Num 4]);
    ("ofp_table_mod_prop_vacancy", [Const 2 3; Const 2 8; Num 1; Num 1; Num 1; Gap 1]);
    (* port modification, 7.3.4.4 *)
    ("ofp_port_mod_prop_header", [Num 2; Num 2]);
    ("ofp_port_mod_prop_ethernet", [Const 2 0; Const 2 8; Num 4]);
    ("ofp_port_mod_prop_optical", [Const 2 1; Const 2 24; Num 4; Num 4; Sig 4; Num 4; Num 4]);
    (* multipart messages, 7.3.5 *)
    ("ofp_port_stats_prop_header", [Num 2; Num 2]);
    ("ofp_port_stats_prop_ethernet", [Const 2 0; Const 2 40; Gap 4; Num 8; Num 8; Num 8; Num 8]);
    ("ofp_port_stats_prop_optical", [Const 2 1; Const 2 44; Gap 4; Num 4; Num 4; Num 4; Num 4; Num 4; Num 4; Num 4; Num 2; Num 2; Num 2; Num 2]);
    ("ofp_queue_stats_prop_header", [Num 2; Num 2]);
    ("ofp_queue_desc_request", [Opt 4 4294967295; Num 4]);
    ("ofp_queue_desc_prop_min_rate", [Const 2 1; Const 2 8; Num 2; Gap 2]);
    ("ofp_queue_desc_prop_max_rate", [Const 2 2; Const 2 8; Num 2; Gap 2]);
    ("ofp_flow_update_abbrev", [Const 2 8; Const 2 4; Num 4]);
    (* bundles, asynchronous configuration, roles *)
    ("ofp_bundle_prop_header", [Num 2; Num 2]);
    ("ofp_async_config_prop_header", [Num 2; Num 2]);
    ("ofp_async_config_prop_reasons", [OneOf [0; 1; 2; 3; 4; 5; 6; 7; 8; 9; 10; 11]; Const 2 8; Num 4]);
    ("ofp_role_prop_header", [Num 2; Num 2]) ].

Definition built_only5 : list (string * list cell) :=
  [ ("ofp_action_experimenter_header", [Num 2; Num 2; Num 4]);
    ("ofp_table_stats", [Num 1; Gap 3; Num 4; Num 8; Num 8]);
    ("ofp_flow_update_paused", [Const 2 8; Num 2; Gap 4]) ].

(** Read, but never written on its own. *)
Definition parsed_only5 : list (string * list cell) :=
  [ ("ofp_queue_desc_prop_header", [Num 2; Num 2]);
    ("ofp_flow_update_header", [Num 2; Num 2]) ].

Definition built5 : list (string * list cell) := shared ++ only5 ++ built_only ++ built_only5.
Definition parsed5 : list (string * list cell) := shared ++ only5 ++ parsed_only5.
