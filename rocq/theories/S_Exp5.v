(** Specification for C112: the experimenter properties of OpenFlow 1.4. *)

From Verif Require Import Py Struct S_Wire4.
Local Open Scope Z_scope.
Local Open Scope list_scope.

(** Type, length without the padding, experimenter, its own type, data, and
    padding to a multiple of eight bytes (7.2.1, 7.3.4.3, ...). *)
Definition exp_head (e x : Z) (d : bytes) : bytes :=
  be 2 65535 ++ be 2 (12 + zlen d) ++ be 4 e ++ be 4 x ++ d.
Definition exp_wire (e x : Z) (d : bytes) : bytes := exp_head e x d ++ zeros (gap (12 + length d)).
Definition exp_ok (e x : Z) (d : bytes) : Prop := u32 e /\ u32 x /\ 12 + zlen d < 65536.

(** What a parser is to return. *)
Definition exp_value (cls : string) (e x : Z) (d : bytes) : pyval :=
  VTup cls [VInt 65535; VInt (12 + zlen d); VInt e; VInt x; VBytes d].

Local Open Scope string_scope.
(** The places of these properties: table modification, port modification,
    queue statistics and bundles, which need the data; and ports, table
    features, queue descriptions and asynchronous configuration. *)
Definition plain_classes : list string :=
  ["ofp_table_mod_prop_experimenter"; "ofp_port_mod_prop_experimenter"; "ofp_queue_stats_prop_experimenter";
   "ofp_bundle_prop_experimenter"].
Definition unbuildable_classes : list string :=
  ["ofp_port_desc_prop_experimenter"; "ofp_table_feature_prop_experimenter"; "ofp_queue_desc_prop_experimenter";
   "ofp_async_config_prop_experimenter"].
