(** Specification vocabulary for OXM match fields: the types a caller passes,
    the sizes of the OpenFlow 1.3 specification, the layout of a TLV. *)

From Verif Require Import Py Struct.
Local Open Scope Z_scope.
Local Open Scope list_scope.

(** How the library takes the value of a field: a number of so many bytes or a
    byte string of that length; one entry per field from IN_PORT (0) to
    IPV6_EXTHDR (39), others are numbers of one byte. *)
Inductive kind : Type := Num (n : nat) | Str (n : nat).

Definition kinds : list kind :=
  [ (* IN_PORT, IN_PHY_PORT, METADATA *)          Num 4; Num 4; Num 8;
    (* ETH_DST, ETH_SRC, ETH_TYPE *)              Str 6; Str 6; Num 2;
    (* VLAN_VID, VLAN_PCP *)                      Num 2; Num 1;
    (* IP_DSCP, IP_ECN, IP_PROTO *)               Num 1; Num 1; Num 1;
    (* IPV4_SRC, IPV4_DST *)                      Str 4; Str 4;
    (* TCP_SRC, TCP_DST, UDP_SRC, UDP_DST *)      Num 2; Num 2; Num 2; Num 2;
    (* SCTP_SRC, SCTP_DST *)                      Num 2; Num 2;
    (* ICMPV4_TYPE, ICMPV4_CODE *)                Num 1; Num 1;
    (* ARP_OP, ARP_SPA, ARP_TPA *)                Num 2; Str 4; Str 4;
    (* ARP_SHA, ARP_THA *)                        Str 6; Str 6;
    (* IPV6_SRC, IPV6_DST, IPV6_FLABEL *)         Str 16; Str 16; Num 1;
    (* ICMPV6_TYPE, ICMPV6_CODE *)                Num 1; Num 1;
    (* IPV6_ND_TARGET, IPV6_ND_SLL, IPV6_ND_TLL *) Str 16; Str 6; Str 6;
    (* MPLS_LABEL, MPLS_TC, MPLS_BOS *)           Num 1; Num 1; Num 1;
    (* PBB_ISID, TUNNEL_ID, IPV6_EXTHDR *)        Str 3; Num 8; Num 2 ].

Definition kind_of (f : Z) : kind := nth (Z.to_nat f) kinds (Num 1).
Definition size_of (f : Z) : nat := match kind_of f with Num n | Str n => n end.

(** Payload sizes of the OpenFlow 1.3 specification (7.2.3.7, the last argument
    of each OXM_HEADER). *)
Definition spec_sizes : list nat :=
  [4; 4; 8; 6; 6; 2; 2; 1; 1; 1; 1; 4; 4; 2; 2; 2; 2; 2; 2; 1; 1; 2; 4; 4; 6; 6;
   16; 16; 4; 1; 1; 16; 6; 6; 4; 1; 1; 3; 8; 2]%nat.
Definition spec_size (f : Z) : nat := nth (Z.to_nat f) spec_sizes 0%nat.

(** A value of the right type and range for [f]. *)
Definition val_ok (f : Z) (v : pyval) : Prop :=
  match kind_of f, v with
  | Num n, VInt z => 0 <= z < 256 ^ Z.of_nat n
  | Str n, VBytes b => length b = n
  | _, _ => False
  end.

Definition val_bytes (f : Z) (v : pyval) : bytes :=
  match v with VInt z => be (size_of f) z | VBytes b => b | _ => [] end.

(** A match field: number, value, and mask if any. *)
Record mfield : Type := MF { mf_field : Z; mf_value : pyval; mf_mask : option pyval }.

Definition mf_ok (x : mfield) : Prop :=
  0 <= mf_field x < 128 /\ val_ok (mf_field x) (mf_value x) /\
  match mf_mask x with None => True | Some k => val_ok (mf_field x) k end.

Definition mf_payload (x : mfield) : bytes :=
  val_bytes (mf_field x) (mf_value x) ++
  match mf_mask x with None => [] | Some k => val_bytes (mf_field x) k end.

(** OXM TLV: class 0x8000, seven bits of field, one of mask, payload length,
    payload. *)
Definition tlv (x : mfield) : bytes :=
  [128; 0; mf_field x * 2 + (if mf_mask x then 1 else 0); zlen (mf_payload x)] ++ mf_payload x.

(** The namedtuple that stands for it. *)
Definition view (x : mfield) : pyval :=
  VTup "oxm" [VInt 32768; VInt (mf_field x); VInt (if mf_mask x then 1 else 0);
              VInt (zlen (mf_payload x)); mf_value x;
              match mf_mask x with None => VNone | Some k => k end].

(** A TLV with the payload size of the OpenFlow specification. *)
Definition spec_tlv (f : Z) (masked : bool) (payload : bytes) : bytes :=
  [128; 0; f * 2 + (if masked then 1 else 0); zlen payload] ++ payload.
