(** What an Ethernet frame looks like and what its OpenFlow 1.0 match fields
    are (IEEE 802.3/802.1Q, RFC 791, RFC 826, RFC 1042; OpenFlow 1.0 section
    3.4), written from the headers' fields, not from offsets. *)

From Verif Require Import Py Struct.
Local Open Scope Z_scope.
Local Open Scope list_scope.

(** Tag control information: priority, drop eligible, VLAN id. *)
Definition tag := option (Z * Z * Z).
Definition tag_ok (t : tag) : Prop :=
  match t with None => True | Some (p, d, v) => 0 <= p < 8 /\ 0 <= d < 2 /\ 0 <= v < 4096 end.
Definition tag_wire (t : tag) : bytes :=
  match t with None => [] | Some (p, d, v) => be 2 33024 ++ be 2 (p * 8192 + d * 4096 + v) end.

(** A frame; [ty] is the EtherType, or the length of an 802.3 frame. *)
Definition eth (dst src : bytes) (t : tag) (ty : Z) (payload : bytes) : bytes :=
  dst ++ src ++ tag_wire t ++ be 2 ty ++ payload.

(** An IPv4 packet.  [frag]: flags and fragment offset. *)
Record ip := { tos : Z; total : Z; ident : Z; frag : Z; ttl : Z; proto : Z; csum : Z; nsrc : bytes; ndst : bytes; options : bytes }.
Definition ip_ok (h : ip) : Prop :=
  0 <= tos h < 256 /\ 0 <= proto h < 256 /\ length (nsrc h) = 4%nat /\ length (ndst h) = 4%nat.
Definition ip_wire (h : ip) (payload : bytes) : bytes :=
  be 1 (64 + 5 + Z.of_nat (length (options h)) / 4) ++ be 1 (tos h) ++ be 2 (total h) ++ be 2 (ident h) ++ be 2 (frag h) ++
  be 1 (ttl h) ++ be 1 (proto h) ++ be 2 (csum h) ++ nsrc h ++ ndst h ++ options h ++ payload.

(** An ARP packet for IPv4 over Ethernet. *)
Definition arp_wire (op : Z) (sha spa tha tpa : bytes) : bytes :=
  be 2 1 ++ be 2 2048 ++ be 1 6 ++ be 1 4 ++ be 2 op ++ sha ++ spa ++ tha ++ tpa.

(** LLC and SNAP headers before a packet of EtherType [ty]. *)
Definition snap_wire (ty : Z) (payload : bytes) : bytes := [170; 170; 3; 0; 0; 0] ++ be 2 ty ++ payload.

(** The first two numbers of a transport header. *)
Definition ports_wire (a b : Z) (rest : bytes) : bytes := be 2 a ++ be 2 b ++ rest.
Definition icmp_wire (ty code : Z) (rest : bytes) : bytes := be 1 ty ++ be 1 code ++ rest.

(** The twelve fields. *)
Definition opt (o : option Z) : pyval := match o with None => VNone | Some z => VInt z end.
Definition vid_of (t : tag) : pyval := match t with None => VNone | Some (_, _, v) => VInt v end.
Definition pcp_of (t : tag) : pyval := match t with None => VNone | Some (p, _, _) => VInt p end.
Definition fields (in_port : pyval) (dst src : bytes) (t : tag) (ty : Z)
    (nw_src nw_dst nw_proto nw_tos tp_src tp_dst : pyval) : pyval :=
  VTup "ofptuple" [in_port; VBytes src; VBytes dst; VInt ty; vid_of t; pcp_of t;
                   nw_src; nw_dst; nw_proto; nw_tos; tp_src; tp_dst].
