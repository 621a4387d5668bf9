(** C69-C70: the OpenFlow 1.0 match of a frame. *)

From Verif Require Import P_Struct M_Tuple S_Tuple P_Tuple.
Local Open Scope Z_scope.
Local Open Scope list_scope.

(** *** C69: the fields are those of the headers. *)

(** IPv4 over Ethernet, tagged or not, with TCP or UDP.  Missing: IP options,
    fragments, LLC/SNAP, the two ECN bits -- see below. *)
Theorem C69_ports_partial : forall in_port dst src t h a b rest,
  length dst = 6%nat -> length src = 6%nat -> tag_ok t -> ip_ok h -> options h = [] ->
  0 <= a < 65536 -> 0 <= b < 65536 -> proto h = 6 \/ proto h = 17 ->
  ofptuple (eth dst src t 2048 (ip_wire h (ports_wire a b rest))) in_port =
  Ok (fields in_port dst src t 2048 (VBytes (nsrc h)) (VBytes (ndst h)) (VInt (proto h)) (VInt (tos h)) (VInt a) (VInt b)).
Proof.
  intros in_port dst src t h a b rest Hd Hs Ht Hh Ho Ha Hb Hp.
  rewrite eth_part; try assumption; [|lia|].
  - rewrite llc_type by lia. cbn [bind].
    rewrite (ip_part _ _ h (ports_wire a b rest) a b rest Hh); try assumption.
    + unfold tp_of. replace (proto h =? 1) with false by lia. replace ((proto h =? 6) || (proto h =? 17)) with true by lia.
      reflexivity.
    + rewrite off_len. apply eth_payload; assumption.
    + rewrite Ho. reflexivity.
  - intros _. split; [lia|]. unfold ip_wire. rewrite !app_length, !be_length. lia.
Qed.
Print Assumptions C69_ports_partial.

(** ICMP: type and code. *)
Theorem C69_icmp_partial : forall in_port dst src t h ty code x y rest,
  length dst = 6%nat -> length src = 6%nat -> tag_ok t -> ip_ok h -> options h = [] ->
  0 <= ty < 256 -> 0 <= code < 256 -> 0 <= x < 256 -> 0 <= y < 256 -> proto h = 1 ->
  ofptuple (eth dst src t 2048 (ip_wire h (icmp_wire ty code (x :: y :: rest)))) in_port =
  Ok (fields in_port dst src t 2048 (VBytes (nsrc h)) (VBytes (ndst h)) (VInt 1) (VInt (tos h)) (VInt ty) (VInt code)).
Proof.
  intros in_port dst src t h ty code x y rest Hd Hs Ht Hh Ho H1 H2 Hx Hy Hp.
  rewrite eth_part; try assumption; [|lia|].
  - rewrite llc_type by lia. cbn [bind].
    rewrite (ip_part _ _ h (icmp_wire ty code (x :: y :: rest)) (ty * 256 + code) (x * 256 + y) rest Hh); try lia.
    + unfold tp_of. rewrite Hp. change (1 =? 1) with true. cbn [fst snd]. rewrite Z.shiftr_div_pow2 by lia.
      change 255 with (Z.ones 8). rewrite Z.land_ones by lia. change (2 ^ 8) with 256.
      replace ((ty * 256 + code) / 256) with ty by lia. replace ((ty * 256 + code) mod 256) with code by lia. reflexivity.
    + rewrite off_len. apply eth_payload; assumption.
    + rewrite Ho. cbn [Datatypes.app]. unfold icmp_wire. rewrite <- !be2 by lia. rewrite <- !app_assoc. f_equal. f_equal.
      cbn [be Datatypes.app]. repeat (apply (f_equal2 cons); [lia|]). reflexivity.
  - intros _. split; [lia|]. unfold ip_wire. rewrite !app_length, !be_length. lia.
Qed.
Print Assumptions C69_icmp_partial.

(** Any other protocol: no transport fields. *)
Theorem C69_other_protocol_partial : forall in_port dst src t h a b rest,
  length dst = 6%nat -> length src = 6%nat -> tag_ok t -> ip_ok h -> options h = [] ->
  0 <= a < 65536 -> 0 <= b < 65536 -> proto h <> 1 -> proto h <> 6 -> proto h <> 17 ->
  ofptuple (eth dst src t 2048 (ip_wire h (ports_wire a b rest))) in_port =
  Ok (fields in_port dst src t 2048 (VBytes (nsrc h)) (VBytes (ndst h)) (VInt (proto h)) (VInt (tos h)) VNone VNone).
Proof.
  intros in_port dst src t h a b rest Hd Hs Ht Hh Ho Ha Hb P1 P6 P17.
  rewrite eth_part; try assumption; [|lia|].
  - rewrite llc_type by lia. cbn [bind].
    rewrite (ip_part _ _ h (ports_wire a b rest) a b rest Hh); try assumption.
    + unfold tp_of. replace (proto h =? 1) with false by lia. replace ((proto h =? 6) || (proto h =? 17)) with false by lia.
      reflexivity.
    + rewrite off_len. apply eth_payload; assumption.
    + rewrite Ho. reflexivity.
  - intros _. split; [lia|]. unfold ip_wire. rewrite !app_length, !be_length. lia.
Qed.
Print Assumptions C69_other_protocol_partial.

(** ARP: the operation and the protocol addresses, with or without trailing
    padding. *)
Theorem C69_arp : forall in_port dst src t op sha spa tha tpa rest,
  length dst = 6%nat -> length src = 6%nat -> tag_ok t -> 0 <= op < 65536 ->
  length sha = 6%nat -> length spa = 4%nat -> length tha = 6%nat -> length tpa = 4%nat ->
  ofptuple (eth dst src t 2054 (arp_wire op sha spa tha tpa ++ rest)) in_port =
  Ok (fields in_port dst src t 2054 (VBytes spa) (VBytes tpa) (VInt op) VNone VNone VNone).
Proof.
  intros in_port dst src t op sha spa tha tpa rest Hd Hs Ht Ho H1 H2 H3 H4.
  rewrite eth_part; try assumption; [|lia|].
  - rewrite llc_type by lia. cbn [bind]. rewrite (arp_part _ _ op sha spa tha tpa rest); try assumption; [reflexivity|].
    rewrite off_len. apply eth_payload; assumption.
  - intros _. split; [lia|]. unfold arp_wire. rewrite !app_length, !be_length. lia.
Qed.
Print Assumptions C69_arp.

(** Any other EtherType: only the Ethernet fields.  A frame without a tag must
    have four bytes after its header. *)
Theorem C69_other_type_partial : forall in_port dst src t ty payload,
  length dst = 6%nat -> length src = 6%nat -> tag_ok t -> 1536 <= ty < 65536 -> ty <> 2048 -> ty <> 2054 ->
  (t = None -> ty <> 33024 /\ (4 <= length payload)%nat) ->
  ofptuple (eth dst src t ty payload) in_port = Ok (fields in_port dst src t ty VNone VNone VNone VNone VNone VNone).
Proof.
  intros in_port dst src t ty payload Hd Hs Ht Hty N1 N2 Hn.
  rewrite eth_part; try assumption; [|lia]. rewrite llc_type by lia. cbn [bind].
  rewrite other_part by assumption. reflexivity.
Qed.
Print Assumptions C69_other_type_partial.

(** With IP options the first four bytes of the options pass for the ports. *)
Theorem C69_options_refuted : forall in_port dst src t h a b more l4,
  length dst = 6%nat -> length src = 6%nat -> tag_ok t -> ip_ok h -> options h = be 2 a ++ be 2 b ++ more ->
  0 <= a < 65536 -> 0 <= b < 65536 -> proto h = 6 \/ proto h = 17 ->
  ofptuple (eth dst src t 2048 (ip_wire h l4)) in_port =
  Ok (fields in_port dst src t 2048 (VBytes (nsrc h)) (VBytes (ndst h)) (VInt (proto h)) (VInt (tos h)) (VInt a) (VInt b)).
Proof.
  intros in_port dst src t h a b more l4 Hd Hs Ht Hh Ho Ha Hb Hp.
  rewrite eth_part; try assumption; [|lia|].
  - rewrite llc_type by lia. cbn [bind].
    rewrite (ip_part _ _ h l4 a b (more ++ l4) Hh); try assumption.
    + unfold tp_of. replace (proto h =? 1) with false by lia. replace ((proto h =? 6) || (proto h =? 17)) with true by lia.
      reflexivity.
    + rewrite off_len. apply eth_payload; assumption.
    + rewrite Ho, <- !app_assoc. reflexivity.
  - intros _. split; [lia|]. unfold ip_wire. rewrite !app_length, !be_length. lia.
Qed.
Print Assumptions C69_options_refuted.

(** An IPv4 packet behind LLC and SNAP headers is not looked into, and its
    EtherType is not found: the length stays. *)
Theorem C69_snap_refuted : forall in_port dst src t len payload,
  length dst = 6%nat -> length src = 6%nat -> tag_ok t -> 0 <= len < 1500 ->
  ofptuple (eth dst src t len (snap_wire 2048 payload)) in_port =
  Ok (fields in_port dst src t len VNone VNone VNone VNone VNone VNone).
Proof.
  intros in_port dst src t len payload Hd Hs Ht Hl.
  rewrite eth_part; try assumption; [|lia|].
  - assert (B : (22 <= length (eth dst src t len (snap_wire 2048 payload)))%nat).
    { unfold eth, snap_wire. rewrite !app_length, !be_length. cbn [length]. lia. }
    destruct (llc _ len (hdr_off t)) as [[ty2 off2]|e] eqn:E.
    + apply llc_never in E. destruct E as (-> & ->). cbn [bind]. rewrite other_part by lia. reflexivity.
    + apply llc_err in E. lia.
  - intros _. split; [lia|]. unfold snap_wire. rewrite !app_length, be_length. cbn [length]. lia.
Qed.
Print Assumptions C69_snap_refuted.

(** A fragment that is not the first has no ports; two bytes of its data pass
    for them, whatever the fragment offset. *)
Theorem C69_fragment_refuted : forall f, 0 < f < 8192 -> exists h, frag h = f /\ ip_ok h /\ options h = [] /\
  forall in_port dst src t a b rest,
  length dst = 6%nat -> length src = 6%nat -> tag_ok t -> 0 <= a < 65536 -> 0 <= b < 65536 ->
  ofptuple (eth dst src t 2048 (ip_wire h (ports_wire a b rest))) in_port =
  Ok (fields in_port dst src t 2048 (VBytes (nsrc h)) (VBytes (ndst h)) (VInt 17) (VInt 0) (VInt a) (VInt b)).
Proof.
  intros f Hf.
  set (h := {| tos := 0; total := 1500; ident := 7; frag := f; ttl := 64; proto := 17; csum := 0;
               nsrc := [10; 0; 0; 1]; ndst := [10; 0; 0; 2]; options := [] |}).
  assert (Hh : ip_ok h) by (unfold ip_ok, h; cbn; repeat split; lia).
  exists h. split; [reflexivity|]. split; [exact Hh|]. split; [reflexivity|].
  intros in_port dst src t a b rest Hd Hs Ht Ha Hb.
  apply (C69_ports_partial in_port dst src t h a b rest); auto; cbn; auto.
Qed.
Print Assumptions C69_fragment_refuted.

(** A DNS query from 10.0.0.1 on VLAN 5, priority 3; the same behind LLC/SNAP;
    the same with the "router alert" option. *)
Definition ex_ip (o : bytes) : ip :=
  {| tos := 184; total := 60; ident := 1; frag := 0; ttl := 64; proto := 17; csum := 0;
     nsrc := [10; 0; 0; 1]; ndst := [10; 0; 0; 2]; options := o |}.

Example C69_example :
  ofptuple (eth [1;2;3;4;5;6] [7;8;9;10;11;12] (Some (3, 0, 5)) 2048 (ip_wire (ex_ip []) (ports_wire 5353 53 [0; 9]))) (VInt 4) =
    Ok (VTup "ofptuple" [VInt 4; VBytes [7;8;9;10;11;12]; VBytes [1;2;3;4;5;6]; VInt 2048; VInt 5; VInt 3;
                         VBytes [10;0;0;1]; VBytes [10;0;0;2]; VInt 17; VInt 184; VInt 5353; VInt 53]) /\
  ip_ok (ex_ip []) /\ tag_ok (Some (3, 0, 5)) /\
  ofptuple (eth [1;2;3;4;5;6] [7;8;9;10;11;12] None 2048 (ip_wire (ex_ip [148; 4; 0; 0]) (ports_wire 5353 53 [0; 9]))) VNone =
    Ok (VTup "ofptuple" [VNone; VBytes [7;8;9;10;11;12]; VBytes [1;2;3;4;5;6]; VInt 2048; VNone; VNone;
                         VBytes [10;0;0;1]; VBytes [10;0;0;2]; VInt 17; VInt 184; VInt 37892; VInt 0]).
Proof.
  split; [vm_compute; reflexivity|]. split; [unfold ip_ok, ex_ip; cbn; repeat split; lia|].
  split; [cbn; lia|vm_compute; reflexivity].
Qed.

(** *** C70: failures. *)

(** No frame of 46 bytes or more -- every frame of legal length -- makes
    [ofptuple] raise; nothing but struct.error is ever raised. *)
Theorem C70_long_frames : forall frame in_port,
  ((46 <= length frame)%nat -> is_ok (ofptuple frame in_port) = true) /\
  (forall e, ofptuple frame in_port = Err e -> e = StructError).
Proof.
  intros frame in_port. split.
  - intros L. destruct (ofptuple frame in_port) as [v|e] eqn:E; [reflexivity|]. apply tuple_err in E. lia.
  - intros e E. apply tuple_err in E. tauto.
Qed.
Print Assumptions C70_long_frames.

(** The bound is exact: a tagged ARP packet one byte short of it. *)
Theorem C70_bound : forall in_port, exists frame, length frame = 45%nat /\ bytes_ok frame /\ ofptuple frame in_port = Err StructError.
Proof.
  intros in_port. exists (eth (zeros 6) (zeros 6) (Some (0, 0, 1)) 2054 (zeros 27)). split; [reflexivity|]. split.
  - match goal with |- bytes_ok ?l => let v := eval vm_compute in l in change l with v end.
    unfold bytes_ok, byte_ok. repeat (apply Forall_cons; [lia|]). apply Forall_nil.
  - vm_compute. reflexivity.
Qed.
Print Assumptions C70_bound.

(** Frames without payload, and IPv4 packets with less than four bytes behind
    their header, cannot be looked at. *)
Theorem C70_short_refuted : forall in_port dst src,
  length dst = 6%nat -> length src = 6%nat ->
  (forall ty payload, (length payload < 4)%nat -> ofptuple (eth dst src None ty payload) in_port = Err StructError) /\
  (forall t h payload, tag_ok t -> ip_ok h -> options h = [] -> (length payload < 4)%nat ->
   ofptuple (eth dst src t 2048 (ip_wire h payload)) in_port = Err StructError).
Proof.
  intros in_port dst src Hd Hs. split.
  - intros ty payload L. unfold ofptuple, unpacks. change (fmt "!6s6sHHH") with (Ok [FS 6; FS 6; FU 2; FU 2; FU 2]). cbn [bind].
    unfold unpack_from.
    replace (_ <=? _)%nat with false; [reflexivity|]. symmetry. apply Nat.leb_gt.
    unfold eth. cbn [tag_wire Datatypes.app]. rewrite !app_length, be_length, Hd, Hs. cbn. lia.
  - intros t h payload Ht (H1 & H2 & H3 & H4) Ho L. rewrite eth_part; try assumption; [|lia|].
    + rewrite llc_type by lia. cbn [bind]. unfold network. change (2048 =? 2048) with true. cbv iota.
      unfold unpacks. change (fmt "!xB7xB2x4s4sHH") with (Ok [FX 1; FU 1; FX 7; FU 1; FX 2; FS 4; FS 4; FU 2; FU 2]). cbn [bind].
      unfold unpack_from. replace (_ <=? _)%nat with false; [reflexivity|]. symmetry. apply Nat.leb_gt.
      rewrite off_len. unfold eth, ip_wire. rewrite Ho. cbn [Datatypes.app]. rewrite !app_length, !be_length, Hd, Hs, H3, H4.
      destruct t as [[[p d] v]|]; cbn [tag_wire hdr_len]; rewrite ?app_length, ?be_length; cbn; lia.
    + intros _. split; [lia|]. unfold ip_wire. rewrite !app_length, !be_length. lia.
Qed.
Print Assumptions C70_short_refuted.

Example C70_example :
  ofptuple (eth [1;2;3;4;5;6] [7;8;9;10;11;12] None 34958 [1; 1; 0]) VNone = Err StructError /\
  is_ok (ofptuple (zeros 46) VNone) = true.
Proof. split; vm_compute; reflexivity. Qed.
