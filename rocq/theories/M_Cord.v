(** Model of cord_softswitch_pipeline and cord_softswitch_pipeline.bess: the calls
    they make on the BESS daemon, in order, and what the resulting pipeline does
    to a packet.  The scripts are data here; the modules of BESS (not part of the
    repository) are modelled from their documentation:
    - ExactMatch, WildcardMatch: fields of the packet or its metadata against
      rules; no match: the default gate; [g0] is the default gate before
      set_default_gate (None: the packet is dropped), a parameter;
    - BPF: libpcap filters, no match: gate 0 (the scripts' own comment,
      cord_softswitch_pipeline:409);
    - a packet that comes to a gate without connection is dropped;
    - HashLB: one of two gates, by [lb], a parameter;
    - Update writes a constant of the size of the field; [conv] is how BESS reads the
      constant, a parameter;
    - VLANPop takes the outer tag away; SetMetadata sets attributes.
    Simplifications: VXLANEncap, IPEncap and EtherEncap hand the packet on
    unchanged (what is sent is the inner frame with its tunnel metadata);
    fields past the end of a frame read as 0 in match modules; pause_all,
    reset_all, resume_all and the connection to the daemon are left out
    (lines 60-76, 180, 235-236). *)

From Coq Require Import String.
From Verif Require Export Py Struct.
Local Open Scope Z_scope.
Local Open Scope list_scope.

(** *** The helper functions *)

(** cord_softswitch_pipeline:10-11: socket.inet_aton, for the constant dotted quads of
    the scripts. *)
Definition aton_ip (a b c d : Z) : bytes := [a; b; c; d].

(** str.split(':') on bytes. *)
Fixpoint split_at (sep : Z) (b : bytes) : list bytes :=
  match b with
  | [] => [[]]
  | x :: b' =>
      if x =? sep then [] :: split_at sep b'
      else match split_at sep b' with [] => [[x]] | w :: ws => (x :: w) :: ws end
  end.
Definition hexval (c : Z) : option Z :=
  if (48 <=? c) && (c <=? 57) then Some (c - 48)
  else if (97 <=? c) && (c <=? 102) then Some (c - 87)
  else if (65 <=? c) && (c <=? 70) then Some (c - 55)
  else None.
(** int(x, base=16) of digits; simplification: signs, blanks, the prefix 0x and the
    suffix L, which Python takes, are errors here. *)
Fixpoint hex_go (acc : Z) (b : bytes) : res Z :=
  match b with
  | [] => Ok acc
  | c :: b' => match hexval c with Some d => hex_go (acc * 16 + d) b' | None => Err ValueError end
  end.
Definition int16 (b : bytes) : res Z := match b with [] => Err ValueError | _ => hex_go 0 b end.
(** struct.pack('B', x): out of range raises struct.error. *)
Definition packB (z : Z) : res Z := if (0 <=? z) && (z <? 256) then Ok z else Err StructError.
Fixpoint map_res {A B} (f : A -> res B) (l : list A) : res (list B) :=
  match l with [] => Ok [] | a :: l' => b <- f a ;; r <- map_res f l' ;; Ok (b :: r) end.
(** cord_softswitch_pipeline:13-14: the numbers are all read (the generator is
    unpacked) before pack counts them. *)
Definition aton_mac (mac : bytes) : res bytes :=
  l <- map_res int16 (split_at 58 mac) ;;
  if (length l =? 6)%nat then map_res packB l else Err StructError.

(** *** Fields, cord_softswitch_pipeline:22-42 *)
Inductive fld : Type := Off (o size : nat) | Attr (name : string) (size : nat).
Definition HWSRC := Off 0 6.
Definition HWDST := Off 6 6.
Definition ETHTYPE := Off 12 2.
Definition VLANID := Off 14 2.
Definition IPSRC := Off 26 4.
Definition IPDST := Off 30 4.
Definition INPORT := Attr "in_port"%string 1.
Definition TUNID := Attr "tun_id"%string 4.
Definition TUNSRC := Attr "tun_ip_src"%string 4.
Definition TUNDST := Attr "tun_ip_dst"%string 4.
(** lines 44-45 *)
Definition TYPE_QINQ := 34984.
Definition TYPE_VLAN := 33024.
Definition fsize (f : fld) : nat := match f with Off _ n => n | Attr _ n => n end.

(** Constants: a Python int or a byte string. *)
Inductive val : Type := I (z : Z) | B (b : bytes).

(** libpcap filters are conjunctions of these. *)
Inductive prim : Type := PIp | PArp | PUdp | PDstHost (a : Z) | PSrcPort (p : Z) | PDstPort (p : Z) | PEther (t : Z) | PVlan (v : Z).

(** *** The calls *)
Inductive arg : Type := ANone | AFields (l : list fld) | AValues (l : list (fld * val)) | ANum (n : Z).
Inductive call : Type :=
| Create (cls name : string) (a : arg)
| Connect (from to : string) (ogate igate : nat)
| AddW (m : string) (priority : Z) (values masks : list val) (gate : nat)
| AddE (m : string) (fields : list val) (gate : nat)
| AddB (m : string) (priority : Z) (filter : list prim) (gate : nat)
| SetDefault (m : string) (gate : nat)
| SetMode (m : string) (mode : string).

(** cord_softswitch_pipeline:79-414, in the order of the calls (the loops of lines 81-85
    written out). *)
Definition script_calls : list call :=
  [ Create "Sink"%string "OUT1"%string ANone
  ; Create "Sink"%string "OUT2"%string ANone
  ; Create "Sink"%string "OUT3"%string ANone
  ; Create "Sink"%string "OUT4"%string ANone
  ; Create "Sink"%string "DRP1"%string ANone
  ; Create "Sink"%string "DRP2"%string ANone
  ; Create "Sink"%string "DRP3"%string ANone
  ; Create "Sink"%string "DRP4"%string ANone
  ; Create "Sink"%string "DRP5"%string ANone
  ; Create "Sink"%string "LCL"%string ANone
  ; Create "Sink"%string "CTL"%string ANone
  ; Create "WildcardMatch"%string "t0_start"%string (AFields [ETHTYPE; VLANID])
  ; Create "ExactMatch"%string "t0_inport"%string (AFields [INPORT])
  ; Create "BPF"%string "t0_p2"%string ANone
  ; Create "BPF"%string "t0_default"%string ANone
  ; Create "WildcardMatch"%string "t1_start"%string (AFields [INPORT; IPSRC])
  ; Create "WildcardMatch"%string "t2_start"%string (AFields [IPSRC; IPDST])
  ; Create "ExactMatch"%string "t3_start"%string (AFields [INPORT])
  ; Create "ExactMatch"%string "t4_start"%string (AFields [IPDST])
  ; Create "Update"%string "t4u1"%string (AValues [(HWDST, B [102; 97; 58; 49; 54; 58; 51; 101; 58; 99; 102; 58; 102; 50; 58; 53; 54])])
  ; Create "Update"%string "t4u2"%string (AValues [(HWDST, B [102; 97; 58; 49; 54; 58; 51; 101; 58; 102; 51; 58; 53; 101; 58; 56; 50])])
  ; Create "SetMetadata"%string "t4s2"%string (AValues [(TUNID, I 1036); (TUNDST, B (aton_ip 1 1 1 2))])
  ; Create "Update"%string "t4u3"%string (AValues [(HWDST, B [102; 97; 58; 49; 54; 58; 51; 101; 58; 100; 97; 58; 48; 53; 58; 101; 100])])
  ; Create "SetMetadata"%string "t4s3"%string (AValues [(TUNID, I 1030); (TUNDST, B (aton_ip 1 1 1 2))])
  ; Create "Update"%string "t4u4"%string (AValues [(HWDST, B [102; 97; 58; 49; 54; 58; 51; 101; 58; 51; 101; 58; 56; 50; 58; 101; 56])])
  ; Create "ExactMatch"%string "t5_start"%string (AFields [TUNID; HWSRC])
  ; Create "BPF"%string "t6_start"%string ANone
  ; Create "VLANPop"%string "vlan_pop"%string ANone
  ; Create "HashLB"%string "grp_start"%string (ANum 2)
  ; Create "Update"%string "gru1"%string (AValues [(HWDST, B [102; 97; 58; 49; 54; 58; 51; 101; 58; 102; 51; 58; 53; 101; 58; 56; 50])])
  ; Create "SetMetadata"%string "grs1"%string (AValues [(TUNID, I 1036); (TUNDST, B (aton_ip 1 1 1 2))])
  ; Create "Update"%string "gru2"%string (AValues [(HWDST, B [102; 97; 58; 49; 54; 58; 51; 101; 58; 99; 102; 58; 102; 50; 58; 53; 54])])
  ; Create "VXLANEncap"%string "encap_and_out1"%string ANone
  ; Create "IPEncap"%string "ip_encap"%string ANone
  ; Create "EtherEncap"%string "ether_encap"%string ANone
  ; Connect "encap_and_out1"%string "ip_encap"%string 0 0
  ; Connect "ip_encap"%string "ether_encap"%string 0 0
  ; Connect "ether_encap"%string "OUT1"%string 0 0
  ; Connect "t0_start"%string "t6_start"%string 1 0
  ; Connect "t0_start"%string "t0_inport"%string 0 0
  ; Connect "t0_inport"%string "t0_p2"%string 1 0
  ; Connect "t0_inport"%string "OUT2"%string 2 0
  ; Connect "t0_inport"%string "t0_default"%string 0 0
  ; Connect "t0_p2"%string "LCL"%string 1 0
  ; Connect "t0_p2"%string "t0_default"%string 0 0
  ; Connect "t0_default"%string "CTL"%string 1 0
  ; Connect "t0_default"%string "t1_start"%string 0 0
  ; Connect "t1_start"%string "t5_start"%string 0 0
  ; Connect "t1_start"%string "t4_start"%string 1 0
  ; Connect "t1_start"%string "t2_start"%string 2 0
  ; Connect "t1_start"%string "t3_start"%string 3 0
  ; Connect "t1_start"%string "DRP1"%string 4 0
  ; Connect "t2_start"%string "grp_start"%string 1 0
  ; Connect "t2_start"%string "t4_start"%string 2 0
  ; Connect "t2_start"%string "DRP2"%string 3 0
  ; Connect "t2_start"%string "OUT2"%string 0 0
  ; Connect "t3_start"%string "grp_start"%string 1 0
  ; Connect "t3_start"%string "DRP3"%string 0 0
  ; Connect "t4_start"%string "t4u1"%string 1 0
  ; Connect "t4u1"%string "OUT4"%string 0 0
  ; Connect "t4_start"%string "t4u2"%string 2 0
  ; Connect "t4u2"%string "t4s2"%string 0 0
  ; Connect "t4s2"%string "encap_and_out1"%string 0 0
  ; Connect "t4_start"%string "t4u3"%string 3 0
  ; Connect "t4u3"%string "t4s3"%string 0 0
  ; Connect "t4s3"%string "encap_and_out1"%string 0 0
  ; Connect "t4_start"%string "t4u4"%string 4 0
  ; Connect "t4u4"%string "OUT3"%string 0 0
  ; Connect "t5_start"%string "OUT3"%string 1 0
  ; Connect "t5_start"%string "OUT4"%string 2 0
  ; Connect "t5_start"%string "DRP4"%string 0 0
  ; Connect "t6_start"%string "CTL"%string 1 0
  ; Connect "t6_start"%string "vlan_pop"%string 2 0
  ; Connect "vlan_pop"%string "OUT2"%string 0 0
  ; Connect "t6_start"%string "DRP5"%string 0 0
  ; Connect "grp_start"%string "gru1"%string 0 0
  ; Connect "gru1"%string "grs1"%string 0 0
  ; Connect "grs1"%string "encap_and_out1"%string 0 0
  ; Connect "grp_start"%string "gru2"%string 1 0
  ; Connect "gru2"%string "OUT4"%string 0 0
  ; AddW "t0_start"%string 55000 [I TYPE_VLAN; I 4096] [I 65535; I 4096] 1
  ; AddW "t0_start"%string 55000 [I TYPE_QINQ; I 4096] [I 65535; I 4096] 1
  ; AddE "t0_inport"%string [I 2] 1
  ; AddE "t0_inport"%string [I 101] 2
  ; AddB "t0_p2"%string 50000 [PIp; PDstHost 16843009] 1
  ; AddB "t0_p2"%string 50000 [PArp; PDstHost 16843009] 1
  ; AddB "t0_p2"%string 50000 [PUdp; PDstPort 4789] 1
  ; AddB "t0_default"%string 40000 [PUdp; PSrcPort 68; PDstPort 67] 1
  ; AddB "t0_default"%string 40000 [PEther 35020] 1
  ; AddB "t0_default"%string 40000 [PEther 35138] 1
  ; AddB "t0_default"%string 40000 [PArp] 1
  ; AddW "t1_start"%string 5000 [I 1; B (aton_ip 0 0 0 0)] [I 255; B (aton_ip 0 0 0 0)] 0
  ; AddW "t1_start"%string 5000 [I 2; B (aton_ip 0 0 0 0)] [I 255; B (aton_ip 0 0 0 0)] 1
  ; AddW "t1_start"%string 5000 [I 3; B (aton_ip 10 10 10 3)] [I 255; B (aton_ip 255 255 255 255)] 2
  ; AddW "t1_start"%string 5000 [I 4; B (aton_ip 10 10 12 3)] [I 255; B (aton_ip 255 255 255 255)] 2
  ; AddW "t1_start"%string 4000 [I 3; B (aton_ip 0 0 0 0)] [I 255; B (aton_ip 0 0 0 0)] 3
  ; AddW "t1_start"%string 4000 [I 3; B (aton_ip 0 0 0 0)] [I 255; B (aton_ip 0 0 0 0)] 3
  ; SetDefault "t1_start"%string 4
  ; AddW "t2_start"%string 50000 [B (aton_ip 10 10 10 0); B (aton_ip 10 10 12 1)] [B (aton_ip 255 255 255 0); B (aton_ip 255 255 255 255)] 1
  ; AddW "t2_start"%string 5000 [B (aton_ip 10 10 12 0); B (aton_ip 10 10 12 0)] [B (aton_ip 255 255 255 0); B (aton_ip 255 255 255 0)] 2
  ; AddW "t2_start"%string 5000 [B (aton_ip 10 10 12 0); B (aton_ip 10 10 10 0)] [B (aton_ip 255 255 255 0); B (aton_ip 255 255 255 0)] 2
  ; AddW "t2_start"%string 5000 [B (aton_ip 10 10 10 0); B (aton_ip 10 10 12 0)] [B (aton_ip 255 255 255 0); B (aton_ip 255 255 255 0)] 2
  ; AddW "t2_start"%string 5000 [B (aton_ip 10 10 10 0); B (aton_ip 10 10 10 0)] [B (aton_ip 255 255 255 0); B (aton_ip 255 255 255 0)] 2
  ; AddW "t2_start"%string 4000 [B (aton_ip 0 0 0 0); B (aton_ip 10 10 10 0)] [B (aton_ip 0 0 0 0); B (aton_ip 255 255 255 0)] 3
  ; AddW "t2_start"%string 4000 [B (aton_ip 0 0 0 0); B (aton_ip 10 10 12 0)] [B (aton_ip 0 0 0 0); B (aton_ip 255 255 255 0)] 3
  ; SetDefault "t2_start"%string 0
  ; AddE "t0_inport"%string [I 3] 1
  ; SetDefault "t3_start"%string 0
  ; AddE "t4_start"%string [B (aton_ip 10 10 12 3)] 1
  ; AddE "t4_start"%string [B (aton_ip 10 10 12 2)] 2
  ; AddE "t4_start"%string [B (aton_ip 10 10 10 2)] 3
  ; AddE "t4_start"%string [B (aton_ip 10 10 10 3)] 4
  ; AddE "t5_start"%string [I 1030; B [250; 22; 62; 62; 130; 232]] 1
  ; AddE "t5_start"%string [I 1036; B [250; 22; 62; 207; 242; 86]] 2
  ; SetDefault "t5_start"%string 0
  ; AddB "t6_start"%string 50000 [PVlan 500; PArp] 1
  ; AddB "t6_start"%string 5000 [PVlan 500] 2
  ; SetMode "grp_start"%string "l4"%string ].

(** cord_softswitch_pipeline.bess:20-315.  [a::M(x)] creates, [a:g -> b] connects;
    modules without a name get one from bessctl: the class and a number here. *)
Definition bess_calls : list call :=
  [ Create "Sink"%string "OUT1"%string ANone
  ; Create "Sink"%string "OUT2"%string ANone
  ; Create "Sink"%string "OUT3"%string ANone
  ; Create "Sink"%string "OUT4"%string ANone
  ; Create "Sink"%string "LCL"%string ANone
  ; Create "Sink"%string "CTL"%string ANone
  ; Create "WildcardMatch"%string "t0_start"%string (AFields [ETHTYPE; VLANID])
  ; Create "ExactMatch"%string "t0_inport"%string (AFields [INPORT])
  ; Create "BPF"%string "t0_p2"%string ANone
  ; Create "BPF"%string "t0_default"%string ANone
  ; Create "WildcardMatch"%string "t1_start"%string (AFields [INPORT; IPSRC])
  ; Create "WildcardMatch"%string "t2_start"%string (AFields [IPSRC; IPDST])
  ; Create "ExactMatch"%string "t3_start"%string (AFields [INPORT])
  ; Create "ExactMatch"%string "t4_start"%string (AFields [IPDST])
  ; Create "ExactMatch"%string "t5_start"%string (AFields [TUNID; HWSRC])
  ; Create "BPF"%string "t6_start"%string ANone
  ; Create "HashLB"%string "grp_start"%string (ANum 2)
  ; Create "VXLANEncap"%string "encap_and_out1"%string ANone
  ; Create "IPEncap"%string "ipencap0"%string ANone
  ; Create "EtherEncap"%string "etherencap0"%string ANone
  ; Connect "encap_and_out1"%string "ipencap0"%string 0 0
  ; Connect "ipencap0"%string "etherencap0"%string 0 0
  ; Connect "etherencap0"%string "OUT1"%string 0 0
  ; AddW "t0_start"%string 55000 [I TYPE_VLAN; I 4096] [I 65535; I 4096] 1
  ; AddW "t0_start"%string 55000 [I TYPE_QINQ; I 4096] [I 65535; I 4096] 1
  ; Connect "t0_start"%string "t6_start"%string 1 0
  ; Connect "t0_start"%string "t0_inport"%string 0 0
  ; AddE "t0_inport"%string [I 2] 1
  ; Connect "t0_inport"%string "t0_p2"%string 1 0
  ; AddE "t0_inport"%string [I 101] 2
  ; Connect "t0_inport"%string "OUT2"%string 2 0
  ; SetDefault "t0_inport"%string 0
  ; Connect "t0_inport"%string "t0_default"%string 0 0
  ; AddB "t0_p2"%string 50000 [PIp; PDstHost 16843009] 1
  ; Connect "t0_p2"%string "LCL"%string 1 0
  ; AddB "t0_p2"%string 50000 [PArp; PDstHost 16843009] 1
  ; AddB "t0_p2"%string 50000 [PUdp; PDstPort 4789] 1
  ; Connect "t0_p2"%string "t0_default"%string 0 0
  ; AddB "t0_default"%string 40000 [PUdp; PSrcPort 68; PDstPort 67] 1
  ; Connect "t0_default"%string "CTL"%string 1 0
  ; AddB "t0_default"%string 40000 [PEther 35020] 1
  ; AddB "t0_default"%string 40000 [PEther 35138] 1
  ; AddB "t0_default"%string 40000 [PArp] 1
  ; Connect "t0_default"%string "t1_start"%string 0 0
  ; AddW "t1_start"%string 5000 [I 1; B (aton_ip 0 0 0 0)] [I 255; B (aton_ip 0 0 0 0)] 0
  ; Connect "t1_start"%string "t5_start"%string 0 0
  ; AddW "t1_start"%string 5000 [I 2; B (aton_ip 0 0 0 0)] [I 255; B (aton_ip 0 0 0 0)] 1
  ; Connect "t1_start"%string "t4_start"%string 1 0
  ; AddW "t1_start"%string 5000 [I 3; B (aton_ip 10 10 10 3)] [I 255; B (aton_ip 255 255 255 255)] 2
  ; Connect "t1_start"%string "t2_start"%string 2 0
  ; AddW "t1_start"%string 5000 [I 4; B (aton_ip 10 10 12 3)] [I 255; B (aton_ip 255 255 255 255)] 2
  ; AddW "t1_start"%string 4000 [I 3; B (aton_ip 0 0 0 0)] [I 255; B (aton_ip 0 0 0 0)] 3
  ; Connect "t1_start"%string "t3_start"%string 3 0
  ; AddW "t1_start"%string 4000 [I 3; B (aton_ip 0 0 0 0)] [I 255; B (aton_ip 0 0 0 0)] 3
  ; SetDefault "t1_start"%string 4
  ; Create "Sink"%string "sink0"%string ANone
  ; Connect "t1_start"%string "sink0"%string 4 0
  ; AddW "t2_start"%string 50000 [B (aton_ip 10 10 10 0); B (aton_ip 10 10 12 1)] [B (aton_ip 255 255 255 0); B (aton_ip 255 255 255 255)] 1
  ; Connect "t2_start"%string "grp_start"%string 1 0
  ; AddW "t2_start"%string 5000 [B (aton_ip 10 10 12 0); B (aton_ip 10 10 12 0)] [B (aton_ip 255 255 255 0); B (aton_ip 255 255 255 0)] 2
  ; Connect "t2_start"%string "t4_start"%string 2 0
  ; AddW "t2_start"%string 5000 [B (aton_ip 10 10 12 0); B (aton_ip 10 10 10 0)] [B (aton_ip 255 255 255 0); B (aton_ip 255 255 255 0)] 2
  ; AddW "t2_start"%string 5000 [B (aton_ip 10 10 10 0); B (aton_ip 10 10 12 0)] [B (aton_ip 255 255 255 0); B (aton_ip 255 255 255 0)] 2
  ; AddW "t2_start"%string 5000 [B (aton_ip 10 10 10 0); B (aton_ip 10 10 10 0)] [B (aton_ip 255 255 255 0); B (aton_ip 255 255 255 0)] 2
  ; AddW "t2_start"%string 4000 [B (aton_ip 0 0 0 0); B (aton_ip 10 10 10 0)] [B (aton_ip 0 0 0 0); B (aton_ip 255 255 255 0)] 3
  ; Create "Sink"%string "sink1"%string ANone
  ; Connect "t2_start"%string "sink1"%string 3 0
  ; AddW "t2_start"%string 4000 [B (aton_ip 0 0 0 0); B (aton_ip 10 10 12 0)] [B (aton_ip 0 0 0 0); B (aton_ip 255 255 255 0)] 3
  ; SetDefault "t2_start"%string 0
  ; Connect "t2_start"%string "OUT2"%string 0 0
  ; AddE "t3_start"%string [I 3] 1
  ; Connect "t3_start"%string "grp_start"%string 1 0
  ; SetDefault "t3_start"%string 0
  ; Create "Sink"%string "sink2"%string ANone
  ; Connect "t3_start"%string "sink2"%string 0 0
  ; AddE "t4_start"%string [B (aton_ip 10 10 12 3)] 1
  ; Create "Update"%string "update0"%string (AValues [(HWDST, B [102; 97; 58; 49; 54; 58; 51; 101; 58; 99; 102; 58; 102; 50; 58; 53; 54])])
  ; Connect "t4_start"%string "update0"%string 1 0
  ; Connect "update0"%string "OUT4"%string 0 0
  ; AddE "t4_start"%string [B (aton_ip 10 10 12 2)] 2
  ; Create "Update"%string "update1"%string (AValues [(HWDST, B [102; 97; 58; 49; 54; 58; 51; 101; 58; 102; 51; 58; 53; 101; 58; 56; 50])])
  ; Create "SetMetadata"%string "setmetadata0"%string (AValues [(TUNID, I 1036); (TUNDST, B (aton_ip 1 1 1 2))])
  ; Connect "t4_start"%string "update1"%string 2 0
  ; Connect "update1"%string "setmetadata0"%string 0 0
  ; Connect "setmetadata0"%string "encap_and_out1"%string 0 0
  ; AddE "t4_start"%string [B (aton_ip 10 10 10 2)] 3
  ; Create "Update"%string "update2"%string (AValues [(HWDST, B [102; 97; 58; 49; 54; 58; 51; 101; 58; 100; 97; 58; 48; 53; 58; 101; 100])])
  ; Create "SetMetadata"%string "setmetadata1"%string (AValues [(TUNID, I 1030); (TUNDST, B (aton_ip 1 1 1 2))])
  ; Connect "t4_start"%string "update2"%string 3 0
  ; Connect "update2"%string "setmetadata1"%string 0 0
  ; Connect "setmetadata1"%string "encap_and_out1"%string 0 0
  ; AddE "t4_start"%string [B (aton_ip 10 10 10 3)] 4
  ; Create "Update"%string "update3"%string (AValues [(HWDST, B [102; 97; 58; 49; 54; 58; 51; 101; 58; 51; 101; 58; 56; 50; 58; 101; 56])])
  ; Connect "t4_start"%string "update3"%string 4 0
  ; Connect "update3"%string "OUT3"%string 0 0
  ; AddE "t5_start"%string [I 1030; B [250; 22; 62; 62; 130; 232]] 1
  ; Connect "t5_start"%string "OUT3"%string 1 0
  ; AddE "t5_start"%string [I 1036; B [250; 22; 62; 207; 242; 86]] 2
  ; Connect "t5_start"%string "OUT4"%string 2 0
  ; SetDefault "t5_start"%string 0
  ; Create "Sink"%string "sink3"%string ANone
  ; Connect "t5_start"%string "sink3"%string 0 0
  ; AddB "t6_start"%string 50000 [PVlan 500; PArp] 1
  ; Connect "t6_start"%string "CTL"%string 1 0
  ; Create "VLANPop"%string "vlanpop0"%string ANone
  ; Connect "t6_start"%string "vlanpop0"%string 2 0
  ; Connect "vlanpop0"%string "OUT2"%string 0 0
  ; AddB "t6_start"%string 5000 [PVlan 500] 2
  ; Create "Sink"%string "sink4"%string ANone
  ; Connect "t6_start"%string "sink4"%string 0 0
  ; SetMode "grp_start"%string "l4"%string
  ; Create "Update"%string "update4"%string (AValues [(HWDST, B [102; 97; 58; 49; 54; 58; 51; 101; 58; 102; 51; 58; 53; 101; 58; 56; 50])])
  ; Create "SetMetadata"%string "setmetadata2"%string (AValues [(TUNID, I 1036); (TUNDST, B (aton_ip 1 1 1 2))])
  ; Connect "grp_start"%string "update4"%string 0 0
  ; Connect "update4"%string "setmetadata2"%string 0 0
  ; Connect "setmetadata2"%string "encap_and_out1"%string 0 0
  ; Create "Update"%string "update5"%string (AValues [(HWDST, B [102; 97; 58; 49; 54; 58; 51; 101; 58; 99; 102; 58; 102; 50; 58; 53; 54])])
  ; Connect "grp_start"%string "update5"%string 1 0
  ; Connect "update5"%string "OUT4"%string 0 0 ].

(** *** The daemon while it is set up *)

(** Rules: [w_]: WildcardMatch, [e_]: ExactMatch, newest first, [b_]: BPF.
    [m_dflt]: None until set_default_gate. *)
Record modl : Type := mkModl {
  m_cls : string; m_arg : arg;
  m_w : list (Z * list Z * list Z * nat); m_e : list (list Z * nat); m_b : list (Z * list prim * nat);
  m_dflt : option nat; m_out : list (nat * string) }.
Definition pipe := list (string * modl).

Fixpoint find (n : string) (p : pipe) : option modl :=
  match p with [] => None | (k, m) :: p' => if String.eqb k n then Some m else find n p' end.
Fixpoint setm (n : string) (m : modl) (p : pipe) : pipe :=
  match p with [] => [] | (k, x) :: p' => if String.eqb k n then (k, m) :: p' else (k, x) :: setm n m p' end.
Fixpoint gate (g : nat) (l : list (nat * string)) : option string :=
  match l with [] => None | (k, t) :: l' => if (k =? g)%nat then Some t else gate g l' end.

(** The number of a constant: byte strings are read in network order, ints are. *)
Definition num (v : val) : Z := match v with I z => z | B b => of_be b end.

(** BESS refuses (the client raises APIError, [OtherError 2]): a name in use, a
    module that is not there, a gate in use, a command the class does not have. *)
Definition api : exn := OtherError 2.
Definition call1 (p : pipe) (c : call) : res pipe :=
  match c with
  | Create cls n a =>
      match find n p with
      | Some _ => Err api
      | None => Ok (p ++ [(n, mkModl cls a [] [] [] None [])])
      end
  | Connect f t og _ =>
      match find f p, find t p with
      | Some m, Some _ =>
          match gate og (m_out m) with
          | Some _ => Err api
          | None => Ok (setm f (mkModl (m_cls m) (m_arg m) (m_w m) (m_e m) (m_b m) (m_dflt m) (m_out m ++ [(og, t)])) p)
          end
      | _, _ => Err api
      end
  | AddW n pri vs ms g =>
      match find n p with
      | Some m => if String.eqb (m_cls m) "WildcardMatch"%string
          then Ok (setm n (mkModl (m_cls m) (m_arg m) (m_w m ++ [(pri, map num vs, map num ms, g)]) (m_e m) (m_b m) (m_dflt m) (m_out m)) p)
          else Err api
      | None => Err api
      end
  | AddE n vs g =>
      match find n p with
      | Some m => if String.eqb (m_cls m) "ExactMatch"%string
          then Ok (setm n (mkModl (m_cls m) (m_arg m) (m_w m) ((map num vs, g) :: m_e m) (m_b m) (m_dflt m) (m_out m)) p)
          else Err api
      | None => Err api
      end
  | AddB n pri f g =>
      match find n p with
      | Some m => if String.eqb (m_cls m) "BPF"%string
          then Ok (setm n (mkModl (m_cls m) (m_arg m) (m_w m) (m_e m) (m_b m ++ [(pri, f, g)]) (m_dflt m) (m_out m)) p)
          else Err api
      | None => Err api
      end
  | SetDefault n g =>
      match find n p with
      | Some m => if (String.eqb (m_cls m) "WildcardMatch"%string || String.eqb (m_cls m) "ExactMatch"%string)%bool
          then Ok (setm n (mkModl (m_cls m) (m_arg m) (m_w m) (m_e m) (m_b m) (Some g) (m_out m)) p)
          else Err api
      | None => Err api
      end
  | SetMode n _ =>
      match find n p with
      | Some m => if String.eqb (m_cls m) "HashLB"%string then Ok p else Err api
      | None => Err api
      end
  end.
Fixpoint setup (p : pipe) (l : list call) : res pipe :=
  match l with [] => Ok p | c :: l' => p' <- call1 p c ;; setup p' l' end.

(** *** Packets in the pipeline *)

(** [k_data]: the frame; [k_port], [k_tun], [k_tdst]: metadata in_port, tun_id, tun_ip_dst.
    tun_ip_src is never used. *)
Record pkt : Type := mkPkt { k_data : bytes; k_port : Z; k_tun : Z; k_tdst : Z }.

Definition slice (o n : nat) (b : bytes) : bytes := firstn n (skipn o b).
Definition readf (f : fld) (k : pkt) : Z :=
  match f with
  | Off o n => of_be (slice o n (k_data k))
  | Attr a _ =>
      if String.eqb a "in_port"%string then k_port k
      else if String.eqb a "tun_id"%string then k_tun k
      else if String.eqb a "tun_ip_dst"%string then k_tdst k
      else 0
  end.

(** ExactMatch: all fields equal. *)
Fixpoint eqs (ks vs : list Z) : bool :=
  match ks, vs with
  | [], [] => true
  | x :: ks', y :: vs' => (x =? y) && eqs ks' vs'
  | _, _ => false
  end.
Fixpoint exact (ks : list Z) (l : list (list Z * nat)) : option nat :=
  match l with [] => None | (vs, g) :: l' => if eqs ks vs then Some g else exact ks l' end.

(** WildcardMatch: the masked fields equal; the highest priority, the first of
    equals. *)
Fixpoint masked (ks vs ms : list Z) : bool :=
  match ks, vs, ms with
  | [], [], [] => true
  | x :: ks', y :: vs', m :: ms' => (Z.land x m =? y) && masked ks' vs' ms'
  | _, _, _ => false
  end.
Fixpoint best {A} (ok : A -> bool) (l : list (Z * A * nat)) (acc : option (Z * nat)) : option nat :=
  match l with
  | [] => match acc with Some (_, g) => Some g | None => None end
  | (pri, a, g) :: l' =>
      best ok l'
        (if ok a then match acc with Some (p0, _) => if p0 <? pri then Some (pri, g) else acc | None => Some (pri, g) end
         else acc)
  end.
Definition wild (ks : list Z) (l : list (Z * list Z * list Z * nat)) : option nat :=
  best (fun r => masked ks (fst r) (snd r)) (map (fun r => match r with (p, v, m, g) => (p, (v, m), g) end) l) None.

(** libpcap: loads past the end of the packet reject it ([None]); [sh] is how far
    the keyword vlan moved what follows. *)
Definition ld (b : bytes) (o n : nat) : option Z :=
  if (o + n <=? length b)%nat then Some (of_be (slice o n b)) else None.
Definition isk (b : bytes) (o n : nat) (z : Z) : option bool :=
  match ld b o n with Some x => Some (x =? z) | None => None end.
Definition oand (a : option bool) (b : option bool) : option bool :=
  match a with Some true => b | _ => a end.
Definition oor (a : option bool) (b : option bool) : option bool :=
  match a with Some false => b | _ => a end.
(** [ihl]: a transport port behind an IPv4 header of any length, in a packet that is not a later fragment. *)
Definition port4 (b : bytes) (sh k : nat) (z : Z) : option bool :=
  match ld b (sh + 20) 2, ld b (sh + 14) 1 with
  | Some fr, Some vh =>
      if Z.land fr 8191 =? 0 then isk b (sh + 14 + 4 * Z.to_nat (Z.land vh 15) + k) 2 z else Some false
  | _, _ => None
  end.
Definition transport (b : bytes) (o : nat) : option bool := oor (isk b o 1 132) (oor (isk b o 1 6) (isk b o 1 17)).
Definition pcap1 (b : bytes) (sh : nat) (p : prim) : option bool :=
  match p with
  | PIp => isk b (sh + 12) 2 2048
  | PArp => isk b (sh + 12) 2 2054
  | PEther t => isk b (sh + 12) 2 t
  | PUdp =>
      oor (oand (isk b (sh + 12) 2 34525)
                (oor (isk b (sh + 20) 1 17) (oand (isk b (sh + 20) 1 44) (isk b (sh + 54) 1 17))))
          (oand (isk b (sh + 12) 2 2048) (isk b (sh + 23) 1 17))
  | PDstHost a =>
      oor (oand (isk b (sh + 12) 2 2048) (isk b (sh + 30) 4 a))
      (oor (oand (isk b (sh + 12) 2 2054) (isk b (sh + 38) 4 a))
           (oand (isk b (sh + 12) 2 32821) (isk b (sh + 38) 4 a)))
  | PSrcPort z =>
      oor (oand (isk b (sh + 12) 2 34525) (oand (transport b (sh + 20)) (isk b (sh + 54) 2 z)))
          (oand (isk b (sh + 12) 2 2048) (oand (transport b (sh + 23)) (port4 b sh 0 z)))
  | PDstPort z =>
      oor (oand (isk b (sh + 12) 2 34525) (oand (transport b (sh + 20)) (isk b (sh + 56) 2 z)))
          (oand (isk b (sh + 12) 2 2048) (oand (transport b (sh + 23)) (port4 b sh 2 z)))
  | PVlan v =>
      oand (oor (isk b (sh + 12) 2 33024) (oor (isk b (sh + 12) 2 34984) (isk b (sh + 12) 2 37120)))
           (match ld b (sh + 14) 2 with Some t => Some (Z.land t 4095 =? v) | None => None end)
  end.
Fixpoint pcap (b : bytes) (sh : nat) (l : list prim) : option bool :=
  match l with
  | [] => Some true
  | p :: l' => oand (pcap1 b sh p) (pcap b (match p with PVlan _ => sh + 4 | _ => sh end)%nat l')
  end.
Definition pass (b : bytes) (l : list prim) : bool := match pcap b 0 l with Some true => true | _ => false end.

(** Update: [n] bytes at [o]. *)
Definition overwrite (o : nat) (v b : bytes) : bytes := firstn o b ++ v ++ skipn (o + length v) b.

Section Run.
(** How BESS reads the constants of Update; the default gate of a new match
    module; the hash of HashLB. *)
Variables (conv : val -> bytes) (g0 : option nat) (lb : bytes -> bool).

Definition upd1 (k : pkt) (fv : fld * val) : pkt :=
  match fst fv with
  | Off o _ => mkPkt (overwrite o (conv (snd fv)) (k_data k)) (k_port k) (k_tun k) (k_tdst k)
  | Attr _ _ => k
  end.
Definition meta1 (k : pkt) (fv : fld * val) : pkt :=
  match fst fv with
  | Off _ _ => k
  | Attr a _ =>
      if String.eqb a "in_port"%string then mkPkt (k_data k) (num (snd fv)) (k_tun k) (k_tdst k)
      else if String.eqb a "tun_id"%string then mkPkt (k_data k) (k_port k) (num (snd fv)) (k_tdst k)
      else if String.eqb a "tun_ip_dst"%string then mkPkt (k_data k) (k_port k) (k_tun k) (num (snd fv))
      else k
  end.
Definition pop (b : bytes) : bytes :=
  let t := of_be (slice 12 2 b) in
  if (t =? 33024) || (t =? 34984) then firstn 12 b ++ skipn 16 b else b.

(** One module: the gate the packet leaves at (None: dropped) and the packet. *)
Definition dflt (m : modl) : option nat := match m_dflt m with Some g => Some g | None => g0 end.
Definition fields_of (a : arg) : list fld := match a with AFields l => l | _ => [] end.
Definition values_of (a : arg) : list (fld * val) := match a with AValues l => l | _ => [] end.
Definition work (m : modl) (k : pkt) : option nat * pkt :=
  let c := m_cls m in
  if String.eqb c "ExactMatch"%string then
    (match exact (map (fun f => readf f k) (fields_of (m_arg m))) (m_e m) with Some g => Some g | None => dflt m end, k)
  else if String.eqb c "WildcardMatch"%string then
    (match wild (map (fun f => readf f k) (fields_of (m_arg m))) (m_w m) with Some g => Some g | None => dflt m end, k)
  else if String.eqb c "BPF"%string then
    (match best (pass (k_data k)) (m_b m) None with Some g => Some g | None => Some 0%nat end, k)
  else if String.eqb c "HashLB"%string then (Some (if lb (k_data k) then 1%nat else 0%nat), k)
  else if String.eqb c "Update"%string then (Some 0%nat, fold_left upd1 (values_of (m_arg m)) k)
  else if String.eqb c "SetMetadata"%string then (Some 0%nat, fold_left meta1 (values_of (m_arg m)) k)
  else if String.eqb c "VLANPop"%string then (Some 0%nat, mkPkt (pop (k_data k)) (k_port k) (k_tun k) (k_tdst k))
  else (Some 0%nat, k).

(** [Reach]: absorbed by a sink; [Lost]: dropped between modules, with the name of the
    module it left. *)
Inductive fate : Type := Reach (sink : string) (k : pkt) | Lost (at_ : string) | NoFuel.
Fixpoint go (fuel : nat) (p : pipe) (n : string) (k : pkt) : fate :=
  match fuel with
  | O => NoFuel
  | S fuel' =>
      match find n p with
      | None => Lost n
      | Some m =>
          if String.eqb (m_cls m) "Sink"%string then Reach n k
          else
            let (g, k') := work m k in
            match g with
            | None => Lost n
            | Some g => match gate g (m_out m) with None => Lost n | Some t => go fuel' p t k' end
            end
      end
  end.

(** A packet that comes in at t0_start (the scripts connect no source to it), when the
    set-up went through. *)
Definition forward (fuel : nat) (calls : list call) (k : pkt) : res fate :=
  p <- setup [] calls ;; Ok (go fuel p "t0_start"%string k).
End Run.
