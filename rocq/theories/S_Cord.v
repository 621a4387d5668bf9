(** The OpenFlow tables that cord_softswitch_pipeline is to carry out, as its
    comments give them (lines 246-414), and what an OpenFlow switch does with them
    (OpenFlow 1.3 section 5.3; ovs-ofctl(8) for vlan_tci).  Frames are built from their headers' fields,
    not read at offsets.  Nothing here refers to the model. *)

From Verif Require Import Py Struct.
Local Open Scope Z_scope.
Local Open Scope list_scope.

(** *** Frames *)

(** The outer tag: EtherType, priority, drop eligible indicator, VLAN id. *)
Record vtag : Type := { v_tpid : Z; v_pcp : Z; v_dei : Z; v_vid : Z }.
Definition vtag_ok (t : vtag) : Prop :=
  (v_tpid t = 33024 \/ v_tpid t = 34984) /\ 0 <= v_pcp t < 8 /\ 0 <= v_dei t < 2 /\ 0 <= v_vid t < 4096.
Definition vtag_wire (t : vtag) : bytes := be 2 (v_tpid t) ++ be 2 (v_pcp t * 8192 + v_dei t * 4096 + v_vid t).

(** IPv4 (RFC 791): [i_first] version, header length and service; [i_opts] a number of
    32-bit words; [i_off] the fragment offset, [i_flags] the flags above it. *)
Record ip4 : Type := {
  i_tos : Z; i_len : Z; i_id : Z; i_flags : Z; i_off : Z; i_ttl : Z; i_proto : Z; i_sum : Z;
  i_src : Z; i_dst : Z; i_opts : bytes; i_words : nat }.
Definition ip4_ok (h : ip4) : Prop :=
  0 <= i_flags h < 8 /\ 0 <= i_off h < 8192 /\ 0 <= i_proto h < 256 /\ 0 <= i_src h < 4294967296 /\ 0 <= i_dst h < 4294967296 /\
  length (i_opts h) = (4 * i_words h)%nat /\ (i_words h <= 10)%nat.
Definition ip4_wire (h : ip4) (payload : bytes) : bytes :=
  be 1 (64 + 5 + Z.of_nat (i_words h)) ++ be 1 (i_tos h) ++ be 2 (i_len h) ++ be 2 (i_id h) ++
  be 2 (i_flags h * 8192 + i_off h) ++ be 1 (i_ttl h) ++ be 1 (i_proto h) ++ be 2 (i_sum h) ++
  be 4 (i_src h) ++ be 4 (i_dst h) ++ i_opts h ++ payload.

(** [Ports]: a transport header that begins with two ports; [Raw]: anything else, later
    fragments for instance. *)
Inductive tp : Type := Ports (sp dp : Z) (rest : bytes) | Raw (b : bytes).
Definition tp_wire (t : tp) : bytes := match t with Ports s d r => be 2 s ++ be 2 d ++ r | Raw b => b end.

Inductive net : Type :=
| Ip4 (h : ip4) (t : tp)
| Arp (head : bytes) (op : Z) (sha : bytes) (spa : Z) (tha : bytes) (tpa : Z) (rest : bytes)
| Other (ty : Z) (payload : bytes).
Definition net_type (n : net) : Z := match n with Ip4 _ _ => 2048 | Arp _ _ _ _ _ _ _ => 2054 | Other ty _ => ty end.
Definition net_wire (n : net) : bytes :=
  match n with
  | Ip4 h t => ip4_wire h (tp_wire t)
  | Arp hd op sha spa tha tpa r => hd ++ be 2 op ++ sha ++ be 4 spa ++ tha ++ be 4 tpa ++ r
  | Other _ b => b
  end.
(** A complete first fragment of UDP has its ports.  A payload of EtherType [ty] is not another
    of the three nor a tag; 46 bytes is the least an Ethernet frame carries. *)
Definition net_ok (n : net) : Prop :=
  match n with
  | Ip4 h t =>
      ip4_ok h /\
      match t with
      | Ports s d _ => 0 <= s < 65536 /\ 0 <= d < 65536
      | Raw _ => ~ (i_proto h = 17 /\ i_off h = 0)
      end
  | Arp hd op sha spa tha tpa _ =>
      length hd = 6%nat /\ length sha = 6%nat /\ length tha = 6%nat /\ 0 <= spa < 4294967296 /\ 0 <= tpa < 4294967296
  | Other ty b => 0 <= ty < 65536 /\ ty <> 2048 /\ ty <> 2054 /\ ty <> 33024 /\ ty <> 34984 /\ (46 <= length b)%nat
  end.

Record frame : Type := { f_dst : bytes; f_src : bytes; f_tag : option vtag; f_net : net }.
Definition frame_ok (f : frame) : Prop :=
  length (f_dst f) = 6%nat /\ length (f_src f) = 6%nat /\ Forall (fun b => 0 <= b < 256) (f_dst f) /\
  match f_tag f with None => True | Some t => vtag_ok t end /\ net_ok (f_net f).
Definition frame_wire (f : frame) : bytes :=
  f_dst f ++ f_src f ++ match f_tag f with None => [] | Some t => vtag_wire t end ++ be 2 (net_type (f_net f)) ++ net_wire (f_net f).

(** A frame in the switch: where it came in and its tunnel. *)
Record opkt : Type := { p_frame : frame; p_in : Z; p_tun : Z; p_tdst : Z }.

(** *** Matches, ovs-ofctl(8) *)
Definition LOCAL : Z := 4294967294.
Inductive mat : Type :=
| InPort (n : Z) | VlanTagged | DlVlan (v : Z) | DlType (t : Z) | DlDst (m : bytes) | TunId (n : Z)
| NwSrc (a : Z) (len : Z) | NwDst (a : Z) (len : Z) | ArpTpa (a : Z) | NwProto (n : Z) | TpSrc (n : Z) | TpDst (n : Z).
Definition prefix (a len : Z) : Z := a / 2 ^ (32 - len).
Definition ports_of (n : net) : option (Z * Z) :=
  match n with Ip4 h (Ports s d _) => if i_off h =? 0 then Some (s, d) else None | _ => None end.
(** vlan_tci=0x1000/0x1000 matches the frames that have a tag: Open vSwitch
    sets that bit in the field for a tagged frame, whatever the frame carries there. *)
Definition holds (p : opkt) (m : mat) : bool :=
  let f := p_frame p in
  match m with
  | InPort n => p_in p =? n
  | VlanTagged => match f_tag f with Some _ => true | None => false end
  | DlVlan v => match f_tag f with Some t => v_vid t =? v | None => false end
  | DlType t => net_type (f_net f) =? t
  | DlDst m => if list_eq_dec Z.eq_dec (f_dst f) m then true else false
  | TunId n => p_tun p =? n
  | NwSrc a l => match f_net f with Ip4 h _ => prefix (i_src h) l =? prefix a l | _ => false end
  | NwDst a l => match f_net f with Ip4 h _ => prefix (i_dst h) l =? prefix a l | _ => false end
  | ArpTpa a => match f_net f with Arp _ _ _ _ _ tpa _ => tpa =? a | _ => false end
  | NwProto n => match f_net f with Ip4 h _ => i_proto h =? n | _ => false end
  | TpSrc n => match ports_of (f_net f) with Some (s, _) => s =? n | None => false end
  | TpDst n => match ports_of (f_net f) with Some (_, d) => d =? n | None => false end
  end.

(** *** Actions and tables *)
Inductive act : Type :=
| SetDst (m : bytes) | SetTunId (n : Z) | SetTunDst (a : Z) | PopVlan
| Output (n : Z) | ToLocal | ToController | GotoTable (n : nat) | Group.
Record rule : Type := { priority : Z; matches : list mat; actions : list act }.

Definition a4 (a b c d : Z) : Z := ((a * 256 + b) * 256 + c) * 256 + d.
Definition mac1 := [250; 22; 62; 207; 242; 86].   (* fa:16:3e:cf:f2:56 *)
Definition mac2 := [250; 22; 62; 243; 94; 130].   (* fa:16:3e:f3:5e:82 *)
Definition mac3 := [250; 22; 62; 218; 5; 237].    (* fa:16:3e:da:05:ed *)
Definition mac4 := [250; 22; 62; 62; 130; 232].   (* fa:16:3e:3e:82:e8 *)
Definition ip := DlType 2048.
Definition arp := DlType 2054.
Definition udp := [ip; NwProto 17].
Definition R p m a : rule := {| priority := p; matches := m; actions := a |}.

(** cord_softswitch_pipeline:246-405, comments; the comment of the rule for 0x8942, missing
    there, from cord_softswitch_pipeline.bess:147. *)
Definition tables (n : nat) : list rule :=
  match n with
  | 0 => [ R 55000 [VlanTagged] [GotoTable 6];
           R 50000 [InPort LOCAL] [Output 2];
           R 50000 [ip; InPort 2; NwDst (a4 1 1 1 1) 32] [ToLocal];
           R 50000 [arp; InPort 2; ArpTpa (a4 1 1 1 1)] [ToLocal];
           R 50000 (udp ++ [InPort 2; TpDst 4789]) [ToLocal];
           R 40000 (udp ++ [TpSrc 68; TpDst 67]) [ToController];
           R 40000 [DlType 35020] [ToController];
           R 40000 [DlType 35138] [ToController];
           R 40000 [arp] [ToController];
           R 0 [] [GotoTable 1] ]
  | 1 => [ R 5000 [InPort 1] [GotoTable 5];
           R 5000 [InPort 2] [GotoTable 4];
           R 5000 [ip; InPort 3; NwSrc (a4 10 10 10 3) 32] [GotoTable 2];
           R 5000 [ip; InPort 4; NwSrc (a4 10 10 12 3) 32] [GotoTable 2];
           R 4000 [InPort 3] [GotoTable 3];
           R 4000 [InPort 4] [GotoTable 3] ]
  | 2 => [ R 50000 [ip; NwSrc (a4 10 10 10 0) 24; NwDst (a4 10 10 12 1) 32] [Group];
           R 5000 [ip; NwSrc (a4 10 10 12 0) 24; NwDst (a4 10 10 12 0) 24] [GotoTable 4];
           R 5000 [ip; NwSrc (a4 10 10 12 0) 24; NwDst (a4 10 10 10 0) 24] [GotoTable 4];
           R 5000 [ip; NwSrc (a4 10 10 10 0) 24; NwDst (a4 10 10 12 0) 24] [GotoTable 4];
           R 5000 [ip; NwSrc (a4 10 10 10 0) 24; NwDst (a4 10 10 10 0) 24] [GotoTable 4];
           R 4000 [ip; NwDst (a4 10 10 10 0) 24] [];
           R 4000 [ip; NwDst (a4 10 10 12 0) 24] [];
           R 0 [] [Output 2] ]
  | 3 => [ R 5000 [InPort 3] [Group] ]
  | 4 => [ R 5000 [ip; NwDst (a4 10 10 12 3) 32] [SetDst mac1; Output 4];
           R 5000 [ip; NwDst (a4 10 10 12 2) 32] [SetDst mac2; SetTunId 1036; SetTunDst (a4 1 1 1 2); Output 1];
           R 5000 [ip; NwDst (a4 10 10 10 2) 32] [SetDst mac3; SetTunId 1030; SetTunDst (a4 1 1 1 2); Output 1];
           R 5000 [ip; NwDst (a4 10 10 10 3) 32] [SetDst mac4; Output 3] ]
  | 5 => [ R 5000 [TunId 1030; DlDst mac4] [Output 3];
           R 5000 [TunId 1036; DlDst mac1] [Output 4] ]
  | 6 => [ R 50000 [arp; DlVlan 500] [ToController];
           R 5000 [DlVlan 500] [PopVlan; Output 2] ]
  | _ => []
  end%nat.
(** cord_softswitch_pipeline.bess:299-314. *)
Definition buckets (second : bool) : list act :=
  if second then [SetDst mac1; Output 4] else [SetDst mac2; SetTunDst (a4 1 1 1 2); SetTunId 1036; Output 1].

(** *** The switch *)
Fixpoint pick (p : opkt) (l : list rule) : option rule :=
  match l with
  | [] => None
  | r :: l' =>
      let rest := pick p l' in
      if forallb (holds p) (matches r) then
        match rest with Some r' => if priority r <? priority r' then Some r' else Some r | None => Some r end
      else rest
  end.
(** Where a packet ends up: at most one output happens with these tables. *)
Inductive dest : Type := Port (n : Z) (p : opkt) | Local (p : opkt) | Controller (p : opkt) | Dropped.
Definition set_frame (p : opkt) (f : frame) : opkt := {| p_frame := f; p_in := p_in p; p_tun := p_tun p; p_tdst := p_tdst p |}.
Definition set_dst (m : bytes) (p : opkt) : opkt :=
  set_frame p {| f_dst := m; f_src := f_src (p_frame p); f_tag := f_tag (p_frame p); f_net := f_net (p_frame p) |}.
Definition untag (p : opkt) : opkt :=
  set_frame p {| f_dst := f_dst (p_frame p); f_src := f_src (p_frame p); f_tag := None; f_net := f_net (p_frame p) |}.

(** A list of actions; [jump] says what the two that lead elsewhere do. *)
Fixpoint perform (jump : act -> opkt -> dest) (l : list act) (p : opkt) : dest :=
  match l with
  | [] => Dropped
  | SetDst m :: l' => perform jump l' (set_dst m p)
  | SetTunId n :: l' => perform jump l' {| p_frame := p_frame p; p_in := p_in p; p_tun := n; p_tdst := p_tdst p |}
  | SetTunDst a :: l' => perform jump l' {| p_frame := p_frame p; p_in := p_in p; p_tun := p_tun p; p_tdst := a |}
  | PopVlan :: l' => perform jump l' (untag p)
  | Output n :: _ => Port n p
  | ToLocal :: _ => Local p
  | ToController :: _ => Controller p
  | a :: _ => jump a p
  end.

(** [b]: the bucket a select group chooses for a packet.  [fuel]: tables only go
    forward, so seven are enough. *)
Fixpoint switch (b : opkt -> bool) (fuel : nat) (t : nat) (p : opkt) : dest :=
  match fuel with
  | O => Dropped
  | S fuel' =>
      match pick p (tables t) with
      | None => Dropped
      | Some r =>
          perform (fun a p =>
            match a with
            | GotoTable n => switch b fuel' n p
            | Group => perform (fun _ _ => Dropped) (buckets (b p)) p
            | _ => Dropped
            end) (actions r) p
      end
  end.
Definition openflow (b : opkt -> bool) (p : opkt) : dest := switch b 7 0 p.

(** The usual notation of a hardware address. *)
Definition hexchar (d : Z) : Z := if d <? 10 then 48 + d else 87 + d.
Definition hex2 (b : Z) : bytes := [hexchar (b / 16); hexchar (b mod 16)].
Fixpoint colon (l : bytes) : bytes :=
  match l with [] => [] | [b] => hex2 b | b :: l' => hex2 b ++ [58] ++ colon l' end.
