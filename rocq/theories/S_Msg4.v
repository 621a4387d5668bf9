(** Specification vocabulary for OpenFlow 1.3 messages: their contents, their
    layout according to the OpenFlow 1.3 specification, the arguments a caller
    may write for them, and what parsing is to return. *)

From Verif Require Import Py Struct S_Hello S_Ports S_Wire4.
Local Open Scope Z_scope.
Local Open Scope list_scope.

(** A sequence argument that is not given as bytes. *)
Definition items_arg {A} (arg : pyval -> A -> Prop) (v : pyval) (l : list A) : Prop :=
  v = VNone /\ l = [] \/
  (exists vs, (v = VList vs \/ exists c, v = VTup c vs) /\ Forall2 arg vs l).

(** *** Ports (7.2.1) *)

Definition port_fields (p : sport) : list fld :=
  [U 4 (sp_no p); P 4; R (sp_hw p); P 2; R (name16 (sp_name p))] ++ map (U 4) (sp_words p).
Definition port_wire (p : sport) : bytes := enc (port_fields p).

(** A port with an ASCII name. *)
Definition port_ok (p : sport) : Prop := sport_ok 4 p /\ Forall (fun c => 0 <= c < 128) (sp_name p).

(** The parser turns the name into a unicode object. *)
Definition port_parsed (p : sport) : pyval :=
  VTup "ofp_port" ([VInt (sp_no p); VBytes (sp_hw p); VText (sp_name p)] ++ map VInt (sp_words p)).

Inductive port_arg : pyval -> sport -> Prop :=
| PA_bytes p : port_arg (VBytes (port_wire p)) p
| PA_obj p : port_arg (VTup "ofp_port" ([VInt (sp_no p); VBytes (sp_hw p); VBytes (sp_name p)] ++ map VInt (sp_words p))) p.

(** *** Hello elements (7.5.1) *)

Definition hello_fields (bitmaps : list Z) : list fld :=
  [U 2 1; U 2 (4 + 4 * zlen bitmaps)] ++ map (U 4) bitmaps ++ [P (gap (4 + 4 * length bitmaps))].
Definition hello_wire (bitmaps : list Z) : bytes := enc (hello_fields bitmaps).
Definition hello_parsed (bitmaps : list Z) : pyval :=
  VTup "ofp_hello_elem_versionbitmap" [VInt 1; VInt (4 + 4 * zlen bitmaps); VTup "tuple" (map VInt bitmaps)].
Inductive hello_arg : pyval -> list Z -> Prop :=
| EA_bytes l : hello_arg (VBytes (hello_wire l)) l
| EA_obj t n b l : type_arg t 1 ->
    (b = VList (map VInt l) \/ (exists c, b = VTup c (map VInt l)) \/ b = VBytes (enc (map (U 4) l)) \/ b = VNone /\ l = []) ->
    hello_arg (VTup "ofp_hello_elem_versionbitmap" [t; n; b]) l.

(** *** Statistics *)

Definition all_z (l : list Z) : list pyval := map VInt l.

(** A structure of fixed size, given as bytes or as an object with exactly
    its fields. *)
Inductive fix_arg (cls : string) (l : list fld) : pyval -> Prop :=
| FA_bytes : fix_arg cls l (VBytes (enc l))
| FA_obj : fix_arg cls l (VTup cls (vals l)).

Inductive flow_stat : Type :=
| FlowStat (table dsec dnsec prio idle hard flags cookie pkts octets : Z) (m : omatch) (is : list instruction).

Definition flow_stat_fixed (n : Z) (s : flow_stat) : list fld :=
  let '(FlowStat t ds dn p i h f c k o m is) := s in
  [U 2 n; U 1 t; P 1; U 4 ds; U 4 dn; U 2 p; U 2 i; U 2 h; U 2 f; P 4; U 8 c; U 8 k; U 8 o].
Definition flow_stat_fields (s : flow_stat) : list fld :=
  let '(FlowStat t ds dn p i h f c k o m is) := s in
  flow_stat_fixed (48 + zlen (match_wire m) + zlen (insts_wire is)) s ++ [R (match_wire m); R (insts_wire is)].
Definition flow_stat_wire (s : flow_stat) : bytes := enc (flow_stat_fields s).
Definition flow_stat_ok (s : flow_stat) : Prop :=
  fits (flow_stat_fields s) /\
  let '(FlowStat _ _ _ _ _ _ _ _ _ _ m is) := s in fits (match_fields m) /\ Forall inst_ok is.
Definition flow_stat_parsable (s : flow_stat) : Prop :=
  let '(FlowStat _ _ _ _ _ _ _ _ _ _ m is) := s in Forall inst_parsable is.
Definition flow_stat_parsed (s : flow_stat) : pyval :=
  let '(FlowStat t ds dn p i h f c k o m is) := s in
  VTup "ofp_flow_stats"
    (VInt (48 + zlen (match_wire m) + zlen (insts_wire is)) :: all_z [t; ds; dn; p; i; h; f; c; k; o] ++
     [match_view m; insts_parsed is]).
Inductive flow_stat_arg : pyval -> flow_stat -> Prop :=
| FSA_bytes s : flow_stat_arg (VBytes (flow_stat_wire s)) s
| FSA_obj n t ds dn p i h f c k o mv m iv is :
    match_arg mv m -> insts_arg iv is ->
    flow_stat_arg (VTup "ofp_flow_stats" (n :: all_z [t; ds; dn; p; i; h; f; c; k; o] ++ [mv; iv]))
      (FlowStat t ds dn p i h f c k o m is).

Inductive table_stat : Type := TableStat (table active lookup matched : Z).
Definition table_stat_fields (s : table_stat) : list fld :=
  let '(TableStat t a l m) := s in [U 1 t; P 3; U 4 a; U 8 l; U 8 m].

(** struct ofp_port_stats: the number, four bytes of padding, twelve counters
    and the duration. *)
Inductive port_stat : Type := PortStat (port : Z) (counters : list Z) (dsec dnsec : Z).
Definition port_stat_fields (s : port_stat) : list fld :=
  let '(PortStat p c ds dn) := s in [U 4 p; P 4] ++ map (U 8) c ++ [U 4 ds; U 4 dn].

Inductive queue_stat : Type := QueueStat (port queue tx_bytes tx_packets tx_errors dsec dnsec : Z).
Definition queue_stat_fields (s : queue_stat) : list fld :=
  let '(QueueStat p q b k e ds dn) := s in [U 4 p; U 4 q; U 8 b; U 8 k; U 8 e; U 4 ds; U 4 dn].

Definition counter_fields (c : Z * Z) : list fld := [U 8 (fst c); U 8 (snd c)].
Definition counter_wire (c : Z * Z) : bytes := enc (counter_fields c).

Inductive group_stat : Type :=
| GroupStat (group refs pkts octets dsec dnsec : Z) (buckets : list (Z * Z)).
Definition group_stat_fields (s : group_stat) : list fld :=
  let '(GroupStat g r p o ds dn bs) := s in
  [U 2 (40 + 16 * zlen bs); P 2; U 4 g; U 4 r; P 4; U 8 p; U 8 o; U 4 ds; U 4 dn; R (concat (map counter_wire bs))].
Definition group_stat_wire (s : group_stat) : bytes := enc (group_stat_fields s).
Definition group_stat_ok (s : group_stat) : Prop :=
  fits (group_stat_fields s) /\
  let '(GroupStat _ _ _ _ _ _ bs) := s in Forall (fun c => fits (counter_fields c)) bs.
Definition group_stat_view (s : group_stat) : pyval :=
  let '(GroupStat g r p o ds dn bs) := s in
  VTup "ofp_group_stats" (all_z [40 + 16 * zlen bs; g; r; p; o; ds; dn] ++
    [VList (map (fun c => VTup "ofp_bucket_counter" (vals (counter_fields c))) bs)]).
Inductive group_stat_arg : pyval -> group_stat -> Prop :=
| GSA_bytes s : group_stat_arg (VBytes (group_stat_wire s)) s
| GSA_obj n g r p o ds dn bv bs :
    list_arg (fun v c => fix_arg "ofp_bucket_counter" (counter_fields c) v) counter_wire bv bs ->
    group_stat_arg (VTup "ofp_group_stats" (n :: all_z [g; r; p; o; ds; dn] ++ [bv])) (GroupStat g r p o ds dn bs).

Inductive group_desc : Type := GroupDesc (ty group : Z) (bs : list bucket).
Definition group_desc_fields (s : group_desc) : list fld :=
  let '(GroupDesc t g bs) := s in [U 2 (8 + zlen (buckets_wire bs)); U 1 t; P 1; U 4 g; R (buckets_wire bs)].
Definition group_desc_wire (s : group_desc) : bytes := enc (group_desc_fields s).
Definition group_desc_ok (s : group_desc) : Prop :=
  fits (group_desc_fields s) /\ let '(GroupDesc _ _ bs) := s in Forall bucket_ok bs.
Definition group_desc_parsable (s : group_desc) : Prop := let '(GroupDesc _ _ bs) := s in Forall bucket_parsable bs.
Definition group_desc_parsed (s : group_desc) : pyval :=
  let '(GroupDesc t g bs) := s in
  VTup "ofp_group_desc" [VInt (8 + zlen (buckets_wire bs)); VInt t; VInt g; VList (map bucket_parsed bs)].
Inductive group_desc_arg : pyval -> group_desc -> Prop :=
| GDA_bytes s : group_desc_arg (VBytes (group_desc_wire s)) s
| GDA_obj n t g v bs : buckets_arg v bs ->
    group_desc_arg (VTup "ofp_group_desc" [n; VInt t; VInt g; v]) (GroupDesc t g bs).

(** Meter statistics; the builder leaves the length to the caller. *)
Inductive meter_stat : Type :=
| MeterStat (meter flows pkts octets dsec dnsec : Z) (bands : list (Z * Z)).
Definition meter_stat_fields (s : meter_stat) : list fld :=
  let '(MeterStat m f p o ds dn bs) := s in
  [U 4 m; U 2 (40 + 16 * zlen bs); P 6; U 4 f; U 8 p; U 8 o; U 4 ds; U 4 dn; R (concat (map counter_wire bs))].
Definition meter_stat_wire (s : meter_stat) : bytes := enc (meter_stat_fields s).
Definition meter_stat_ok (s : meter_stat) : Prop :=
  fits (meter_stat_fields s) /\
  let '(MeterStat _ _ _ _ _ _ bs) := s in Forall (fun c => fits (counter_fields c)) bs.
Definition meter_stat_view (s : meter_stat) : pyval :=
  let '(MeterStat m f p o ds dn bs) := s in
  VTup "ofp_meter_stats" (all_z [m; 40 + 16 * zlen bs; f; p; o; ds; dn] ++
    [VList (map (fun c => VTup "ofp_meter_band_stats" (vals (counter_fields c))) bs)]).
Inductive meter_stat_arg : pyval -> meter_stat -> Prop :=
| MSA_bytes s : meter_stat_arg (VBytes (meter_stat_wire s)) s
| MSA_obj m f p o ds dn bv bs :
    list_arg (fun v c => fix_arg "ofp_meter_band_stats" (counter_fields c) v) counter_wire bv bs ->
    meter_stat_arg (VTup "ofp_meter_stats" (all_z [m; 40 + 16 * zlen bs; f; p; o; ds; dn] ++ [bv])) (MeterStat m f p o ds dn bs).

Inductive meter_conf : Type := MeterConf (flags meter : Z) (bands : list band).
Definition meter_conf_fields (s : meter_conf) : list fld :=
  let '(MeterConf f m bs) := s in [U 2 (8 + zlen (bands_wire bs)); U 2 f; U 4 m; R (bands_wire bs)].
Definition meter_conf_wire (s : meter_conf) : bytes := enc (meter_conf_fields s).
Definition meter_conf_ok (s : meter_conf) : Prop :=
  fits (meter_conf_fields s) /\ let '(MeterConf _ _ bs) := s in Forall band_ok bs.
Definition meter_conf_parsable (s : meter_conf) : Prop := let '(MeterConf _ _ bs) := s in Forall band_plain bs.
Definition meter_conf_view (s : meter_conf) : pyval :=
  let '(MeterConf f m bs) := s in
  VTup "ofp_meter_config" [VInt (8 + zlen (bands_wire bs)); VInt f; VInt m; VList (map band_view bs)].
Inductive meter_conf_arg : pyval -> meter_conf -> Prop :=
| MCA_bytes s : meter_conf_arg (VBytes (meter_conf_wire s)) s
| MCA_obj n f m v bs : bands_arg v bs ->
    meter_conf_arg (VTup "ofp_meter_config" [n; VInt f; VInt m; v]) (MeterConf f m bs).

(** *** Multipart bodies *)

Inductive request : Type :=
| RqPlain (ty : Z)                                   (* no body *)
| RqFlow (table out_port out_group cookie mask : Z) (m : omatch)
| RqAggregate (table out_port out_group cookie mask : Z) (m : omatch)
| RqPort (port : Z)
| RqQueue (port queue : Z)
| RqGroup (group : Z)
| RqMeter (ty meter : Z)                             (* statistics, configuration *)
| RqExperimenter (body : bytes).

Definition rq_type (r : request) : Z :=
  match r with
  | RqPlain ty => ty
  | RqFlow _ _ _ _ _ _ => 1
  | RqAggregate _ _ _ _ _ _ => 2
  | RqPort _ => 4
  | RqQueue _ _ => 5
  | RqGroup _ => 6
  | RqMeter ty _ => ty
  | RqExperimenter _ => 65535
  end.

Definition rq_fields (r : request) : list fld :=
  match r with
  | RqPlain _ => []
  | RqFlow t p g c k m | RqAggregate t p g c k m =>
      [U 1 t; P 3; U 4 p; U 4 g; P 4; U 8 c; U 8 k; R (match_wire m)]
  | RqPort p => [U 4 p; P 4]
  | RqQueue p q => [U 4 p; U 4 q]
  | RqGroup g => [U 4 g; P 4]
  | RqMeter _ m => [U 4 m; P 4]
  | RqExperimenter b => [R b]
  end.

Definition rq_ok (r : request) : Prop :=
  fits (rq_fields r) /\
  match r with
  | RqPlain ty => In ty [0; 3; 7; 8; 11; 13]
  | RqMeter ty _ => In ty [9; 10]
  | RqFlow _ _ _ _ _ m | RqAggregate _ _ _ _ _ m => fits (match_fields m)
  | _ => True
  end.

Definition rq_view (r : request) : pyval :=
  match r with
  | RqPlain _ => VBytes []
  | RqFlow t p g c k m => VTup "ofp_flow_stats_request" (all_z [t; p; g; c; k] ++ [match_view m])
  | RqAggregate t p g c k m => VTup "ofp_aggregate_stats_request" (all_z [t; p; g; c; k] ++ [match_view m])
  | RqPort p => VTup "ofp_port_stats_request" [VInt p]
  | RqQueue p q => VTup "ofp_queue_stats_request" [VInt p; VInt q]
  | RqGroup g => VTup "ofp_group_stats_request" [VInt g]
  | RqMeter _ m => VTup "ofp_meter_multipart_request" [VInt m]
  | RqExperimenter b => VBytes b
  end.

Inductive rq_arg : pyval -> request -> Prop :=
| RQ_bytes r : rq_arg (VBytes (enc (rq_fields r))) r
| RQ_plain ty v : rq_arg v (RqPlain ty)
| RQ_flow tv t pv p gv g cv c kv k mv m :
    opt_arg 255 tv t -> opt_arg 4294967295 pv p -> opt_arg 4294967295 gv g -> opt_arg 0 cv c -> opt_arg 0 kv k ->
    (match_arg mv m \/ mv = VNone /\ m = Match 1 []) ->
    rq_arg (VTup "ofp_flow_stats_request" [tv; pv; gv; cv; kv; mv]) (RqFlow t p g c k m)
| RQ_port v p : opt_arg 4294967295 v p -> rq_arg (VTup "ofp_port_stats_request" [v]) (RqPort p)
| RQ_queue v p q : opt_arg 4294967295 v p -> rq_arg (VTup "ofp_queue_stats_request" [v; VInt q]) (RqQueue p q)
| RQ_group v g : opt_arg 4294967292 v g -> rq_arg (VTup "ofp_group_stats_request" [v]) (RqGroup g)
| RQ_meter ty m : rq_arg (VTup "ofp_meter_multipart_request" [VInt m]) (RqMeter ty m).

Inductive reply : Type :=
| RpDesc (mfr hw sw serial dp : bytes)
| RpFlow (l : list flow_stat)
| RpTable (l : list table_stat)
| RpQueue (l : list queue_stat)
| RpGroup (l : list group_stat)
| RpGroupDesc (l : list group_desc)
| RpGroupFeatures (types caps : Z) (max acts : list Z)
| RpMeter (l : list meter_stat)
| RpMeterConfig (l : list meter_conf)
| RpMeterFeatures (max_meter types caps max_bands max_color : Z)
| RpPortDesc (l : list sport).

Definition rp_type (r : reply) : Z :=
  match r with
  | RpDesc _ _ _ _ _ => 0
  | RpFlow _ => 1
  | RpTable _ => 3
  | RpQueue _ => 5
  | RpGroup _ => 6
  | RpGroupDesc _ => 7
  | RpGroupFeatures _ _ _ _ => 8
  | RpMeter _ => 9
  | RpMeterConfig _ => 10
  | RpMeterFeatures _ _ _ _ _ => 11
  | RpPortDesc _ => 13
  end.

Definition padded (n : nat) (b : bytes) : bytes := b ++ zeros (n - length b).

Definition rp_fields (r : reply) : list fld :=
  match r with
  | RpDesc a b c d e => [R (padded 256 a); R (padded 256 b); R (padded 256 c); R (padded 32 d); R (padded 256 e)]
  | RpFlow l => [R (concat (map flow_stat_wire l))]
  | RpTable l => [R (concat (map (fun s => enc (table_stat_fields s)) l))]
  | RpQueue l => [R (concat (map (fun s => enc (queue_stat_fields s)) l))]
  | RpGroup l => [R (concat (map group_stat_wire l))]
  | RpGroupDesc l => [R (concat (map group_desc_wire l))]
  | RpGroupFeatures t c m a => [U 4 t; U 4 c] ++ map (U 4) m ++ map (U 4) a
  | RpMeter l => [R (concat (map meter_stat_wire l))]
  | RpMeterConfig l => [R (concat (map meter_conf_wire l))]
  | RpMeterFeatures m t c b k => [U 4 m; U 4 t; U 4 c; U 1 b; U 1 k; P 2]
  | RpPortDesc l => [R (concat (map port_wire l))]
  end.

Definition rp_ok (r : reply) : Prop :=
  fits (rp_fields r) /\
  match r with
  | RpDesc a b c d e => (length a <= 256 /\ length b <= 256 /\ length c <= 256 /\ length d <= 32 /\ length e <= 256)%nat
  | RpFlow l => Forall flow_stat_ok l
  | RpTable l => Forall (fun s => fits (table_stat_fields s)) l
  | RpQueue l => Forall (fun s => fits (queue_stat_fields s)) l
  | RpGroup l => Forall group_stat_ok l
  | RpGroupDesc l => Forall group_desc_ok l
  | RpGroupFeatures _ _ m a => length m = 4%nat /\ length a = 4%nat
  | RpMeter l => Forall meter_stat_ok l
  | RpMeterConfig l => Forall meter_conf_ok l
  | RpMeterFeatures _ _ _ _ _ => True
  | RpPortDesc l => Forall port_ok l
  end.

Definition rp_parsable (r : reply) : Prop :=
  match r with
  | RpFlow l => Forall flow_stat_parsable l
  | RpGroupDesc l => Forall group_desc_parsable l
  | RpMeterConfig l => Forall meter_conf_parsable l
  | _ => True
  end.

(** Strings come back with their NUL padding, port names as text, action
    payloads padded. *)
Definition rp_parsed (r : reply) : pyval :=
  match r with
  | RpDesc a b c d e =>
      VTup "ofp_desc" [VBytes (padded 256 a); VBytes (padded 256 b); VBytes (padded 256 c); VBytes (padded 32 d); VBytes (padded 256 e)]
  | RpFlow l => VList (map flow_stat_parsed l)
  | RpTable l => VList (map (fun s => VTup "ofp_table_stats" (vals (table_stat_fields s))) l)
  | RpQueue l => VList (map (fun s => VTup "ofp_queue_stats" (vals (queue_stat_fields s))) l)
  | RpGroup l => VList (map group_stat_view l)
  | RpGroupDesc l => VList (map group_desc_parsed l)
  | RpGroupFeatures t c m a => VTup "ofp_group_features" [VInt t; VInt c; VTup "tuple" (all_z m); VTup "tuple" (all_z a)]
  | RpMeter l => VList (map meter_stat_view l)
  | RpMeterConfig l => VList (map meter_conf_view l)
  | RpMeterFeatures m t c b k => VTup "ofp_meter_features" (all_z [m; t; c; b; k])
  | RpPortDesc l => VList (map port_parsed l)
  end.

Definition str_arg (v : pyval) (b : bytes) : Prop := v = VBytes b \/ v = VNone /\ b = [].

(** Four words: as a sequence, as bytes, or None for zeros. *)
Definition words4_arg (v : pyval) (l : list Z) : Prop :=
  v = VList (all_z l) \/ (exists c, v = VTup c (all_z l)) \/ v = VBytes (enc (map (U 4) l)) \/ v = VNone /\ l = [0; 0; 0; 0].

Inductive rp_arg : pyval -> reply -> Prop :=
| RP_desc a b c d e a' b' c' d' e' :
    str_arg a a' -> str_arg b b' -> str_arg c c' -> str_arg d d' -> str_arg e e' ->
    rp_arg (VTup "ofp_desc" [a; b; c; d; e]) (RpDesc a' b' c' d' e')
| RP_flow v l : items_arg flow_stat_arg v l -> rp_arg v (RpFlow l)
| RP_table v l : items_arg (fun v s => fix_arg "ofp_table_stats" (table_stat_fields s) v) v l -> rp_arg v (RpTable l)
| RP_queue v l : items_arg (fun v s => fix_arg "ofp_queue_stats" (queue_stat_fields s) v) v l -> rp_arg v (RpQueue l)
| RP_group v l : items_arg group_stat_arg v l -> rp_arg v (RpGroup l)
| RP_group_desc v l : items_arg group_desc_arg v l -> rp_arg v (RpGroupDesc l)
| RP_group_features t c m a m' a' : words4_arg m m' -> words4_arg a a' ->
    rp_arg (VTup "ofp_group_features" [VInt t; VInt c; m; a]) (RpGroupFeatures t c m' a')
| RP_meter v l : items_arg meter_stat_arg v l -> rp_arg v (RpMeter l)
| RP_meter_config v l : items_arg meter_conf_arg v l -> rp_arg v (RpMeterConfig l)
| RP_meter_features m t c b k : rp_arg (VTup "ofp_meter_features" (all_z [m; t; c; b; k])) (RpMeterFeatures m t c b k)
| RP_port_desc v l : items_arg port_arg v l -> rp_arg v (RpPortDesc l).

(** *** Messages *)

Inductive omsg : Type :=
| MHello (elems : list (list Z))
| MError (ty code : Z) (data : bytes)
| MPlain (ty : Z) (data : bytes)          (* echo, barrier, requests without body *)
| MFeatures (dpid n_buffers n_tables aux caps : Z)
| MConfig (ty flags miss : Z)
| MPacketIn (buffer total reason table cookie : Z) (m : omatch) (data : bytes)
| MFlowRemoved (cookie prio reason table dsec dnsec idle hard pkts octets : Z) (m : omatch)
| MPortStatus (reason : Z) (p : sport)
| MPacketOut (buffer in_port : Z) (acts : list action) (data : bytes)
| MFlowMod (cookie mask table command idle hard prio buffer out_port out_group flags : Z) (m : omatch) (is : list instruction)
| MGroupMod (command ty group : Z) (bs : list bucket)
| MPortMod (port : Z) (hw : bytes) (config mask advertise : Z)
| MTableMod (table config : Z)
| MMeterMod (command flags meter : Z) (bs : list band)
| MRequest (flags : Z) (r : request)
| MReply (flags : Z) (r : reply)
| MQueueRequest (port : Z)
| MQueueReply (port : Z) (queues : list (Z * Z))    (* queues without properties *)
| MRole (ty role generation : Z)
| MAsync (ty : Z) (pin pst frm : Z * Z).

Definition mtype (m : omsg) : Z :=
  match m with
  | MHello _ => 0 | MError _ _ _ => 1 | MPlain ty _ => ty | MFeatures _ _ _ _ _ => 6 | MConfig ty _ _ => ty
  | MPacketIn _ _ _ _ _ _ _ => 10 | MFlowRemoved _ _ _ _ _ _ _ _ _ _ _ => 11 | MPortStatus _ _ => 12
  | MPacketOut _ _ _ _ => 13 | MFlowMod _ _ _ _ _ _ _ _ _ _ _ _ _ => 14 | MGroupMod _ _ _ _ => 15
  | MPortMod _ _ _ _ _ => 16 | MTableMod _ _ => 17 | MMeterMod _ _ _ _ => 29 | MRequest _ _ => 18
  | MReply _ _ => 19 | MQueueRequest _ => 22 | MQueueReply _ _ => 23 | MRole ty _ _ => ty | MAsync ty _ _ _ => ty
  end.

(** A queue without properties. *)
Definition queue_fields (q : Z * Z) : list fld := [U 4 (fst q); U 4 (snd q); U 2 16; P 6].
Definition queue_view (q : Z * Z) : pyval := VTup "ofp_packet_queue" [VInt (fst q); VInt (snd q); VInt 16; VList []].
Inductive queue_arg : pyval -> Z * Z -> Prop :=
| QA_bytes q : queue_arg (VBytes (enc (queue_fields q))) q
| QA_obj i p n v : v = VNone \/ v = VList [] \/ v = VBytes [] \/ (exists c, v = VTup c []) ->
    queue_arg (VTup "ofp_packet_queue" [VInt i; VInt p; n; v]) (i, p).

Definition body_fields (m : omsg) : list fld :=
  match m with
  | MHello es => [R (concat (map hello_wire es))]
  | MError t c d => [U 2 t; U 2 c; R d]
  | MPlain _ d => [R d]
  | MFeatures d b t a c => [U 8 d; U 4 b; U 1 t; U 1 a; P 2; U 4 c; U 4 0]
  | MConfig _ f s => [U 2 f; U 2 s]
  | MPacketIn b t r i c m d => [U 4 b; U 2 t; U 1 r; U 1 i; U 8 c; R (match_wire m); P 2; R d]
  | MFlowRemoved c p r t ds dn i h k o m =>
      [U 8 c; U 2 p; U 1 r; U 1 t; U 4 ds; U 4 dn; U 2 i; U 2 h; U 8 k; U 8 o; R (match_wire m)]
  | MPortStatus r p => [U 1 r; P 7; R (port_wire p)]
  | MPacketOut b i acts d => [U 4 b; U 4 i; U 2 (zlen (acts_wire acts)); P 6; R (acts_wire acts); R d]
  | MFlowMod c k t m i h p b o g f mt is =>
      [U 8 c; U 8 k; U 1 t; U 1 m; U 2 i; U 2 h; U 2 p; U 4 b; U 4 o; U 4 g; U 2 f; P 2; R (match_wire mt); R (insts_wire is)]
  | MGroupMod c t g bs => [U 2 c; U 1 t; P 1; U 4 g; R (buckets_wire bs)]
  | MPortMod p h c k a => [U 4 p; P 4; R h; P 2; U 4 c; U 4 k; U 4 a; P 4]
  | MTableMod t c => [U 1 t; P 3; U 4 c]
  | MMeterMod c f m bs => [U 2 c; U 2 f; U 4 m; R (bands_wire bs)]
  | MRequest f r => [U 2 (rq_type r); U 2 f; P 4; R (enc (rq_fields r))]
  | MReply f r => [U 2 (rp_type r); U 2 f; P 4; R (enc (rp_fields r))]
  | MQueueRequest p => [U 4 p; P 4]
  | MQueueReply p qs => [U 4 p; P 4; R (concat (map (fun q => enc (queue_fields q)) qs))]
  | MRole _ r g => [U 4 r; P 4; U 8 g]
  | MAsync _ a b c => [U 4 (fst a); U 4 (snd a); U 4 (fst b); U 4 (snd b); U 4 (fst c); U 4 (snd c)]
  end.

Definition body (m : omsg) : bytes := enc (body_fields m).

(** The message on the wire. *)
Definition mwire (xid : Z) (m : omsg) : bytes := msg 4 (mtype m) xid (body m).

(** Types whose messages the parser treats as header and payload. *)
Definition plain_type (ty : Z) : Prop :=
  u8 ty /\ ~ In ty [0; 1; 4; 6; 8; 9; 10; 11; 12; 13; 14; 15; 16; 17; 18; 19; 22; 23; 24; 27; 28; 29].

Definition msg_ok (m : omsg) : Prop :=
  fits (body_fields m) /\ zlen (body m) <= 65527 /\
  match m with
  | MHello es => Forall (fun l => fits (hello_fields l)) es
  | MPlain ty _ => plain_type ty
  | MConfig ty _ _ => In ty [8; 9]
  | MPacketIn _ _ _ _ _ mt _ => fits (match_fields mt)
  | MFlowRemoved _ _ _ _ _ _ _ _ _ _ mt => fits (match_fields mt)
  | MPortStatus _ p => port_ok p
  | MPacketOut _ _ acts _ => Forall act_ok acts
  | MFlowMod _ _ _ _ _ _ _ _ _ _ _ mt is => fits (match_fields mt) /\ Forall inst_ok is
  | MGroupMod _ _ _ bs => Forall bucket_ok bs
  | MPortMod _ hw _ _ _ => length hw = 6%nat
  | MMeterMod _ _ _ bs => Forall band_ok bs
  | MRequest _ r => rq_ok r
  | MReply _ r => rp_ok r
  | MQueueReply _ qs => Forall (fun q => fits (queue_fields q)) qs
  | MRole ty _ _ => In ty [24; 25]
  | MAsync ty _ _ _ => In ty [27; 28]
  | _ => True
  end.

(** Messages without the contents the parser cannot read. *)
Definition msg_parsable (m : omsg) : Prop :=
  match m with
  | MPacketOut _ _ acts _ => Forall not_mpls_ttl acts
  | MFlowMod _ _ _ _ _ _ _ _ _ _ _ _ is => Forall inst_parsable is
  | MGroupMod _ _ _ bs => Forall bucket_parsable bs
  | MMeterMod _ _ _ bs => Forall band_plain bs
  | MReply _ r => rp_parsable r
  | MPortMod _ _ _ _ _ => False
  | MRole ty _ _ => ty = 24
  | _ => True
  end.

(** The object parsing is to return. *)
Definition msg_parsed (xid : Z) (m : omsg) : pyval :=
  let h := hdr_view (mtype m) xid (body m) in
  match m with
  | MHello es => VTup "ofp_hello" [h; VList (map hello_parsed es)]
  | MError t c d => VTup "ofp_error_msg" [h; VInt t; VInt c; VBytes d]
  | MPlain _ d => VTup "ofp_" [h; VBytes d]
  | MFeatures d b t a c => VTup "ofp_switch_features" (h :: all_z [d; b; t; a; c])
  | MConfig _ f s => VTup "ofp_switch_config" [h; VInt f; VInt s]
  | MPacketIn b t r i c m d => VTup "ofp_packet_in" (h :: all_z [b; t; r; i; c] ++ [match_view m; VBytes d])
  | MFlowRemoved c p r t ds dn i hd k o m =>
      VTup "ofp_flow_removed" (h :: all_z [c; p; r; t; ds; dn; i; hd; k; o] ++ [match_view m])
  | MPortStatus r p => VTup "ofp_port_status" [h; VInt r; port_parsed p]
  | MPacketOut b i acts d =>
      VTup "ofp_packet_out" [h; VInt b; VInt i; VInt (zlen (acts_wire acts)); acts_parsed acts; VBytes d]
  | MFlowMod c k t m i hd p b o g f mt is =>
      VTup "ofp_flow_mod" (h :: all_z [c; k; t; m; i; hd; p; b; o; g; f] ++ [match_view mt; insts_parsed is])
  | MGroupMod c t g bs => VTup "ofp_group_mod" [h; VInt c; VInt t; VInt g; VList (map bucket_parsed bs)]
  | MPortMod p w c k a => VTup "ofp_port_mod" [h; VInt p; VBytes w; VInt c; VInt k; VInt a]
  | MTableMod t c => VTup "ofp_table_mod" [h; VInt t; VInt c]
  | MMeterMod c f m bs => VTup "ofp_meter_mod" [h; VInt c; VInt f; VInt m; VList (map band_view bs)]
  | MRequest f r => VTup "ofp_multipart_request" [h; VInt (rq_type r); VInt f; rq_view r]
  | MReply f r => VTup "ofp_multipart_reply" [h; VInt (rp_type r); VInt f; rp_parsed r]
  | MQueueRequest p => VTup "ofp_queue_get_config_request" [h; VInt p]
  | MQueueReply p qs => VTup "ofp_queue_get_config_reply" [h; VInt p; VList (map queue_view qs)]
  | MRole _ r g => VTup "ofp_role_request" [h; VInt r; VInt g]
  | MAsync _ a b c =>
      let pair x := VTup "tuple" [VInt (fst x); VInt (snd x)] in VTup "ofp_async_config" [h; pair a; pair b; pair c]
  end.

(** Bytes after which the cursor stops: the whole message, except that the
    payload of PACKET_IN and PACKET_OUT is not passed over. *)
Definition msg_unread (m : omsg) : nat :=
  match m with MPacketIn _ _ _ _ _ _ d | MPacketOut _ _ _ d => length d | _ => O end.

(** Whether the builder makes this type of message only. *)
Definition msingle (m : omsg) : bool :=
  match m with MPlain _ _ | MConfig _ _ _ | MRole _ _ _ | MAsync _ _ _ _ => false | _ => true end.

(** Sequences [a + b + c] can be made of: all tuples or all lists. *)
Definition pairs_arg (v : list pyval) (l : list (Z * Z)) : Prop :=
  (exists cs, v = map (fun cx => VTup (fst cx) [VInt (fst (snd cx)); VInt (snd (snd cx))]) (combine cs l) /\ length cs = length l) \/
  v = map (fun x => VList [VInt (fst x); VInt (snd x)]) l.

(** Builder and arguments after the header. *)
Inductive msg_args : string -> list pyval -> omsg -> Prop :=
| XA_hello v es : list_arg hello_arg hello_wire v es -> msg_args "ofp_hello" [v] (MHello es)
| XA_error t c v d : str_arg v d -> msg_args "ofp_error_msg" [VInt t; VInt c; v] (MError t c d)
| XA_plain ty d : msg_args "ofp_" [VBytes d; VNone] (MPlain ty d)
| XA_features d b t a c : msg_args "ofp_switch_features" (all_z [d; b; t; a; c]) (MFeatures d b t a c)
| XA_config ty f v s : opt_arg 65535 v s -> msg_args "ofp_switch_config" [VInt f; v] (MConfig ty f s)
| XA_packet_in b t r i c mv m d : match_arg mv m ->
    msg_args "ofp_packet_in" (all_z [b; t; r; i; c] ++ [mv; VBytes d]) (MPacketIn b t r i c m d)
| XA_flow_removed c p r t ds dn i h k o mv m : match_arg mv m ->
    msg_args "ofp_flow_removed" (all_z [c; p; r; t; ds; dn; i; h; k; o] ++ [mv]) (MFlowRemoved c p r t ds dn i h k o m)
| XA_port_status r v p : port_arg v p -> msg_args "ofp_port_status" [VInt r; v] (MPortStatus r p)
| XA_packet_out bv b i n av acts dv d : opt_arg 4294967295 bv b -> acts_arg av acts -> str_arg dv d ->
    msg_args "ofp_packet_out" [bv; VInt i; n; av; dv] (MPacketOut b i acts d)
| XA_flow_mod c k t m i h p bv b ov o gv g f mv mt iv is :
    opt_arg 4294967295 bv b -> opt_arg 4294967295 ov o -> opt_arg 4294967295 gv g ->
    match_arg mv mt -> insts_arg iv is ->
    msg_args "ofp_flow_mod" (all_z [c; k; t; m; i; h; p] ++ [bv; ov; gv; VInt f; mv; iv])
      (MFlowMod c k t m i h p b o g f mt is)
| XA_group_mod c t g v bs : buckets_arg v bs -> msg_args "ofp_group_mod" [VInt c; VInt t; VInt g; v] (MGroupMod c t g bs)
| XA_port_mod p h c k a : msg_args "ofp_port_mod" [VInt p; VBytes h; VInt c; VInt k; VInt a] (MPortMod p h c k a)
| XA_table_mod t c : msg_args "ofp_table_mod" [VInt t; VInt c] (MTableMod t c)
| XA_meter_mod c f m v bs : bands_arg v bs -> msg_args "ofp_meter_mod" [VInt c; VInt f; VInt m; v] (MMeterMod c f m bs)
| XA_request f v r : rq_arg v r -> msg_args "ofp_multipart_request" [VInt (rq_type r); VInt f; v] (MRequest f r)
| XA_reply f v r : rp_arg v r -> msg_args "ofp_multipart_reply" [VInt (rp_type r); VInt f; v] (MReply f r)
| XA_queue_request p : msg_args "ofp_queue_get_config_request" [VInt p] (MQueueRequest p)
| XA_queue_reply p v qs : list_arg queue_arg (fun q => enc (queue_fields q)) v qs ->
    msg_args "ofp_queue_get_config_reply" [VInt p; v] (MQueueReply p qs)
| XA_role ty r g : msg_args "ofp_role_request" [VInt r; VInt g] (MRole ty r g)
| XA_async ty v a b c : pairs_arg v [a; b; c] -> msg_args "ofp_async_config" v (MAsync ty a b c).

(** *** Places where a loop of the parser gets no further *)

(** An action or instruction whose announced length is used to advance
    (SET_FIELD, EXPERIMENTER) and is zero. *)
Definition stuck_tlv (m : bytes) (off : nat) : Prop :=
  (off + 4 <= length m)%nat /\ (u16_at m off = 25 \/ u16_at m off = 65535) /\ u16_at m (off + 2) = 0.

(** An experimenter meter band. *)
Definition stuck_band (m : bytes) (off : nat) : Prop :=
  (off + 4 <= length m)%nat /\ u16_at m off = 65535.

(** The first offset at which the parser looks for actions or instructions in
    the message at [off]: PACKET_OUT, FLOW_MOD, GROUP_MOD, and the replies with
    flow statistics and group descriptions. *)
Definition tlvs_from (m : bytes) (off lo : nat) : Prop :=
  let ty := byte_at m (off + 1) in
  (ty = 13 /\ lo = (off + 24)%nat) \/ (ty = 14 /\ lo = (off + 48)%nat) \/ (ty = 15 /\ lo = (off + 32)%nat) \/
  (ty = 19 /\ u16_at m (off + 8) = 1 /\ lo = (off + 64)%nat) \/ (ty = 19 /\ u16_at m (off + 8) = 7 /\ lo = (off + 40)%nat).

(** *** Framing *)

(** A header of version 4 that announces the number of bytes. *)
Definition well_framed (b : bytes) : Prop :=
  (8 <= length b)%nat /\ byte_at b 0 = 4 /\ u16_at b 2 = zlen b /\ zlen b <= 65535.

(** The functions of build.py that return a message. *)
Definition message_builders : list string :=
  ["ofp_"; "ofp_switch_features"; "ofp_switch_config"; "ofp_table_mod"; "ofp_flow_mod"; "ofp_group_mod"; "ofp_port_mod";
   "ofp_meter_mod"; "ofp_multipart_request"; "ofp_multipart_reply"; "ofp_queue_get_config_request";
   "ofp_queue_get_config_reply"; "ofp_packet_out"; "ofp_role_request"; "ofp_async_config"; "ofp_packet_in";
   "ofp_flow_removed"; "ofp_port_status"; "ofp_error_msg"; "ofp_hello"; "ofp_experimenter_header"]%string.

(** *** Kinds of messages *)

Definition is_control (m : omsg) : Prop :=
  match m with
  | MHello _ | MError _ _ _ | MPlain _ _ | MFeatures _ _ _ _ _ | MConfig _ _ _ | MPacketIn _ _ _ _ _ _ _
  | MFlowRemoved _ _ _ _ _ _ _ _ _ _ _ | MPortStatus _ _ | MPacketOut _ _ _ _ | MTableMod _ _ | MQueueRequest _
  | MQueueReply _ _ | MRole _ _ _ | MAsync _ _ _ _ => True
  | _ => False
  end.
Definition is_group_meter (m : omsg) : Prop := match m with MGroupMod _ _ _ _ | MMeterMod _ _ _ _ => True | _ => False end.
Definition is_multipart (m : omsg) : Prop := match m with MRequest _ _ | MReply _ _ => True | _ => False end.
