(** Specification vocabulary for OpenFlow 1.4 messages: their contents, their
    layout according to the OpenFlow 1.4 specification, the arguments a caller
    of ofp5/build.py may write for them, and what ofp5/parse.py is to return.
    Layouts that did not change since OpenFlow 1.3 are those of S_Msg4.v
    (hello elements, table, group and meter statistics, meter configuration);
    the other names of S_Msg4.v are redefined. *)

From Verif Require Import Py Struct S_Hello S_Ports S_Wire4 S_Msg4 S_Wire5.
Local Open Scope Z_scope.
Local Open Scope list_scope.

(** *** Properties *)

(** An experimenter property: type 65535, the length without the padding to a
    multiple of eight. *)
Definition exp_fields (e t : Z) (d : bytes) : list fld :=
  [U 2 65535; U 2 (12 + zlen d); U 4 e; U 4 t; R d; P (gap (12 + length d))].
Definition exp_view (cls : string) (e t : Z) (d : bytes) : pyval :=
  VTup cls [VInt 65535; VInt (12 + zlen d); VInt e; VInt t; VBytes d].

(** Table modification and description (7.3.4.3). *)
Inductive tprop : Type :=
| TpEviction (flags : Z)
| TpVacancy (down up vacancy : Z)
| TpExperimenter (e t : Z) (d : bytes).
Definition tprop_fields (p : tprop) : list fld :=
  match p with
  | TpEviction f => [U 2 2; U 2 8; U 4 f]
  | TpVacancy d u v => [U 2 3; U 2 8; U 1 d; U 1 u; U 1 v; P 1]
  | TpExperimenter e t d => exp_fields e t d
  end.
Definition tprop_wire (p : tprop) : bytes := enc (tprop_fields p).
Definition tprop_view (p : tprop) : pyval :=
  match p with
  | TpEviction f => VTup "ofp_table_mod_prop_eviction" [VInt 2; VInt 8; VInt f]
  | TpVacancy d u v => VTup "ofp_table_mod_prop_vacancy" [VInt 3; VInt 8; VInt d; VInt u; VInt v]
  | TpExperimenter e t d => exp_view "ofp_table_mod_prop_experimenter" e t d
  end.
(** The length of an eviction property is left to the caller. *)
Inductive tprop_arg : pyval -> tprop -> Prop :=
| TA_bytes p : tprop_arg (VBytes (tprop_wire p)) p
| TA_eviction t f : tprop_arg (VTup "ofp_table_mod_prop_eviction" [t; VInt 8; VInt f]) (TpEviction f)
| TA_vacancy t l d u v : tprop_arg (VTup "ofp_table_mod_prop_vacancy" [t; l; VInt d; VInt u; VInt v]) (TpVacancy d u v)
| TA_experimenter t l e x d :
    tprop_arg (VTup "ofp_table_mod_prop_experimenter" [t; l; VInt e; VInt x; VBytes d]) (TpExperimenter e x d).

(** Port modification (7.3.4.5); the frequency offset is signed. *)
Inductive pprop : Type :=
| PpEthernet (advertise : Z)
| PpOptical (configure freq offset grid power : Z)
| PpExperimenter (e t : Z) (d : bytes).
Definition pprop_fields (p : pprop) : list fld :=
  match p with
  | PpEthernet a => [U 2 0; U 2 8; U 4 a]
  | PpOptical c f o g w => [U 2 1; U 2 24; U 4 c; U 4 f; U 4 (o mod 4294967296); U 4 g; U 4 w]
  | PpExperimenter e t d => exp_fields e t d
  end.
Definition pprop_wire (p : pprop) : bytes := enc (pprop_fields p).
Definition pprop_ok (p : pprop) : Prop :=
  fits (pprop_fields p) /\
  match p with PpOptical _ _ o _ _ => -2147483648 <= o < 2147483648 | _ => True end.
Inductive pprop_arg : pyval -> pprop -> Prop :=
| PPA_bytes p : pprop_arg (VBytes (pprop_wire p)) p
| PPA_ethernet t l a : pprop_arg (VTup "ofp_port_mod_prop_ethernet" [t; l; VInt a]) (PpEthernet a)
| PPA_optical t l c f o g w :
    pprop_arg (VTup "ofp_port_mod_prop_optical" [t; l; VInt c; VInt f; VInt o; VInt g; VInt w]) (PpOptical c f o g w)
| PPA_experimenter t l e x d :
    pprop_arg (VTup "ofp_port_mod_prop_experimenter" [t; l; VInt e; VInt x; VBytes d]) (PpExperimenter e x d).

(** Queue descriptions (7.3.5.9.1). *)
Inductive qprop : Type :=
| QpMin (rate : Z)
| QpMax (rate : Z)
| QpExperimenter (e t : Z) (d : bytes).
Definition qprop_fields (p : qprop) : list fld :=
  match p with
  | QpMin r => [U 2 1; U 2 8; U 2 r; P 2]
  | QpMax r => [U 2 2; U 2 8; U 2 r; P 2]
  | QpExperimenter e t d => exp_fields e t d
  end.
Definition qprop_wire (p : qprop) : bytes := enc (qprop_fields p).
Definition qprop_view (p : qprop) : pyval :=
  match p with
  | QpMin r => VTup "ofp_queue_desc_prop_min_rate" [VInt 1; VInt 8; VInt r]
  | QpMax r => VTup "ofp_queue_desc_prop_max_rate" [VInt 2; VInt 8; VInt r]
  | QpExperimenter e t d => exp_view "ofp_queue_desc_prop_experimenter" e t d
  end.

(** Port statistics (7.3.5.6). *)
Inductive sprop : Type :=
| SpEthernet (frame over crc collisions : Z)
| SpOptical (words halves : list Z)               (* seven and four of them *)
| SpExperimenter (e t : Z) (d : bytes).
Definition sprop_fields (p : sprop) : list fld :=
  match p with
  | SpEthernet a b c d => [U 2 0; U 2 40; P 4; U 8 a; U 8 b; U 8 c; U 8 d]
  | SpOptical ws hs => [U 2 1; U 2 44; P 4] ++ map (U 4) ws ++ map (U 2) hs
  | SpExperimenter e t d => exp_fields e t d
  end.
Definition sprop_wire (p : sprop) : bytes := enc (sprop_fields p).
Definition sprop_ok (p : sprop) : Prop :=
  fits (sprop_fields p) /\
  match p with SpOptical ws hs => length ws = 7%nat /\ length hs = 4%nat | _ => True end.
(** The experimenter builder does not pad. *)
Inductive sprop_arg : pyval -> sprop -> Prop :=
| SA_bytes p : sprop_arg (VBytes (sprop_wire p)) p
| SA_ethernet t l a b c d :
    sprop_arg (VTup "ofp_port_stats_prop_ethernet" [t; l; VInt a; VInt b; VInt c; VInt d]) (SpEthernet a b c d)
| SA_optical t l ws hs :
    sprop_arg (VTup "ofp_port_stats_prop_optical" ([t; l] ++ all_z ws ++ all_z hs)) (SpOptical ws hs)
| SA_experimenter t l e x v d : str_arg v d -> gap (12 + length d) = O ->
    sprop_arg (VTup "ofp_port_stats_prop_experimenter" [t; l; VInt e; VInt x; v]) (SpExperimenter e x d).

(** Queue statistics have experimenter properties only. *)
Definition eprop : Type := (Z * Z * bytes)%type.
Definition eprop_fields (p : eprop) : list fld := let '(e, t, d) := p in exp_fields e t d.
Definition eprop_wire (p : eprop) : bytes := enc (eprop_fields p).
Inductive eprop_arg (cls : string) : pyval -> eprop -> Prop :=
| EPA_bytes p : eprop_arg cls (VBytes (eprop_wire p)) p
| EPA_obj t l e x d : eprop_arg cls (VTup cls [t; l; VInt e; VInt x; VBytes d]) (e, x, d).

(** Asynchronous configuration: type and mask of the reasons. *)
Definition aprop_fields (p : Z * Z) : list fld := [U 2 (fst p); U 2 8; U 4 (snd p)].
Definition aprop_wire (p : Z * Z) : bytes := enc (aprop_fields p).
Definition aprop_view (p : Z * Z) : pyval :=
  VTup "ofp_async_config_prop_reasons" [VInt (fst p); VInt 8; VInt (snd p)].
Inductive aprop_arg : pyval -> Z * Z -> Prop :=
| APA_bytes p : aprop_arg (VBytes (aprop_wire p)) p
| APA_obj ty l m : aprop_arg (VTup "ofp_async_config_prop_reasons" [VInt ty; l; VInt m]) (ty, m).

(** *** Statistics *)

(** struct ofp_flow_stats of OpenFlow 1.4 holds the importance of the flow. *)
Inductive flow_stat : Type :=
| FlowStat (table dsec dnsec prio idle hard flags importance cookie pkts octets : Z) (m : omatch) (is : list instruction).

Definition flow_stat_fields (s : flow_stat) : list fld :=
  let '(FlowStat t ds dn p i h f w c k o m is) := s in
  [U 2 (48 + zlen (match_wire m) + zlen (insts_wire is)); U 1 t; P 1; U 4 ds; U 4 dn; U 2 p; U 2 i; U 2 h; U 2 f;
   U 2 w; P 2; U 8 c; U 8 k; U 8 o; R (match_wire m); R (insts_wire is)].
Definition flow_stat_wire (s : flow_stat) : bytes := enc (flow_stat_fields s).
Definition flow_stat_ok (s : flow_stat) : Prop :=
  fits (flow_stat_fields s) /\
  let '(FlowStat _ _ _ _ _ _ _ _ _ _ _ m is) := s in fits (match_fields m) /\ Forall inst_ok is.
Definition flow_stat_parsable (s : flow_stat) : Prop :=
  let '(FlowStat _ _ _ _ _ _ _ _ _ _ _ m is) := s in Forall inst_parsable is.
(** What the parser returns has no place for the importance. *)
Definition flow_stat_parsed (s : flow_stat) : pyval :=
  let '(FlowStat t ds dn p i h f w c k o m is) := s in
  VTup "ofp_flow_stats"
    (VInt (48 + zlen (match_wire m) + zlen (insts_wire is)) :: all_z [t; ds; dn; p; i; h; f; c; k; o] ++
     [match_view m; insts_parsed is]).
(** Nor has the builder: the importance is zero unless bytes are given. *)
Inductive flow_stat_arg : pyval -> flow_stat -> Prop :=
| FSA_bytes s : flow_stat_arg (VBytes (flow_stat_wire s)) s
| FSA_obj n t ds dn p i h f c k o mv m iv is :
    match_arg mv m -> insts_arg iv is ->
    flow_stat_arg (VTup "ofp_flow_stats" (n :: all_z [t; ds; dn; p; i; h; f; c; k; o] ++ [mv; iv]))
      (FlowStat t ds dn p i h f 0 c k o m is).

(** Port statistics with eight counters and properties. *)
Inductive port_stat : Type := PortStat (port dsec dnsec : Z) (counters : list Z) (props : list sprop).
Definition port_stat_fields (s : port_stat) : list fld :=
  let '(PortStat p ds dn c ps) := s in
  [U 2 (80 + zlen (concat (map sprop_wire ps))); P 2; U 4 p; U 4 ds; U 4 dn] ++ map (U 8) c ++ [R (concat (map sprop_wire ps))].
Definition port_stat_wire (s : port_stat) : bytes := enc (port_stat_fields s).
Definition port_stat_ok (s : port_stat) : Prop :=
  fits (port_stat_fields s) /\ let '(PortStat _ _ _ c ps) := s in length c = 8%nat /\ Forall sprop_ok ps.
Inductive port_stat_arg : pyval -> port_stat -> Prop :=
| PSA_bytes s : port_stat_arg (VBytes (port_stat_wire s)) s
| PSA_obj n p ds dn c v ps : list_arg sprop_arg sprop_wire v ps ->
    port_stat_arg (VTup "ofp_port_stats" (n :: all_z [p; ds; dn] ++ all_z c ++ [v])) (PortStat p ds dn c ps).

Inductive queue_stat : Type :=
| QueueStat (port queue tx_bytes tx_packets tx_errors dsec dnsec : Z) (props : list eprop).
Definition queue_stat_fields (s : queue_stat) : list fld :=
  let '(QueueStat p q b k e ds dn ps) := s in
  [U 2 (48 + zlen (concat (map eprop_wire ps))); P 6; U 4 p; U 4 q; U 8 b; U 8 k; U 8 e; U 4 ds; U 4 dn;
   R (concat (map eprop_wire ps))].
Definition queue_stat_wire (s : queue_stat) : bytes := enc (queue_stat_fields s).
Definition queue_stat_ok (s : queue_stat) : Prop :=
  fits (queue_stat_fields s) /\
  let '(QueueStat _ _ _ _ _ _ _ ps) := s in Forall (fun p => fits (eprop_fields p)) ps.
Inductive queue_stat_arg : pyval -> queue_stat -> Prop :=
| QSA_bytes s : queue_stat_arg (VBytes (queue_stat_wire s)) s
| QSA_obj n p q b k e ds dn v ps :
    list_arg (eprop_arg "ofp_queue_stats_prop_experimenter") eprop_wire v ps ->
    queue_stat_arg (VTup "ofp_queue_stats" (n :: all_z [p; q; b; k; e; ds; dn] ++ [v])) (QueueStat p q b k e ds dn ps).

(** Queue descriptions. *)
Inductive queue_desc : Type := QueueDesc (port queue : Z) (props : list qprop).
Definition queue_desc_fields (s : queue_desc) : list fld :=
  let '(QueueDesc p q ps) := s in
  [U 4 p; U 4 q; U 2 (16 + zlen (concat (map qprop_wire ps))); P 6; R (concat (map qprop_wire ps))].
Definition queue_desc_wire (s : queue_desc) : bytes := enc (queue_desc_fields s).
Definition queue_desc_ok (s : queue_desc) : Prop :=
  fits (queue_desc_fields s) /\ let '(QueueDesc _ _ ps) := s in Forall (fun p => fits (qprop_fields p)) ps.
Definition queue_desc_view (s : queue_desc) : pyval :=
  let '(QueueDesc p q ps) := s in
  VTup "ofp_queue_desc" [VInt p; VInt q; VInt (16 + zlen (concat (map qprop_wire ps))); VList (map qprop_view ps)].

(** Groups: the buckets are those of S_Wire5.v. *)
Definition group_desc_ok (s : group_desc) : Prop :=
  fits (group_desc_fields s) /\ let '(GroupDesc _ _ bs) := s in Forall bucket_ok bs.
Definition group_desc_parsed (s : group_desc) : pyval :=
  let '(GroupDesc t g bs) := s in
  VTup "ofp_group_desc" [VInt (8 + zlen (buckets_wire bs)); VInt t; VInt g; VList (map bucket_parsed bs)].
Inductive group_desc_arg : pyval -> group_desc -> Prop :=
| GDA_bytes s : group_desc_arg (VBytes (group_desc_wire s)) s
| GDA_obj n t g v bs : buckets_arg v bs ->
    group_desc_arg (VTup "ofp_group_desc" [n; VInt t; VInt g; v]) (GroupDesc t g bs).

(** *** Multipart bodies *)

Inductive request : Type :=
| RqPlain (ty : Z)                                   (* no body *)
| RqFlow (table out_port out_group cookie mask : Z) (m : omatch)
| RqAggregate (table out_port out_group cookie mask : Z) (m : omatch)
| RqPort (port : Z)
| RqQueue (port queue : Z)
| RqGroup (group : Z)
| RqMeter (ty meter : Z)                             (* statistics, configuration *)
| RqQueueDesc (port queue : Z)
| RqMonitor (id out_port out_group flags table command : Z) (m : omatch)
| RqExperimenter (body : bytes).

Definition rq_type (r : request) : Z :=
  match r with
  | RqPlain ty => ty
  | RqFlow _ _ _ _ _ _ => 1
  | RqAggregate _ _ _ _ _ _ => 2
  | RqPort _ => 4
  | RqQueue _ _ => 5
  | RqGroup _ => 6
  | RqMeter ty _ => ty
  | RqQueueDesc _ _ => 15
  | RqMonitor _ _ _ _ _ _ _ => 16
  | RqExperimenter _ => 65535
  end.

Definition rq_fields (r : request) : list fld :=
  match r with
  | RqPlain _ => []
  | RqFlow t p g c k m | RqAggregate t p g c k m =>
      [U 1 t; P 3; U 4 p; U 4 g; P 4; U 8 c; U 8 k; R (match_wire m)]
  | RqPort p => [U 4 p; P 4]
  | RqQueue p q | RqQueueDesc p q => [U 4 p; U 4 q]
  | RqGroup g => [U 4 g; P 4]
  | RqMeter _ m => [U 4 m; P 4]
  | RqMonitor i p g f t c m => [U 4 i; U 4 p; U 4 g; U 2 f; U 1 t; U 1 c; R (match_wire m)]
  | RqExperimenter b => [R b]
  end.

Definition rq_ok (r : request) : Prop :=
  fits (rq_fields r) /\
  match r with
  | RqPlain ty => In ty [0; 3; 7; 8; 11; 13; 14]
  | RqMeter ty _ => In ty [9; 10]
  | RqFlow _ _ _ _ _ m | RqAggregate _ _ _ _ _ m | RqMonitor _ _ _ _ _ _ m => fits (match_fields m)
  | _ => True
  end.

(** The requests the parser can read: not those for meters. *)
Definition rq_parsable (r : request) : Prop := match r with RqMeter _ _ => False | _ => True end.

Definition rq_view (r : request) : pyval :=
  match r with
  | RqPlain _ => VBytes []
  | RqFlow t p g c k m => VTup "ofp_flow_stats_request" (all_z [t; p; g; c; k] ++ [match_view m])
  | RqAggregate t p g c k m => VTup "ofp_aggregate_stats_request" (all_z [t; p; g; c; k] ++ [match_view m])
  | RqPort p => VTup "ofp_port_stats_request" [VInt p]
  | RqQueue p q => VTup "ofp_queue_stats_request" [VInt p; VInt q]
  | RqGroup g => VTup "ofp_group_stats_request" [VInt g]
  | RqMeter _ m => VTup "ofp_meter_multipart_request" [VInt m]
  | RqQueueDesc p q => VTup "ofp_queue_desc_request" [VInt p; VInt q]
  | RqMonitor i p g f t c m => VTup "ofp_flow_monitor_request" (all_z [i; p; g; f; t; c] ++ [match_view m])
  | RqExperimenter b => VBytes b
  end.

(** Bodies a caller may give: bytes always; objects for some of the types. *)
Inductive rq_arg : pyval -> request -> Prop :=
| RQ_bytes r : rq_arg (VBytes (enc (rq_fields r))) r
| RQ_plain ty v : ty <> 14 -> rq_arg v (RqPlain ty)
| RQ_flow tv t pv p gv g cv c kv k mv m :
    opt_arg 255 tv t -> opt_arg 4294967295 pv p -> opt_arg 4294967295 gv g -> opt_arg 0 cv c -> opt_arg 0 kv k ->
    (match_arg mv m \/ mv = VNone /\ m = Match 1 []) ->
    rq_arg (VTup "ofp_flow_stats_request" [tv; pv; gv; cv; kv; mv]) (RqFlow t p g c k m)
| RQ_port v p : opt_arg 4294967295 v p -> rq_arg (VTup "ofp_port_stats_request" [v]) (RqPort p)
| RQ_queue v p q : opt_arg 4294967295 v p -> rq_arg (VTup "ofp_queue_stats_request" [v; VInt q]) (RqQueue p q)
| RQ_group v g : opt_arg 4294967292 v g -> rq_arg (VTup "ofp_group_stats_request" [v]) (RqGroup g)
| RQ_meter ty m : rq_arg (VTup "ofp_meter_multipart_request" [VInt m]) (RqMeter ty m).

Inductive reply : Type :=
| RpDesc (mfr hw sw serial dp : bytes)
| RpFlow (l : list flow_stat)
| RpAggregate (pkts octets flows : Z)
| RpTable (l : list table_stat)
| RpPort (l : list port_stat)
| RpQueue (l : list queue_stat)
| RpGroup (l : list group_stat)
| RpGroupDesc (l : list group_desc)
| RpGroupFeatures (types caps : Z) (max acts : list Z)
| RpMeter (l : list meter_stat)
| RpMeterConfig (l : list meter_conf)
| RpMeterFeatures (max_meter types caps max_bands max_color : Z)
| RpQueueDesc (l : list queue_desc)
| RpExperimenter (e t : Z) (d : bytes).

Definition rp_type (r : reply) : Z :=
  match r with
  | RpDesc _ _ _ _ _ => 0
  | RpFlow _ => 1
  | RpAggregate _ _ _ => 2
  | RpTable _ => 3
  | RpPort _ => 4
  | RpQueue _ => 5
  | RpGroup _ => 6
  | RpGroupDesc _ => 7
  | RpGroupFeatures _ _ _ _ => 8
  | RpMeter _ => 9
  | RpMeterConfig _ => 10
  | RpMeterFeatures _ _ _ _ _ => 11
  | RpQueueDesc _ => 15
  | RpExperimenter _ _ _ => 65535
  end.

Definition rp_fields (r : reply) : list fld :=
  match r with
  | RpDesc a b c d e => [R (padded 256 a); R (padded 256 b); R (padded 256 c); R (padded 32 d); R (padded 256 e)]
  | RpFlow l => [R (concat (map flow_stat_wire l))]
  | RpAggregate p o f => [U 8 p; U 8 o; U 4 f; P 4]
  | RpTable l => [R (concat (map (fun s => enc (table_stat_fields s)) l))]
  | RpPort l => [R (concat (map port_stat_wire l))]
  | RpQueue l => [R (concat (map queue_stat_wire l))]
  | RpGroup l => [R (concat (map group_stat_wire l))]
  | RpGroupDesc l => [R (concat (map group_desc_wire l))]
  | RpGroupFeatures t c m a => [U 4 t; U 4 c] ++ map (U 4) m ++ map (U 4) a
  | RpMeter l => [R (concat (map meter_stat_wire l))]
  | RpMeterConfig l => [R (concat (map meter_conf_wire l))]
  | RpMeterFeatures m t c b k => [U 4 m; U 4 t; U 4 c; U 1 b; U 1 k; P 2]
  | RpQueueDesc l => [R (concat (map queue_desc_wire l))]
  | RpExperimenter e t d => [U 4 e; U 4 t; R d]
  end.

Definition rp_ok (r : reply) : Prop :=
  fits (rp_fields r) /\
  match r with
  | RpDesc a b c d e => (length a <= 256 /\ length b <= 256 /\ length c <= 256 /\ length d <= 32 /\ length e <= 256)%nat
  | RpFlow l => Forall flow_stat_ok l
  | RpTable l => Forall (fun s => fits (table_stat_fields s)) l
  | RpPort l => Forall port_stat_ok l
  | RpQueue l => Forall queue_stat_ok l
  | RpGroup l => Forall group_stat_ok l
  | RpGroupDesc l => Forall group_desc_ok l
  | RpGroupFeatures _ _ m a => length m = 4%nat /\ length a = 4%nat
  | RpMeter l => Forall meter_stat_ok l
  | RpMeterConfig l => Forall meter_conf_ok l
  | RpQueueDesc l => Forall queue_desc_ok l
  | _ => True
  end.

(** Table, port and queue statistics cannot be read. *)
Definition rp_parsable (r : reply) : Prop :=
  match r with
  | RpFlow l => Forall flow_stat_parsable l
  | RpGroupDesc l => Forall group_desc_parsable l
  | RpMeterConfig l => Forall meter_conf_parsable l
  | RpTable l => l = []
  | RpPort l => l = []
  | RpQueue l => l = []
  | _ => True
  end.

(** Strings come back with their NUL padding, action payloads padded, the
    aggregate in a list. *)
Definition rp_parsed (r : reply) : pyval :=
  match r with
  | RpDesc a b c d e =>
      VTup "ofp_desc" [VBytes (padded 256 a); VBytes (padded 256 b); VBytes (padded 256 c); VBytes (padded 32 d); VBytes (padded 256 e)]
  | RpFlow l => VList (map flow_stat_parsed l)
  | RpAggregate p o f => VList [VTup "ofp_aggregate_stats_reply" (all_z [p; o; f])]
  | RpTable _ | RpPort _ | RpQueue _ => VList []
  | RpGroup l => VList (map group_stat_view l)
  | RpGroupDesc l => VList (map group_desc_parsed l)
  | RpGroupFeatures t c m a => VTup "ofp_group_features" [VInt t; VInt c; VTup "tuple" (all_z m); VTup "tuple" (all_z a)]
  | RpMeter l => VList (map meter_stat_view l)
  | RpMeterConfig l => VList (map meter_conf_view l)
  | RpMeterFeatures m t c b k => VTup "ofp_meter_features" (all_z [m; t; c; b; k])
  | RpQueueDesc l => VList (map queue_desc_view l)
  | RpExperimenter e t d => VTup "ofp_experimenter_multipart_" [VInt e; VInt t; VBytes d]
  end.

(** Queue descriptions cannot be given (see C79). *)
Inductive rp_arg : pyval -> reply -> Prop :=
| RP_desc a b c d e a' b' c' d' e' :
    str_arg a a' -> str_arg b b' -> str_arg c c' -> str_arg d d' -> str_arg e e' ->
    rp_arg (VTup "ofp_desc" [a; b; c; d; e]) (RpDesc a' b' c' d' e')
| RP_flow v l : items_arg flow_stat_arg v l -> rp_arg v (RpFlow l)
| RP_aggregate p o f : rp_arg (VTup "ofp_aggregate_stats_reply" (all_z [p; o; f])) (RpAggregate p o f)
| RP_table v l : items_arg (fun v s => fix_arg "ofp_table_stats" (table_stat_fields s) v) v l -> rp_arg v (RpTable l)
| RP_port v l : items_arg port_stat_arg v l -> rp_arg v (RpPort l)
| RP_queue v l : items_arg queue_stat_arg v l -> rp_arg v (RpQueue l)
| RP_group v l : items_arg group_stat_arg v l -> rp_arg v (RpGroup l)
| RP_group_desc v l : items_arg group_desc_arg v l -> rp_arg v (RpGroupDesc l)
| RP_group_features t c m a m' a' : words4_arg m m' -> words4_arg a a' ->
    rp_arg (VTup "ofp_group_features" [VInt t; VInt c; m; a]) (RpGroupFeatures t c m' a')
| RP_meter v l : items_arg meter_stat_arg v l -> rp_arg v (RpMeter l)
| RP_meter_config v l : items_arg meter_conf_arg v l -> rp_arg v (RpMeterConfig l)
| RP_meter_features m t c b k : rp_arg (VTup "ofp_meter_features" (all_z [m; t; c; b; k])) (RpMeterFeatures m t c b k)
| RP_experimenter e t d : rp_arg (VBytes (enc [U 4 e; U 4 t; R d])) (RpExperimenter e t d).

(** *** Messages *)

Inductive omsg : Type :=
| MHello (elems : list (list Z))
| MError (ty code : Z) (data : bytes)
| MPlain (ty : Z) (data : bytes)          (* echo, barrier, requests without body *)
| MFeatures (dpid n_buffers n_tables aux caps : Z)
| MConfig (ty flags miss : Z)
| MPacketIn (buffer total reason table cookie : Z) (m : omatch) (data : bytes)
| MFlowRemoved (cookie prio reason table dsec dnsec idle hard pkts octets : Z) (m : omatch)
| MPacketOut (buffer in_port : Z) (acts : list action) (data : bytes)
| MFlowMod (cookie mask table command idle hard prio buffer out_port out_group flags importance : Z) (m : omatch) (is : list instruction)
| MGroupMod (command ty group : Z) (bs : list bucket)
| MPortMod (port : Z) (hw : bytes) (config mask : Z) (props : list pprop)
| MTableMod (table config : Z) (props : list tprop)
| MMeterMod (command flags meter : Z) (bs : list band)
| MRequest (flags : Z) (r : request)
| MReply (flags : Z) (r : reply)
| MRole (ty role generation : Z)
| MAsync (ty : Z) (props : list (Z * Z))
| MExperimenter (e t : Z) (d : bytes)
| MBundle (bundle ty flags : Z)                     (* without properties *)
| MBundleAdd (bundle flags xid : Z) (k : omsg)      (* without properties *)
| MForward (xid : Z) (k : omsg).

Definition mtype (m : omsg) : Z :=
  match m with
  | MHello _ => 0 | MError _ _ _ => 1 | MPlain ty _ => ty | MFeatures _ _ _ _ _ => 6 | MConfig ty _ _ => ty
  | MPacketIn _ _ _ _ _ _ _ => 10 | MFlowRemoved _ _ _ _ _ _ _ _ _ _ _ => 11
  | MPacketOut _ _ _ _ => 13 | MFlowMod _ _ _ _ _ _ _ _ _ _ _ _ _ _ => 14 | MGroupMod _ _ _ _ => 15
  | MPortMod _ _ _ _ _ => 16 | MTableMod _ _ _ => 17 | MMeterMod _ _ _ _ => 29 | MRequest _ _ => 18
  | MReply _ _ => 19 | MRole ty _ _ => ty | MAsync ty _ => ty | MExperimenter _ _ _ => 4
  | MBundle _ _ _ => 33 | MBundleAdd _ _ _ _ => 34 | MForward _ _ => 32
  end.

Fixpoint body_fields (m : omsg) : list fld :=
  match m with
  | MHello es => [R (concat (map hello_wire es))]
  | MError t c d => [U 2 t; U 2 c; R d]
  | MPlain _ d => [R d]
  | MFeatures d b t a c => [U 8 d; U 4 b; U 1 t; U 1 a; P 2; U 4 c; U 4 0]
  | MConfig _ f s => [U 2 f; U 2 s]
  | MPacketIn b t r i c m d => [U 4 b; U 2 t; U 1 r; U 1 i; U 8 c; R (match_wire m); P 2; R d]
  | MFlowRemoved c p r t ds dn i h k o m =>
      [U 8 c; U 2 p; U 1 r; U 1 t; U 4 ds; U 4 dn; U 2 i; U 2 h; U 8 k; U 8 o; R (match_wire m)]
  | MPacketOut b i acts d => [U 4 b; U 4 i; U 2 (zlen (acts_wire acts)); P 6; R (acts_wire acts); R d]
  | MFlowMod c k t m i h p b o g f w mt is =>
      [U 8 c; U 8 k; U 1 t; U 1 m; U 2 i; U 2 h; U 2 p; U 4 b; U 4 o; U 4 g; U 2 f; U 2 w; R (match_wire mt); R (insts_wire is)]
  | MGroupMod c t g bs => [U 2 c; U 1 t; P 1; U 4 g; R (buckets_wire bs)]
  | MPortMod p h c k ps => [U 4 p; P 4; R h; P 2; U 4 c; U 4 k; R (concat (map pprop_wire ps))]
  | MTableMod t c ps => [U 1 t; P 3; U 4 c; R (concat (map tprop_wire ps))]
  | MMeterMod c f m bs => [U 2 c; U 2 f; U 4 m; R (bands_wire bs)]
  | MRequest f r => [U 2 (rq_type r); U 2 f; P 4; R (enc (rq_fields r))]
  | MReply f r => [U 2 (rp_type r); U 2 f; P 4; R (enc (rp_fields r))]
  | MRole _ r g => [U 4 r; P 4; U 8 g]
  | MAsync _ ps => [R (concat (map aprop_wire ps))]
  | MExperimenter e t d => [U 4 e; U 4 t; R d]
  | MBundle b t f => [U 4 b; U 2 t; U 2 f]
  | MBundleAdd b f x k => [U 4 b; P 2; U 2 f; R (msg 5 (mtype k) x (enc (body_fields k)))]
  | MForward x k => [R (msg 5 (mtype k) x (enc (body_fields k)))]
  end.

Definition body (m : omsg) : bytes := enc (body_fields m).

(** The message on the wire. *)
Definition mwire (xid : Z) (m : omsg) : bytes := msg 5 (mtype m) xid (body m).

(** Types whose messages the parser treats as header and payload. *)
Definition plain_type (ty : Z) : Prop :=
  u8 ty /\ ~ In ty [0; 1; 4; 6; 8; 9; 10; 11; 12; 13; 14; 15; 16; 17; 18; 19; 27; 28; 29; 30; 31; 32; 33; 34].

Fixpoint msg_ok (m : omsg) : Prop :=
  fits (body_fields m) /\ zlen (body m) <= 65527 /\
  match m with
  | MHello es => Forall (fun l => fits (hello_fields l)) es
  | MPlain ty _ => plain_type ty
  | MConfig ty _ _ => In ty [8; 9]
  | MPacketIn _ _ _ _ _ mt _ => fits (match_fields mt)
  | MFlowRemoved _ _ _ _ _ _ _ _ _ _ mt => fits (match_fields mt)
  | MPacketOut _ _ acts _ => Forall act_ok acts
  | MFlowMod _ _ _ _ _ _ _ _ _ _ _ _ mt is => fits (match_fields mt) /\ Forall inst_ok is
  | MGroupMod _ _ _ bs => Forall bucket_ok bs
  | MPortMod _ hw _ _ ps => length hw = 6%nat /\ Forall pprop_ok ps
  | MTableMod _ _ ps => Forall (fun p => fits (tprop_fields p)) ps
  | MMeterMod _ _ _ bs => Forall band_ok bs
  | MRequest _ r => rq_ok r
  | MReply _ r => rp_ok r
  | MRole ty _ _ => In ty [24; 25]
  | MAsync ty ps => In ty [27; 28] /\ Forall (fun p => fits (aprop_fields p) /\ 0 <= fst p < 12) ps
  | MBundleAdd _ _ x k => u32 x /\ msg_ok k
  | MForward x k => u32 x /\ msg_ok k
  | _ => True
  end.

(** Messages without the contents the parser cannot read. *)
Fixpoint msg_parsable (m : omsg) : Prop :=
  match m with
  | MPacketOut _ _ acts _ => Forall not_mpls_ttl acts
  | MFlowMod _ _ _ _ _ _ _ _ _ _ _ _ _ is => Forall inst_parsable is
  | MGroupMod _ _ _ bs => Forall bucket_parsable bs
  | MMeterMod _ _ _ bs => Forall band_plain bs
  | MRequest _ r => rq_parsable r
  | MReply _ r => rp_parsable r
  | MPortMod _ _ _ _ _ => False
  | MAsync _ ps => Forall (fun p => fst p <> 8 /\ fst p <> 9) ps
  | MBundleAdd _ _ _ k | MForward _ k => msg_parsable k
  | _ => True
  end.

(** The object parsing is to return; the role messages come back undecoded. *)
Fixpoint msg_parsed (xid : Z) (m : omsg) : pyval :=
  let h := hdr_view (mtype m) xid (body m) in
  match m with
  | MHello es => VTup "ofp_hello" [h; VList (map hello_parsed es)]
  | MError t c d => VTup "ofp_error_msg" [h; VInt t; VInt c; VBytes d]
  | MPlain _ d => VTup "ofp_" [h; VBytes d]
  | MFeatures d b t a c => VTup "ofp_switch_features" (h :: all_z [d; b; t; a; c])
  | MConfig _ f s => VTup "ofp_switch_config" [h; VInt f; VInt s]
  | MPacketIn b t r i c m d => VTup "ofp_packet_in" (h :: all_z [b; t; r; i; c] ++ [match_view m; VBytes d])
  | MFlowRemoved c p r t ds dn i hd k o m =>
      VTup "ofp_flow_removed" (h :: all_z [c; p; r; t; ds; dn; i; hd; k; o] ++ [match_view m])
  | MPacketOut b i acts d =>
      VTup "ofp_packet_out" [h; VInt b; VInt i; VInt (zlen (acts_wire acts)); acts_parsed acts; VBytes d]
  | MFlowMod c k t m i hd p b o g f w mt is =>
      VTup "ofp_flow_mod" (h :: all_z [c; k; t; m; i; hd; p; b; o; g; f; w] ++ [match_view mt; insts_parsed is])
  | MGroupMod c t g bs => VTup "ofp_group_mod" [h; VInt c; VInt t; VInt g; VList (map bucket_parsed bs)]
  | MPortMod p w c k ps => VNone
  | MTableMod t c ps => VTup "ofp_table_mod" [h; VInt t; VInt c; VList (map tprop_view ps)]
  | MMeterMod c f m bs => VTup "ofp_meter_mod" [h; VInt c; VInt f; VInt m; VList (map band_view bs)]
  | MRequest f r => VTup "ofp_multipart_request" [h; VInt (rq_type r); VInt f; rq_view r]
  | MReply f r => VTup "ofp_multipart_reply" [h; VInt (rp_type r); VInt f; rp_parsed r]
  | MRole _ _ _ => VTup "ofp_" [h; VBytes (body m)]
  | MAsync _ ps => VTup "ofp_async_config" [h; VList (map aprop_view ps)]
  | MExperimenter e t d => VTup "ofp_experimenter_msg" [h; VInt e; VInt t; VBytes d]
  | MBundle b t f => VTup "ofp_bundle_ctrl_msg" [h; VInt b; VInt t; VInt f; VList []]
  | MBundleAdd b f x k => VTup "ofp_bundle_add_msg" [h; VInt b; VInt f; msg_parsed x k; VList []]
  | MForward x k => VTup "ofp_requestforward_" [h; msg_parsed x k]
  end.

(** How deep messages are nested. *)
Fixpoint mdepth (m : omsg) : nat :=
  match m with MBundleAdd _ _ _ k | MForward _ k => S (mdepth k) | _ => 1%nat end.

(** Whether the builder makes this type of message only. *)
Definition msingle (m : omsg) : bool :=
  match m with MPlain _ _ | MConfig _ _ _ | MRole _ _ _ | MAsync _ _ => false | _ => true end.

Definition empty_arg (v : pyval) : Prop := v = VNone \/ v = VList [] \/ v = VBytes [] \/ (exists c, v = VTup c []).

(** Builder and arguments after the header.  The properties of a table
    modification are bytes only; meter modifications are not built from
    a header argument like the others (see C77). *)
Inductive msg_args : string -> list pyval -> omsg -> Prop :=
| XA_hello v es : list_arg hello_arg hello_wire v es -> msg_args "ofp_hello" [v] (MHello es)
| XA_error t c v d : str_arg v d -> msg_args "ofp_error_msg" [VInt t; VInt c; v] (MError t c d)
| XA_error_exp t c e d : u32 e ->
    msg_args "ofp_error_experimenter_msg" [t; VInt c; VInt e; VBytes d] (MError 65535 c (enc [U 4 e] ++ d))
| XA_plain ty d : msg_args "ofp_" [VBytes d; VNone] (MPlain ty d)
| XA_plain2 ty d : msg_args "ofp_" [VBytes d] (MPlain ty d)
| XA_features d b t a c : msg_args "ofp_switch_features" (all_z [d; b; t; a; c]) (MFeatures d b t a c)
| XA_config ty f v s : opt_arg 65535 v s -> msg_args "ofp_switch_config" [VInt f; v] (MConfig ty f s)
| XA_packet_in b t r i c mv m d : match_arg mv m ->
    msg_args "ofp_packet_in" (all_z [b; t; r; i; c] ++ [mv; VBytes d]) (MPacketIn b t r i c m d)
| XA_flow_removed c p r t ds dn i h k o mv m : match_arg mv m ->
    msg_args "ofp_flow_removed" (all_z [c; p; r; t; ds; dn; i; h; k; o] ++ [mv]) (MFlowRemoved c p r t ds dn i h k o m)
| XA_packet_out bv b i n av acts dv d : opt_arg 4294967295 bv b -> acts_arg av acts -> str_arg dv d ->
    msg_args "ofp_packet_out" [bv; VInt i; n; av; dv] (MPacketOut b i acts d)
| XA_flow_mod c k t m i h p bv b ov o gv g f w mv mt iv is :
    opt_arg 4294967295 bv b -> opt_arg 4294967295 ov o -> opt_arg 4294967295 gv g ->
    match_arg mv mt -> insts_arg iv is ->
    msg_args "ofp_flow_mod" (all_z [c; k; t; m; i; h; p] ++ [bv; ov; gv; VInt f; VInt w; mv; iv])
      (MFlowMod c k t m i h p b o g f w mt is)
| XA_group_mod c t g v bs : buckets_arg v bs -> msg_args "ofp_group_mod" [VInt c; VInt t; VInt g; v] (MGroupMod c t g bs)
| XA_port_mod p h c k v ps : list_arg pprop_arg pprop_wire v ps ->
    msg_args "ofp_port_mod" [VInt p; VBytes h; VInt c; VInt k; v] (MPortMod p h c k ps)
| XA_table_mod t c ps : msg_args "ofp_table_mod" [VInt t; VInt c; VBytes (concat (map tprop_wire ps))] (MTableMod t c ps)
| XA_request f v r : rq_arg v r -> msg_args "ofp_multipart_request" [VInt (rq_type r); VInt f; v] (MRequest f r)
| XA_reply f v r : rp_arg v r -> msg_args "ofp_multipart_reply" [VInt (rp_type r); VInt f; v] (MReply f r)
| XA_role ty r g : msg_args "ofp_role_request" [VInt r; VInt g] (MRole ty r g)
| XA_async ty v ps : list_arg aprop_arg aprop_wire v ps -> msg_args "ofp_async_config" [v] (MAsync ty ps)
| XA_experimenter e t v d : str_arg v d -> msg_args "ofp_experimenter_msg" [VInt e; VInt t; v] (MExperimenter e t d)
| XA_bundle b t f v : empty_arg v -> msg_args "ofp_bundle_ctrl_msg" [VInt b; VInt t; VInt f; v] (MBundle b t f)
| XA_bundle_add b f mv x k v : empty_arg v -> msg_arg mv x k ->
    msg_args "ofp_bundle_add_msg" [VInt b; VInt f; mv; v] (MBundleAdd b f x k)
| XA_forward mv x k : msg_arg mv x k -> msg_args "ofp_requestforward_header" [mv] (MForward x k)
(** A message as an argument: bytes, or an object whose header holds the
    transaction id (none is to be drawn). *)
with msg_arg : pyval -> Z -> omsg -> Prop :=
| MA_bytes x k : msg_arg (VBytes (mwire x k)) x k
| MA_obj cls h args x k : msg_args cls args k -> (forall dx, hdr_arg dx (msingle k) (mtype k) x h) ->
    msg_arg (VTup cls (h :: args)) x k.

Scheme msg_args_mind := Induction for msg_args Sort Prop
  with msg_arg_mind := Induction for msg_arg Sort Prop.

(** *** Messages the library cannot handle *)

(** A port (7.2.1) with its properties, and the message that announces it. *)
Definition port_fields (no : Z) (hw name : bytes) (config state : Z) (props : bytes) : list fld :=
  [U 4 no; U 2 (40 + zlen props); P 2; R hw; P 2; R (name16 name); U 4 config; U 4 state; R props].
Definition port_status_wire (xid reason no : Z) (hw name : bytes) (config state : Z) (props : bytes) : bytes :=
  msg 5 12 xid (enc ([U 1 reason; P 7] ++ port_fields no hw name config state props)).

(** ROLE_STATUS (7.4.4) and TABLE_STATUS (7.4.5). *)
Definition role_status_wire (xid role reason generation : Z) (props : bytes) : bytes :=
  msg 5 30 xid (enc [U 4 role; U 1 reason; P 3; U 8 generation; R props]).
Definition table_desc_fields (table config : Z) (props : bytes) : list fld :=
  [U 2 (8 + zlen props); U 1 table; P 1; U 4 config; R props].
Definition table_status_wire (xid reason table config : Z) (props : bytes) : bytes :=
  msg 5 31 xid (enc ([U 1 reason; P 7] ++ table_desc_fields table config props)).

(** The messages that carry actions, also inside a bundle or a forwarded
    request. *)
Fixpoint carries_actions (m : omsg) : Prop :=
  match m with
  | MPacketOut _ _ _ _ | MFlowMod _ _ _ _ _ _ _ _ _ _ _ _ _ _ | MGroupMod _ _ _ _ => True
  | MBundleAdd _ _ _ k | MForward _ k => carries_actions k
  | _ => False
  end.
