(** Specification vocabulary for the OpenFlow 1.3 codec: the structures as the
    OpenFlow 1.3 specification lays them out, field by field, independently of
    the builders and parsers; what a caller may write for them; and what a
    parser is to return. *)

From Verif Require Import Py Struct S_Hello S_Ports.
Local Open Scope Z_scope.
Local Open Scope list_scope.

(** *** Layouts *)

(** An unsigned big-endian number on [w] bytes, [n] bytes of zero padding, or
    given bytes. *)
Inductive fld : Type :=
| U (w : nat) (z : Z)
| P (n : nat)
| R (b : bytes).

Definition enc1 (f : fld) : bytes :=
  match f with U w z => be w z | P n => zeros n | R b => b end.
Definition enc (l : list fld) : bytes := concat (map enc1 l).

Definition in_range (f : fld) : Prop :=
  match f with U w z => 0 <= z < 256 ^ Z.of_nat w | _ => True end.
Definition fits (l : list fld) : Prop := Forall in_range l.

(** The values of the fields, in order. *)
Fixpoint vals (l : list fld) : list pyval :=
  match l with
  | [] => []
  | U _ z :: l' => VInt z :: vals l'
  | R b :: l' => VBytes b :: vals l'
  | P _ :: l' => vals l'
  end.

(** Bytes missing to the next multiple of eight. *)
Definition gap (n : nat) : nat := (8 - n mod 8) mod 8.

(** *** Arguments *)

(** A type argument: None or the number. *)
Definition type_arg (v : pyval) (z : Z) : Prop := v = VNone \/ v = VInt z.

(** An argument with default [d]. *)
Definition opt_arg (d : Z) (v : pyval) (z : Z) : Prop := (v = VNone /\ z = d) \/ v = VInt z.

Inductive list_arg {A} (arg : pyval -> A -> Prop) (wire : A -> bytes) : pyval -> list A -> Prop :=
| LA_none : list_arg arg wire VNone []
| LA_bytes l : list_arg arg wire (VBytes (concat (map wire l))) l
| LA_list vs l : Forall2 arg vs l -> list_arg arg wire (VList vs) l
| LA_tup c vs l : Forall2 arg vs l -> list_arg arg wire (VTup c vs) l.

(** The header argument of a message of type [ty], transaction id [xid]; [dx]
    is the id drawn when none is given, [single]: the builder makes one type of
    message only. *)
Inductive hdr_arg (dx : Z) (single : bool) (ty xid : Z) : pyval -> Prop :=
| HA_none : single = true -> xid = dx -> hdr_arg dx single ty xid VNone
| HA_tup c v t l x :
    type_arg v 4 -> (t = VInt ty \/ single = true /\ t = VNone) -> opt_arg dx x xid ->
    hdr_arg dx single ty xid (VTup c [v; t; l; x])
| HA_bytes l rest :
    0 <= l < 65536 ->
    hdr_arg dx single ty xid (VBytes (enc [U 1 4; U 1 ty; U 2 l; U 4 xid] ++ rest)).

Definition u8 (z : Z) : Prop := 0 <= z < 256.
Definition u16 (z : Z) : Prop := 0 <= z < 65536.
Definition u32 (z : Z) : Prop := 0 <= z < 4294967296.

(** What a parser returns for the header of a message with [n] bytes of
    body. *)
Definition hdr_view (ty xid : Z) (body : bytes) : pyval :=
  VTup "ofp_header" [VInt 4; VInt ty; VInt (8 + zlen body); VInt xid].

(** *** Actions (7.2.5) *)

Inductive action : Type :=
| AcOutput (port max_len : Z)
| AcGroup (group_id : Z)
| AcSetQueue (queue_id : Z)
| AcMplsTtl (ttl : Z)
| AcNwTtl (ttl : Z)
| AcPush (ty ethertype : Z)              (* push VLAN, MPLS, PBB *)
| AcPopMpls (ethertype : Z)
| AcSetField (field : bytes)
| AcExperimenter (experimenter : Z) (data : bytes)
| AcPlain (ty : Z).                      (* copy TTL, pop VLAN, ... *)

Definition act_fields (a : action) : list fld :=
  match a with
  | AcOutput port max_len => [U 2 0; U 2 16; U 4 port; U 2 max_len; P 6]
  | AcGroup g => [U 2 22; U 2 8; U 4 g]
  | AcSetQueue q => [U 2 21; U 2 8; U 4 q]
  | AcMplsTtl t => [U 2 15; U 2 8; U 1 t; P 3]
  | AcNwTtl t => [U 2 23; U 2 8; U 1 t; P 3]
  | AcPush ty e => [U 2 ty; U 2 8; U 2 e; P 2]
  | AcPopMpls e => [U 2 20; U 2 8; U 2 e; P 2]
  | AcSetField f => [U 2 25; U 2 (Z.of_nat (4 + length f + gap (4 + length f))); R f; P (gap (4 + length f))]
  | AcExperimenter e d =>
      [U 2 65535; U 2 (Z.of_nat (8 + length d + gap (8 + length d))); U 4 e; R d; P (gap (8 + length d))]
  | AcPlain ty => [U 2 ty; U 2 8; P 4]
  end.

Definition act_wire (a : action) : bytes := enc (act_fields a).

Definition act_ok (a : action) : Prop :=
  fits (act_fields a) /\
  match a with
  | AcPush ty _ => In ty [17; 19; 26]
  | AcPlain ty => ~ In ty [0; 15; 17; 19; 20; 21; 22; 23; 25; 26; 65535]
  | _ => True
  end.

Definition act_class (a : action) : string :=
  match a with
  | AcOutput _ _ => "ofp_action_output"
  | AcGroup _ => "ofp_action_group"
  | AcSetQueue _ => "ofp_action_set_queue"
  | AcMplsTtl _ => "ofp_action_mpls_ttl"
  | AcNwTtl _ => "ofp_action_nw_ttl"
  | AcPush _ _ => "ofp_action_push"
  | AcPopMpls _ => "ofp_action_pop_mpls"
  | AcSetField _ => "ofp_action_set_field"
  | AcExperimenter _ _ => "ofp_action_experimenter_"
  | AcPlain _ => "ofp_action_header"
  end.

(** The action as an object: class and fields. *)
Definition act_view (a : action) : pyval := VTup (act_class a) (vals (act_fields a)).

(** The same action with its payload filled up to the padding. *)
Definition act_padded (a : action) : action :=
  match a with
  | AcSetField f => AcSetField (f ++ zeros (gap (4 + length f)))
  | AcExperimenter e d => AcExperimenter e (d ++ zeros (gap (8 + length d)))
  | _ => a
  end.

(** Payload without padding. *)
Definition act_aligned (a : action) : Prop := act_padded a = a.

Definition not_mpls_ttl (a : action) : Prop := match a with AcMplsTtl _ => False | _ => True end.

Inductive act_arg : pyval -> action -> Prop :=
| AA_bytes a : act_arg (VBytes (act_wire a)) a
| AA_output t l p m : type_arg t 0 -> act_arg (VTup "ofp_action_output" [t; l; VInt p; VInt m]) (AcOutput p m)
| AA_group t l g : type_arg t 22 -> act_arg (VTup "ofp_action_group" [t; l; VInt g]) (AcGroup g)
| AA_set_queue t l q : type_arg t 21 -> act_arg (VTup "ofp_action_set_queue" [t; l; VInt q]) (AcSetQueue q)
| AA_mpls_ttl t l x : type_arg t 15 -> act_arg (VTup "ofp_action_mpls_ttl" [t; l; VInt x]) (AcMplsTtl x)
| AA_nw_ttl t l x : type_arg t 23 -> act_arg (VTup "ofp_action_nw_ttl" [t; l; VInt x]) (AcNwTtl x)
| AA_push ty l e : act_arg (VTup "ofp_action_push" [VInt ty; l; VInt e]) (AcPush ty e)
| AA_pop_mpls t l e : type_arg t 20 -> act_arg (VTup "ofp_action_pop_mpls" [t; l; VInt e]) (AcPopMpls e)
| AA_set_field t l f : type_arg t 25 -> act_arg (VTup "ofp_action_set_field" [t; l; VBytes f]) (AcSetField f)
| AA_experimenter t l e d :
    type_arg t 65535 -> act_arg (VTup "ofp_action_experimenter_" [t; l; VInt e; VBytes d]) (AcExperimenter e d)
| AA_plain ty : act_arg (VTup "ofp_action_header" [VInt ty; VInt 8]) (AcPlain ty).

Definition acts_wire (l : list action) : bytes := concat (map act_wire l).
Definition acts_arg := list_arg act_arg act_wire.
(** What the parser returns for a list of actions. *)
Definition acts_parsed (l : list action) : pyval := VList (map (fun a => act_view (act_padded a)) l).

(** *** Instructions (7.2.4) *)

Inductive instruction : Type :=
| InGoto (table_id : Z)
| InMetadata (metadata mask : Z)
| InActions (ty : Z) (acts : list action)      (* write, apply, clear *)
| InMeter (meter_id : Z)
| InExperimenter (experimenter : Z) (data : bytes).

Definition inst_fields (i : instruction) : list fld :=
  match i with
  | InGoto t => [U 2 1; U 2 8; U 1 t; P 3]
  | InMetadata m k => [U 2 2; U 2 24; P 4; U 8 m; U 8 k]
  | InActions ty acts => [U 2 ty; U 2 (8 + zlen (acts_wire acts)); P 4; R (acts_wire acts)]
  | InMeter m => [U 2 6; U 2 8; U 4 m]
  | InExperimenter e d => [U 2 65535; U 2 (8 + zlen d); U 4 e; R d]
  end.

Definition inst_wire (i : instruction) : bytes := enc (inst_fields i).

Definition inst_ok (i : instruction) : Prop :=
  fits (inst_fields i) /\
  match i with InActions ty acts => In ty [3; 4; 5] /\ Forall act_ok acts | _ => True end.

(** Every action in it can be parsed. *)
Definition inst_parsable (i : instruction) : Prop :=
  match i with InActions _ acts => Forall not_mpls_ttl acts | _ => True end.

(** The instruction as an object, the actions padded. *)
Definition inst_parsed (i : instruction) : pyval :=
  match i with
  | InGoto t => VTup "ofp_instruction_goto_table" [VInt 1; VInt 8; VInt t]
  | InMetadata m k => VTup "ofp_instruction_write_metadata" [VInt 2; VInt 24; VInt m; VInt k]
  | InActions ty acts =>
      VTup "ofp_instruction_actions" [VInt ty; VInt (8 + zlen (acts_wire acts)); acts_parsed acts]
  | InMeter m => VTup "ofp_instruction_meter" [VInt 6; VInt 8; VInt m]
  | InExperimenter e d => VTup "ofp_instruction_experimenter" [VInt 65535; VInt (8 + zlen d); VInt e; VBytes d]
  end.

Inductive inst_arg : pyval -> instruction -> Prop :=
| IA_bytes i : inst_arg (VBytes (inst_wire i)) i
| IA_goto t l x : type_arg t 1 -> inst_arg (VTup "ofp_instruction_goto_table" [t; l; VInt x]) (InGoto x)
| IA_metadata t l m k :
    type_arg t 2 -> inst_arg (VTup "ofp_instruction_write_metadata" [t; l; VInt m; VInt k]) (InMetadata m k)
| IA_actions ty l v acts :
    acts_arg v acts -> inst_arg (VTup "ofp_instruction_actions" [VInt ty; l; v]) (InActions ty acts)
| IA_meter t l m : type_arg t 6 -> inst_arg (VTup "ofp_instruction_meter" [t; l; VInt m]) (InMeter m)
| IA_experimenter t l e d :
    type_arg t 65535 ->
    inst_arg (VTup "ofp_instruction_experimenter" [t; l; VInt e; VBytes d]) (InExperimenter e d).

Definition insts_wire (l : list instruction) : bytes := concat (map inst_wire l).
Definition insts_arg := list_arg inst_arg inst_wire.
Definition insts_parsed (l : list instruction) : pyval := VList (map inst_parsed l).

(** *** Matches (7.2.3) *)

Inductive omatch : Type := Match (ty : Z) (oxm : bytes).

Definition match_fields (m : omatch) : list fld :=
  let '(Match ty oxm) := m in
  [U 2 ty; U 2 (4 + zlen oxm); R oxm; P (gap (4 + length oxm))].
Definition match_wire (m : omatch) : bytes := enc (match_fields m).
Definition match_view (m : omatch) : pyval :=
  let '(Match ty oxm) := m in VTup "ofp_match" [VInt ty; VInt (4 + zlen oxm); VBytes oxm].

(** The OXM TLVs: one string, or a sequence of strings. *)
Inductive oxm_arg : pyval -> bytes -> Prop :=
| OA_none : oxm_arg VNone []
| OA_bytes b : oxm_arg (VBytes b) b
| OA_list l : oxm_arg (VList (map VBytes l)) (concat l)
| OA_tup c l : oxm_arg (VTup c (map VBytes l)) (concat l).

Inductive match_arg : pyval -> omatch -> Prop :=
| MA_bytes m : match_arg (VBytes (match_wire m)) m
| MA_obj t ty l v oxm :
    opt_arg 1 t ty -> oxm_arg v oxm -> match_arg (VTup "ofp_match" [t; l; v]) (Match ty oxm).

(** *** Buckets and bands *)

Inductive bucket : Type := Bucket (weight watch_port watch_group : Z) (acts : list action).

Definition bucket_fields (b : bucket) : list fld :=
  let '(Bucket w p g acts) := b in
  [U 2 (16 + zlen (acts_wire acts)); U 2 w; U 4 p; U 4 g; P 4; R (acts_wire acts)].
Definition bucket_wire (b : bucket) : bytes := enc (bucket_fields b).
Definition bucket_ok (b : bucket) : Prop :=
  fits (bucket_fields b) /\ let '(Bucket _ _ _ acts) := b in Forall act_ok acts.
Definition bucket_parsable (b : bucket) : Prop := let '(Bucket _ _ _ acts) := b in Forall not_mpls_ttl acts.
Definition bucket_parsed (b : bucket) : pyval :=
  let '(Bucket w p g acts) := b in
  VTup "ofp_bucket" [VInt (16 + zlen (acts_wire acts)); VInt w; VInt p; VInt g; acts_parsed acts].
Inductive bucket_arg : pyval -> bucket -> Prop :=
| BA_bytes b : bucket_arg (VBytes (bucket_wire b)) b
| BA_obj l w p g v acts :
    acts_arg v acts -> bucket_arg (VTup "ofp_bucket" [l; VInt w; VInt p; VInt g; v]) (Bucket w p g acts).
Definition buckets_wire (l : list bucket) : bytes := concat (map bucket_wire l).
Definition buckets_arg := list_arg bucket_arg bucket_wire.

Inductive band : Type :=
| BdDrop (rate burst : Z)
| BdDscp (rate burst prec : Z)
| BdExperimenter (rate burst experimenter : Z) (data : bytes).

Definition band_fields (b : band) : list fld :=
  match b with
  | BdDrop r s => [U 2 1; U 2 16; U 4 r; U 4 s; P 4]
  | BdDscp r s p => [U 2 2; U 2 16; U 4 r; U 4 s; U 1 p; P 3]
  | BdExperimenter r s e d => [U 2 65535; U 2 (16 + zlen d); U 4 r; U 4 s; U 4 e; R d]
  end.
Definition band_wire (b : band) : bytes := enc (band_fields b).
Definition band_ok (b : band) : Prop := fits (band_fields b).
Definition band_class (b : band) : string :=
  match b with
  | BdDrop _ _ => "ofp_meter_band_drop"
  | BdDscp _ _ _ => "ofp_meter_band_dscp_remark"
  | BdExperimenter _ _ _ _ => "ofp_meter_band_experimenter"
  end.
Definition band_view (b : band) : pyval := VTup (band_class b) (vals (band_fields b)).
Definition band_plain (b : band) : Prop := match b with BdExperimenter _ _ _ _ => False | _ => True end.
Inductive band_arg : pyval -> band -> Prop :=
| DA_bytes b : band_arg (VBytes (band_wire b)) b
| DA_drop t l r s : type_arg t 1 -> band_arg (VTup "ofp_meter_band_drop" [t; l; VInt r; VInt s]) (BdDrop r s)
| DA_dscp t l r s p :
    type_arg t 2 -> band_arg (VTup "ofp_meter_band_dscp_remark" [t; l; VInt r; VInt s; VInt p]) (BdDscp r s p)
| DA_experimenter t l r s e d :
    type_arg t 65535 ->
    band_arg (VTup "ofp_meter_band_experimenter" [t; l; VInt r; VInt s; VInt e; VBytes d]) (BdExperimenter r s e d).
Definition bands_wire (l : list band) : bytes := concat (map band_wire l).
Definition bands_arg := list_arg band_arg band_wire.

(** *** Objects with exactly the fields given *)

Definition inst_view (i : instruction) : pyval :=
  match i with
  | InGoto t => VTup "ofp_instruction_goto_table" [VInt 1; VInt 8; VInt t]
  | InMetadata m k => VTup "ofp_instruction_write_metadata" [VInt 2; VInt 24; VInt m; VInt k]
  | InActions ty acts =>
      VTup "ofp_instruction_actions" [VInt ty; VInt (8 + zlen (acts_wire acts)); VList (map act_view acts)]
  | InMeter m => VTup "ofp_instruction_meter" [VInt 6; VInt 8; VInt m]
  | InExperimenter e d => VTup "ofp_instruction_experimenter" [VInt 65535; VInt (8 + zlen d); VInt e; VBytes d]
  end.
Definition inst_aligned (i : instruction) : Prop :=
  match i with InActions _ acts => Forall act_aligned acts | _ => True end.
