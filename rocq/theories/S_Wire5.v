(** Specification vocabulary for the OpenFlow 1.4 codec.  Actions, instructions,
    matches, buckets and bands have the layouts of OpenFlow 1.3, so their types
    and layouts are those of S_Wire4.v ([act_wire], [inst_wire], [match_wire],
    [bucket_wire], [band_wire]).  What a caller of ofp5/build.py may write for
    them, which of them are valid, and what ofp5/parse.py is to return are
    given here, under the names used in S_Wire4.v for OpenFlow 1.3. *)

From Verif Require Import Py Struct S_Hello S_Ports S_Wire4.
Local Open Scope Z_scope.
Local Open Scope list_scope.

(** The header argument of a message of type [ty], transaction id [xid]; [dx]
    is the id drawn when none is given, [single]: the builder makes one type of
    message only. *)
Inductive hdr_arg (dx : Z) (single : bool) (ty xid : Z) : pyval -> Prop :=
| HA_none : single = true -> xid = dx -> hdr_arg dx single ty xid VNone
| HA_tup c v t l x :
    type_arg v 5 -> (t = VInt ty \/ single = true /\ t = VNone) -> opt_arg dx x xid ->
    hdr_arg dx single ty xid (VTup c [v; t; l; x])
| HA_bytes l rest :
    0 <= l < 65536 ->
    hdr_arg dx single ty xid (VBytes (enc [U 1 5; U 1 ty; U 2 l; U 4 xid] ++ rest)).

(** What a parser returns for the header of a message with body [body]. *)
Definition hdr_view (ty xid : Z) (body : bytes) : pyval :=
  VTup "ofp_header" [VInt 5; VInt ty; VInt (8 + zlen body); VInt xid].

(** *** Actions (7.2.4) *)

(** The plain actions are copy TTL out/in, decrement MPLS/IP TTL, pop VLAN and
    pop PBB. *)
Definition act_ok (a : action) : Prop :=
  fits (act_fields a) /\
  match a with
  | AcPush ty _ => In ty [17; 19; 26]
  | AcPlain ty => In ty [11; 12; 16; 18; 24; 27]
  | _ => True
  end.

Definition act_class (a : action) : string :=
  match a with
  | AcOutput _ _ => "ofp_action_output"
  | AcGroup _ => "ofp_action_group"
  | AcSetQueue _ => "ofp_action_set_queue"
  | AcMplsTtl _ => "ofp_action_mpls_ttl"
  | AcNwTtl _ => "ofp_action_nw_ttl"
  | AcPush _ _ => "ofp_action_push"
  | AcPopMpls _ => "ofp_action_pop_mpls"
  | AcSetField _ => "ofp_action_set_field"
  | AcExperimenter _ _ => "ofp_action_experimenter_"
  | AcPlain _ => "ofp_action_generic"
  end.

Definition act_view (a : action) : pyval := VTup (act_class a) (vals (act_fields a)).

Inductive act_arg : pyval -> action -> Prop :=
| AA_bytes a : act_arg (VBytes (act_wire a)) a
| AA_output t l p m : type_arg t 0 -> act_arg (VTup "ofp_action_output" [t; l; VInt p; VInt m]) (AcOutput p m)
| AA_group t l g : type_arg t 22 -> act_arg (VTup "ofp_action_group" [t; l; VInt g]) (AcGroup g)
| AA_set_queue t l q : type_arg t 21 -> act_arg (VTup "ofp_action_set_queue" [t; l; VInt q]) (AcSetQueue q)
| AA_mpls_ttl t l x : type_arg t 15 -> act_arg (VTup "ofp_action_mpls_ttl" [t; l; VInt x]) (AcMplsTtl x)
| AA_nw_ttl t l x : type_arg t 23 -> act_arg (VTup "ofp_action_nw_ttl" [t; l; VInt x]) (AcNwTtl x)
| AA_push ty l e : act_arg (VTup "ofp_action_push" [VInt ty; l; VInt e]) (AcPush ty e)
| AA_pop_mpls t l e : type_arg t 20 -> act_arg (VTup "ofp_action_pop_mpls" [t; l; VInt e]) (AcPopMpls e)
| AA_set_field t l f : type_arg t 25 -> act_arg (VTup "ofp_action_set_field" [t; l; VBytes f]) (AcSetField f)
| AA_experimenter t l e d :
    type_arg t 65535 -> act_arg (VTup "ofp_action_experimenter_" [t; l; VInt e; VBytes d]) (AcExperimenter e d)
| AA_plain ty l : act_arg (VTup "ofp_action_generic" [VInt ty; l]) (AcPlain ty).

Definition acts_arg := list_arg act_arg act_wire.
Definition acts_parsed (l : list action) : pyval := VList (map (fun a => act_view (act_padded a)) l).

(** *** Instructions (7.2.3) *)

Definition inst_ok (i : instruction) : Prop :=
  fits (inst_fields i) /\
  match i with InActions ty acts => In ty [3; 4; 5] /\ Forall act_ok acts | _ => True end.

Definition inst_parsed (i : instruction) : pyval :=
  match i with
  | InGoto t => VTup "ofp_instruction_goto_table" [VInt 1; VInt 8; VInt t]
  | InMetadata m k => VTup "ofp_instruction_write_metadata" [VInt 2; VInt 24; VInt m; VInt k]
  | InActions ty acts =>
      VTup "ofp_instruction_actions" [VInt ty; VInt (8 + zlen (acts_wire acts)); acts_parsed acts]
  | InMeter m => VTup "ofp_instruction_meter" [VInt 6; VInt 8; VInt m]
  | InExperimenter e d => VTup "ofp_instruction_experimenter_" [VInt 65535; VInt (8 + zlen d); VInt e; VBytes d]
  end.

Inductive inst_arg : pyval -> instruction -> Prop :=
| IA_bytes i : inst_arg (VBytes (inst_wire i)) i
| IA_goto t l x : type_arg t 1 -> inst_arg (VTup "ofp_instruction_goto_table" [t; l; VInt x]) (InGoto x)
| IA_metadata t l m k :
    type_arg t 2 -> inst_arg (VTup "ofp_instruction_write_metadata" [t; l; VInt m; VInt k]) (InMetadata m k)
| IA_actions ty l v acts :
    acts_arg v acts -> inst_arg (VTup "ofp_instruction_actions" [VInt ty; l; v]) (InActions ty acts)
| IA_meter t l m : type_arg t 6 -> inst_arg (VTup "ofp_instruction_meter" [t; l; VInt m]) (InMeter m)
| IA_experimenter t l e d :
    type_arg t 65535 ->
    inst_arg (VTup "ofp_instruction_experimenter_" [t; l; VInt e; VBytes d]) (InExperimenter e d).

Definition insts_arg := list_arg inst_arg inst_wire.
Definition insts_parsed (l : list instruction) : pyval := VList (map inst_parsed l).

(** *** Buckets *)

Definition bucket_ok (b : bucket) : Prop :=
  fits (bucket_fields b) /\ let '(Bucket _ _ _ acts) := b in Forall act_ok acts.
Definition bucket_parsed (b : bucket) : pyval :=
  let '(Bucket w p g acts) := b in
  VTup "ofp_bucket" [VInt (16 + zlen (acts_wire acts)); VInt w; VInt p; VInt g; acts_parsed acts].
Inductive bucket_arg : pyval -> bucket -> Prop :=
| BA_bytes b : bucket_arg (VBytes (bucket_wire b)) b
| BA_obj l w p g v acts :
    acts_arg v acts -> bucket_arg (VTup "ofp_bucket" [l; VInt w; VInt p; VInt g; v]) (Bucket w p g acts).
Definition buckets_arg := list_arg bucket_arg bucket_wire.

(** *** Objects with exactly the fields given *)

Definition inst_view (i : instruction) : pyval :=
  match i with
  | InGoto t => VTup "ofp_instruction_goto_table" [VInt 1; VInt 8; VInt t]
  | InMetadata m k => VTup "ofp_instruction_write_metadata" [VInt 2; VInt 24; VInt m; VInt k]
  | InActions ty acts =>
      VTup "ofp_instruction_actions" [VInt ty; VInt (8 + zlen (acts_wire acts)); VList (map act_view acts)]
  | InMeter m => VTup "ofp_instruction_meter" [VInt 6; VInt 8; VInt m]
  | InExperimenter e d => VTup "ofp_instruction_experimenter_" [VInt 65535; VInt (8 + zlen d); VInt e; VBytes d]
  end.
