(** Specification of the OpenFlow 1.4 messages that come back: parsed and
    built again they give the identical bytes. *)

From Verif Require Import Py S_Wire4 S_Msg4 S_Wire5 S_Msg5.
Local Open Scope Z_scope.
Local Open Scope list_scope.

(** Flows of importance zero only. *)
Definition flow_stat_rebuildable (s : flow_stat) : Prop := let '(FlowStat _ _ _ _ _ _ _ w _ _ _ _ _) := s in w = 0.
Definition rq_rebuildable (r : request) : Prop :=
  match r with RqAggregate _ _ _ _ _ _ | RqQueueDesc _ _ | RqMonitor _ _ _ _ _ _ _ => False | _ => True end.
Definition rp_rebuildable (r : reply) : Prop :=
  match r with
  | RpFlow l => Forall flow_stat_rebuildable l
  | RpAggregate _ _ _ | RpQueueDesc _ | RpExperimenter _ _ _ => False
  | _ => True
  end.
(** Neither table-mods nor messages held by a REQUESTFORWARD; a message held by
    a BUNDLE_ADD_MESSAGE if it comes back itself. *)
Fixpoint msg_rebuildable (m : omsg) : Prop :=
  match m with
  | MRequest _ r => rq_rebuildable r
  | MReply _ r => rp_rebuildable r
  | MTableMod _ _ _ => False
  | MBundleAdd _ _ _ k => msg_rebuildable k
  | MForward _ _ => False
  | _ => True
  end.
