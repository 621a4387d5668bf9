(** Property C109: queues with properties, OpenFlow 1.3. *)

From Verif Require Import Py Struct P_Struct S_Hello S_Ports P_Hello S_Wire4 S_Queue M_Build4 M_Parse4 P_Queue.
Local Open Scope Z_scope.
Local Open Scope list_scope.

(** A reply with any queues, each with any properties, written in any of the
    ways, is built as the specification lays it out. *)
Theorem C109_built : forall dx d xid h port v qs,
  hdr_arg dx true 23 xid h -> u32 xid -> u32 port -> list_arg pqueue_arg pqueue_wire v qs -> Forall pqueue_ok qs ->
  zlen (concat (map pqueue_wire qs)) <= 65519 -> (3 <= d)%nat ->
  call (obj dx d) dx "ofp_queue_get_config_reply" [h; VInt port; v] = Ok (msg 4 23 xid (be 4 port ++ zeros 4 ++ concat (map pqueue_wire qs))).
Proof. exact queue_reply_build. Qed.
Print Assumptions C109_built.

(** The parsers of the properties return what was built, wherever it stands. *)
Theorem C109_property_parsed : forall p m off, at_ m off (qprop_wire p) -> fits (qprop_fields p) ->
  match p with QMin _ => p_queue_prop_min_rate | QMax _ => p_queue_prop_max_rate | QExp _ _ => p_queue_prop_experimenter end m off =
  Ok (qprop_view p, (off + length (qprop_wire p))%nat).
Proof. exact qprop_parse. Qed.
Print Assumptions C109_property_parsed.

(** Refuted: they are never called; a reply in which some queue has a property
    is not parsed. *)
Theorem C109_parse_refuted : forall n bs off xid port qs,
  at_ bs off (msg 4 23 xid (be 4 port ++ zeros 4 ++ concat (map pqueue_wire qs))) -> u32 xid -> u32 port -> Forall pqueue_ok qs ->
  zlen (concat (map pqueue_wire qs)) <= 65519 -> Exists (fun q => q_props q <> []) qs -> (length bs <= n)%nat ->
  parse n bs off = Err NameError.
Proof. exact queue_reply_bad. Qed.
Print Assumptions C109_parse_refuted.

Example C109_example :
  let qs := [PQueue 1 3 []; PQueue 2 3 [QMin 500; QMax 800]; PQueue 7 3 [QExp 9 [1; 2; 3]]] in
  let v := VList [VTup "ofp_packet_queue" [VInt 1; VInt 3; VNone; VNone];
                  VTup "ofp_packet_queue" [VInt 2; VInt 3; VNone;
                    VList [VTup "ofp_queue_prop_min_rate" [VNone; VInt 500];
                           VTup "ofp_queue_prop_max_rate" [VTup "ofp_queue_prop_header" [VInt 2; VInt 16]; VInt 800]]];
                  VBytes (pqueue_wire (PQueue 7 3 [QExp 9 [1; 2; 3]]))] in
  Forall pqueue_ok qs /\ list_arg pqueue_arg pqueue_wire v qs /\ Exists (fun q => q_props q <> []) qs /\
  call (obj 5 3) 5 "ofp_queue_get_config_reply" [VNone; VInt 3; v] = Ok (msg 4 23 5 (be 4 3 ++ zeros 4 ++ concat (map pqueue_wire qs))) /\
  pqueue_wire (PQueue 2 3 [QMin 500; QMax 800]) =
    [0; 0; 0; 2; 0; 0; 0; 3; 0; 48; 0; 0; 0; 0; 0; 0; 0; 1; 0; 16; 0; 0; 0; 0; 1; 244; 0; 0; 0; 0; 0; 0;
     0; 2; 0; 16; 0; 0; 0; 0; 3; 32; 0; 0; 0; 0; 0; 0] /\
  parse 200 (msg 4 23 5 (be 4 3 ++ zeros 4 ++ concat (map pqueue_wire qs))) 0 = Err NameError.
Proof.
  cbv zeta. split; [|split; [|split; [|split; [|split]]]]; try (vm_compute; reflexivity).
  - repeat apply Forall_cons; try apply Forall_nil; (split; [unfold fits, pqueue_fields | cbn [q_props]]);
      repeat first [apply Forall_nil | apply Forall_cons]; try (unfold fits, qprop_fields; cbn [qprop_body Datatypes.app]; repeat first [apply Forall_nil | apply Forall_cons]); vm_compute; intuition discriminate.
  - constructor. repeat constructor; right; reflexivity.
  - right. left. discriminate.
Qed.
