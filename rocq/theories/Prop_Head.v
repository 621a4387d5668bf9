(** Property C108: the header a builder is given. *)

From Verif Require Import Py Struct P_Struct S_Hello S_Ports S_Head S_Wire4 S_Msg4 M_Build4 P_Head.
From Verif Require M_Build5.
Local Open Scope Z_scope.
Local Open Scope list_scope.

(** Whatever the arguments, a message that is returned has the version, a type
    of its builder - the one the header argument names, which may be left
    open where there is only one - and the transaction id of the header
    argument, or [dx] if that names none. *)
Theorem C108_header4 : forall o dx cls types h args b,
  In (cls, types) message_types4 -> call o dx cls (h :: args) = Ok b -> headed dx 4 types h b.
Proof. intros o dx cls types h args b Hin. exact (built_headed4 o dx cls types h args Hin b). Qed.
Print Assumptions C108_header4.

Theorem C108_header5_partial : forall o dx cls types h args b,
  In (cls, types) message_types5 -> M_Build5.call o dx cls (h :: args) = Ok b -> headed dx 5 types h b.
Proof. intros o dx cls types h args b Hin. exact (built_headed5 o dx cls types h args Hin b). Qed.
Print Assumptions C108_header5_partial.

(** So a header of another version or of a type that is not the builder's - or
    one that does not say which of the two - is refused whatever the other
    arguments are, and so is what is no header at all. *)
Theorem C108_refused4 : forall o dx cls types h args,
  In (cls, types) message_types4 ->
  (forall v t x, header_says dx h v t x ->
     (exists v', v = Some v' /\ v' <> 4) \/ (exists t', t = Some t' /\ ~ In t' types) \/ t = None /\ length types <> 1%nat) ->
  exists e, call o dx cls (h :: args) = Err e.
Proof. intros o dx cls types h args Hin. exact (refused dx 4 types h _ (built_headed4 o dx cls types h args Hin)). Qed.
Print Assumptions C108_refused4.

Theorem C108_refused5_partial : forall o dx cls types h args,
  In (cls, types) message_types5 ->
  (forall v t x, header_says dx h v t x ->
     (exists v', v = Some v' /\ v' <> 5) \/ (exists t', t = Some t' /\ ~ In t' types) \/ t = None /\ length types <> 1%nat) ->
  exists e, M_Build5.call o dx cls (h :: args) = Err e.
Proof. intros o dx cls types h args Hin. exact (refused dx 5 types h _ (built_headed5 o dx cls types h args Hin)). Qed.
Print Assumptions C108_refused5_partial.

(** The general builder, without a type of its own: the header has to name one. *)
Theorem C108_general4 : forall o dx h data b, call o dx "ofp_" [h; data] = Ok b ->
  exists v x, header_says dx h v (Some (byte_at b 1)) x /\ (v = None \/ v = Some 4) /\ byte_at b 0 = 4 /\ u32_at b 4 = x.
Proof.
  intros o dx h data b E. change (ofp_ o dx h data VNone = Ok b) in E.
  destruct (ofp_says4 o dx h data VNone b ltac:(discriminate) E) as (v & t & x & H & Hv & B0 & Ht & B4). cbn in Ht. subst t.
  exists v, x. auto.
Qed.
Print Assumptions C108_general4.

Theorem C108_general5 : forall o dx h data b, M_Build5.call o dx "ofp_" [h; data] = Ok b ->
  exists v x, header_says dx h v (Some (byte_at b 1)) x /\ (v = None \/ v = Some 5) /\ byte_at b 0 = 5 /\ u32_at b 4 = x.
Proof.
  intros o dx h data b E. change (M_Build5.ofp_ o dx h data VNone = Ok b) in E.
  destruct (ofp_says5 o dx h data VNone b ltac:(discriminate) E) as (v & t & x & H & Hv & B0 & Ht & B4). cbn in Ht. subst t.
  exists v, x. auto.
Qed.
Print Assumptions C108_general5.

(** Refuted for two builders of OpenFlow 1.4: ofp_role_status returns nothing of
    type ROLE_STATUS (30) ... *)
Theorem C108_role_status_refuted : forall o dx h args b,
  M_Build5.call o dx "ofp_role_status" (h :: args) = Ok b -> byte_at b 1 <> 30.
Proof.
  intros o dx h args b E. destruct (role_status_headed o dx h args b E) as (v & t & x & _ & _ & _ & Hi & _).
  cbn in Hi. lia.
Qed.
Print Assumptions C108_role_status_refuted.

(** ... and ofp_meter_mod takes any eight bytes for its header: any version, any
    type. *)
Theorem C108_meter_mod_refuted : forall d dx (h : bytes) c f m,
  length h = 8%nat -> u16 c -> u16 f -> u32 m ->
  M_Build5.call (M_Build5.obj dx d) dx "ofp_meter_mod" [VBytes h; VInt c; VInt f; VInt m; VNone] = Ok (h ++ be 2 c ++ be 2 f ++ be 4 m).
Proof.
  intros d dx h c f m L C F M.
  change (M_Build5.ofp_meter_mod (M_Build5.obj dx d) (VBytes h) (VInt c) (VInt f) (VInt m) VNone = Ok (h ++ be 2 c ++ be 2 f ++ be 4 m)).
  assert (O : M_Build5.obj dx d (VBytes h) = Ok h) by (destruct d; reflexivity).
  unfold M_Build5.ofp_meter_mod. cbn [seqarg bind]. rewrite O. cbn [bind]. unfold pack_app, packs.
  change (fmt "8sHHI") with (Ok [FS 8; FU 2; FU 2; FU 4]). cbn [bind pack pack_item].
  assert (I2 : forall z, u16 z -> in_u 2 z = true) by (intros z Hz; apply andb_true_iff; split; [apply Z.leb_le | apply Z.ltb_lt; change (256 ^ Z.of_nat 2) with 65536]; unfold u16 in Hz; lia).
  assert (I4 : forall z, u32 z -> in_u 4 z = true) by (intros z Hz; apply andb_true_iff; split; [apply Z.leb_le | apply Z.ltb_lt; change (256 ^ Z.of_nat 4) with 4294967296]; unfold u32 in Hz; lia).
  rewrite (I2 c C), (I2 f F), (I4 m M). cbn [bind].
  rewrite firstn_all2 by lia. rewrite L. change (zeros (8 - 8)) with (@nil Z). rewrite ?app_nil_r, <- ?app_assoc. reflexivity.
Qed.
Print Assumptions C108_meter_mod_refuted.

(** A request answered with its own header, whose type does not fit, and with
    the type and length left open; a configuration whose header does not say
    whether it is a reply; a header of OpenFlow 1.0; an OpenFlow 1.4 role
    request built from bytes. *)
Example C108_example :
  call (obj 7 1) 7 "ofp_error_msg" [VBytes [4; 14; 0; 99; 0; 0; 0; 5]; VInt 1; VInt 2; VBytes []] = Err AssertionError /\
  call (obj 7 1) 7 "ofp_error_msg" [VTup "ofp_header" [VNone; VNone; VNone; VInt 5]; VInt 1; VInt 2; VBytes []] =
    Ok [4; 1; 0; 12; 0; 0; 0; 5; 0; 1; 0; 2] /\
  headed 7 4 [1] (VTup "ofp_header" [VNone; VNone; VNone; VInt 5]) [4; 1; 0; 12; 0; 0; 0; 5; 0; 1; 0; 2] /\
  call (obj 7 1) 7 "ofp_switch_config" [VNone; VInt 0; VInt 128] = Err ValueError /\
  call (obj 7 1) 7 "ofp_switch_config" [VTup "ofp_header" [VInt 4; VInt 8; VNone; VNone]; VInt 0; VInt 128] = Ok [4; 8; 0; 12; 0; 0; 0; 7; 0; 0; 0; 128] /\
  call (obj 7 1) 7 "ofp_hello" [VTup "ofp_header" [VInt 1; VNone; VNone; VNone]; VNone] = Err AssertionError /\
  M_Build5.call (M_Build5.obj 7 1) 7 "ofp_role_request" [VBytes [5; 24; 1; 2; 0; 0; 1; 0; 99]; VInt 2; VInt 3] =
    Ok [5; 24; 0; 24; 0; 0; 1; 0; 0; 0; 0; 2; 0; 0; 0; 0; 0; 0; 0; 0; 0; 0; 0; 3].
Proof.
  repeat match goal with |- _ /\ _ => split end; try (vm_compute; reflexivity).
  exists None, None, 5. split; [|cbn; auto 10]. exact (HS_tuple 7 "ofp_header" VNone VNone VNone (VInt 5) None None (Some 5) FS_open FS_open (FS_given 5)).
Qed.
