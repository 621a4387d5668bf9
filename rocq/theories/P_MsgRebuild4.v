(** Rebuilding parsed OpenFlow 1.3 messages; lengths of built messages. *)

From Verif Require Import Py Struct P_Struct S_Hello S_Ports P_Hello P_Ports S_Wire4 S_Msg4 M_Build4 M_Parse4 P_Wire4 P_Act4 P_Rebuild4 P_Stat4 P_Msg4.
Local Open Scope Z_scope.
Local Open Scope list_scope.

(** *** The message with payloads filled up *)

Definition flow_stat_padded (s : flow_stat) : flow_stat :=
  let '(FlowStat t ds dn p i h f c k o m is) := s in FlowStat t ds dn p i h f c k o m (map inst_padded is).
Definition group_desc_padded (s : group_desc) : group_desc :=
  let '(GroupDesc t g bs) := s in GroupDesc t g (map bucket_padded bs).
Definition rp_padded (r : reply) : reply :=
  match r with
  | RpDesc a b c d e => RpDesc (padded 256 a) (padded 256 b) (padded 256 c) (padded 32 d) (padded 256 e)
  | RpFlow l => RpFlow (map flow_stat_padded l)
  | RpGroupDesc l => RpGroupDesc (map group_desc_padded l)
  | _ => r
  end.
Definition msg_padded (m : omsg) : omsg :=
  match m with
  | MPacketOut b i acts d => MPacketOut b i (map act_padded acts) d
  | MFlowMod c k t m i h p b o g f mt is => MFlowMod c k t m i h p b o g f mt (map inst_padded is)
  | MGroupMod c t g bs => MGroupMod c t g (map bucket_padded bs)
  | MReply f r => MReply f (rp_padded r)
  | _ => m
  end.

Lemma flow_stat_padded_fields s : flow_stat_fields (flow_stat_padded s) = flow_stat_fields s.
Proof. destruct s. cbn [flow_stat_padded flow_stat_fields flow_stat_fixed]. rewrite insts_padded_wire. reflexivity. Qed.
Lemma flow_stat_padded_ok s : flow_stat_ok s -> flow_stat_ok (flow_stat_padded s).
Proof.
  intros [Hf Hx]. split; [rewrite flow_stat_padded_fields; exact Hf|]. destruct s. destruct Hx as [H1 H2].
  split; [exact H1 | apply insts_padded_ok; exact H2].
Qed.
Lemma flow_stat_parsed_arg s : flow_stat_arg (flow_stat_parsed s) (flow_stat_padded s).
Proof. destruct s. constructor; [apply match_view_arg | apply insts_parsed_arg]. Qed.

Lemma group_desc_padded_fields s : group_desc_fields (group_desc_padded s) = group_desc_fields s.
Proof. destruct s. cbn [group_desc_padded group_desc_fields]. rewrite buckets_padded_wire. reflexivity. Qed.
Lemma group_desc_padded_ok s : group_desc_ok s -> group_desc_ok (group_desc_padded s).
Proof.
  intros [Hf Hx]. split; [rewrite group_desc_padded_fields; exact Hf|]. destruct s. apply buckets_padded_ok. exact Hx.
Qed.
Lemma group_desc_parsed_arg s : group_desc_arg (group_desc_parsed s) (group_desc_padded s).
Proof. destruct s. constructor. apply buckets_parsed_arg. Qed.

Lemma concat_padded {A} (w : A -> bytes) (p : A -> A) l : (forall x, w (p x) = w x) -> concat (map w (map p l)) = concat (map w l).
Proof. intros H. rewrite map_map. f_equal. apply map_ext. exact H. Qed.

Lemma padded_padded n b : (length b <= n)%nat -> padded n (padded n b) = padded n b.
Proof.
  intros H. unfold padded at 1. assert (E : length (padded n b) = n) by (unfold padded; rewrite app_length, zeros_length; lia).
  rewrite E, Nat.sub_diag. apply app_nil_r.
Qed.

Lemma rp_padded_fields r : rp_ok r -> rp_fields (rp_padded r) = rp_fields r.
Proof.
  intros [_ Hx]. destruct r; cbn [rp_padded rp_fields]; try reflexivity.
  - destruct Hx as (La & Lb & Lc & Ld & Le). rewrite !padded_padded by assumption. reflexivity.
  - rewrite concat_padded; [reflexivity|]. intros s. unfold flow_stat_wire. rewrite flow_stat_padded_fields. reflexivity.
  - rewrite concat_padded; [reflexivity|]. intros s. unfold group_desc_wire. rewrite group_desc_padded_fields. reflexivity.
Qed.

Lemma rp_padded_ok r : rp_ok r -> rp_ok (rp_padded r).
Proof.
  intros H. split; [rewrite rp_padded_fields by exact H; apply H|]. destruct H as [_ Hx]. destruct r; try exact Hx; cbn [rp_padded].
  - destruct Hx as (La & Lb & Lc & Ld & Le).
    assert (L : forall n b, (length b <= n)%nat -> (length (padded n b) <= n)%nat) by (intros; unfold padded; rewrite app_length, zeros_length; lia).
    repeat split; apply L; assumption.
  - rewrite Forall_map. revert Hx. apply Forall_impl. exact flow_stat_padded_ok.
  - rewrite Forall_map. revert Hx. apply Forall_impl. exact group_desc_padded_ok.
Qed.

Lemma rp_padded_type r : rp_type (rp_padded r) = rp_type r.
Proof. destruct r; reflexivity. Qed.

Lemma msg_padded_fields m : msg_ok m -> body_fields (msg_padded m) = body_fields m.
Proof.
  intros (_ & _ & Hx). destruct m; cbn [msg_padded body_fields]; try reflexivity.
  - rewrite acts_padded_wire. reflexivity.
  - rewrite insts_padded_wire. reflexivity.
  - rewrite buckets_padded_wire. reflexivity.
  - rewrite rp_padded_type, rp_padded_fields by exact Hx. reflexivity.
Qed.

Lemma msg_padded_type m : mtype (msg_padded m) = mtype m.
Proof. destruct m; reflexivity. Qed.

Lemma msg_padded_wire xid m : msg_ok m -> mwire xid (msg_padded m) = mwire xid m.
Proof. intros H. unfold mwire, body. rewrite msg_padded_type, msg_padded_fields by exact H. reflexivity. Qed.

Lemma msg_padded_ok m : msg_ok m -> msg_ok (msg_padded m).
Proof.
  intros H. pose proof H as (H1 & H2 & H3). unfold msg_ok, body. rewrite msg_padded_fields by exact H.
  split; [exact H1|]. split; [exact H2|].
  destruct m; try exact H3; cbn [msg_padded].
  - apply acts_padded_ok. exact H3.
  - destruct H3. split; [assumption | apply insts_padded_ok; assumption].
  - apply buckets_padded_ok. exact H3.
  - apply rp_padded_ok. exact H3.
Qed.

(** *** The parsed object as an argument *)

(** Not rebuilt: the aggregate request, and anything with a port in it. *)
Definition msg_rebuildable (m : omsg) : Prop :=
  match m with
  | MPortStatus _ _ | MRequest _ (RqAggregate _ _ _ _ _ _) | MReply _ (RpPortDesc _) => False
  | _ => True
  end.

Lemma items_list {A} (arg : pyval -> A -> Prop) (view : A -> pyval) (pad : A -> A) l :
  (forall x, arg (view x) (pad x)) -> items_arg arg (VList (map view l)) (map pad l).
Proof.
  intros H. right. exists (map view l). split; [left; reflexivity|]. induction l; constructor; auto.
Qed.

Lemma items_list_id {A} (arg : pyval -> A -> Prop) (view : A -> pyval) l :
  (forall x, arg (view x) x) -> items_arg arg (VList (map view l)) l.
Proof. intros H. rewrite <- (map_id l) at 2. apply items_list. exact H. Qed.

Lemma list_list_id {A} (arg : pyval -> A -> Prop) wire (view : A -> pyval) l :
  (forall x, arg (view x) x) -> list_arg arg wire (VList (map view l)) l.
Proof. intros H. apply LA_list. induction l; constructor; auto. Qed.

Lemma group_stat_view_arg s : group_stat_arg (group_stat_view s) s.
Proof. destruct s. constructor. apply list_list_id. intros x. constructor. Qed.
Lemma meter_stat_view_arg s : meter_stat_arg (meter_stat_view s) s.
Proof. destruct s. apply MSA_obj. apply list_list_id. intros x. constructor. Qed.
Lemma meter_conf_view_arg s : meter_conf_arg (meter_conf_view s) s.
Proof. destruct s. constructor. apply bands_view_arg. Qed.
Lemma hello_parsed_arg l : hello_arg (hello_parsed l) l.
Proof. constructor; [right; reflexivity|]. right. left. exists "tuple"%string. reflexivity. Qed.
Lemma queue_view_arg q : queue_arg (queue_view q) q.
Proof. destruct q. constructor. auto. Qed.

Lemma rp_parsed_arg r : match r with RpPortDesc _ => False | _ => True end -> rp_arg (rp_parsed r) (rp_padded r).
Proof.
  intros Hr. destruct r; cbn [rp_parsed rp_padded]; try destruct Hr; constructor.
  1-5: left; reflexivity.
  - apply items_list. exact flow_stat_parsed_arg.
  - apply items_list_id. intros x. constructor.
  - apply items_list_id. intros x. constructor.
  - apply items_list_id. exact group_stat_view_arg.
  - apply items_list. exact group_desc_parsed_arg.
  - right. left. eexists. reflexivity.
  - right. left. eexists. reflexivity.
  - apply items_list_id. exact meter_stat_view_arg.
  - apply items_list_id. exact meter_conf_view_arg.
Qed.

Lemma rq_view_arg r : match r with RqAggregate _ _ _ _ _ _ => False | _ => True end -> rq_arg (rq_view r) r.
Proof.
  intros Hr. destruct r; cbn [rq_view]; try destruct Hr; try (constructor; right; reflexivity).
  - apply RQ_flow; try (right; reflexivity). left. apply match_view_arg.
  - assert (E : body = enc (rq_fields (RqExperimenter body))) by (cbn [rq_fields]; rewrite enc_R; reflexivity).
    rewrite E at 1. constructor.
Qed.

Lemma msg_parsed_args xid m : msg_rebuildable m ->
  exists cls args, msg_parsed xid m = VTup cls (hdr_view (mtype m) xid (body m) :: args) /\ (cls = "ofp_"%string \/ msg_args cls args (msg_padded m)) /\
    (cls = "ofp_"%string -> exists ty d, m = MPlain ty d /\ args = [VBytes d]).
Proof.
  intros Hr. destruct m; cbn [msg_rebuildable] in Hr; try destruct Hr; cbn [msg_parsed msg_padded];
    do 2 eexists; (split; [reflexivity|]); (split; [|first [intros E; discriminate E | intros _; do 2 eexists; split; reflexivity]]);
    try (left; reflexivity); right.
  - constructor. apply list_list_id. exact hello_parsed_arg.
  - constructor. left. reflexivity.
  - apply XA_features.
  - constructor. right. reflexivity.
  - apply XA_packet_in. apply match_view_arg.
  - apply XA_flow_removed. apply match_view_arg.
  - constructor; [right; reflexivity | apply acts_parsed_arg | left; reflexivity].
  - apply XA_flow_mod; try (right; reflexivity); [apply match_view_arg | apply insts_parsed_arg].
  - constructor. apply buckets_parsed_arg.
  - constructor.
  - constructor.
  - constructor. apply bands_view_arg.
  - constructor. apply rq_view_arg. destruct r; exact Hr.
  - rewrite <- rp_padded_type. constructor. apply rp_parsed_arg. destruct r; exact Hr.
  - constructor.
  - constructor. apply list_list_id. exact queue_view_arg.
  - constructor.
  - constructor. left. exists ["tuple"; "tuple"; "tuple"]%string. split; reflexivity.
Qed.

Lemma msingle_padded m : msingle (msg_padded m) = msingle m.
Proof. destruct m; reflexivity. Qed.

Theorem msg_rebuild dx d m xid : msg_ok m -> msg_rebuildable m -> u32 xid -> (4 <= d)%nat ->
  obj dx d (msg_parsed xid m) = Ok (mwire xid m).
Proof.
  intros Hok Hr Hx Hd. destruct d as [|d]; [lia|].
  destruct (msg_parsed_args xid m Hr) as (cls & args & E & Ha & Hplain). rewrite E.
  change (call (obj dx d) dx cls (hdr_view (mtype m) xid (body m) :: args) = Ok (mwire xid m)).
  assert (Hh : hdr_arg dx (msingle m) (mtype m) xid (hdr_view (mtype m) xid (body m))).
  { apply HA_tup; [right; reflexivity | left; reflexivity | right; reflexivity]. }
  destruct Ha as [->|Ha].
  - destruct (Hplain eq_refl) as (ty & b & -> & ->).
    change (ofp_ (obj dx d) dx (hdr_view ty xid (body (MPlain ty b))) (VBytes b) VNone = Ok (mwire xid (MPlain ty b))).
    pose proof (message_data dx d (MPlain ty b) xid _ VNone (Ok b) Hh Hok Hx) as M. unfold message in M. cbn [bind] in M.
    apply M; [right; auto|]. unfold body. cbn [body_fields]. rewrite enc_R. reflexivity.
  - rewrite <- (msg_padded_wire xid m Hok). apply msg_build; [exact Ha | apply msg_padded_ok; exact Hok | | exact Hx | lia].
    rewrite msingle_padded, msg_padded_type. exact Hh.
Qed.

(** *** Lengths *)

(** What every built message looks like. *)
Definition framed (r : res bytes) : Prop := forall b, r = Ok b -> well_framed b.

Lemma framed_err e : framed (Err e).
Proof. intros b H. discriminate. Qed.
Lemma framed_bind {A} (r : res A) f : (forall a, framed (f a)) -> framed (bind r f).
Proof. intros H b E. apply bind_ok in E. destruct E as (a & _ & E). exact (H a b E). Qed.
Lemma framed_sized n r : framed r -> framed (sized n r).
Proof.
  intros H b E. unfold sized in E. apply bind_ok in E. destruct E as (a & E1 & E2). apply bind_ok in E2. destruct E2 as (u & _ & E2).
  injection E2 as <-. exact (H a E1).
Qed.

Lemma packs_inv f fs vs b : fmt f = Ok fs -> packs f vs = Ok b -> pack fs vs = Ok b.
Proof. intros Hf H. unfold packs in H. rewrite Hf in H. exact H. Qed.

Lemma framed_ofp o dx h data ty : framed (ofp_ o dx h data ty).
Proof.
  unfold ofp_. apply framed_bind. intros [[v t] x]. apply framed_bind. intros dt b E.
  apply bind_ok in E. destruct E as (hd & Eh & E). injection E as <-.
  unfold M_Build4.ofp_header in Eh. cbv zeta in Eh. apply bind_ok in Eh. destruct Eh as (u & Ea & Eh).
  assert (Ev : default v 4 = VInt 4).
  { unfold assert_ in Ea. destruct (py_eqz (default v 4) 4) eqn:E; [|discriminate].
    destruct (default v 4); try discriminate. cbn in E. apply Z.eqb_eq in E. subst. reflexivity. }
  rewrite Ev in Eh. cbn [default] in Eh.
  apply (packs_inv "BBHI" [FU 1; FU 1; FU 2; FU 4] _ _ eq_refl) in Eh.
  cbn [pack] in Eh. cbn [pack_item] in Eh. change (in_u 1 4) with true in Eh. cbv iota in Eh. cbn [bind] in Eh.
  destruct t as [|t| | | |]; try discriminate. cbn [pack_item] in Eh.
  destruct (in_u 1 t) eqn:Et; [|discriminate]. cbn [bind] in Eh.
  destruct (in_u 2 (8 + zlen dt)) eqn:El; [|discriminate]. cbn [bind] in Eh.
  destruct (default x dx) as [|z| | | |]; try discriminate. cbn [pack_item] in Eh.
  destruct (in_u 4 z) eqn:Ez; [|discriminate]. cbn [bind] in Eh.
  assert (Ehd : hd = [4; t mod 256] ++ be 2 (8 + zlen dt) ++ be 4 z) by (injection Eh as <-; rewrite ?app_nil_r; reflexivity).
  clear Eh. subst hd.
  unfold in_u in El. apply andb_true_iff in El. destruct El as [_ El]. apply Z.ltb_lt in El.
  change (256 ^ Z.of_nat 2) with 65536 in El.
  assert (Hl : length ([4; t mod 256] ++ be 2 (8 + zlen dt) ++ be 4 z) = 8%nat) by (rewrite !app_length, !be_length; reflexivity).
  assert (Hz : length (([4; t mod 256] ++ be 2 (8 + zlen dt) ++ be 4 z) ++ dt) = (8 + length dt)%nat) by (rewrite app_length, Hl; reflexivity).
  unfold well_framed. unfold zlen at 4 6. rewrite Hz.
  split; [lia|]. split; [reflexivity|].
  rewrite <- !app_assoc. rewrite u16_be2; [unfold zlen in *; lia | unfold zlen in *; lia | reflexivity].
Qed.

Lemma framed_message o dx h ty data : framed (message o dx h ty data).
Proof. unfold message. apply framed_bind. intros. apply framed_ofp. Qed.

(** The builders of whole messages. *)
Ltac args_of :=
  repeat match goal with
  | |- framed (Err _) => apply framed_err
  | |- framed (message _ _ _ _ _) => apply framed_message
  | |- framed (ofp_ _ _ _ _ _) => apply framed_ofp
  | |- framed (sized _ _) => apply framed_sized
  | |- framed (bind _ _) => apply framed_bind; intro
  | |- framed (match ?l with [] => _ | _ :: _ => _ end) => destruct l
  end.

Lemma built_framed o dx cls args : In cls message_builders -> framed (call o dx cls args).
Proof.
  intros Hin.
  repeat (destruct Hin as [<-|Hin]; [
    match goal with |- framed (call ?o ?dx ?c ?a) => let f := eval lazy [lookup builders String.eqb Ascii.eqb Bool.eqb] in (lookup c (builders o dx)) in
      match f with Some ?g => change (framed (g a)) end end;
    unfold arg2, arg3, arg4, arg5, arg6, arg8; args_of;
    cbv delta [M_Build4.ofp_hello ofp_switch_features ofp_switch_config ofp_table_mod ofp_flow_mod ofp_group_mod ofp_port_mod ofp_meter_mod ofp_multipart_request
      ofp_multipart_reply ofp_queue_get_config_request ofp_queue_get_config_reply ofp_packet_out ofp_role_request ofp_async_config ofp_packet_in
      ofp_flow_removed ofp_port_status ofp_error_msg ofp_experimenter_header] beta zeta; args_of |]).
  destruct Hin.
Qed.
