(** Rebuilding parsed OpenFlow 1.4 messages. *)

From Verif Require Import Py Struct P_Struct S_Hello S_Ports P_Hello P_Ports S_Wire4 S_Msg4 M_Build4 M_Parse4 P_Wire4 P_Act4 P_Rebuild4 P_Stat4 P_Msg4 P_MsgParse4 P_MsgRebuild4 P_Term4 P_MsgBad4.
From Verif Require Import S_Wire5 S_Msg5 S_Term5 S_Rebuild5 M_Build5 M_Parse5 P_Wire5 P_Act5 P_Stat5 P_Msg5 P_MsgParse5 P_Rebuild5 P_Term5 P_MsgBad5 P_Status5.
Local Open Scope Z_scope.
Local Open Scope list_scope.

(** *** The message with payloads filled up *)

Definition flow_stat_padded (s : flow_stat) : flow_stat :=
  let '(FlowStat t ds dn p i h f w c k o m is) := s in FlowStat t ds dn p i h f 0 c k o m (map inst_padded is).
Definition group_desc_padded (s : group_desc) : group_desc :=
  let '(GroupDesc t g bs) := s in GroupDesc t g (map bucket_padded bs).
Definition rp_padded (r : reply) : reply :=
  match r with
  | RpDesc a b c d e => RpDesc (padded 256 a) (padded 256 b) (padded 256 c) (padded 32 d) (padded 256 e)
  | RpFlow l => RpFlow (map flow_stat_padded l)
  | RpGroupDesc l => RpGroupDesc (map group_desc_padded l)
  | _ => r
  end.
Definition msg_padded (m : omsg) : omsg :=
  match m with
  | MPacketOut b i acts d => MPacketOut b i (map act_padded acts) d
  | MFlowMod c k t m i h p b o g f w mt is => MFlowMod c k t m i h p b o g f w mt (map inst_padded is)
  | MGroupMod c t g bs => MGroupMod c t g (map bucket_padded bs)
  | MReply f r => MReply f (rp_padded r)
  | MRole ty _ _ => MPlain ty (body m)
  | _ => m
  end.

Lemma flow_stat_padded_fields s : flow_stat_rebuildable s -> flow_stat_fields (flow_stat_padded s) = flow_stat_fields s.
Proof. destruct s. cbn [flow_stat_rebuildable]. intros ->. cbn [flow_stat_padded flow_stat_fields]. rewrite insts_padded_wire. reflexivity. Qed.
Lemma flow_stat_padded_ok s : flow_stat_rebuildable s -> flow_stat_ok s -> flow_stat_ok (flow_stat_padded s).
Proof.
  intros Hr [Hf Hx]. split; [rewrite flow_stat_padded_fields by exact Hr; exact Hf|]. destruct s. destruct Hx as [H1 H2].
  split; [exact H1 | apply insts_padded_ok; exact H2].
Qed.
Lemma flow_stat_parsed_arg s : flow_stat_arg (flow_stat_parsed s) (flow_stat_padded s).
Proof. destruct s. constructor; [apply match_view_arg | apply insts_parsed_arg]. Qed.

Lemma group_desc_padded_fields s : group_desc_fields (group_desc_padded s) = group_desc_fields s.
Proof. destruct s. cbn [group_desc_padded group_desc_fields]. rewrite buckets_padded_wire. reflexivity. Qed.
Lemma group_desc_padded_ok s : group_desc_ok s -> group_desc_ok (group_desc_padded s).
Proof.
  intros [Hf Hx]. split; [rewrite group_desc_padded_fields; exact Hf|]. destruct s. apply buckets_padded_ok. exact Hx.
Qed.
Lemma group_desc_parsed_arg s : group_desc_arg (group_desc_parsed s) (group_desc_padded s).
Proof. destruct s. constructor. apply buckets_parsed_arg. Qed.

Lemma rp_padded_fields r : rp_rebuildable r -> rp_ok r -> rp_fields (rp_padded r) = rp_fields r.
Proof.
  intros Hr [_ Hx]. destruct r; cbn [rp_padded rp_fields]; try reflexivity.
  - destruct Hx as (La & Lb & Lc & Ld & Le). rewrite !padded_padded by assumption. reflexivity.
  - cbn [rp_rebuildable] in Hr. rewrite map_map. f_equal. f_equal. f_equal. apply map_ext_in. intros s Hs. unfold flow_stat_wire.
    rewrite flow_stat_padded_fields by exact (proj1 (Forall_forall _ _) Hr s Hs). reflexivity.
  - rewrite concat_padded; [reflexivity|]. intros s. unfold group_desc_wire. rewrite group_desc_padded_fields. reflexivity.
Qed.

Lemma rp_padded_ok r : rp_rebuildable r -> rp_ok r -> rp_ok (rp_padded r).
Proof.
  intros Hr H. split; [rewrite rp_padded_fields by assumption; apply H|]. destruct H as [_ Hx]. destruct r; try exact Hx; cbn [rp_padded].
  - destruct Hx as (La & Lb & Lc & Ld & Le).
    assert (L : forall n b, (length b <= n)%nat -> (length (padded n b) <= n)%nat) by (intros; unfold padded; rewrite app_length, zeros_length; lia).
    repeat split; apply L; assumption.
  - rewrite Forall_map. cbn [rp_rebuildable] in Hr. rewrite Forall_forall in *. intros s Hs. apply flow_stat_padded_ok; auto.
  - rewrite Forall_map. revert Hx. apply Forall_impl. exact group_desc_padded_ok.
Qed.

Lemma rp_padded_type r : rp_type (rp_padded r) = rp_type r.
Proof. destruct r; reflexivity. Qed.

Lemma msg_padded_type m : mtype (msg_padded m) = mtype m.
Proof. destruct m; reflexivity. Qed.

Lemma msg_padded_body m : msg_rebuildable m -> msg_ok m -> body (msg_padded m) = body m.
Proof.
  intros Hr H. unfold body. destruct m; destruct H as (_ & _ & Hx); cbn [msg_padded body_fields]; try reflexivity.
  - rewrite acts_padded_wire. reflexivity.
  - rewrite insts_padded_wire. reflexivity.
  - rewrite buckets_padded_wire. reflexivity.
  - cbn [msg_rebuildable] in Hr. rewrite rp_padded_type, rp_padded_fields by assumption. reflexivity.
Qed.

Lemma msg_padded_wire xid m : msg_rebuildable m -> msg_ok m -> mwire xid (msg_padded m) = mwire xid m.
Proof. intros Hr H. unfold mwire. rewrite msg_padded_type, msg_padded_body by assumption. reflexivity. Qed.

Lemma msg_padded_ok m : msg_rebuildable m -> msg_ok m -> msg_ok (msg_padded m).
Proof.
  intros Hr H. pose proof (msg_padded_body m Hr H) as Hb. destruct m; try exact H; destruct H as (H1 & H2 & H3);
    cbn [msg_padded msg_ok] in *; rewrite Hb.
  - split; [cbn [body_fields] in *; rewrite acts_padded_wire; exact H1|]. split; [exact H2 | apply acts_padded_ok; exact H3].
  - split; [cbn [body_fields] in *; rewrite insts_padded_wire; exact H1|]. split; [exact H2|]. destruct H3. split; [assumption | apply insts_padded_ok; assumption].
  - split; [cbn [body_fields] in *; rewrite buckets_padded_wire; exact H1|]. split; [exact H2 | apply buckets_padded_ok; exact H3].
  - split; [cbn [body_fields] in *; rewrite rp_padded_type, rp_padded_fields by assumption; exact H1|]. split; [exact H2 | apply rp_padded_ok; assumption].
  - split; [repeat constructor|]. split; [exact H2|].
    unfold plain_type, u8. cbn [In] in *. lia.
Qed.

(** *** The parsed object as an argument *)

Lemma group_stat_view_arg s : group_stat_arg (group_stat_view s) s.
Proof. destruct s. constructor. apply list_list_id. intros x. constructor. Qed.
Lemma hello_parsed_arg l : hello_arg (hello_parsed l) l.
Proof. constructor; [right; reflexivity|]. right. left. exists "tuple"%string. reflexivity. Qed.

Lemma rp_parsed_arg r : rp_parsable r -> rp_rebuildable r -> rp_arg (rp_parsed r) (rp_padded r).
Proof.
  intros Hp Hr. destruct r; cbn [rp_parsed rp_padded]; cbn [rp_parsable rp_rebuildable] in Hp, Hr; try destruct Hr; try subst l; constructor.
  1-5: left; reflexivity.
  1-2: apply items_list; exact flow_stat_parsed_arg.
  - right. exists []. split; [left; reflexivity | constructor].
  - right. exists []. split; [left; reflexivity | constructor].
  - right. exists []. split; [left; reflexivity | constructor].
  - apply items_list_id. exact group_stat_view_arg.
  - apply items_list. exact group_desc_parsed_arg.
  - right. left. eexists. reflexivity.
  - right. left. eexists. reflexivity.
  - apply items_list_id. exact meter_stat_view_arg.
  - apply items_list_id. exact meter_conf_view_arg.
Qed.

Lemma rq_view_arg r : rq_rebuildable r -> rq_arg (rq_view r) r.
Proof.
  intros Hr. destruct r; cbn [rq_view]; try destruct Hr; try (constructor; right; reflexivity).
  - exact (RQ_bytes (RqPlain ty)).
  - apply RQ_flow; try (right; reflexivity). left. apply match_view_arg.
  - assert (E : body = enc (rq_fields (RqExperimenter body))) by (cbn [rq_fields]; rewrite enc_R; reflexivity).
    rewrite E at 1. constructor.
Qed.

Lemma hdr_view_arg dx single m xid : hdr_arg dx single (mtype m) xid (hdr_view (mtype m) xid (body m)).
Proof. destruct single; (apply HA_tup; [right; reflexivity | left; reflexivity | right; reflexivity]). Qed.

Lemma msg_parsed_args xid m : msg_parsable m -> msg_rebuildable m ->
  match m with MMeterMod _ _ _ _ | MBundleAdd _ _ _ _ => False | _ => True end ->
  exists cls args, msg_parsed xid m = VTup cls (hdr_view (mtype m) xid (body m) :: args) /\ msg_args cls args (msg_padded m).
Proof.
  intros Hp Hr Hm. destruct m; cbn [msg_rebuildable msg_parsable] in Hr, Hp; try contradiction;
    cbn [msg_parsed msg_padded]; do 2 eexists; (split; [reflexivity|]).
  - constructor. apply list_list_id. exact hello_parsed_arg.
  - constructor. left. reflexivity.
  - apply XA_plain2.
  - apply XA_features.
  - constructor. right. reflexivity.
  - apply XA_packet_in. apply match_view_arg.
  - apply XA_flow_removed. apply match_view_arg.
  - constructor; [right; reflexivity | apply acts_parsed_arg | left; reflexivity].
  - apply XA_flow_mod; try (right; reflexivity); [apply match_view_arg | apply insts_parsed_arg].
  - constructor. apply buckets_parsed_arg.
  - constructor. apply rq_view_arg. exact Hr.
  - rewrite <- rp_padded_type. constructor. apply rp_parsed_arg; assumption.
  - apply XA_plain2.
  - constructor. apply list_list_id. intros [a b]. constructor.
  - constructor. left. reflexivity.
  - constructor. right. left. reflexivity.
Qed.

Lemma msingle_padded m : msingle (msg_padded m) = msingle m.
Proof. destruct m; reflexivity. Qed.
Lemma mdepth_padded m : mdepth (msg_padded m) = mdepth m.
Proof. destruct m; reflexivity. Qed.

Theorem msg_rebuild m : forall xid, msg_parsable m -> msg_rebuildable m -> objectable (msg_parsed xid m) xid m.
Proof.
  assert (Hgen : forall xid m, msg_parsable m -> msg_rebuildable m ->
    match m with MMeterMod _ _ _ _ | MBundleAdd _ _ _ _ => False | _ => True end -> objectable (msg_parsed xid m) xid m).
  { clear m. intros xid m Hp Hr Hm dx d Hok Hx Hd. destruct d as [|d]; [lia|].
    destruct (msg_parsed_args xid m Hp Hr Hm) as (cls & args & E & Ha). rewrite E.
    change (call (obj dx d) dx cls (hdr_view (mtype m) xid (body m) :: args) = Ok (mwire xid m)).
    rewrite <- (msg_padded_wire xid m Hr Hok). apply msg_build; [exact Ha | apply msg_padded_ok; assumption | | exact Hx | rewrite mdepth_padded; lia].
    rewrite msingle_padded, msg_padded_type. apply hdr_view_arg. }
  induction m; intros xid' Hp Hr; try (apply Hgen; try assumption; exact I).
  - intros dx d Hok Hx Hd. destruct d as [|d]; [lia|]. pose proof (msg_ok_parts _ Hok) as [Hf Hlen]. destruct Hok as (_ & _ & Hext).
    change (call (obj dx d) dx "ofp_meter_mod" (hdr_view 29 xid' (body (MMeterMod command flags meter bs)) ::
      [VInt command; VInt flags; VInt meter; VList (map band_view bs)]) = Ok (mwire xid' (MMeterMod command flags meter bs))).
    unfold hdr_view.
    assert (Hl : u16 (8 + zlen (body (MMeterMod command flags meter bs)))) by (unfold u16, zlen in *; lia).
    rewrite (meter_mod_built dx d (VInt 5) 29 (VInt (8 + zlen (body (MMeterMod command flags meter bs)))) (8 + zlen (body (MMeterMod command flags meter bs)))
      (VInt xid') xid' command flags meter (VList (map band_view bs)) bs).
    + reflexivity.
    + right. reflexivity.
    + right. reflexivity.
    + right. reflexivity.
    + change [U 1 29; U 2 (8 + zlen (body (MMeterMod command flags meter bs))); U 4 xid'; U 2 command; U 2 flags; U 4 meter] with
        ([U 1 29; U 2 (8 + zlen (body (MMeterMod command flags meter bs))); U 4 xid'] ++ [U 2 command; U 2 flags; U 4 meter]).
      apply fits_app. split.
      * unfold u16, u32 in *. repeat constructor; cbn [in_range]; change (256 ^ Z.of_nat 1) with 256; change (256 ^ Z.of_nat 2) with 65536; change (256 ^ Z.of_nat 4) with 4294967296; lia.
      * cbn [body_fields] in Hf. apply (fits_app [U 2 command; U 2 flags; U 4 meter] [R (bands_wire bs)]) in Hf. apply Hf.
    + apply bands_view_arg.
    + exact Hext.
    + lia.
  - intros dx d Hok Hx Hd. destruct d as [|d]; [lia|].
    change (call (obj dx d) dx "ofp_bundle_add_msg" (hdr_view 34 xid' (body (MBundleAdd bundle flags xid m)) ::
      [VInt bundle; VInt flags; msg_parsed xid m; VList []]) = Ok (mwire xid' (MBundleAdd bundle flags xid m))).
    apply build_bundle_add; [right; left; reflexivity | apply IHm; assumption | exact Hok | apply hdr_view_arg | exact Hx | cbn [mdepth] in *; lia].
Qed.

(** *** What does not come back *)

Lemma flow_stat_zeroed_ok s : flow_stat_ok s -> flow_stat_ok (flow_stat_padded s).
Proof.
  intros [Hf Hx]. destruct s. destruct Hx as [H1 H2]. split; [|split; [exact H1 | apply insts_padded_ok; exact H2]].
  cbn [flow_stat_padded flow_stat_fields] in *. rewrite insts_padded_wire.
  unfold fits in Hf. repeat match goal with H : Forall _ (_ :: _) |- _ => apply Forall_cons_iff in H; destruct H end.
  repeat apply Forall_cons; try assumption; try apply Forall_nil; try exact I. cbn [in_range]. change (256 ^ Z.of_nat 2) with 65536. lia.
Qed.

Lemma flow_stat_zeroed_len s : length (flow_stat_wire (flow_stat_padded s)) = length (flow_stat_wire s).
Proof.
  unfold flow_stat_wire. rewrite !enc_length. destruct s. cbn [flow_stat_padded flow_stat_fields flen fld_len].
  rewrite insts_padded_wire. reflexivity.
Qed.

Lemma be_inj w x y : 0 <= x < 256 ^ Z.of_nat w -> 0 <= y < 256 ^ Z.of_nat w -> be w x = be w y -> x = y.
Proof. intros Hx Hy E. apply (f_equal of_be) in E. rewrite !of_be_be_mod, !Z.mod_small in E by assumption. exact E. Qed.

Lemma app_inj_len {A} (a b c d : list A) : length a = length c -> a ++ b = c ++ d -> a = c /\ b = d.
Proof.
  intros L E. split.
  - apply (f_equal (firstn (length a))) in E. rewrite !firstn_app_l in E by congruence. exact E.
  - apply (f_equal (skipn (length a))) in E. rewrite !skipn_app_l in E by congruence. exact E.
Qed.

Lemma flow_stat_zeroed_inj s : flow_stat_ok s -> flow_stat_wire (flow_stat_padded s) = flow_stat_wire s -> flow_stat_rebuildable s.
Proof.
  intros [Hf _] E. destruct s. cbn [flow_stat_rebuildable]. unfold flow_stat_wire in E. cbn [flow_stat_padded flow_stat_fields] in E, Hf.
  rewrite insts_padded_wire in E.
  do 9 (apply Forall_cons_iff in Hf; destruct Hf as [_ Hf]). apply Forall_cons_iff in Hf. destruct Hf as [Hw _].
  rewrite !enc_cons in E.
  do 9 (apply app_inj_len in E; [destruct E as [_ E] | reflexivity]).
  apply app_inj_len in E; [|reflexivity]. destruct E as [E _]. symmetry. apply (be_inj 2); [lia | exact Hw | exact E].
Qed.

Lemma concat_inj {A} (f g : A -> bytes) l : (forall x, length (f x) = length (g x)) -> concat (map f l) = concat (map g l) -> Forall (fun x => f x = g x) l.
Proof.
  intros L. induction l as [|x l IH]; cbn [map concat]; intros E; [constructor|].
  apply app_inj_len in E; [|apply L]. destruct E. constructor; auto.
Qed.

Lemma msg_inj ty xid a b : msg 5 ty xid a = msg 5 ty xid b -> length a = length b -> a = b.
Proof.
  intros E L. unfold msg in E. replace (zlen b) with (zlen a) in E by (unfold zlen; rewrite L; reflexivity).
  repeat match type of E with _ :: _ = _ :: _ => injection E as E | _ ++ _ = _ ++ _ => apply app_inv_head in E end. exact E.
Qed.

Lemma no_class dx d c l b : lookup c (builders (obj dx (pred d)) dx) = None -> obj dx d (VTup c l) <> Ok b.
Proof. intros H E. destruct d as [|d]; [discriminate|]. cbn [obj pred] in *. unfold call in E. rewrite H in E. destruct (String.eqb c "tuple"); discriminate. Qed.

Lemma message_last dx d h ty data b : message (obj dx d) dx h ty data = Ok b ->
  exists a dt, data = Ok dt /\ b = a ++ dt /\ length a = 8%nat.
Proof.
  unfold message. intros E. apply bind_ok in E. destruct E as (dt & Ed & E).
  destruct (ofp_built _ _ _ _ _ _ E) as (t & z & v & x & dt' & _ & _ & _ & Eo & _ & ->).
  assert (dt' = dt) by (destruct d; injection Eo; auto). subst dt'.
  exists ([5; t] ++ be 2 (8 + zlen dt) ++ be 4 z), dt. split; [exact Ed|]. rewrite <- !app_assoc. split; [reflexivity|].
  rewrite !app_length, !be_length. reflexivity.
Qed.

Lemma mwire_split xid m : exists a, mwire xid m = a ++ body m /\ length a = 8%nat.
Proof.
  exists ([5; mtype m] ++ be 2 (8 + zlen (body m)) ++ be 4 xid). split; [unfold mwire, msg; rewrite <- !app_assoc; reflexivity|].
  rewrite !app_length, !be_length. reflexivity.
Qed.

(** The body of a message that is built. *)
Lemma built_body dx d h ty data xid m : message (obj dx d) dx h ty data = Ok (mwire xid m) -> data = Ok (body m).
Proof.
  intros E. apply message_last in E. destruct E as (a & dt & -> & E & La). destruct (mwire_split xid m) as (a' & E' & La').
  rewrite E' in E. apply app_inj_len in E; [|congruence]. destruct E as [_ <-]. reflexivity.
Qed.

Theorem msg_rebuilt_only m : forall xid dx d, msg_ok m -> msg_parsable m -> u32 xid -> (3 + mdepth m <= d)%nat ->
  obj dx d (msg_parsed xid m) = Ok (mwire xid m) -> msg_rebuildable m.
Proof.
  induction m; intros xid' dx d' Hok Hp Hx Hd E; cbn [msg_rebuildable]; try exact I.
  - (* table_mod *) destruct d' as [|d]; [discriminate|].
    match type of E with obj _ _ (msg_parsed _ (MTableMod ?t ?c ?ps)) = _ =>
      change (ofp_table_mod (obj dx d) dx (hdr_view 17 xid' (body (MTableMod t c ps))) (VInt t) (VInt c) (VList (map tprop_view ps)) =
      Ok (mwire xid' (MTableMod t c ps))) in E end.
    apply message_last in E. destruct E as (a & dt & E & _). apply bind_ok in E. destruct E as (p & _ & E). discriminate.
  - (* requests *) destruct d' as [|d]; [discriminate|].
    change (call (obj dx d) dx "ofp_multipart_request" [hdr_view 18 xid' (body (MRequest flags r)); VInt (rq_type r); VInt flags; rq_view r] = Ok (mwire xid' (MRequest flags r))) in E.
    destruct r; try exact I; cbn [rq_rebuildable rq_type rq_view] in *.
    + exact (aggregate_not_built _ _ _ _ _ _ _ _ _ _ _ E).
    + apply request_bytes_only in E; [|cbn; auto]. destruct E. discriminate.
    + apply request_bytes_only in E; [|cbn; auto]. destruct E. discriminate.
  - (* replies *) destruct d' as [|d]; [discriminate|].
    change (call (obj dx d) dx "ofp_multipart_reply" [hdr_view 19 xid' (body (MReply flags r)); VInt (rp_type r); VInt flags; rp_parsed r] = Ok (mwire xid' (MReply flags r))) in E.
    destruct r; try exact I; cbn [rp_rebuildable rp_type rp_parsed] in *; try discriminate.
    + pose proof (msg_ok_parts _ Hok) as [Hf Hlen]. destruct Hok as (_ & _ & _ & Hs). 
      assert (L : length (body (MReply flags (RpFlow (map flow_stat_padded l)))) = length (body (MReply flags (RpFlow l)))).
      { unfold body. rewrite !enc_length. cbn [body_fields flen fld_len rp_fields]. rewrite !enc_R.
        assert (H : length (concat (map flow_stat_wire (map flow_stat_padded l))) = length (concat (map flow_stat_wire l))).
        { rewrite map_map. clear. induction l; [reflexivity|]. cbn [map concat]. rewrite !app_length, flow_stat_zeroed_len, IHl. reflexivity. }
        rewrite H. reflexivity. }
      assert (B : call (obj dx d) dx "ofp_multipart_reply" (hdr_view 19 xid' (body (MReply flags (RpFlow l))) :: [VInt 1; VInt flags; VList (map flow_stat_parsed l)]) =
        Ok (mwire xid' (MReply flags (RpFlow (map flow_stat_padded l))))).
      { apply msg_build.
        - apply (XA_reply flags _ (RpFlow (map flow_stat_padded l))). constructor. apply items_list. exact flow_stat_parsed_arg.
        - split.
          + cbn [body_fields] in *. unfold fits in *.
            repeat match goal with H : Forall _ (_ :: _) |- _ => apply Forall_cons_iff in H; destruct H end.
            repeat apply Forall_cons; try assumption; try apply Forall_nil; exact I.
          + split; [unfold zlen in *; rewrite L; exact Hlen|]. split; [repeat constructor|].
            rewrite Forall_map. revert Hs. apply Forall_impl. exact flow_stat_zeroed_ok.
        - apply HA_tup; [right; reflexivity | left; reflexivity | right; reflexivity].
        - exact Hx.
        - cbn [mdepth] in *. lia. }
      assert (E' : mwire xid' (MReply flags (RpFlow (map flow_stat_padded l))) = mwire xid' (MReply flags (RpFlow l))) by congruence.
      clear E. rename E' into E. unfold mwire in E. apply msg_inj in E; [|exact L].
      unfold body in E. cbn [body_fields rp_type rp_fields] in E. rewrite !enc_cons in E.
      do 3 (apply app_inv_head in E). apply app_inv_tail in E. cbn [enc1] in E. apply app_inv_tail in E. rewrite map_map in E.
      apply concat_inj in E; [|exact flow_stat_zeroed_len].
      rewrite Forall_forall in *. intros s Hin. apply flow_stat_zeroed_inj; auto.
  - (* bundle_add *) destruct d' as [|d]; [discriminate|].
    change (ofp_bundle_add_msg (obj dx d) dx (hdr_view 34 xid' (body (MBundleAdd bundle flags xid m))) (VInt bundle) (VInt flags) (msg_parsed xid m) (VList []) =
      Ok (mwire xid' (MBundleAdd bundle flags xid m))) in E.
    unfold ofp_bundle_add_msg in E. cbn [seqarg] in E. apply bind_ok in E. destruct E as (p0 & E0 & E).
    apply built_body in E. apply bind_ok in E. destruct E as (p & Ep & E). apply bind_ok in E. destruct E as (w & Ew & E).
    destruct Hok as (_ & _ & Hu & Hk). apply (IHm xid dx d Hk Hp Hu); [cbn [mdepth] in Hd; lia|].
    rewrite Ew. f_equal. injection E0 as <-. rewrite app_nil_r in E. injection E as E. unfold body in E. cbn [body_fields] in E.
    apply (packs_inv "I2xH" [FU 4; FX 2; FU 2] _ _ eq_refl) in Ep. apply pack_length in Ep.
    change [U 4 bundle; P 2; U 2 flags; R (msg 5 (mtype m) xid (enc (body_fields m)))] with
      ([U 4 bundle; P 2; U 2 flags] ++ [R (msg 5 (mtype m) xid (enc (body_fields m)))]) in E.
    rewrite enc_app, enc_R in E. apply app_inj_len in E; [|rewrite enc_length; exact Ep]. apply E.
  - (* forward *) refine (no_class dx d' "ofp_requestforward_" _ _ _ E). reflexivity.
Qed.
