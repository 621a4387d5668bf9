(** Proofs about the example programs, continued: messages and commands. *)

From Coq Require Import Lia.
From Verif Require Import Py Struct P_Struct M_Example S_Hello S_Oxm S_Wire4 S_Msg4 S_Bess S_Hub
  P_Oxm P_Wire4 P_Msg4 P_MsgParse4 P_Bess P_Bess2 P_Hub.
Local Open Scope Z_scope.
Local Open Scope list_scope.

(** *** The switch *)

Lemma ex_send_msg cls xid args m o : msg_args cls args m -> msg_ok m -> u32 xid ->
  ex_send cls (mtype m) (VInt xid) (Ok args) o = match o with None => ([mwire xid m], Ok tt) | Some e => ([], Err e) end.
Proof.
  intros Ha Hok Hx. unfold ex_send. rewrite hdr_eq by (try assumption; apply mtype_u8; exact Hok). cbn [bind].
  unfold bld. rewrite (msg_build 0 8 cls args m xid _ Ha Hok (hdr_bytes m xid) Hx ltac:(lia)). reflexivity.
Qed.

Lemma ex_flow_eq : ex_flow = Ok (flow_stat_wire (FlowStat 0 10 20 30 40 50 0 1 2 3 (Match 1 ex_match) [InActions 4 [AcOutput 1111 65509]])).
Proof. vm_compute. reflexivity. Qed.

Lemma ex_features_sent xid o : u32 xid ->
  ex_send "ofp_switch_features" 6 (VInt xid) (Ok [VInt 1; VInt 2; VInt 3; VInt 0; VInt 15]) o
  = match o with None => ([mwire xid ex_features], Ok tt) | Some e => ([], Err e) end.
Proof.
  intros Hx. apply (ex_send_msg "ofp_switch_features" xid (all_z [1; 2; 3; 0; 15]) ex_features o); [constructor| |exact Hx].
  split; [|split]; [|vm_compute; discriminate|exact I]. cbn [body_fields ex_features]. unfold fits.
  repeat (apply Forall_cons; [cbn; try lia; exact I|]). apply Forall_nil.
Qed.
Lemma ex_config_sent xid o : u32 xid ->
  ex_send "ofp_switch_config" 8 (VInt xid) (Ok [VInt 0; VInt 65509]) o
  = match o with None => ([mwire xid ex_config], Ok tt) | Some e => ([], Err e) end.
Proof.
  intros Hx. apply (ex_send_msg "ofp_switch_config" xid [VInt 0; VInt 65509] ex_config o); [| |exact Hx].
  - constructor. right. reflexivity.
  - split; [|split]; [|vm_compute; discriminate|cbn; auto]. cbn [body_fields ex_config]. unfold fits.
    repeat (apply Forall_cons; [cbn; try lia; exact I|]). apply Forall_nil.
Qed.
Lemma ex_flows_ok : msg_ok ex_flows.
Proof.
  split; [|split]; [|vm_compute; discriminate|].
  - cbn [body_fields ex_flows rp_type]. unfold fits. repeat (apply Forall_cons; [cbn; try lia; exact I|]). apply Forall_nil.
  - cbn [rp_ok ex_flows]. split; [repeat constructor|]. constructor; [|constructor].
    split; [|split].
    + unfold fits. cbn [flow_stat_fields flow_stat_fixed Datatypes.app].
      repeat (apply Forall_cons; [first [exact I|vm_compute; split; [discriminate|reflexivity]]|]). apply Forall_nil.
    + unfold fits. cbn [match_fields]. repeat (apply Forall_cons; [first [exact I|vm_compute; split; [discriminate|reflexivity]]|]). apply Forall_nil.
    + constructor; [|constructor]. split; [|split].
      * unfold fits. cbn [inst_fields]. repeat (apply Forall_cons; [first [exact I|vm_compute; split; [discriminate|reflexivity]]|]). apply Forall_nil.
      * cbn. auto.
      * constructor; [|constructor]. split; [|exact I]. unfold fits. cbn [act_fields].
        repeat (apply Forall_cons; [first [exact I|vm_compute; split; [discriminate|reflexivity]]|]). apply Forall_nil.
Qed.
Lemma ex_flows_sent xid o : u32 xid ->
  ex_send "ofp_multipart_reply" 19 (VInt xid) (f <- ex_flow ;; Ok [VInt 1; VInt 0; VList [VBytes f]]) o
  = match o with None => ([mwire xid ex_flows], Ok tt) | Some e => ([], Err e) end.
Proof.
  intros Hx. rewrite ex_flow_eq. cbn [bind].
  apply (ex_send_msg "ofp_multipart_reply" xid _ ex_flows o); [|exact ex_flows_ok|exact Hx].
  unfold ex_flows. apply (XA_reply 0 _ (RpFlow _)). constructor. apply (items_bytes flow_stat_arg flow_stat_wire [_]). intros x. constructor.
Qed.
Lemma ex_proc_answer xid m o : good (xid, m) ->
  ex_proc (mwire xid m) o =
  match ex_answer m with
  | Some r => match o with None => ([mwire xid r], Ok tt) | Some e => ([], Err e) end
  | None => ([], Ok tt)
  end.
Proof.
  intros Hg. destruct (parse_good xid m Hg) as (off & E). unfold ex_proc. rewrite E.
  destruct Hg as (Hx & (_ & _ & Hk) & _). cbn [fst snd] in *.
  destruct m; cbn [msg_parsed hdr_view mtype ex_answer all_z map Datatypes.app]; try reflexivity.
  - destruct (Z.eqb_spec ty 5) as [->|N5]; [apply ex_features_sent; exact Hx|].
    destruct (Z.eqb_spec ty 7) as [->|N7]; [apply ex_config_sent; exact Hx|].
    destruct (Z.eqb_spec ty 18) as [->|N18]; [|reflexivity]. exfalso. unfold plain_type in Hk. cbn in Hk. lia.
  - destruct Hk as [<-|[<-|[]]]; reflexivity.
  - destruct Hk as [_ Hk]. destruct r; cbn [rq_type]; try reflexivity.
    + repeat (destruct Hk as [<-|Hk]; [reflexivity|]). destruct Hk.
    + apply ex_flows_sent. exact Hx.
    + repeat (destruct Hk as [<-|Hk]; [reflexivity|]). destruct Hk.
  - destruct Hk as [<-|[<-|[]]]; reflexivity.
  - destruct Hk as [<-|[<-|[]]]; reflexivity.
Qed.

(** *** The hub's commands *)

Lemma in_ports_eq pre : forall post x, Forall (fun f => mf_field f <> 0) pre ->
  exists r, in_ports (map view (pre ++ MF 0 (VInt x) None :: post)) = Ok (view (MF 0 (VInt x) None) :: r).
Proof.
  assert (K : forall l, exists r, in_ports (map view l) = Ok r).
  { induction l as [|f l [r IH]]; [exists []; reflexivity|]. cbn [map in_ports view field_of bind]. rewrite IH. cbn [bind].
    eexists. reflexivity. }
  induction pre as [|f pre IH]; intros post x H; cbn [Datatypes.app map in_ports view field_of bind mf_field].
  - destruct (K post) as [r ->]. cbn [bind Z.eqb]. eexists. reflexivity.
  - inversion H as [|? ? N H']; subst. destruct (IH post x H') as [r E]. rewrite E. cbn [bind].
    destruct (Z.eqb_spec (mf_field f) 0); [contradiction|]. eauto.
Qed.
Lemma hub_in_port_eq pre post p : Forall mf_ok pre -> Forall mf_ok post -> Forall (fun f => mf_field f <> 0) pre ->
  0 <= p < 4294967296 -> hub_in_port (concat (map tlv (pre ++ MF 0 (VInt p) None :: post))) = Ok (VInt p).
Proof.
  intros H1 H2 H3 Hp. unfold hub_in_port, parse_list.
  assert (Hok : Forall mf_ok (pre ++ MF 0 (VInt p) None :: post)).
  { apply Forall_app. split; [exact H1|]. constructor; [|exact H2]. split; [cbn; lia|]. split; [|exact Logic.I]. exact Hp. }
  pose proof (parse_list_tlvs _ (S (length (concat (map tlv (pre ++ MF 0 (VInt p) None :: post))))) [] Hok (Nat.lt_succ_diag_r _)) as P.
  cbn [length Datatypes.app] in P. rewrite P. cbn [bind].
  destruct (in_ports_eq pre post p H3) as [r ->]. reflexivity.
Qed.
Lemma src_mac_eq x payload : mac (fr_src x) -> mac (fr_dst x) -> src_mac (fr_dst x ++ fr_src x ++ payload) = mac_text (fr_src x).
Proof.
  intros [Ls _] [Ld _]. unfold src_mac, mac_text. rewrite skipn_app, <- Ld, skipn_all, Nat.sub_diag. cbn [Datatypes.app skipn].
  rewrite Ld, firstn_app, <- Ls, firstn_all, Nat.sub_diag. cbn [firstn]. rewrite app_nil_r. reflexivity.
Qed.
Definition learn (a : bytes) (p : Z) : list hcmd := [HOfctl "add-flow" [rule0 a p]; HOfctl "add-flow" [rule1 a p]].
Lemma hub_learns xid b t r i c ty pre post payload x dx :
  good (xid, MPacketIn b t r i c (Match ty (concat (map tlv (pre ++ MF 0 (VInt (fr_port x)) None :: post)))) (fr_dst x ++ fr_src x ++ payload)) ->
  Forall mf_ok pre -> Forall mf_ok post -> Forall (fun f => mf_field f <> 0) pre -> frame_ok x -> 0 <= dx < 4294967296 ->
  hub_async true dx (mwire xid (MPacketIn b t r i c (Match ty (concat (map tlv (pre ++ MF 0 (VInt (fr_port x)) None :: post)))) (fr_dst x ++ fr_src x ++ payload)))
  = (learn (fr_src x) (fr_port x) ++ [HSend (mwire dx (MPacketOut b (fr_port x) [] [])); HOfctl "dump-flows" []], Ok tt).
Proof.
  intros Hg H1 H2 H3 (Hs & Hd & Hp) Hx. destruct (parse_good _ _ Hg) as (off & E). unfold hub_async. cbn [negb]. rewrite E.
  destruct Hg as (_ & (Hf & _) & _). cbn [fst snd] in Hf.
  cbn [msg_parsed hdr_view mtype Z.eqb Pos.eqb all_z map Datatypes.app match_view].
  rewrite hub_in_port_eq by assumption. cbv beta iota zeta. rewrite src_mac_eq by assumption.
  rewrite (msg_build dx 8 "ofp_packet_out" [VInt b; VInt (fr_port x); VNone; VList []; VNone] (MPacketOut b (fr_port x) [] []) dx VNone).
  - reflexivity.
  - apply (XA_packet_out (VInt b) b (fr_port x) VNone (VList []) [] VNone []); [right; reflexivity|constructor; constructor|].
    right. split; reflexivity.
  - split; [|split]; [|vm_compute; discriminate|constructor]. cbn [body_fields] in Hf |- *. unfold fits in *.
    inversion Hf as [|? ? Hb _]; subst. cbn [in_range] in Hb.
    repeat (apply Forall_cons; [first [exact Logic.I|exact Hb|exact Hp|vm_compute; split; [discriminate|reflexivity]]|]). apply Forall_nil.
  - constructor; reflexivity.
  - exact Hx.
  - lia.
Qed.
Lemma hub_carried m x dx : carries m x -> frame_ok x -> 0 <= dx < 4294967296 ->
  exists b, hub_async true dx m = (learn (fr_src x) (fr_port x) ++ [HSend (mwire dx (MPacketOut b (fr_port x) [] [])); HOfctl "dump-flows" []], Ok tt).
Proof.
  intros (xid & b & t & r & i & c & ty & pre & post & payload & -> & Hg & H1 & H2 & H3) Hf Hx. exists b. apply hub_learns; assumption.
Qed.
Lemma learned w x m dx cs w' : carries m x -> frame_ok x -> 0 <= dx < 4294967296 -> hub_async true dx m = (cs, Ok tt) ->
  do_cmds w cs = Some w' -> w' = add_flow (add_flow w (L0 (fr_src x) (fr_port x))) (L1 (fr_src x) (fr_port x)).
Proof.
  intros Hc Hf Hx E D. destruct (hub_carried m x dx Hc Hf Hx) as [b E']. rewrite E' in E. injection E as <-.
  destruct Hf as (Hs & _ & Hp). revert D. unfold learn. cbn [Datatypes.app do_cmds do_cmd]. 
  change (("add-flow" =? "add-flow")%string) with true. change (("dump-flows" =? "dump-flows")%string) with true. cbv iota.
  rewrite read_rule0, read_rule1 by (assumption || lia). cbn [option_map]. intros [= <-]. reflexivity.
Qed.

Definition base_cmds (ports : list Z) : list hcmd :=
  [ HOfctl "add-group" [ascii_bytes "group_id=1,type=all," ++ joins (ascii_bytes ",") (map bucket_text ports)];
    HOfctl "add-flow" [ascii_bytes "table=0,priority=1,  actions=controller,goto_table:1"];
    HOfctl "add-flow" [ascii_bytes "table=1,priority=3,  dl_dst=01:00:00:00:00:00/01:00:00:00:00:00,  actions=group:1"];
    HOfctl "add-flow" [ascii_bytes "table=1,priority=1,  actions=group:1"] ].
Lemma hub_hello init xid es ports : good (xid, MHello es) ->
  hub_handle init (mwire xid (MHello es)) ports = (base_cmds ports, true, Ok tt).
Proof. intros Hg. destruct (parse_good _ _ Hg) as (off & E). unfold hub_handle. rewrite E. reflexivity. Qed.
Lemma hub_other init xid m ports : good (xid, m) -> mtype m <> 0 -> hub_handle init (mwire xid m) ports = ([], init, Ok tt).
Proof.
  intros Hg N. destruct (parse_good _ _ Hg) as (off & E). unfold hub_handle. rewrite E.
  destruct (msg_parsed_head xid m) as (cls & fs & ->). destruct (Z.eqb_spec (mtype m) 0); [contradiction|reflexivity].
Qed.
Lemma hub_async_other init dx xid m : good (xid, m) -> mtype m <> 10 \/ init = false -> hub_async init dx (mwire xid m) = ([], Ok tt).
Proof.
  intros Hg N. unfold hub_async. destruct init; [|reflexivity]. destruct N as [N|]; [|discriminate]. cbn [negb].
  destruct (parse_good _ _ Hg) as (off & E). rewrite E.
  destruct (msg_parsed_head xid m) as (cls & fs & ->). destruct (Z.eqb_spec (mtype m) 10); [contradiction|reflexivity].
Qed.
Lemma base_done ports w : Forall (fun p => 0 <= p) ports -> do_cmds (mkSw [] []) (base_cmds ports) = Some w ->
  w = mkSw [B0; B1; B2] [(1, ports)].
Proof.
  intros H. unfold base_cmds. cbn [do_cmds do_cmd].
  change (("add-flow" =? "add-flow")%string) with true. change (("add-group" =? "add-flow")%string) with false. change (("add-group" =? "add-group")%string) with true. cbv iota.
  rewrite read_group_eq by exact H. destruct read_base as (-> & -> & ->). cbn [option_map]. intros [= <-]. vm_compute. reflexivity.
Qed.
