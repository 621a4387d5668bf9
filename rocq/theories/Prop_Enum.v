(** C66-C68: the constants of the OpenFlow modules. *)

From Coq Require Import Permutation.
From Verif Require Import M_Enum M_EnumData4 M_EnumData5 S_Enum P_Enum.
Local Open Scope Z_scope.
Local Open Scope string_scope.
Local Open Scope list_scope.

(** *** C66: the constants have the numbers of the specification. *)

(** Names of the 1.3 specification the module lacks or gives another number:
    (name, number specified, what the module has). *)
Definition deviating13 : list (string * Z * option Z) :=
  [("OFPPF_PAUSE_ASYM", 32768, None); ("OFPFF_NO_BYT_COUNTS", 16, None);
   ("OFPTFPT_WILDCARDS", 10, Some 9); ("OFPTFPT_WRITE_SETFIELD", 12, Some 10); ("OFPTFPT_WRITE_SETFIELD_MISS", 13, Some 11);
   ("OFPTFPT_APPLY_SETFIELD", 14, Some 12); ("OFPTFPT_APPLY_SETFIELD_MISS", 15, Some 13);
   ("OFPET_QUEUE_OP_FAILED", 9, None); ("OFPET_SWITCH_CONFIG_FAILED", 10, None);
   ("OFPET_ROLE_REQUEST_FAILED", 11, Some 10); ("OFPET_METER_MOD_FAILED", 12, Some 11); ("OFPET_TABLE_FEATURES_FAILED", 13, Some 12);
   ("OFPPMFC_BAD_PORT", 0, None); ("OFPPMFC_BAD_HW_ADDR", 1, None); ("OFPPMFC_BAD_CONFIG", 2, None);
   ("OFPPMFC_BAD_ADVERTISE", 3, None); ("OFPPMFC_EPERM", 4, None)].

Definition deviating14 : list (string * Z * option Z) :=
  deviating13 ++
  [("OFPTFPT_TABLE_SYNC_FROM", 16, Some 14);
   ("OFPOSF_RX_PWR", 16, Some 8); ("OFPOSF_TX_BIAS", 32, Some 16); ("OFPOSF_TX_TEMP", 64, Some 32);
   ("OFPBCT_COMMIT_REQUEST", 4, None); ("OFPBCT_COMMIT_REPLY", 5, None);
   ("OFPBCT_DISCARD_REQUEST", 6, Some 4); ("OFPBCT_DISCARD_REPLY", 7, Some 5);
   ("OFPACPT_EXPERIMENTER_SLAVE", 65534, Some 12); ("OFPACPT_EXPERIMENTER_MASTER", 65535, Some 13);
   ("OFPR_TABLE_MISS", 0, None); ("OFPET_BAD_PROPERTY", 14, None);
   ("OFPET_ASYNC_CONFIG_FAILED", 15, Some 13); ("OFPET_FLOW_MONITOR_FAILED", 16, Some 14); ("OFPET_BUNDLE_FAILED", 17, Some 15)].

(** Names the modules define that the specification does not: obsolete ones of
    older versions and misspelt ones. *)
Definition foreign : list string :=
  ["OFPER_HARD_TIMEOUT"; "OFPER_IDLE_TIMEOUT"; "OFPFW_ALL"; "OFPFW_NW_DST_ALL"; "OFPFW_NW_DST_MASK"; "OFPFW_NW_DST_BITS";
   "OFPFW_NW_DST_SHIFT"; "OFPFW_NW_SRC_MASK"; "OFPFW_NW_SRC_BITS"; "OFPFW_NW_SRC_SHIFT"; "OFPFW_TP_DST"; "OFPFW_TP_SRC";
   "OFPFW_NW_PROTO"; "OFPFW_DL_TYPE"; "OFPFW_DL_DST"; "OFPFW_DL_SRC"; "OFPFW_DL_VLAN"; "OFPFW_IN_PORT";
   "OFPET_SWITCH_CONFIG_FAILWD"; "OFPR_NO_TABLE_MISS"; "OFPFF_BYT_COUNTS"; "OFPPF_PAUSE_ANY"; "OFPPC_NO_FLOOD";
   "OFPPC_NO_RECV_STP"; "OFPPC_NO_STP"].

Definition dev_name (d : string * Z * option Z) : string := fst (fst d).

Lemma single4 : single (load no_buffer o4_enums).
Proof. apply single_b_ok. vm_compute. reflexivity. Qed.

Lemma single5 : single (load no_buffer o5_enums).
Proof. apply single_b_ok. vm_compute. reflexivity. Qed.

Definition in_table (n : string) (v : Z) (t : list (string * Z)) : bool :=
  existsb (fun nv => String.eqb (fst nv) n && (snd nv =? v)%Z) t.

Lemma in_table_ok n v t : in_table n v t = true -> In (n, v) t.
Proof.
  intros I. apply existsb_exists in I. destruct I as ((m & x) & J & E). cbn in E. apply andb_true_iff in E.
  destruct E as (E1 & E2). apply String.eqb_eq in E1. subst m. replace v with x by lia. exact J.
Qed.

Definition optZ_eqb (a b : option Z) : bool :=
  match a, b with Some x, Some y => (x =? y)%Z | None, None => true | _, _ => false end.

Lemma optZ_eqb_ok a b : optZ_eqb a b = true -> a = b.
Proof. destruct a, b; cbn; try discriminate; [|reflexivity]. intros H. f_equal. lia. Qed.

Definition as_specified (es : list enum) (spec : list (string * Z)) (dev : list (string * Z * option Z)) : bool :=
  let sc := load no_buffer es in
  forallb (fun nv => existsb (fun d => String.eqb (dev_name d) (fst nv)) dev
                     || optZ_eqb (global sc (fst nv)) (Some (snd nv))) spec.

Lemma as_specified_ok es spec dev es' : single (load no_buffer es) -> as_specified es spec dev = true ->
  Forall2 walked es es' -> forall n v, In (n, v) spec -> ~ In n (map dev_name dev) ->
  global (load no_buffer es') n = Some v.
Proof.
  intros S A F n v I N. rewrite (global_walked _ _ _ _ F S). unfold as_specified in A. cbv zeta in A.
  rewrite forallb_forall in A. apply A in I. cbn [fst snd] in I. apply orb_true_iff in I. destruct I as [I|I].
  - exfalso. apply N. apply existsb_exists in I. destruct I as (d & J & E). apply String.eqb_eq in E.
    apply in_map_iff. eauto.
  - apply optZ_eqb_ok, I.
Qed.

(** Whatever the order in which Python walks the dictionaries, the module
    defines the numbers of the specification.  Missing: the names of
    [deviating13], for which it is false. *)
Theorem C66_of13_partial : forall es', Forall2 walked o4_enums es' ->
  forall n v, In (n, v) spec13 -> ~ In n (map dev_name deviating13) ->
  global (load no_buffer es') n = Some v.
Proof.
  intros es' F. apply (as_specified_ok o4_enums spec13 deviating13 es' single4); [vm_compute; reflexivity|exact F].
Qed.
Print Assumptions C66_of13_partial.

(** The same for OpenFlow 1.4. *)
Theorem C66_of14_partial : forall es', Forall2 walked o5_enums es' ->
  forall n v, In (n, v) spec14 -> ~ In n (map dev_name deviating14) ->
  global (load no_buffer es') n = Some v.
Proof.
  intros es' F. apply (as_specified_ok o5_enums spec14 deviating14 es' single5); [vm_compute; reflexivity|exact F].
Qed.
Print Assumptions C66_of14_partial.

Definition deviates (es : list enum) (spec : list (string * Z)) (dev : list (string * Z * option Z)) : bool :=
  let sc := load no_buffer es in
  forallb (fun d => let '(n, v, w) := d in
    existsb (fun nv => String.eqb (fst nv) n && (snd nv =? v)%Z) spec &&
    negb (optZ_eqb w (Some v)) && optZ_eqb (global sc n) w) dev.

Lemma deviates_ok es spec dev es' : single (load no_buffer es) -> deviates es spec dev = true ->
  Forall2 walked es es' -> forall n v w, In (n, v, w) dev ->
  In (n, v) spec /\ global (load no_buffer es') n = w /\ w <> Some v.
Proof.
  intros S A F n v w I. rewrite (global_walked _ _ _ _ F S). unfold deviates in A. cbv zeta in A.
  rewrite forallb_forall in A. apply A in I. apply andb_true_iff in I. destruct I as (I & G).
  apply andb_true_iff in I. destruct I as (I & D). split; [|split].
  - apply existsb_exists in I. destruct I as ((m & x) & J & E). cbn in E. apply andb_true_iff in E.
    destruct E as (E1 & E2). apply String.eqb_eq in E1. subst m. replace v with x by lia. exact J.
  - apply optZ_eqb_ok, G.
  - intros ->. cbn in D. rewrite Z.eqb_refl in D. discriminate.
Qed.

(** False as it stands: the error types from "queue operation failed" on and
    the table feature properties from "wildcards" on are shifted, others are
    missing. *)
Theorem C66_of13_refuted : forall es', Forall2 walked o4_enums es' ->
  forall n v w, In (n, v, w) deviating13 ->
  In (n, v) spec13 /\ global (load no_buffer es') n = w /\ w <> Some v.
Proof.
  intros es' F. apply (deviates_ok o4_enums spec13 deviating13 es' single4); [vm_compute; reflexivity|exact F].
Qed.
Print Assumptions C66_of13_refuted.

Theorem C66_of14_refuted : forall es', Forall2 walked o5_enums es' ->
  forall n v w, In (n, v, w) deviating14 ->
  In (n, v) spec14 /\ global (load no_buffer es') n = w /\ w <> Some v.
Proof.
  intros es' F. apply (deviates_ok o5_enums spec14 deviating14 es' single5); [vm_compute; reflexivity|exact F].
Qed.
Print Assumptions C66_of14_refuted.

(** A controller for OpenFlow 1.4 that wants to discard a bundle commits it. *)
Theorem C66_discard_commits_refuted : forall es', Forall2 walked o5_enums es' ->
  exists v, global (load no_buffer es') "OFPBCT_DISCARD_REQUEST" = Some v /\ In ("OFPBCT_COMMIT_REQUEST", v) spec14.
Proof.
  intros es' F. exists 4. split.
  - apply (C66_of14_refuted es' F "OFPBCT_DISCARD_REQUEST" 6 (Some 4)). cbn. tauto.
  - apply in_table_ok. vm_compute. reflexivity.
Qed.
Print Assumptions C66_discard_commits_refuted.

Definition known (es : list enum) (spec : list (string * Z)) : bool :=
  forallb (fun nv => existsb (fun x => String.eqb (fst x) (fst nv)) spec || existsb (String.eqb (fst nv)) foreign)
          (load no_buffer es).

Lemma known_ok es spec es' n v : known es spec = true -> Forall2 walked es es' ->
  global (load no_buffer es') n = Some v -> In n (map fst spec) \/ In n foreign.
Proof.
  intros K F G. apply global_in in G. apply (load_walked _ _ _ F) in G. unfold known in K.
  rewrite forallb_forall in K. apply K in G. cbn [fst] in G. apply orb_true_iff in G. destruct G as [G|G].
  - left. apply existsb_exists in G. destruct G as (x & I & E). apply String.eqb_eq in E. subst n. apply in_map, I.
  - right. apply existsb_exists in G. destruct G as (x & I & E). apply String.eqb_eq in E. subst n. exact I.
Qed.

(** Nothing else is defined under a name of the specification's kind. *)
Theorem C66_no_other_names : forall es' n v,
  (Forall2 walked o4_enums es' -> global (load no_buffer es') n = Some v -> In n (map fst spec13) \/ In n foreign) /\
  (Forall2 walked o5_enums es' -> global (load no_buffer es') n = Some v -> In n (map fst spec14) \/ In n foreign).
Proof.
  intros es' n v. split; intros F.
  - apply (known_ok o4_enums spec13); [vm_compute; reflexivity|exact F].
  - apply (known_ok o5_enums spec14); [vm_compute; reflexivity|exact F].
Qed.
Print Assumptions C66_no_other_names.

(** A fixed order: the source's.  The group command DELETE and the meter band
    type "experimenter". *)
Lemma walked_refl e : walked e e.
Proof.
  assert (G : forall o, opt_walked o o) by (intros [[s|l]|]; repeat constructor; apply Permutation_refl).
  repeat split; apply G.
Qed.

Lemma walked_refls es : Forall2 walked es es.
Proof. induction es as [|e es IH]; constructor; [apply walked_refl|exact IH]. Qed.

Example C66_example :
  Forall2 walked o4_enums o4_enums /\
  In ("OFPGC_DELETE", 2) spec13 /\ ~ In "OFPGC_DELETE" (map dev_name deviating13) /\
  global (load no_buffer o4_enums) "OFPGC_DELETE" = Some 2 /\
  global (load no_buffer o4_enums) "OFPP_CONTROLLER" = Some 4294967293 /\
  global (load no_buffer o4_enums) "OFPET_METER_MOD_FAILED" = Some 11 /\ In ("OFPET_METER_MOD_FAILED", 12) spec13.
Proof.
  split; [apply walked_refls|]. split; [apply in_table_ok; vm_compute; reflexivity|].
  split; [cbn; intuition discriminate|]. repeat split; try (vm_compute; reflexivity).
  apply in_table_ok. vm_compute. reflexivity.
Qed.

(** *** The match fields of oxm.py have the same numbers. *)

Definition oxm_spec (p : string) : list (string * Z) :=
  row p 0 ["IN_PORT"; "IN_PHY_PORT"; "METADATA"; "ETH_DST"; "ETH_SRC"; "ETH_TYPE"; "VLAN_VID"; "VLAN_PCP";
           "IP_DSCP"; "IP_ECN"; "IP_PROTO"; "IPV4_SRC"; "IPV4_DST"; "TCP_SRC"; "TCP_DST"; "UDP_SRC"; "UDP_DST";
           "SCTP_SRC"; "SCTP_DST"; "ICMPV4_TYPE"; "ICMPV4_CODE"; "ARP_OP"; "ARP_SPA"; "ARP_TPA"; "ARP_SHA"; "ARP_THA";
           "IPV6_SRC"; "IPV6_DST"; "IPV6_FLABEL"; "ICMPV6_TYPE"; "ICMPV6_CODE"; "IPV6_ND_TARGET"; "IPV6_ND_SLL"; "IPV6_ND_TLL";
           "MPLS_LABEL"; "MPLS_TC"; "MPLS_BOS"; "PBB_ISID"; "TUNNEL_ID"; "IPV6_EXTHDR"].

Lemma single_x4 : single (load [("STRATOS_EXPERIMENTER_ID", 4278247501)] x4_enums).
Proof. apply single_b_ok. vm_compute. reflexivity. Qed.

Lemma single_x5 : single (load [] x5_enums).
Proof. apply single_b_ok. vm_compute. reflexivity. Qed.

(** Missing: PBB_UCA of OpenFlow 1.4, for which it is false. *)
Theorem C66_match_fields_partial : forall es',
  (Forall2 walked x4_enums es' -> forall n v, In (n, v) (oxm_spec "OXM_OF_") ->
   global (load [("STRATOS_EXPERIMENTER_ID", 4278247501)] es') n = Some v) /\
  (Forall2 walked x5_enums es' -> forall n v, In (n, v) (oxm_spec "OXM_OF_") -> global (load [] es') n = Some v) /\
  (Forall2 walked x5_enums es' -> global (load [] es') "OXM_OF_PBB_UCA" = Some 40 /\ In ("OFPXMT_OFB_PBB_UCA", 41) spec14).
Proof.
  intros es'. split; [|split]; intros F.
  - intros n v I. rewrite (global_walked _ _ _ _ F single_x4).
    assert (A : (let sc := load [("STRATOS_EXPERIMENTER_ID", 4278247501)] x4_enums in
                 forallb (fun nv => optZ_eqb (global sc (fst nv)) (Some (snd nv))) (oxm_spec "OXM_OF_")) = true)
      by (vm_compute; reflexivity).
    cbv zeta in A. rewrite forallb_forall in A. apply A in I. apply optZ_eqb_ok, I.
  - intros n v I. rewrite (global_walked _ _ _ _ F single_x5).
    assert (A : (let sc := load [] x5_enums in
                 forallb (fun nv => optZ_eqb (global sc (fst nv)) (Some (snd nv))) (oxm_spec "OXM_OF_")) = true)
      by (vm_compute; reflexivity).
    cbv zeta in A. rewrite forallb_forall in A. apply A in I. apply optZ_eqb_ok, I.
  - rewrite (global_walked _ _ _ _ F single_x5). split; [vm_compute; reflexivity|apply in_table_ok; vm_compute; reflexivity].
Qed.
Print Assumptions C66_match_fields_partial.

(** *** The other constants of oxm.py and those of older versions. *)

(** The remaining names of oxm.py: the match classes, VLAN ids and IPv6
    extension headers of the OpenFlow specification ... *)
Definition oxm_rest : list (string * Z) :=
  [("OFPXMC_NXM_0", 0); ("OFPXMC_NXM_1", 1); ("OFPXMC_OPENFLOW_BASIC", 2 ^ 15); ("OFPXMC_EXPERIMENTER", 2 ^ 16 - 1);
   ("OFPVID_PRESENT", 2 ^ 12); ("OFPVID_NONE", 0)] ++
  bits "OFPIEH_" 0 ["NONEXT"; "ESP"; "AUTH"; "DEST"; "FRAG"; "ROUTER"; "HOP"; "UNREP"; "UNSEQ"].

(** ... the Nicira field and the radiotap fields, numbered as the presence bits
    of a radiotap header. *)
Definition oxm_vendor : list (string * Z) :=
  [("STRATOS_EXPERIMENTER_ID", 4278247501); ("NXM_NX_TUN_IPV4_DST", 32)] ++
  row "STRATOS_OXM_FIELD_" 0 ["BASIC"; "RADIOTAP"] ++
  row "STROXM_BASIC_" 0 ["UNKNOWN"; "DOT11"; "DOT11_FRAME_CTRL"; "DOT11_ADDR1"; "DOT11_ADDR2"; "DOT11_ADDR3"; "DOT11_ADDR4";
                         "DOT11_SSID"; "DOT11_ACTION_CATEGORY"; "DOT11_PUBLIC_ACTION"; "DOT11_TAG"; "DOT11_TAG_VENDOR"] ++
  row "STROXM_RADIOTAP_" 0 ["TSFT"; "FLAGS"; "RATE"; "CHANNEL"; "FHSS"; "DBM_ANTSIGNAL"; "DBM_ANTNOISE"; "LOCK_QUALITY";
                            "TX_ATTENUATION"; "DB_TX_ATTENUATION"; "DBM_TX_POWER"; "ANTENNA"; "DB_ANTSIGNAL"; "DB_ANTNOISE";
                            "RX_FLAGS"; "TX_FLAGS"; "RTS_RETRIES"; "DATA_RETRIES"] ++
  row "STROXM_RADIOTAP_" 19 ["MCS"; "AMPDU_STATUS"].

(** The obsolete names as older specifications number them (the wildcards of
    version 0.8.9: six bits for each network address, from bit 8 and from bit
    14, twenty bits in all). *)
Definition older : list (string * Z) :=
  bits "OFPFW_" 0 ["IN_PORT"; "DL_VLAN"; "DL_SRC"; "DL_DST"; "DL_TYPE"; "NW_PROTO"; "TP_SRC"; "TP_DST"] ++
  [("OFPFW_NW_SRC_SHIFT", 8); ("OFPFW_NW_SRC_BITS", 6); ("OFPFW_NW_SRC_MASK", (2 ^ 6 - 1) * 2 ^ 8);
   ("OFPFW_NW_DST_SHIFT", 14); ("OFPFW_NW_DST_BITS", 6); ("OFPFW_NW_DST_MASK", (2 ^ 6 - 1) * 2 ^ 14);
   ("OFPFW_NW_DST_ALL", 32 * 2 ^ 14); ("OFPFW_ALL", 2 ^ 20 - 1)] ++
  row "OFPER_" 0 ["IDLE_TIMEOUT"; "HARD_TIMEOUT"] ++
  bits "OFPPC_" 1 ["NO_STP"] ++ bits "OFPPC_" 3 ["NO_RECV_STP"; "NO_FLOOD"].

(** The misspelt names, with the numbers their modules give them. *)
Definition misspelt : list (string * Z) :=
  [("OFPET_SWITCH_CONFIG_FAILWD", 9); ("OFPFF_BYT_COUNTS", 16); ("OFPPF_PAUSE_ANY", 32768)].

Definition exactly (sc : scope) (t : list (string * Z)) : bool :=
  forallb (fun nv => optZ_eqb (global sc (fst nv)) (Some (snd nv))) t &&
  forallb (fun nv => in_table (fst nv) (snd nv) t) sc.

Lemma exactly_ok start es t es' : single (load start es) -> exactly (load start es) t = true ->
  Forall2 walked es es' -> forall n v, global (load start es') n = Some v <-> In (n, v) t.
Proof.
  intros S A F n v. rewrite (global_walked _ _ _ _ F S). unfold exactly in A.
  apply andb_true_iff in A. destruct A as [A B]. rewrite forallb_forall in A, B. split; intros I.
  - apply global_in, B in I. apply in_table_ok, I.
  - apply A in I. apply optZ_eqb_ok, I.
Qed.

(** Whatever the order of the dictionaries, these are the constants of oxm.py,
    and there is no other. *)
Theorem C66_oxm_constants : forall es' n v,
  (Forall2 walked x4_enums es' ->
   (global (load [("STRATOS_EXPERIMENTER_ID", 4278247501)] es') n = Some v <->
    In (n, v) (oxm_spec "OXM_OF_" ++ oxm_rest ++ oxm_vendor))) /\
  (Forall2 walked x5_enums es' ->
   (global (load [] es') n = Some v <-> In (n, v) (("OXM_OF_PBB_UCA", 40) :: oxm_spec "OXM_OF_" ++ oxm_rest))).
Proof.
  intros es' n v. split; intros F.
  - apply (exactly_ok _ x4_enums _ es' single_x4); [vm_compute; reflexivity|exact F].
  - apply (exactly_ok _ x5_enums _ es' single_x5); [vm_compute; reflexivity|exact F].
Qed.
Print Assumptions C66_oxm_constants.

(** Every obsolete and every misspelt name, in both modules.  Missing: the
    wildcard NW_SRC_ALL of version 0.8.9, which no module defines. *)
Theorem C66_older_names_partial : forall es es', In es [o4_enums; o5_enums] -> Forall2 walked es es' ->
  (forall n v, In (n, v) (older ++ misspelt) -> global (load no_buffer es') n = Some v) /\
  (forall n, In n foreign -> In n (map fst (older ++ misspelt)) \/ n = "OFPR_NO_TABLE_MISS") /\
  global (load no_buffer es') "OFPFW_NW_SRC_ALL" = None.
Proof.
  intros es es' [<-|[<-|[]]] F; split; [|split| |split].
  - intros n v I. apply (as_specified_ok o4_enums (older ++ misspelt) [] es' single4); [vm_compute; reflexivity|exact F|exact I|intros []].
  - intros n I. cbn [foreign In] in I. repeat (destruct I as [<-|I]; [first [right; reflexivity | left; cbn; tauto]|]). destruct I.
  - rewrite (global_walked _ _ _ _ F single4). vm_compute. reflexivity.
  - intros n v I. apply (as_specified_ok o5_enums (older ++ misspelt) [] es' single5); [vm_compute; reflexivity|exact F|exact I|intros []].
  - intros n I. cbn [foreign In] in I. repeat (destruct I as [<-|I]; [first [right; reflexivity | left; cbn; tauto]|]). destruct I.
  - rewrite (global_walked _ _ _ _ F single5). vm_compute. reflexivity.
Qed.
Print Assumptions C66_older_names_partial.

Example C66_oxm_example :
  Forall2 walked x4_enums x4_enums /\ In ("STROXM_RADIOTAP_MCS", 19) oxm_vendor /\
  global (load [("STRATOS_EXPERIMENTER_ID", 4278247501)] x4_enums) "STROXM_RADIOTAP_MCS" = Some 19 /\
  global (load [("STRATOS_EXPERIMENTER_ID", 4278247501)] x4_enums) "STROXM_RADIOTAP_XCHANNEL" = None /\
  global (load no_buffer o4_enums) "OFPFW_NW_DST_MASK" = Some 1032192.
Proof.
  split; [apply walked_refls|]. split; [apply in_table_ok; vm_compute; reflexivity|]. repeat split; vm_compute; reflexivity.
Qed.

(** *** C67: name() is the inverse of the constants. *)

(** What [name] returns is a constant with that value; None exactly when there
    is none. *)
Theorem C67_name_sound : forall e v,
  (forall n, name e v = Some n -> constant e n v) /\ (name e v = None <-> forall n, ~ constant e n v).
Proof.
  intros e v. split; [apply name_sound|]. split; [apply name_none|].
  intros H. destruct (name e v) as [n|] eqn:E; [|reflexivity]. destruct (H n). apply name_sound, E.
Qed.
Print Assumptions C67_name_sound.

(** When no two names share a value, every name comes back. *)
Theorem C67_name_inverse : forall e, unambiguous e -> forall n v, constant e n v -> name e v = Some n.
Proof.
  intros e U n v C. destruct (name_known _ _ _ C) as (m & E & D). rewrite E. f_equal. apply (U m n v D C).
Qed.
Print Assumptions C67_name_inverse.

Lemma forall2_in_r A B (R : A -> B -> Prop) l l' : Forall2 R l l' -> forall y, In y l' -> exists x, In x l /\ R x y.
Proof. induction 1 as [|x y l l' H F IH]; intros z []; [subst; cbn; eauto|]. destruct (IH _ H0) as (w & I & J). cbn. eauto. Qed.

Lemma plain_modules es es' e : Forall2 walked es es' ->
  forallb (fun e => String.eqb (prefix e) "OFPFW" || plain_b e) es = true ->
  In e es' -> prefix e <> "OFPFW" -> unambiguous e.
Proof.
  intros F A I N. destruct (forall2_in_r _ _ _ _ _ F _ I) as (e0 & I0 & W). rewrite forallb_forall in A. apply A in I0.
  apply orb_true_iff in I0. destruct I0 as [E|E].
  - apply String.eqb_eq in E. destruct W as (P & _). congruence.
  - apply (unambiguous_walked _ _ W), plain_ok, E.
Qed.

(** The enumerations of both modules: the name found for a value is the global
    variable with that value, and the only one of its enumeration.  Missing:
    OFPFW, for which it is false. *)
Theorem C67_modules_partial : forall es es', In es [o4_enums; o5_enums] -> Forall2 walked es es' ->
  forall e, In e es' -> prefix e <> "OFPFW" -> forall n v,
  (name e v = Some n <-> constant e n v) /\
  (name e v = Some n -> global (load no_buffer es') n = Some v).
Proof.
  intros es es' Hes F e I N n v.
  assert (U : unambiguous e).
  { apply (plain_modules es es' e F); [|exact I|exact N].
    destruct Hes as [<-|[<-|[]]]; vm_compute; reflexivity. }
  assert (S : single (load no_buffer es)) by (destruct Hes as [<-|[<-|[]]]; [apply single4|apply single5]).
  split; [split|].
  - apply C67_name_sound.
  - apply C67_name_inverse, U.
  - intros E. apply C67_name_sound in E. rewrite (global_walked _ _ _ _ F S).
    apply single_global; [exact S|]. apply (load_walked _ _ _ F). apply load_items. right. eauto.
Qed.
Print Assumptions C67_modules_partial.

(** The wildcards: the same value under two orders of one dictionary gets two
    names, one of which is not even a flag. *)
Theorem C67_wildcards_refuted : forall e0, In e0 [o4_ofp_flow_wildcards; o5_ofp_flow_wildcards] ->
  exists e1 e2, walked e0 e1 /\ walked e0 e2 /\
  name e1 8 = Some "OFPFW_DL_DST" /\ name e2 8 = Some "OFPFW_NW_SRC_SHIFT".
Proof.
  intros e0 H. exists e0.
  assert (R : forall l, numbers e0 = Some (Dict l) -> bitshifts e0 = None -> prefix e0 = "OFPFW" ->
    name {| prefix := "OFPFW"; numbers := Some (Dict (rev l)); bitshifts := None |} 8 = Some "OFPFW_NW_SRC_SHIFT" ->
    name e0 8 = Some "OFPFW_DL_DST" ->
    exists e2, walked e0 e0 /\ walked e0 e2 /\ name e0 8 = Some "OFPFW_DL_DST" /\ name e2 8 = Some "OFPFW_NW_SRC_SHIFT").
  { intros l E B P N M. eexists. split; [apply walked_refl|]. split; [|split; [exact M|exact N]].
    split; [exact P|]. rewrite E, B. split; repeat constructor. apply Permutation_rev. }
  destruct H as [<-|[<-|[]]]; eapply R; try reflexivity; vm_compute; reflexivity.
Qed.
Print Assumptions C67_wildcards_refuted.

Example C67_example :
  unambiguous o4_ofp_type /\ constant o4_ofp_type "OFPT_PACKET_IN" 10 /\ name o4_ofp_type 10 = Some "OFPT_PACKET_IN" /\
  name o4_ofp_type 30 = None /\ In o4_ofp_type o4_enums /\ prefix o4_ofp_type <> "OFPFW" /\
  name o4_ofp_port_no 4294967293 = Some "OFPP_CONTROLLER".
Proof.
  split; [apply plain_ok; vm_compute; reflexivity|].
  split; [apply name_sound; vm_compute; reflexivity|].
  repeat split; try (vm_compute; reflexivity); [cbn; tauto|discriminate].
Qed.

(** *** C68: bitnames() lists the names of the bits that are set. *)

(** If some set bit has a name: exactly the names of the set bits.  If none
    has: the name of "no bit" (or nothing, when the enumeration has none). *)
Theorem C68_bits : forall e value,
  ((exists z n, 0 <= z /\ Z.testbit value z = true /\ names_bit e n z) ->
   forall n, In n (bitnames e value) <-> exists z, 0 <= z /\ Z.testbit value z = true /\ names_bit e n z) /\
  (~ (exists z n, 0 <= z /\ Z.testbit value z = true /\ names_bit e n z) ->
   (bitnames e value = [] /\ forall n z, z < 0 -> ~ names_bit e n z) \/
   (exists n z, bitnames e value = [n] /\ z < 0 /\ names_bit e n z)).
Proof.
  intros e value. split; intros H.
  - intros n. apply bitnames_some, H.
  - apply bitnames_none, H.
Qed.
Print Assumptions C68_bits.

(** Sets of flags that are written as [numbers]: no name is ever listed. *)
Definition number_flags : list enum :=
  [o4_ofp_multipart_request_flags; o4_ofp_multipart_reply_flags; o4_ofp_config_flags; o4_ofp_flow_wildcards; o4_ofp_vlan_id;
   o5_ofp_multipart_request_flags; o5_ofp_multipart_reply_flags; o5_ofp_config_flags; o5_ofp_flow_wildcards; o5_ofp_vlan_id;
   o5_ofp_table_config; o5_ofp_bundle_flags].

Theorem C68_number_flags_refuted : forall e, In e number_flags -> forall value, bitnames e value = [].
Proof.
  intros e H value. cbn [number_flags In] in H.
  repeat (destruct H as [<-|H]; [reflexivity|]). destruct H.
Qed.
Print Assumptions C68_number_flags_refuted.

Example C68_example :
  bitnames o4_ofp_port_state 5 = ["OFPPS_LINK_DOWN"; "OFPPS_LIVE"] /\
  bitnames x4_ofp_vlan_id 4101 = ["OFPVID_PRESENT"] /\ bitnames x4_ofp_vlan_id 5 = ["OFPVID_NONE"] /\
  bitnames o4_ofp_port_state 8 = [] /\
  bitnames o5_ofp_bundle_flags 3 = [] /\ name o5_ofp_bundle_flags 1 = Some "OFPBF_ATOMIC".
Proof. repeat split; vm_compute; reflexivity. Qed.

Example C68_bits_example : names_bit o4_ofp_port_state "OFPPS_LIVE" 2 /\ Z.testbit 5 2 = true.
Proof.
  split; [|reflexivity].
  assert (I : In "OFPPS_LIVE" (bitnames o4_ofp_port_state 4)) by (vm_compute; tauto).
  exists (Words "LINK_DOWN BLOCKED LIVE"), "LIVE". split; [reflexivity|]. split.
  - change 2 with (Z.of_nat 2). constructor. apply nth_word_split. vm_compute. reflexivity.
  - split; [|reflexivity]. intros M. apply mask_key_b in M. vm_compute in M. discriminate.
Qed.
