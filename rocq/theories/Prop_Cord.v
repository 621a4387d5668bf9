(** Properties C92 to C95: cord_softswitch_pipeline and its .bess form. *)

From Coq Require Import Lia.
From Verif Require Import Py Struct P_Struct M_Cord S_Cord S_CordLink P_Cord P_CordFrame P_CordMain.
Local Open Scope Z_scope.
Local Open Scope list_scope.

(** Packets for the examples. *)
Definition hdr (s d : Z) (pr : Z) : ip4 :=
  {| i_tos := 0; i_len := 60; i_id := 1; i_flags := 2; i_off := 0; i_ttl := 64; i_proto := pr; i_sum := 0;
     i_src := s; i_dst := d; i_opts := []; i_words := 0 |}.
Definition mk (i : Z) (tg : option vtag) (n : net) : opkt :=
  {| p_frame := {| f_dst := [1; 2; 3; 4; 5; 6]; f_src := [7; 8; 9; 10; 11; 12]; f_tag := tg; f_net := n |};
     p_in := i; p_tun := 0; p_tdst := 0 |}.
(** A BESS that reads the text of an address as that address. *)
Definition kind (v : val) : bytes :=
  match v with B b => match aton_mac b with Ok m => if (length m =? 6)%nat then m else [0; 0; 0; 0; 0; 0] | Err _ => [0; 0; 0; 0; 0; 0] end | I _ => [0; 0; 0; 0; 0; 0] end.
Lemma kind6 v : length (kind v) = 6%nat.
Proof.
  unfold kind. destruct v as [z|b]; [reflexivity|]. destruct (aton_mac b) as [m|e]; [|reflexivity].
  destruct (Nat.eqb_spec (length m) 6); [assumption|reflexivity].
Qed.

Lemma reaches (r : res fate) s : match r with Ok (Reach t _) => t = s | _ => False end -> exists k, r = Ok (Reach s k).
Proof. destruct r as [[t k|t|]|e]; try contradiction. intros ->. eauto. Qed.

(** *** C92: every packet's way through the pipeline ends, at a sink or, dropped, at one of two modules. *)
Theorem C92_ends : forall conv g0 lb fuel k calls,
  calls = script_calls \/ calls = bess_calls -> (13 <= fuel)%nat ->
  exists f, forward conv g0 lb fuel calls k = Ok f /\
    match f with
    | Reach _ _ => True
    | Lost n => n = "t0_start"%string \/ n = "t4_start"%string
    | NoFuel => False
    end.
Proof.
  intros conv g0 lb fuel k calls C H. replace fuel with (13 + (fuel - 13))%nat by lia.
  unfold forward. destruct C as [->| ->]; [rewrite ps_ok|rewrite pb_ok]; cbn [bind]; eexists; (split; [reflexivity|]).
  - apply en_s.
  - apply en_b.
Qed.
Print Assumptions C92_ends.
(** Table 4 has no sink for what matches nothing. *)
Theorem C92_every_sink_refuted :
  exists k, forall conv lb fuel, (13 <= fuel)%nat ->
    forward conv (Some 0%nat) lb fuel bess_calls k = Ok (Lost "t4_start").
Proof.
  exists (meta (mk 2 None (Ip4 (hdr 1 2 6) (Raw [])))).
  intros conv lb fuel H. replace fuel with (13 + (fuel - 13))%nat by lia. vm_compute. reflexivity.
Qed.
Print Assumptions C92_every_sink_refuted.
Example C92_example :
  forward kind (Some 0%nat) (fun _ => false) 13 script_calls (meta (mk 1 None (Arp [0;0;0;0;0;0] 1 [0;0;0;0;0;0] 5 [0;0;0;0;0;0] 6 []))) =
  Ok (Reach "CTL" (meta (mk 1 None (Arp [0;0;0;0;0;0] 1 [0;0;0;0;0;0] 5 [0;0;0;0;0;0] 6 [])))).
Proof. vm_compute; reflexivity. Qed.

(** *** C93: the pipeline does what the OpenFlow tables in its comments say. *)

(** Missing: the addresses written (see [nearly]); frames outside [plain]; another initial default gate
    than 0. *)
Theorem C93_tables_partial : forall conv lb fuel p,
  (forall v, length (conv v) = 6%nat) -> (13 <= fuel)%nat ->
  frame_ok (p_frame p) -> in_ok (p_in p) -> plain p ->
  exists f, forward conv (Some 0%nat) lb fuel bess_calls (meta p) = Ok f /\
            nearly conv p f (openflow (bucket lb) p).
Proof.
  intros conv lb fuel p C6 H F I_ PL. replace fuel with (13 + (fuel - 13))%nat by lia.
  unfold forward. rewrite pb_ok. cbn [bind]. eexists. split; [reflexivity|]. apply main_b; auto.
Qed.
Print Assumptions C93_tables_partial.
(** Missing besides: port 3. *)
Theorem C93_tables_script_partial : forall conv lb fuel p,
  (forall v, length (conv v) = 6%nat) -> (13 <= fuel)%nat ->
  frame_ok (p_frame p) -> in_ok (p_in p) -> plain p -> p_in p <> 3 ->
  exists f, forward conv (Some 0%nat) lb fuel script_calls (meta p) = Ok f /\
            nearly conv p f (openflow (bucket lb) p).
Proof.
  intros conv lb fuel p C6 H F I_ PL P3. replace fuel with (13 + (fuel - 13))%nat by lia.
  unfold forward. rewrite ps_ok. cbn [bind]. eexists. split; [reflexivity|].
  eapply alike_nearly; [apply both|apply main_b; auto].
  - unfold meta, meta_port. cbn [k_port]. destruct (Z.eqb_spec (p_in p) LOCAL); destruct I_; lia.
  - unfold meta, meta_port. cbn [k_port]. destruct (Z.eqb_spec (p_in p) LOCAL); lia.
Qed.
Print Assumptions C93_tables_script_partial.

Definition to_port4 : opkt := mk 2 None (Ip4 (hdr 1 168430595 6) (Raw [1; 2; 3])).
Example C93_example :
  frame_ok (p_frame to_port4) /\ in_ok (p_in to_port4) /\ plain to_port4 /\
  openflow (bucket (fun _ => true)) to_port4 = Port 4 (set_dst mac1 to_port4) /\
  forward kind (Some 0%nat) (fun _ => true) 13 bess_calls (meta to_port4) = Ok (Reach "OUT4" (crossed kind to_port4 (set_dst mac1 to_port4))) /\
  firstn 12 (k_data (crossed kind to_port4 (set_dst mac1 to_port4))) = [1; 2; 3; 4; 5; 6] ++ mac1.
Proof.
  repeat match goal with |- _ /\ _ => split end; try (vm_compute; reflexivity).
  - unfold frame_ok, to_port4, mk. cbn [p_frame f_dst f_src f_tag f_net]. repeat split; try (repeat constructor; lia); cbn; try lia.
  - right. cbn. lia.
Qed.
(** A VLAN frame and one of the group. *)
Example C93_more_examples :
  openflow (bucket (fun _ => true)) (mk 3 None (Ip4 (hdr 168430083 168430593 6) (Raw []))) =
    Port 4 (set_dst mac1 (mk 3 None (Ip4 (hdr 168430083 168430593 6) (Raw [])))) /\
  openflow (bucket (fun _ => true)) (mk 2 (Some {| v_tpid := 33024; v_pcp := 0; v_dei := 1; v_vid := 500 |}) (Ip4 (hdr 1 2 6) (Raw []))) =
    Port 2 (mk 2 None (Ip4 (hdr 1 2 6) (Raw []))) /\
  forward kind (Some 0%nat) (fun _ => true) 13 script_calls
    (meta (mk 2 (Some {| v_tpid := 33024; v_pcp := 0; v_dei := 1; v_vid := 500 |}) (Ip4 (hdr 1 2 6) (Raw [])))) =
    Ok (Reach "OUT2" (meta (mk 2 None (Ip4 (hdr 1 2 6) (Raw []))))).
Proof. repeat match goal with |- _ /\ _ => split end; vm_compute; reflexivity. Qed.

(** HWDST is the source address (lines 22-25): whenever the tables give a frame a new
    destination, the pipeline sends it to the old one. *)
Theorem C93_address_refuted : forall conv lb fuel p n q,
  (forall v, length (conv v) = 6%nat) -> (13 <= fuel)%nat ->
  frame_ok (p_frame p) -> in_ok (p_in p) -> plain p ->
  openflow (bucket lb) p = Port n q -> f_dst (p_frame q) <> f_dst (p_frame p) -> length (f_dst (p_frame q)) = 6%nat ->
  n <> 2 -> p_in p <> 1 ->
  exists k, forward conv (Some 0%nat) lb fuel bess_calls (meta p) = Ok (Reach (port_sink n) k) /\
            firstn 6 (k_data k) = f_dst (p_frame p) /\ k_data k <> frame_wire (p_frame q).
Proof.
  intros conv lb fuel p n q C6 H F I_ PL O_ NE L N2 P1.
  destruct (C93_tables_partial conv lb fuel p C6 H F I_ PL) as (f & E & X). rewrite O_ in X. destruct X as [_ ->].
  rewrite (proj2 (Z.eqb_neq _ _) N2), (proj2 (Z.eqb_neq _ _) P1) in E. cbn [orb] in E.
  eexists. split; [exact E|]. destruct F as (D & _).
  assert (A : firstn 6 (k_data (crossed conv p q)) = f_dst (p_frame p)) by (cbn [crossed k_data]; apply firstn_app_l; auto).
  split; [exact A|]. intros C. rewrite C in A. unfold frame_wire in A. rewrite firstn_app_l in A by auto. congruence.
Qed.
Print Assumptions C93_address_refuted.

(** Tagged frames usually have the drop eligible bit clear; line 247 looks at it for the presence of a tag. *)
Theorem C93_tag_refuted :
  exists p, frame_ok (p_frame p) /\ in_ok (p_in p) /\
    (forall b, exists q, openflow b p = Port 2 q) /\
    (forall conv lb fuel, (13 <= fuel)%nat -> forward conv (Some 0%nat) lb fuel bess_calls (meta p) = Ok (Lost "t4_start")) /\
    (forall conv lb fuel, (13 <= fuel)%nat -> forward conv (Some 0%nat) lb fuel script_calls (meta p) = Ok (Lost "t4_start")).
Proof.
  exists (mk 2 (Some {| v_tpid := 33024; v_pcp := 0; v_dei := 0; v_vid := 500 |}) (Ip4 (hdr 1 2 6) (Raw []))).
  split; [|split; [|split; [|split]]].
  - unfold frame_ok, mk. cbn [p_frame f_dst f_src f_tag f_net]. repeat split; try (repeat constructor; lia); cbn; try lia.
  - right. cbn. lia.
  - intros b. eexists. reflexivity.
  - intros conv lb fuel H. replace fuel with (13 + (fuel - 13))%nat by lia. vm_compute. reflexivity.
  - intros conv lb fuel H. replace fuel with (13 + (fuel - 13))%nat by lia. vm_compute. reflexivity.
Qed.
Print Assumptions C93_tag_refuted.

(** If a match module drops what matches nothing until set_default_gate is called, every untagged packet
    is lost: neither script calls it for t0_start. *)
Theorem C93_default_gate_refuted : forall conv lb fuel p calls,
  calls = script_calls \/ calls = bess_calls -> (13 <= fuel)%nat ->
  frame_ok (p_frame p) -> f_tag (p_frame p) = None ->
  forward conv None lb fuel calls (meta p) = Ok (Lost "t0_start").
Proof.
  intros conv lb fuel [[d s tg n] i tu td] calls C H (D & S_ & _ & _ & N) T. cbn [p_frame f_tag f_dst f_src f_net] in *. subst tg.
  replace fuel with (S (12 + (fuel - 13)))%nat by lia. unfold forward, meta. cbn [p_frame p_in p_tun p_tdst].
  fold (uw d s n).
  destruct C as [->| ->]; [rewrite ps_ok|rewrite pb_ok]; cbn [bind]; [rewrite ns_t0|rewrite nb_t0]; rewrite r_tag by auto; reflexivity.
Qed.
Print Assumptions C93_default_gate_refuted.

(** cord_softswitch_pipeline:368 adds the rule of table 3 to t0_inport: port 3 is
    treated like port 2 in table 0 and table 3 drops everything. *)
Theorem C93_port3_refuted :
  (exists p, frame_ok (p_frame p) /\ plain p /\ p_in p = 3 /\
    (forall b, exists q, openflow b p = Port 1 q \/ openflow b p = Port 4 q) /\
    forall conv lb fuel, (13 <= fuel)%nat ->
      exists k, forward conv (Some 0%nat) lb fuel script_calls (meta p) = Ok (Reach "DRP3" k)) /\
  (exists p, frame_ok (p_frame p) /\ plain p /\ p_in p = 3 /\
    (forall b q, openflow b p <> Local q) /\
    forall conv lb fuel, (13 <= fuel)%nat ->
      forward conv (Some 0%nat) lb fuel script_calls (meta p) = Ok (Reach "LCL" (meta p))).
Proof.
  split.
  - exists (mk 3 None (Ip4 (hdr 1 2 6) (Raw []))). split; [|split; [exact Logic.I|split; [reflexivity|split]]].
    + unfold frame_ok, mk. cbn [p_frame f_dst f_src f_tag f_net]. repeat split; try (repeat constructor; lia); cbn; try lia.
    + intros b. set (p := mk 3 None _).
      assert (E : openflow b p = perform (fun _ _ => Dropped) (buckets (b p)) p) by reflexivity.
      rewrite E. destruct (b p); eexists; [right|left]; reflexivity.
    + intros conv lb fuel H. replace fuel with (13 + (fuel - 13))%nat by lia. apply reaches. vm_compute. reflexivity.
  - exists (mk 3 None (Ip4 (hdr 1 16843009 6) (Raw []))). split; [|split; [exact Logic.I|split; [reflexivity|split]]].
    + unfold frame_ok, mk. cbn [p_frame f_dst f_src f_tag f_net]. repeat split; try (repeat constructor; lia); cbn; try lia.
    + intros b q. set (p := mk 3 None _).
      assert (E : openflow b p = perform (fun _ _ => Dropped) (buckets (b p)) p) by reflexivity.
      rewrite E. destruct (b p); discriminate.
    + intros conv lb fuel H. replace fuel with (13 + (fuel - 13))%nat by lia. vm_compute. reflexivity.
Qed.
Print Assumptions C93_port3_refuted.

(** Filters and matches of the pipeline look at frames the rules exclude: UDP over IPv6
    goes to LOCAL, and a frame that is not IP is routed by the bytes where IP has its addresses. *)
Definition v6 : bytes := [96; 0; 0; 0; 0; 16; 17; 64] ++ repeat 0 32 ++ [0; 1; 18; 181] ++ repeat 0 12.
Theorem C93_other_types_refuted :
  (exists p, frame_ok (p_frame p) /\ p_in p = 2 /\ net_type (f_net (p_frame p)) = 34525 /\
    (forall b, openflow b p = Dropped) /\
    forall conv lb fuel, (13 <= fuel)%nat ->
      forward conv (Some 0%nat) lb fuel bess_calls (meta p) = Ok (Reach "LCL" (meta p))) /\
  (exists p, frame_ok (p_frame p) /\ p_in p = 2 /\ net_type (f_net (p_frame p)) = 34916 /\
    (forall b, openflow b p = Dropped) /\
    forall conv lb fuel, (13 <= fuel)%nat ->
      exists k, forward conv (Some 0%nat) lb fuel bess_calls (meta p) = Ok (Reach "OUT4" k)).
Proof.
  split.
  - exists (mk 2 None (Other 34525 v6)). split; [|split; [reflexivity|split; [reflexivity|split; [reflexivity|]]]].
    + unfold frame_ok, mk. cbn [p_frame f_dst f_src f_tag f_net]. repeat split; try (repeat constructor; lia); cbn; try lia.
    + intros conv lb fuel H. replace fuel with (13 + (fuel - 13))%nat by lia. vm_compute. reflexivity.
  - exists (mk 2 None (Other 34916 (repeat 0 16 ++ [10; 10; 12; 3] ++ repeat 0 30))). split; [|split; [reflexivity|split; [reflexivity|split; [reflexivity|]]]].
    + unfold frame_ok, mk. cbn [p_frame f_dst f_src f_tag f_net]. repeat split; try (repeat constructor; lia); cbn; try lia.
    + intros conv lb fuel H. replace fuel with (13 + (fuel - 13))%nat by lia. apply reaches. vm_compute. reflexivity.
Qed.
Print Assumptions C93_other_types_refuted.

(** *** C94: the two files make the same switch. *)

(** Missing: port 3. *)
Theorem C94_same_partial : forall conv g0 lb fuel k,
  (13 <= fuel)%nat -> 0 <= k_port k < 256 -> k_port k <> 3 ->
  exists a b, forward conv g0 lb fuel script_calls k = Ok a /\ forward conv g0 lb fuel bess_calls k = Ok b /\
    (a = b \/ (dropped a /\ dropped b)).
Proof.
  intros conv g0 lb fuel k H R NE. replace fuel with (13 + (fuel - 13))%nat by lia.
  unfold forward. rewrite ps_ok, pb_ok. cbn [bind]. do 2 eexists. split; [reflexivity|split; [reflexivity|]].
  apply both; auto.
Qed.
Print Assumptions C94_same_partial.
Theorem C94_port3_refuted :
  exists k, k_port k = 3 /\ forall conv lb fuel, (forall v, length (conv v) = 6%nat) -> (13 <= fuel)%nat ->
    exists k' s k'', forward conv (Some 0%nat) lb fuel script_calls k = Ok (Reach "DRP3" k') /\
      forward conv (Some 0%nat) lb fuel bess_calls k = Ok (Reach s k'') /\ (s = "OUT1"%string \/ s = "OUT4"%string).
Proof.
  exists (meta (mk 3 None (Ip4 (hdr 1 2 6) (Raw [])))). split; [reflexivity|].
  intros conv lb fuel C6 H. replace fuel with (13 + (fuel - 13))%nat by lia.
  destruct (reaches (forward conv (Some 0%nat) lb (13 + (fuel - 13)) script_calls (meta (mk 3 None (Ip4 (hdr 1 2 6) (Raw []))))) "DRP3")
    as (k' & E'); [vm_compute; reflexivity|].
  set (p := mk 3 None (Ip4 (hdr 1 2 6) (Raw []))) in *.
  destruct (C93_tables_partial conv lb (13 + (fuel - 13)) p) as (f & E & X); auto; [lia| | | |].
  - unfold p, frame_ok, mk. cbn [p_frame f_dst f_src f_tag f_net]. repeat split; try (repeat constructor; lia); cbn; try lia.
  - right. cbn. lia.
  - exact Logic.I.
  - assert (O_ : openflow (bucket lb) p = perform (fun _ _ => Dropped) (buckets (bucket lb p)) p) by reflexivity.
    rewrite O_ in X. destruct (bucket lb p); destruct X as [_ ->]; do 3 eexists; (split; [exact E'|split; [exact E|]]); auto.
Qed.

Print Assumptions C94_port3_refuted.
Example C94_example :
  forward kind (Some 0%nat) (fun _ => true) 13 script_calls (meta to_port4) = forward kind (Some 0%nat) (fun _ => true) 13 bess_calls (meta to_port4).
Proof. vm_compute; reflexivity. Qed.

(** *** C95: every byte string given for a field has the size of the field. *)

(** The helper reads the usual notation. *)
Theorem C95_aton_mac : forall l, l <> [] -> Forall (fun b => 0 <= b < 256) l ->
  aton_mac (colon l) = if (length l =? 6)%nat then Ok l else Err StructError.
Proof. exact aton_colon. Qed.
Print Assumptions C95_aton_mac.
Example C95_example : aton_mac x1 = Ok mac1 /\ colon mac1 = x1 /\ aton_mac (colon [1; 2; 3]) = Err StructError.
Proof. repeat split; vm_compute; reflexivity. Qed.

(** Digits may be capital letters. *)
Definition same_letter (a b : Z) : Prop := a = b \/ (97 <= b <= 102 /\ a = b - 32).

Lemma hexval_letter a b : same_letter a b -> hexval a = hexval b.
Proof.
  intros [->|[H ->]]; [reflexivity|]. unfold hexval.
  rewrite (proj2 (Z.leb_gt (b - 32) 57)), (proj2 (Z.leb_gt 97 (b - 32))), (proj2 (Z.leb_gt b 57)) by lia.
  rewrite (proj2 (Z.leb_le 65 (b - 32))), (proj2 (Z.leb_le (b - 32) 70)), (proj2 (Z.leb_le 97 b)), (proj2 (Z.leb_le b 102)) by lia.
  rewrite !andb_false_r. cbn [andb]. f_equal. lia.
Qed.

Lemma split_letter t u : Forall2 same_letter t u -> Forall2 (Forall2 same_letter) (split_at 58 t) (split_at 58 u).
Proof.
  induction 1 as [|a b t u Hab F IH]; [constructor; constructor|]. cbn [split_at].
  assert (E : (a =? 58) = (b =? 58)) by (destruct Hab as [->|[H ->]]; [reflexivity|]; rewrite (proj2 (Z.eqb_neq _ _)), (proj2 (Z.eqb_neq b _)) by lia; reflexivity).
  rewrite E. destruct (b =? 58); [constructor; [constructor|exact IH]|].
  inversion IH; subst; constructor; try constructor; auto.
Qed.

Lemma int16_letter t u : Forall2 same_letter t u -> int16 t = int16 u.
Proof.
  intros F. unfold int16.
  assert (G : forall acc, hex_go acc t = hex_go acc u).
  { induction F as [|a b t u Hab F IH]; intros acc; [reflexivity|]. cbn [hex_go]. rewrite (hexval_letter _ _ Hab).
    destruct (hexval b); [apply IH|reflexivity]. }
  inversion F; subst; [reflexivity|apply G].
Qed.

Lemma aton_letter t u : Forall2 same_letter t u -> aton_mac t = aton_mac u.
Proof.
  intros F. unfold aton_mac. replace (map_res int16 (split_at 58 t)) with (map_res int16 (split_at 58 u)); [reflexivity|].
  apply split_letter in F. induction F as [|a b l m Hab F IH]; [reflexivity|]. cbn [map_res].
  rewrite (int16_letter _ _ Hab), IH. reflexivity.
Qed.

Theorem C95_aton_mac_capitals : forall l t, l <> [] -> Forall (fun b => 0 <= b < 256) l ->
  Forall2 same_letter t (colon l) ->
  aton_mac t = if (length l =? 6)%nat then Ok l else Err StructError.
Proof. intros l t NE F H. rewrite (aton_letter _ _ H). apply aton_colon; assumption. Qed.
Print Assumptions C95_aton_mac_capitals.

Example C95_capitals_example :
  Forall2 same_letter [70; 97; 58; 48; 66] (colon [250; 11]) /\
  aton_mac ([70; 97; 58; 48; 66] ++ [58; 48; 48; 58; 49; 49; 58; 102; 70; 58; 48; 49]) = Ok [250; 11; 0; 17; 255; 1].
Proof. split; [|vm_compute; reflexivity]. change (colon [250; 11]) with [102; 97; 58; 48; 98]. repeat apply Forall2_cons; try apply Forall2_nil; unfold same_letter; lia. Qed.

(** But the Update modules get the text itself (lines 121-163). *)
Definition fits (fv : fld * val) : Prop :=
  match snd fv with B b => length b = fsize (fst fv) | I z => 0 <= z < 256 ^ Z.of_nat (fsize (fst fv)) end.
Definition updates (l : list call) : list (fld * val) :=
  flat_map (fun c => match c with Create "Update" _ (AValues l) => l | _ => [] end) l.
Theorem C95_update_refuted : forall calls fv,
  calls = script_calls \/ calls = bess_calls -> In fv (updates calls) ->
  ~ fits fv /\ exists m, length m = fsize (fst fv) /\ snd fv = B (colon m).
Proof.
  intros calls fv C H.
  assert (K : exists m, In m [mac1; mac2; mac3; mac4] /\ fv = (HWDST, B (colon m))).
  { destruct C as [->| ->]; cbv in H; repeat destruct H as [<-|H]; try contradiction;
      solve [exists mac1; split; [cbn; tauto|reflexivity] | exists mac2; split; [cbn; tauto|reflexivity]
            |exists mac3; split; [cbn; tauto|reflexivity] | exists mac4; split; [cbn; tauto|reflexivity]]. }
  destruct K as (m & M & ->). cbn [In] in M.
  repeat destruct M as [<-|M]; try contradiction; (split; [unfold fits; cbn; lia|eexists; split; [|reflexivity]; reflexivity]).
Qed.
Print Assumptions C95_update_refuted.
Example C95_updates_example : length (updates script_calls) = 6%nat /\ length (updates bess_calls) = 6%nat.
Proof. split; reflexivity. Qed.
