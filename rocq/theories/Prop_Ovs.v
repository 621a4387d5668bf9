(** Properties C50, C58-C61: the Open vSwitch helpers. *)

From Coq Require Import Permutation.
From Verif Require Import Py Struct P_Struct M_Hello M_Loop M_Controller M_Ovs S_Hello S_Loop S_Controller S_Ovs
  P_Hello P_Loop P_Controller P_Ovs.
Local Open Scope Z_scope.
Local Open Scope list_scope.

(** *** C50 *)

(** Over any history of a negotiated connection whose application sends no
    PACKET_OUT itself, the PACKET_OUTs written are exactly those that release the
    buffers of the PACKET_INs received, once each and in order. *)
Theorem C50_released_once : forall parent os s v,
  parent = None \/ parent = Some (Ok tt) ->
  k_version s = Some v -> 0 <= v < 256 -> Forall aop_ok os ->
  filter is_packet_out (k_wire (fst (arun true parent s os)))
  = filter is_packet_out (k_wire s) ++ flat_map released_op os.
Proof. intros parent os s v Hp Hv Hr Ho. apply arun_pout; [exact Hp|exists v; auto|exact Ho]. Qed.
Print Assumptions C50_released_once.

(** For one message: what is written is the release, with at most a separating
    barrier in front; nothing for any other message; and handling fails only for a
    PACKET_IN too short to hold a buffer id. *)
Theorem C50_one_message : forall parent s m bxid v,
  parent = None \/ parent = Some (Ok tt) ->
  k_version s = Some v -> 0 <= v < 256 -> 0 <= bxid < 2 ^ 32 -> bytes_ok m -> (8 <= length m)%nat ->
  let r := handle_async true parent s m bxid None None in
  (exists sep, k_wire (fst r) = k_wire s ++ sep ++ released m /\
     (length sep <= 1)%nat /\ Forall (fun b => barrier_request b = true) sep) /\
  (released m = [] -> k_wire (fst r) = k_wire s) /\
  (snd r = Ok tt \/ (byte_at m 1 = 10 /\ (length m < 12)%nat)).
Proof.
  intros parent s m bxid v Hp Hv Hr Hb Hok Hl.
  destruct (handle_async_spec s m bxid parent Hp (ex_intro _ v (conj Hv Hr)) Hb Hok Hl) as (_ & _ & A3 & A4).
  split; [exact A4|]. split; [|exact A3].
  intros E. unfold released in E. unfold handle_async.
  assert (Q : (if negb true then (s, Ok tt) else
        match parse_ofp_header m with
        | Err e => (s, Err e)
        | Ok h =>
            if h_type h =? 10 then
              match unpacks "!I" m 8 with
              | Ok [VInt buffer_id] =>
                  if buffer_id =? 4294967295 then (s, Ok tt)
                  else
                    match
                      (if h_version h =? 1
                       then packs "!BBHIIHH" [VInt (h_version h); VInt 13; VInt 16; VInt (h_xid h);
                                              VInt buffer_id; VInt 65535; VInt 0]
                       else packs "!BBHIIIH6x" [VInt (h_version h); VInt 13; VInt 24; VInt (h_xid h);
                                                VInt buffer_id; VInt 4294967293; VInt 0])
                    with
                    | Ok p => locked_send s None p bxid None None
                    | Err e => (s, Err e)
                    end
              | Ok _ => (s, Err ValueError)
              | Err e => (s, Err e)
              end
            else (s, Ok tt)
        end) = (s, Ok tt) \/ k_wire (fst (if negb true then (s, Ok tt) else
        match parse_ofp_header m with
        | Err e => (s, Err e)
        | Ok h =>
            if h_type h =? 10 then
              match unpacks "!I" m 8 with
              | Ok [VInt buffer_id] =>
                  if buffer_id =? 4294967295 then (s, Ok tt)
                  else
                    match
                      (if h_version h =? 1
                       then packs "!BBHIIHH" [VInt (h_version h); VInt 13; VInt 16; VInt (h_xid h);
                                              VInt buffer_id; VInt 65535; VInt 0]
                       else packs "!BBHIIIH6x" [VInt (h_version h); VInt 13; VInt 24; VInt (h_xid h);
                                                VInt buffer_id; VInt 4294967293; VInt 0])
                    with
                    | Ok p => locked_send s None p bxid None None
                    | Err e => (s, Err e)
                    end
              | Ok _ => (s, Err ValueError)
              | Err e => (s, Err e)
              end
            else (s, Ok tt)
        end)) = k_wire s).
  { cbn [negb]. rewrite parse_header_spec by exact Hl. cbn [h_type h_version h_xid]. rewrite unpack_buffer.
    destruct (byte_at m 1 =? 10); [|auto]. destruct (12 <=? length m)%nat; [|auto].
    destruct (u32_at m 8 =? 4294967295); [auto|]. discriminate E. }
  destruct Hp as [->| ->]; destruct Q as [Q|Q]; try (exact Q); rewrite Q; reflexivity.
Qed.
Print Assumptions C50_one_message.

(** A channel with a request outstanding receives a PACKET_IN of OpenFlow 1.3
    with buffer 7, one without buffer, and one of OpenFlow 1.0. *)
Definition ex_pin (v buf : Z) : bytes := [v; 10; 0; 18] ++ be 4 99 ++ be 4 buf ++ [0; 6; 0; 0; 1; 2].
Definition ex_hist : list aop :=
  [AOp (CVersion 4); AOp (CSend (Some 3%nat) ([4; 5; 0; 8] ++ be 4 5) 1 None None);
   ARecv (ex_pin 4 7) 77; ARecv (ex_pin 4 4294967295) 78; ARecv (ex_pin 1 8) 79].

Ltac ex_bytes :=
  match goal with |- bytes_ok ?l => let v := eval vm_compute in l in change l with v end;
  repeat (apply Forall_cons; [unfold byte_ok; lia|]); apply Forall_nil.

Example C50_example :
  Forall aop_ok ex_hist /\
  k_wire (fst (arun true None (mkCch [] [] (Some 4) [] None None) ex_hist))
  = [ [4; 5; 0; 8; 0; 0; 0; 5]; [4; 20; 0; 8; 0; 0; 0; 77];
      [4; 13; 0; 24; 0; 0; 0; 99; 0; 0; 0; 7; 255; 255; 255; 253; 0; 0; 0; 0; 0; 0; 0; 0];
      [1; 13; 0; 16; 0; 0; 0; 99; 0; 0; 0; 8; 255; 255; 0; 0] ] /\
  length (flat_map released_op ex_hist) = 2%nat.
Proof.
  split; [|split; vm_compute; reflexivity].
  repeat (apply Forall_cons; [|]); try apply Forall_nil; cbn [aop_ok]; try lia.
  - repeat split; try lia. vm_compute. discriminate.
  - split; [ex_bytes|]. split; [cbn; lia|lia].
  - split; [ex_bytes|]. split; [cbn; lia|lia].
  - split; [ex_bytes|]. split; [cbn; lia|lia].
Qed.

(** *** C58: what AutoPacketOut hides. *)

(** Without the class a message of these types is routed like any other: to the
    callback of the oldest batch or to the handler; with it, neither sees it. *)
Theorem C58_async_hidden_refuted : forall s m bxid,
  (8 <= length m)%nat -> byte_at m 1 = 10 \/ byte_at m 1 = 11 \/ byte_at m 1 = 12 ->
  (exists r, snd (astep true None s (ARecv m bxid)) = AAsync r) /\
  (k_seq s = [] -> snd (cstep false s (CRecv m)) = CGot ToDefault).
Proof.
  intros s m bxid Hl Ht.
  assert (Ec : ctl_recv s m = (s, Ok tt)).
  { unfold ctl_recv. destruct m as [|b m]; [reflexivity|]. rewrite parse_header_spec by exact Hl. cbn [h_type].
    destruct (Z.eqb_spec (byte_at (b :: m) 1) 6); [lia|reflexivity]. }
  split.
  - cbn [astep]. rewrite Ec. 
    assert (Ei : intercept true s m = (s, ToAsync)).
    { unfold intercept. rewrite parse_header_spec by exact Hl. cbn [h_type].
      destruct Ht as [-> |[-> | ->]]; reflexivity. }
    rewrite Ei. destruct (handle_async true None s m bxid None None) as [s3 r]. exists r. reflexivity.
  - intros Es. cbn [cstep]. rewrite Ec. unfold intercept. rewrite parse_header_spec by exact Hl. cbn [andb].
    rewrite Es. reflexivity.
Qed.
Print Assumptions C58_async_hidden_refuted.

Example C58_example :
  snd (astep true None (mkCch [] [] (Some 4) [] None None) (ARecv (ex_pin 4 7) 1)) = AAsync (Ok tt) /\
  snd (cstep false (mkCch [] [] (Some 4) [] None None) (CRecv (ex_pin 4 7))) = CGot ToDefault.
Proof. split; vm_compute; reflexivity. Qed.

(** All other messages are routed as without the class.  Missing: the three
    asynchronous types. *)
Theorem C58_others_partial : forall s m bxid,
  (8 <= length m)%nat -> byte_at m 1 <> 10 -> byte_at m 1 <> 11 -> byte_at m 1 <> 12 ->
  fst (astep true None s (ARecv m bxid)) = fst (cstep false s (CRecv m)) /\
  exists o, snd (astep true None s (ARecv m bxid)) = AGot o /\ snd (cstep false s (CRecv m)) = CGot o.
Proof.
  intros s m bxid Hl N1 N2 N3. cbn [astep cstep].
  destruct (ctl_recv s m) as [s1 [u|e]]; [|split; [reflexivity|eexists; split; reflexivity]].
  assert (E : intercept true s1 m = intercept false s1 m).
  { unfold intercept. rewrite parse_header_spec by exact Hl. cbn [h_type andb].
    replace ((byte_at m 1 =? 10) || (byte_at m 1 =? 11) || (byte_at m 1 =? 12)) with false by lia. reflexivity. }
  assert (NA : snd (intercept false s1 m) <> ToAsync).
  { unfold intercept. rewrite parse_header_spec by exact Hl. cbn [andb]. cbv zeta.
    destruct (k_seq s1) as [|e q]; [discriminate|]. destruct (is_barrier_rep _).
    - assert (W : forall xid d q0, snd (walk (k_dead s1) xid d q0) <> ToAsync).
      { intros xid d q0. revert d. induction q0 as [|[cb|x cb] q0 IH]; intros d; cbn [walk].
        - discriminate.
        - destruct d; [discriminate|apply IH].
        - destruct (x =? xid); [|discriminate]. cbn. destruct (live (k_dead s1) cb); discriminate. }
      match goal with |- context [walk ?a ?b ?c ?d] => specialize (W b c d); destruct (walk a b c d) as [[q'|] r] end; exact W.
    - destruct e as [cb|x cb]; [destruct (live (k_dead s1) cb)|]; discriminate. }
  rewrite E. destruct (intercept false s1 m) as [s2 r]. cbn [snd] in NA.
  destruct r; try congruence; (split; [reflexivity|eexists; split; reflexivity]).
Qed.
Print Assumptions C58_others_partial.

Example C58_others_example : byte_at ([4; 19; 0; 8] ++ be 4 1) 1 <> 10 /\ (8 <= length ([4; 19; 0; 8] ++ be 4 1)%Z)%nat.
Proof. split; [vm_compute; discriminate|cbn; lia]. Qed.

(** *** C59: options of ovs-ofctl. *)

(** Every list of options properly used becomes the words of the manual, in the
    order of the dictionary.  Missing: flags given as False. *)
Theorem C59_options_partial : forall os args,
  Forall2 (fun ov a => proper (fst ov) (snd ov) a) os args ->
  make_options os = Ok (concat (map (fun oa => words (fst oa) (snd oa)) (combine (map fst os) args))).
Proof. exact make_options_proper. Qed.
Print Assumptions C59_options_partial.

(** An unknown option never reaches the command line. *)
Theorem C59_unknown_partial : forall os o v,
  In (o, v) os -> ~ In o (numeric ++ flags ++ with_text) -> is_ok (make_options os) = false.
Proof. exact make_options_unknown. Qed.
Print Assumptions C59_unknown_partial.

Example C59_example :
  Forall2 (fun ov a => proper (fst ov) (snd ov) a)
    [("t"%string, OInt 5); ("strict"%string, OBool true); ("flow_format"%string, OStr "nxm");
     ("O"%string, OStr "OpenFlow13"); ("log_file"%string, ONone)]
    [Some "5"%string; None; Some "nxm"%string; Some "OpenFlow13"%string; None] /\
  make_options [("t"%string, OInt 5); ("strict"%string, OBool true); ("flow_format"%string, OStr "nxm");
     ("O"%string, OStr "OpenFlow13"); ("log_file"%string, ONone)]
  = Ok ["-t"; "5"; "--strict"; "--flow-format=nxm"; "-O"; "OpenFlow13"; "--log-file"]%string /\
  ~ In "bundle"%string (numeric ++ flags ++ with_text).
Proof.
  split; [|split; [vm_compute; reflexivity|]].
  - constructor; [apply (PrNum "t" 5); cbn; tauto|].
    constructor; [apply PrFlag; cbn; tauto|].
    constructor; [apply PrText; [cbn; tauto|discriminate]|].
    constructor; [apply PrText; [cbn; tauto|discriminate]|].
    constructor; [apply PrNoArg; cbn; tauto|]. constructor.
  - intros H. repeat (destruct H as [H|H]; [discriminate H|]). exact H.
Qed.

(** A flag switched off by the caller is passed all the same. *)
Theorem C59_false_flag_refuted : forall o, In o flags -> make_options [(o, OBool false)] = Ok [spelled o].
Proof. intros o H. cbn [make_options]. rewrite (flag_false o H). reflexivity. Qed.
Print Assumptions C59_false_flag_refuted.

Example C59_false_example : make_options [("strict"%string, OBool false)] = Ok ["--strict"%string].
Proof. vm_compute. reflexivity. Qed.

(** *** C60: ofctl. *)

(** The options ofctl passes: the caller's, and the negotiated protocol unless it
    is 1.0 or the caller chose one. *)
Definition protocol_added (v : Z) (os : list (string * oval)) : list (string * oval) :=
  if (v =? 1) || existsb (fun ov => (fst ov =? "O")%string || (fst ov =? "protocols")%string) os then []
  else [("O"%string, OStr (nth (Z.to_nat v) ["?"; "OpenFlow10"; "OpenFlow11"; "OpenFlow12"; "OpenFlow13"]%string "?"%string))].

Lemma lookup_none {A} k (l : list (string * A)) : lookup k l = None <-> existsb (fun ov => (fst ov =? k)%string) l = false.
Proof.
  induction l as [|[x a] l IH]; cbn; [tauto|]. destruct (x =? k)%string; cbn; [split; discriminate|exact IH].
Qed.

Lemma existsb_or {A} (f g : A -> bool) l : existsb (fun x => f x || g x) l = existsb f l || existsb g l.
Proof. induction l; cbn; [reflexivity|]. rewrite IHl. destruct (f a), (g a), (existsb f l); reflexivity. Qed.

(** For versions 1.0 to 1.3 the command is run exactly once, between the start and
    the stop of the temporary server, with the negotiated protocol.  Missing: 1.4,
    channels that are no ParentChannel. *)
Theorem C60_run_partial : forall v start addr order run action args os ws,
  1 <= v <= 4 -> start = Ok tt -> (forall l, Permutation l (order l)) ->
  make_options (order (os ++ protocol_added v os)) = Ok ws ->
  let cmd := ("ovs-ofctl"%string :: ws) ++ [action; addr] ++ args in
  ofctl true (Some v) start addr order run action args os = ([EStart; ERun cmd; EHalt], run cmd).
Proof.
  intros v start addr order run action args os ws Hv -> _ Hw cmd. unfold ofctl. cbn [negb]. cbv zeta.
  assert (Q : match Some v with
          | Some 1 => Ok os
          | _ =>
              match lookup "O" os, lookup "protocols" os with
              | None, None => p <- protocol_name (Some v) ;; Ok (os ++ [("O"%string, OStr p)])
              | _, _ => Ok os
              end
          end = Ok (os ++ protocol_added v os)).
  2: { setoid_rewrite Q. cbn [bind]. rewrite Hw. reflexivity. }
  { clear Hw cmd. unfold protocol_added. rewrite existsb_or.
    destruct (Z.eqb_spec v 1) as [->|N]; cbn [orb]; [rewrite app_nil_r; reflexivity|].
    assert (E : forall (A : Type) (a b : A), match Some v with Some 1 => a | _ => b end = b).
    { intros A a b. destruct v as [|[p|p|]|p]; try reflexivity. congruence. }
    rewrite E.
    destruct (existsb (fun ov => (fst ov =? "O")%string) os) eqn:X1.
    + destruct (lookup "O" os) eqn:L1; [|apply lookup_none in L1; congruence]. rewrite app_nil_r. reflexivity.
    + apply lookup_none in X1. rewrite X1. cbn [orb].
      destruct (existsb (fun ov => (fst ov =? "protocols")%string) os) eqn:X2.
      * destruct (lookup "protocols" os) eqn:L2; [|apply lookup_none in L2; congruence]. rewrite app_nil_r. reflexivity.
      * apply lookup_none in X2. rewrite X2.
        assert (v = 2 \/ v = 3 \/ v = 4) as [-> |[-> | ->]] by lia; reflexivity. }
Qed.
Print Assumptions C60_run_partial.

(** Whatever fails, a server that was started is stopped, last and once; and the
    command is never run twice. *)
Theorem C60_stopped_partial : forall has_temp version start addr order run action args os,
  let ev := fst (ofctl has_temp version start addr order run action args os) in
  start = Ok tt -> ev = [] \/ ev = [EStart; EHalt] \/ exists cmd, ev = [EStart; ERun cmd; EHalt].
Proof.
  intros has_temp version start addr order run action args os ev ->. unfold ev, ofctl.
  destruct has_temp; cbn [negb]; [|auto]. cbv zeta.
  match goal with |- context [match ?c with Ok cmd => _ | Err e => _ end] => destruct c as [cmd|e] end; cbn [fst]; eauto.
Qed.
Print Assumptions C60_stopped_partial.

Example C60_example :
  ofctl true (Some 4) (Ok tt) "tcp:127.0.0.1:6653" (fun l => l) (fun _ => Ok []) "dump-flows" [] [("t"%string, OInt 3)]
  = ([EStart; ERun ["ovs-ofctl"; "-t"; "3"; "-O"; "OpenFlow13"; "dump-flows"; "tcp:127.0.0.1:6653"]%string; EHalt], Ok []) /\
  make_options (([("t"%string, OInt 3)]) ++ protocol_added 4 [("t"%string, OInt 3)]) = Ok ["-t"; "3"; "-O"; "OpenFlow13"]%string.
Proof. split; vm_compute; reflexivity. Qed.

(** OpenFlow 1.4: no command is run unless the caller names the protocol. *)
Theorem C60_of14_refuted : forall addr order run action args os,
  (forall o v, In (o, v) os -> o <> "O"%string /\ o <> "protocols"%string) ->
  ofctl true (Some 5) (Ok tt) addr order run action args os = ([EStart; EHalt], Err IndexError).
Proof.
  intros addr order run action args os H. unfold ofctl. cbn [negb].
  assert (L : lookup "O" os = None /\ lookup "protocols" os = None).
  { split; apply lookup_none; induction os as [|[o v] os IH]; cbn; try reflexivity;
      destruct (H o v (or_introl eq_refl)) as [N1 N2].
    - destruct (String.eqb_spec o "O"); [contradiction|]. apply IH. intros o' v' Hi. apply (H o' v'). right. exact Hi.
    - destruct (String.eqb_spec o "protocols"); [contradiction|]. apply IH. intros o' v' Hi. apply (H o' v'). right. exact Hi. }
  destruct L as [-> ->]. reflexivity.
Qed.
Print Assumptions C60_of14_refuted.

(** OvsChannel alone has no temp_server: the call always fails. *)
Theorem C60_alone_refuted : forall version start addr order run action args os,
  ofctl false version start addr order run action args os = ([], Err AttributeError).
Proof. reflexivity. Qed.
Print Assumptions C60_alone_refuted.

Example C60_of14_example : forall o v, In (o, v) [("strict"%string, OBool true)] -> o <> "O"%string /\ o <> "protocols"%string.
Proof. intros o v [E|[]]. injection E as <- <-. split; discriminate. Qed.

(** *** C61: rule2ofp. *)

(** Whatever ovs-ofctl sends, each barrier request is answered once, in order,
    with its version and transaction id, and the result is the FLOW_MODs, all
    and in order. *)
Theorem C61_rules : forall ms, Forall (fun m => bytes_ok m /\ (8 <= length m)%nat) ms ->
  exists replies, rule_handles ms = Ok (replies, filter (fun m => byte_at m 1 =? 14) ms) /\
    Forall2 (fun r q => answers_barrier r q = true /\ length r = 8%nat) replies (filter barrier_request ms).
Proof.
  intros ms H. eexists. split; [apply rule_handles_spec; exact H|].
  assert (H' : Forall (fun m => bytes_ok m /\ (8 <= length m)%nat /\ barrier_request m = true) (filter barrier_request ms)).
  { apply Forall_forall. intros m Hm. apply filter_In in Hm. destruct Hm as [Hm E].
    rewrite Forall_forall in H. destruct (H m Hm). auto. }
  induction H' as [|m l (Hb & Hl & E) _ IH]; [constructor|]. cbn [map]. constructor; [|exact IH].
  pose proof (u32_range m 4 Hb) as R. split; [|rewrite app_length, be_length; reflexivity].
  assert (Ex : xid_of ([byte_at m 0; byte_at m 1 + 1; 0; 8] ++ be 4 (u32_at m 4)) = u32_at m 4).
  { generalize dependent (u32_at m 4). intros x R. unfold xid_of, u32_at, byte_at. cbn [be Datatypes.app nth Nat.add].
    pose proof (Z.div_mod x 256 ltac:(lia)). pose proof (Z.div_mod (x / 256) 256 ltac:(lia)).
    pose proof (Z.div_mod (x / 256 / 256) 256 ltac:(lia)). pose proof (Z.div_mod (x / 256 / 256 / 256) 256 ltac:(lia)).
    assert (x / 256 / 256 / 256 / 256 = 0). { rewrite !Z.div_div by lia. apply Z.div_small. exact R. }
    lia. }
  unfold answers_barrier. rewrite Ex. rewrite app_length, be_length. cbn [length Nat.add Nat.leb andb].
  change (byte_at ([byte_at m 0; byte_at m 1 + 1; 0; 8] ++ be 4 (u32_at m 4)) 0) with (byte_at m 0).
  change (byte_at ([byte_at m 0; byte_at m 1 + 1; 0; 8] ++ be 4 (u32_at m 4)) 1) with (byte_at m 1 + 1).
  unfold xid_of. rewrite !Z.eqb_refl. reflexivity.
Qed.
Print Assumptions C61_rules.

Example C61_example :
  Forall (fun m => bytes_ok m /\ (8 <= length m)%nat)
    [ [4; 0; 0; 8; 0; 0; 0; 1]; [4; 14; 0; 10; 0; 0; 0; 2; 7; 7]; [4; 20; 0; 8; 0; 0; 0; 3] ] /\
  rule_handles [ [4; 0; 0; 8; 0; 0; 0; 1]; [4; 14; 0; 10; 0; 0; 0; 2; 7; 7]; [4; 20; 0; 8; 0; 0; 0; 3] ]
  = Ok ([[4; 21; 0; 8; 0; 0; 0; 3]], [[4; 14; 0; 10; 0; 0; 0; 2; 7; 7]]).
Proof.
  split; [|vm_compute; reflexivity].
  repeat (apply Forall_cons; [split; [repeat (apply Forall_cons; [unfold byte_ok; lia|]); apply Forall_nil|cbn; lia]|]).
  apply Forall_nil.
Qed.
