(** Proofs about twink/ovs.py. *)

From Coq Require Import Permutation.
From Verif Require Import Py Struct P_Struct M_Hello M_Loop M_Controller M_Ovs S_Hello S_Loop S_Controller S_Ovs
  P_Hello P_Loop P_Controller.
Local Open Scope Z_scope.
Local Open Scope list_scope.

(** *** AutoPacketOut *)

Definition ver_ok (s : cch) : Prop := exists v, k_version s = Some v /\ 0 <= v < 256.

Lemma unpack_buffer m : unpacks "!I" m 8 = if (12 <=? length m)%nat then Ok [VInt (u32_at m 8)] else Err StructError.
Proof.
  unfold unpacks. change (fmt "!I") with (Ok [FU 4]). cbn [bind]. unfold unpack_from. cbn [calcsize item_size].
  change (8 + (4 + 0))%nat with 12%nat. destruct (Nat.leb_spec 12 (length m)); [|reflexivity].
  cbn [decode]. rewrite of_be_4 by lia. reflexivity.
Qed.

Lemma release_v1 xid buf : 0 <= xid < 2 ^ 32 -> 0 <= buf < 2 ^ 32 ->
  packs "!BBHIIHH" [VInt 1; VInt 13; VInt 16; VInt xid; VInt buf; VInt 65535; VInt 0] = Ok (release 1 xid buf).
Proof.
  intros Hx Hb. unfold packs. change (fmt "!BBHIIHH") with (Ok [FU 1; FU 1; FU 2; FU 4; FU 4; FU 2; FU 2]). cbn [bind].
  rewrite !pack_FU by (first [apply in_u4; assumption | reflexivity]). cbn [pack bind]. reflexivity.
Qed.

Lemma release_v v xid buf : 0 <= v < 256 -> v <> 1 -> 0 <= xid < 2 ^ 32 -> 0 <= buf < 2 ^ 32 ->
  packs "!BBHIIIH6x" [VInt v; VInt 13; VInt 24; VInt xid; VInt buf; VInt 4294967293; VInt 0] = Ok (release v xid buf).
Proof.
  intros Hv N Hx Hb. unfold packs.
  change (fmt "!BBHIIIH6x") with (Ok [FU 1; FU 1; FU 2; FU 4; FU 4; FU 4; FU 2; FX 6]). cbn [bind].
  rewrite !pack_FU by (first [apply in_u4; assumption | apply in_u1; assumption | reflexivity]). cbn [pack bind].
  unfold release. destruct (Z.eqb_spec v 1); [congruence|]. cbn [be Datatypes.app]. rewrite (Z.mod_small v) by lia. reflexivity.
Qed.

Lemma release_facts v xid buf : byte_at (release v xid buf) 1 = 13 /\ (8 <= length (release v xid buf))%nat.
Proof. unfold release. destruct (v =? 1); split; try reflexivity; cbn; lia. Qed.

Lemma u32_range m i : bytes_ok m -> 0 <= u32_at m i < 2 ^ 32.
Proof.
  intros H. unfold u32_at. pose proof (byte_at_range m i H). pose proof (byte_at_range m (i + 1) H).
  pose proof (byte_at_range m (i + 2) H). pose proof (byte_at_range m (i + 3) H). lia.
Qed.

Lemma wire_send s h m bxid : ver_ok s -> 0 <= bxid < 2 ^ 32 -> (8 <= length m)%nat ->
  exists sep, k_wire (fst (locked_send s h m bxid None None)) = k_wire s ++ sep ++ [m] /\
    snd (locked_send s h m bxid None None) = Ok tt /\
    ver_ok (fst (locked_send s h m bxid None None)) /\
    (sep = [] \/ exists b, sep = [b] /\ barrier_request b = true /\ is_packet_out b = false).
Proof.
  intros (v & Ev & Hv) Hb Hm. rewrite locked_send_spec. unfold do_send.
  destruct (Nat.ltb_spec (length m) 8); [lia|].
  assert (V : ver_ok s) by (exists v; auto).
  destruct (barrier_request m).
  { exists []. cbn. repeat split; auto. }
  destruct (last_of (k_seq s)) as [[cb|x cb]|].
  - destruct (same (owner (k_dead s) cb) h).
    + exists []. cbn. repeat split; auto.
    + rewrite Ev. destruct (separator (Some v) bxid) as [b|] eqn:Es.
      * exists [b]. cbn. rewrite <- app_assoc. repeat split; auto. right. exists b. split; [reflexivity|].
        destruct (separator_facts _ _ _ Es) as (_ & B & _). split; [exact B|].
        unfold barrier_request in B. unfold is_packet_out. destruct (byte_at b 0 =? 1); lia.
      * exfalso. unfold separator in Es.
        replace ((0 <=? v) && (v <? 256) && (0 <=? bxid) && (bxid <? 4294967296)) with true in Es by lia. discriminate.
  - exists []. cbn. repeat split; auto.
  - destruct h; exists []; cbn; repeat split; auto.
Qed.

Lemma wire_send_short s h m bxid : (length m < 8)%nat -> locked_send s h m bxid None None = (s, Err StructError).
Proof. intros H. rewrite locked_send_spec. unfold do_send. destruct (Nat.ltb_spec (length m) 8); [reflexivity|lia]. Qed.

Lemma filter_pout s sep m :
  (sep = [] \/ exists b, sep = [b] /\ barrier_request b = true /\ is_packet_out b = false) ->
  filter is_packet_out (s ++ sep ++ [m]) = filter is_packet_out s ++ (if is_packet_out m then [m] else []).
Proof.
  intros H. rewrite !filter_app. cbn [filter]. destruct H as [->|(b & -> & _ & E)]; [reflexivity|].
  cbn [filter]. rewrite E. reflexivity.
Qed.

Lemma handle_async_spec s m bxid parent :
  (parent = None \/ parent = Some (Ok tt)) -> ver_ok s -> 0 <= bxid < 2 ^ 32 -> bytes_ok m -> (8 <= length m)%nat ->
  let r := handle_async true parent s m bxid None None in
  filter is_packet_out (k_wire (fst r)) = filter is_packet_out (k_wire s) ++ released m /\ ver_ok (fst r) /\
  (snd r = Ok tt \/ (byte_at m 1 = 10 /\ (length m < 12)%nat)) /\
  (exists sep, k_wire (fst r) = k_wire s ++ sep ++ released m /\ (length sep <= 1)%nat /\ Forall (fun b => barrier_request b = true) sep).
Proof.
  intros Hp V Hb Hok Hl. cbv zeta. unfold handle_async, released.
  replace (match parent with Some (Err e) => (s, Err e) | _ => _ end)
    with (if negb true then (s, Ok tt) else
        match parse_ofp_header m with
        | Err e => (s, Err e)
        | Ok h =>
            if h_type h =? 10 then
              match unpacks "!I" m 8 with
              | Ok [VInt buffer_id] =>
                  if buffer_id =? 4294967295 then (s, Ok tt)
                  else
                    match
                      (if h_version h =? 1
                       then packs "!BBHIIHH" [VInt (h_version h); VInt 13; VInt 16; VInt (h_xid h);
                                              VInt buffer_id; VInt 65535; VInt 0]
                       else packs "!BBHIIIH6x" [VInt (h_version h); VInt 13; VInt 24; VInt (h_xid h);
                                                VInt buffer_id; VInt 4294967293; VInt 0])
                    with
                    | Ok p => locked_send s None p bxid None None
                    | Err e => (s, Err e)
                    end
              | Ok _ => (s, Err ValueError)
              | Err e => (s, Err e)
              end
            else (s, Ok tt)
        end).
  2: { destruct Hp as [->| ->]; reflexivity. }
  cbn [negb]. rewrite parse_header_spec by exact Hl. cbn [h_type h_version h_xid].
  assert (Triv : forall r, r = Ok tt \/ (byte_at m 1 = 10 /\ (length m < 12)%nat) ->
     filter is_packet_out (k_wire (fst (s, r))) = filter is_packet_out (k_wire s) ++ [] /\ ver_ok (fst (s, r)) /\
     (snd (s, r) = Ok tt \/ (byte_at m 1 = 10 /\ (length m < 12)%nat)) /\
     (exists sep, k_wire (fst (s, r)) = k_wire s ++ sep ++ [] /\ (length sep <= 1)%nat /\ Forall (fun b => barrier_request b = true) sep)).
  { intros r Hr. cbn [fst snd]. rewrite app_nil_r. split; [reflexivity|]. split; [exact V|]. split; [exact Hr|].
    exists []. rewrite app_nil_r. split; [reflexivity|]. split; [cbn; lia|constructor]. }
  destruct (Z.eqb_spec (byte_at m 1) 10) as [E10|]; [|apply Triv; auto].
  rewrite unpack_buffer. destruct (Nat.leb_spec 12 (length m)) as [L12|L12]; cbn [andb]; [|apply Triv; auto].
  destruct (Z.eqb_spec (u32_at m 8) 4294967295); cbn [negb]; [apply Triv; auto|].
  pose proof (u32_range m 4 Hok) as R4. pose proof (u32_range m 8 Hok) as R8. pose proof (byte_at_range m 0 Hok) as R0.
  assert (E : (if byte_at m 0 =? 1
       then packs "!BBHIIHH" [VInt (byte_at m 0); VInt 13; VInt 16; VInt (u32_at m 4); VInt (u32_at m 8); VInt 65535; VInt 0]
       else packs "!BBHIIIH6x" [VInt (byte_at m 0); VInt 13; VInt 24; VInt (u32_at m 4); VInt (u32_at m 8); VInt 4294967293; VInt 0])
     = Ok (release (byte_at m 0) (u32_at m 4) (u32_at m 8))).
  { destruct (Z.eqb_spec (byte_at m 0) 1) as [->|]; [apply release_v1|apply release_v]; assumption. }
  rewrite E. destruct (release_facts (byte_at m 0) (u32_at m 4) (u32_at m 8)) as [F1 F2].
  destruct (wire_send s None _ bxid V Hb F2) as (sep & W1 & W2 & W3 & W4).
  rewrite W1, W2. split.
  - rewrite (filter_pout _ _ _ W4). unfold is_packet_out. rewrite F1. reflexivity.
  - split; [exact W3|]. split; [auto|]. exists sep. split; [reflexivity|].
    destruct W4 as [->|(b & -> & B & _)]; (split; [cbn; lia|]); repeat constructor. exact B.
Qed.

Lemma ctl_recv_wire s m : k_wire (fst (ctl_recv s m)) = k_wire s /\ k_version (fst (ctl_recv s m)) = k_version s.
Proof.
  unfold ctl_recv. destruct m as [|b m]; [auto|]. destruct (parse_ofp_header (b :: m)) as [h|]; [|auto].
  destruct (h_type h =? 6); [|auto].
  destruct (match k_version s with None => true | Some v => v <? 4 end).
  - destruct (unpacks "!Q" (b :: m) 8) as [[|[|d| | | |] [|]]|]; auto.
  - destruct (unpacks "!QIBB" (b :: m) 8) as [l|]; [|auto].
    destruct l as [|[|d| | | |] l]; auto. destruct l as [|x l]; auto. destruct l as [|y l]; auto.
    destruct l as [|[|a| | | |] l]; auto. destruct l; auto.
Qed.

Lemma intercept_wire a s m : k_wire (fst (intercept a s m)) = k_wire s /\ k_version (fst (intercept a s m)) = k_version s.
Proof.
  unfold intercept. destruct (parse_ofp_header m) as [h|]; [|auto].
  destruct (a && _); [auto|]. cbv zeta. destruct (k_seq s) as [|e q] eqn:E; [auto|].
  destruct (is_barrier_rep h).
  - destruct (walk (k_dead s) (h_xid h) false (e :: q)) as [[q'|] r]; auto.
  - destruct e as [cb|x cb]; [destruct (live (k_dead s) cb)|]; auto.
Qed.

Lemma astep_pout parent s o :
  (parent = None \/ parent = Some (Ok tt)) -> ver_ok s -> aop_ok o ->
  let s' := fst (astep true parent s o) in
  filter is_packet_out (k_wire s') = filter is_packet_out (k_wire s) ++ released_op o /\ ver_ok s'.
Proof.
  intros Hp V Ho. cbv zeta. destruct o as [o|m bxid]; cbn [astep released_op].
  - rewrite app_nil_r. destruct o as [h m bxid o1 o2|m|f|v]; cbn [aop_ok] in Ho.
    + destruct Ho as (H13 & Hb & -> & ->). cbn [cstep].
      destruct (locked_send s h m bxid None None) as [s1 r] eqn:E. cbn [fst].
      destruct (Nat.ltb_spec (length m) 8) as [L|L].
      * rewrite wire_send_short in E by exact L. inversion E; subst. auto.
      * destruct (wire_send s h m bxid V Hb L) as (sep & W1 & W2 & W3 & W4). rewrite E in *. cbn [fst snd] in *.
        rewrite W1, (filter_pout _ _ _ W4). unfold is_packet_out at 2. destruct (Z.eqb_spec (byte_at m 1) 13); [contradiction|].
        rewrite app_nil_r. auto.
    + cbn [cstep]. destruct (ctl_recv_wire s m) as [C1 C2]. destruct (ctl_recv s m) as [s1 [u|e]]; cbn [fst] in *.
      * destruct (intercept_wire true s1 m) as [I1 I2]. destruct (intercept true s1 m) as [s2 r]. cbn [fst] in *.
        rewrite I1, C1. split; [reflexivity|]. destruct V as (v & V1 & V2). exists v. split; [congruence|exact V2].
      * rewrite C1. split; [reflexivity|]. destruct V as (v & V1 & V2). exists v. split; [congruence|exact V2].
    + cbn. split; [reflexivity|]. exact V.
    + cbn. split; [reflexivity|]. exists v. auto.
  - destruct Ho as (Hok & Hl & Hb).
    destruct (ctl_recv_wire s m) as [C1 C2]. destruct (ctl_recv s m) as [s1 [u|e]] eqn:Ec; cbn [fst] in *.
    + assert (V1 : ver_ok s1) by (destruct V as (v & V1 & V2); exists v; split; [congruence|exact V2]).
      destruct (intercept_wire true s1 m) as [I1 I2].
      destruct (Z.eqb_spec (byte_at m 1) 10) as [E10|N10].
      * assert (Ei : intercept true s1 m = (s1, ToAsync)).
        { unfold intercept. rewrite parse_header_spec by exact Hl. cbn [h_type]. rewrite E10. reflexivity. }
        rewrite Ei. destruct (handle_async_spec s1 m bxid parent Hp V1 Hb Hok Hl) as (A1 & A2 & _).
        destruct (handle_async true parent s1 m bxid None None) as [s3 r]. cbn [fst snd] in *. rewrite A1, C1. auto.
      * assert (R : released m = []).
        { unfold released. destruct (Z.eqb_spec (byte_at m 1) 10); [contradiction|reflexivity]. }
        destruct (intercept true s1 m) as [s2 r] eqn:Ei. cbn [fst snd] in *.
        assert (V2 : ver_ok s2) by (destruct V1 as (v & V1 & V2); exists v; split; [congruence|exact V2]).
        destruct r; cbn [fst]; try (rewrite I1, C1, R, app_nil_r; auto; fail).
        destruct (handle_async_spec s2 m bxid parent Hp V2 Hb Hok Hl) as (A1 & A2 & _).
        destruct (handle_async true parent s2 m bxid None None) as [s3 r]. cbn [fst snd] in *. rewrite A1, I1, C1. auto.
    + rewrite C1. split.
      * (* recv failed: a FEATURES_REPLY *)
        assert (N10 : byte_at m 1 <> 10).
        { intros E10. unfold ctl_recv in Ec. destruct m as [|b m]; [discriminate|].
          rewrite parse_header_spec in Ec by exact Hl. cbn [h_type] in Ec. rewrite E10 in Ec. discriminate. }
        unfold released. destruct (Z.eqb_spec (byte_at m 1) 10); [contradiction|]. cbn [andb]. rewrite app_nil_r. reflexivity.
      * destruct V as (v & V1 & V2). exists v. split; [congruence|exact V2].
Qed.

Lemma arun_pout parent os : forall s,
  (parent = None \/ parent = Some (Ok tt)) -> ver_ok s -> Forall aop_ok os ->
  filter is_packet_out (k_wire (fst (arun true parent s os))) = filter is_packet_out (k_wire s) ++ flat_map released_op os.
Proof.
  induction os as [|o os IH]; intros s Hp V Ho; cbn [arun flat_map]; [cbn; rewrite app_nil_r; reflexivity|].
  inversion Ho as [|? ? H1 H2]; subst. destruct (astep_pout parent s o Hp V H1) as [A1 A2].
  destruct (astep true parent s o) as [s1 r]. cbn [fst] in *. specialize (IH s1 Hp A2 H2).
  destruct (arun true parent s1 os) as [s2 rs]. cbn [fst] in *. rewrite IH, A1, app_assoc. reflexivity.
Qed.

(** *** Options *)

Lemma lookup_in {A} (l : list (string * A)) k a : lookup k l = Some a -> In k (map fst l).
Proof.
  induction l as [|[x y] l IH]; cbn; [discriminate|]. destruct (String.eqb_spec x k); [left; assumption|]. intros H. right. auto.
Qed.

Lemma dashes_spec s : dashes s = string_of_list_ascii (map (fun a => if Ascii.eqb a "_" then "-"%char else a) (list_ascii_of_string s)).
Proof. induction s as [|a s IH]; [reflexivity|]. cbn. rewrite IH. reflexivity. Qed.

Lemma all_strings (P : string -> Prop) (l : list string) : Forall P l -> forall o, In o l -> P o.
Proof. intros H. apply Forall_forall. exact H. Qed.

Ltac each := match goal with |- Forall _ ?l => let v := eval vm_compute in l in change l with v end;
  repeat (apply Forall_cons; [cbv beta|]); [..|apply Forall_nil].

Lemma option_proper : forall o v a, proper o v a -> option_words o v = Ok (words o a).
Proof.
  intros o v a H. destruct H as [o H|o H|o z H|o s H Hs|o H].
  - revert o H. apply all_strings. each; vm_compute; reflexivity.
  - revert o H. apply all_strings. each; vm_compute; reflexivity.
  - destruct H as [<-|[<-|[]]].
    + reflexivity.
    + assert (E : (str_z z =? "")%string = false).
      { apply String.eqb_neq. unfold str_z. destruct (Z.to_int z) as [u|u]; cbn; [|discriminate].
        destruct u; discriminate. }
      unfold option_words. change (lookup "timeout" option_list) with (Some (true, AInt, true)). cbn [str_int bind andb].
      rewrite E. reflexivity.
  - assert (E : (s =? "")%string = false) by (apply String.eqb_neq; exact Hs).
    revert o H. apply all_strings.
    match goal with |- Forall _ ?l => let v := eval vm_compute in l in change l with v end.
    repeat (apply Forall_cons; [cbv beta; unfold option_words;
      match goal with |- context [lookup ?o option_list] =>
        let v := eval vm_compute in (lookup o option_list) in change (lookup o option_list) with v end;
      cbn [bind str_str andb]; rewrite ?E; reflexivity|]).
    apply Forall_nil.
  - revert o H. apply all_strings. each; vm_compute; reflexivity.
Qed.

Lemma option_unknown o v : ~ In o (numeric ++ flags ++ with_text) -> option_words o v = Err AssertionError.
Proof.
  intros H. unfold option_words. destruct (lookup o option_list) as [x|] eqn:E; [|reflexivity].
  exfalso. apply H. apply lookup_in in E.
  assert (I : incl (map fst option_list) (numeric ++ flags ++ with_text)).
  { intros y Hy. revert y Hy. apply all_strings. each; cbn; tauto. }
  apply I. exact E.
Qed.

Lemma make_options_proper os args :
  Forall2 (fun ov a => proper (fst ov) (snd ov) a) os args ->
  make_options os = Ok (concat (map (fun oa => words (fst oa) (snd oa)) (combine (map fst os) args))).
Proof.
  induction 1 as [|[o v] a os args H Hs IH]; [reflexivity|]. cbn [make_options map combine concat fst snd] in *.
  rewrite (option_proper _ _ _ H), IH. reflexivity.
Qed.

Lemma make_options_unknown os o v : In (o, v) os -> ~ In o (numeric ++ flags ++ with_text) -> is_ok (make_options os) = false.
Proof.
  induction os as [|[o' v'] os IH]; intros Hi Hn; [contradiction|]. cbn [make_options].
  destruct Hi as [E|Hi].
  - injection E as -> ->. rewrite option_unknown by exact Hn. reflexivity.
  - destruct (option_words o' v'); [|reflexivity]. cbn [bind]. specialize (IH Hi Hn).
    destruct (make_options os); [discriminate|reflexivity].
Qed.

Lemma flag_false o : In o flags -> option_words o (OBool false) = Ok [spelled o].
Proof. revert o. apply all_strings. each; vm_compute; reflexivity. Qed.

(** *** rule2ofp *)

Lemma rule_handle_spec m : bytes_ok m -> (8 <= length m)%nat ->
  rule_handle m = Ok ((if barrier_request m then [[byte_at m 0; byte_at m 1 + 1; 0; 8] ++ be 4 (u32_at m 4)] else []),
                      (if (byte_at m 1 =? 14) then [m] else [])).
Proof.
  intros Hb Hl. unfold rule_handle. rewrite parse_header_spec by exact Hl. cbn [bind h_version h_type h_xid].
  pose proof (byte_at_range m 0 Hb) as R0. pose proof (u32_range m 4 Hb) as R4.
  assert (P : forall t, 0 <= t < 256 -> packs "!BBHI" [VInt (byte_at m 0); VInt t; VInt 8; VInt (u32_at m 4)]
              = Ok ([byte_at m 0; t; 0; 8] ++ be 4 (u32_at m 4))).
  { intros t Ht. unfold packs. change (fmt "!BBHI") with (Ok [FU 1; FU 1; FU 2; FU 4]). cbn [bind].
    rewrite !pack_FU by (first [apply in_u4; assumption | apply in_u1; assumption | reflexivity]). cbn [pack bind be Datatypes.app].
    rewrite (Z.mod_small (byte_at m 0)), (Z.mod_small t) by lia. reflexivity. }
  unfold barrier_request. destruct (Z.eqb_spec (byte_at m 0) 1) as [E0|N0]; cbn [andb negb].
  - destruct (Z.eqb_spec (byte_at m 1) 18) as [E1|N1].
    + rewrite P by lia. cbn [bind]. rewrite E1. reflexivity.
    + destruct (Z.eqb_spec (byte_at m 1) 14); reflexivity.
  - destruct (Z.eqb_spec (byte_at m 1) 20) as [E1|N1].
    + rewrite P by lia. cbn [bind]. rewrite E1. reflexivity.
    + destruct (Z.eqb_spec (byte_at m 1) 14); reflexivity.
Qed.

Lemma rule_handles_spec ms : Forall (fun m => bytes_ok m /\ (8 <= length m)%nat) ms ->
  rule_handles ms = Ok (map (fun m => [byte_at m 0; byte_at m 1 + 1; 0; 8] ++ be 4 (u32_at m 4)) (filter barrier_request ms),
                        filter (fun m => byte_at m 1 =? 14) ms).
Proof.
  induction 1 as [|m ms [H1 H2] Hm IH]; [reflexivity|]. cbn [rule_handles filter].
  rewrite (rule_handle_spec _ H1 H2), IH. cbn [bind].
  destruct (barrier_request m), (byte_at m 1 =? 14); reflexivity.
Qed.
