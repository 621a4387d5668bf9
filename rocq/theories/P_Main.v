(** Proofs for the standalone controller. *)

From Coq Require Import String Permutation.
From Verif Require Import Py Struct P_Struct M_Channel M_Hello M_Controller M_Class M_Dispatch M_Main
  S_Framing S_Hello S_Loop S_Controller S_Main P_Channel P_Hello P_Negotiate P_Loop P_Controller.
Local Open Scope Z_scope.
Local Open Scope list_scope.

Lemma main_hello : forall xid, u32 xid -> hello main_accepts xid = Ok (hello4 xid).
Proof.
  intros xid Hx. unfold hello, main_accepts.
  change (vs_truthy (VsSeq [VI 4])) with true. cbv iota.
  change (ofp_version_normalize (VsSeq [VI 4])) with (Ok [4]). cbn [bind].
  change (set_max [4]) with (Ok 4). cbn [bind]. change (4 <? 4) with false. cbv iota.
  change (set_bits (repeat 0 (Z.to_nat (1 + 4 / 32))) [4]) with (Ok [16]). unfold bind at 1. cbv zeta.
  rewrite (hello_pack 4 xid [16]); [reflexivity|lia|exact Hx|constructor; [unfold u32; lia|constructor]|cbn; lia].
Qed.

(** Sending without callback while nothing is queued. *)
Definition k_add (k : cch) (m : bytes) : cch :=
  mkCch (k_seq k) (k_dead k) (k_version k) (k_wire k ++ [m]) (k_datapath k) (k_aux k).

Lemma send_idle : forall bxid k m, (8 <= length m)%nat -> k_seq k = [] -> byte_at m 1 <> 18 -> byte_at m 1 <> 20 ->
  locked_send k None m bxid None None = (k_add k m, Ok tt).
Proof.
  intros bxid k m Hl Hs H1 H2. unfold locked_send. rewrite parse_header_spec by exact Hl.
  unfold is_barrier_req. cbn [h_type h_version].
  destruct (Z.eqb_spec (byte_at m 1) 18); [contradiction|]. destruct (Z.eqb_spec (byte_at m 1) 20); [contradiction|].
  cbn [andb orb]. rewrite Hs. cbn [last_of cb_eqb self_callback negb]. reflexivity.
Qed.

Lemma main_proxies : chain main_tab "TcpChannel" "handle_proxy" = ["ControllerChannel"; "AutoEchoChannel"; "OpenflowServerChannel"]%string.
Proof. vm_compute. reflexivity. Qed.
Lemma main_async : has_attr main_tab "TcpChannel" "handle_async" = false.
Proof. vm_compute. reflexivity. Qed.

Lemma main_dispatch : forall bxid k m, (8 <= length m)%nat -> bytes_ok m -> k_seq k = [] ->
  dispatch main_tab "TcpChannel" 0 bxid k m =
    if byte_at m 1 =? 2 then
      match k_version k with
      | Some v => if (0 <=? v) && (v <? 256) then (k_add k (echo_reply v m), (Reader, Swallowed)) else (k, (Reader, FailExn StructError))
      | None => (k, (Reader, FailExn StructError))
      end
    else (k, (Reader, ToDefault)).
Proof.
  intros bxid k m Hl Hb Hs. unfold dispatch. rewrite main_proxies, main_async. cbn [proxied].
  change (String.eqb "ControllerChannel" "AutoEchoChannel") with false. change (String.eqb "ControllerChannel" "ControllerChannel") with true.
  change (String.eqb "AutoEchoChannel" "AutoEchoChannel") with true.
  change (String.eqb "OpenflowServerChannel" "AutoEchoChannel") with false.
  change (String.eqb "OpenflowServerChannel" "ControllerChannel") with false.
  change (String.eqb "OpenflowServerChannel" "ParallelChannel") with false. cbv beta iota.
  assert (I : intercept false k m = (k, ToDefault)).
  { unfold intercept. rewrite parse_header_spec by exact Hl. cbn [andb]. rewrite Hs. reflexivity. }
  rewrite I. unfold echo_proxy. destruct m as [|b0 m']; [cbn in Hl; lia|]. set (m := b0 :: m') in *.
  rewrite parse_header_spec by exact Hl. cbn [h_type h_length h_xid].
  destruct (byte_at m 1 =? 2) eqn:E; [|reflexivity].
  destruct (k_version k) as [v|]; [|reflexivity]. cbn [vint].
  destruct ((0 <=? v) && (v <? 256)) eqn:Ev.
  - destruct (echo_pack v m Hl Hb) as [p [-> P2]]; [lia|]. rewrite P2.
    rewrite send_idle; [reflexivity| |exact Hs|unfold echo_reply, byte_at; cbn; lia|unfold echo_reply, byte_at; cbn; lia].
    unfold echo_reply. cbn [length]. rewrite skipn_length. lia.
  - replace (packs "!BBHI" [VInt v; VInt 3; VInt (u16_at m 2); VInt (u32_at m 4)]) with (@Err bytes StructError); [reflexivity|].
    unfold packs. eval_fmt. cbn [bind]. cbn [pack]. unfold pack_item. unfold in_u. change (256 ^ Z.of_nat 1) with 256. rewrite Ev. reflexivity.
Qed.

(** recv. *)
Lemma ctl_plain : forall k m, (8 <= length m)%nat -> byte_at m 1 <> 6 -> ctl_recv k m = (k, Ok tt).
Proof.
  intros k m Hl H. unfold ctl_recv. destruct m as [|b0 m']; [reflexivity|]. rewrite parse_header_spec by exact Hl. cbn [h_type].
  destruct (Z.eqb_spec (byte_at (b0 :: m') 1) 6); [contradiction|reflexivity].
Qed.

Lemma ctl_features : forall k m, (8 <= length m)%nat -> byte_at m 1 = 6 -> k_version k = None \/ k_version k = Some 4 ->
  if (match k_version k with None => 16 | Some _ => 22 end <=? zlen m) then
    exists d a, ctl_recv k m = (mkCch (k_seq k) (k_dead k) (k_version k) (k_wire k) d a, Ok tt)
  else ctl_recv k m = (k, Err StructError).
Proof.
  intros k m Hl H Hv. unfold ctl_recv. destruct m as [|b0 m']; [cbn in Hl; lia|]. set (m := b0 :: m') in *.
  rewrite parse_header_spec by exact Hl. cbn [h_type]. rewrite H. change (6 =? 6) with true. cbv iota.
  destruct Hv as [-> | ->]; cbv iota; cbn [Z.ltb Z.compare].
  - unfold unpacks. eval_fmt. cbn [bind]. unfold unpack_from. cbn [calcsize item_size]. unfold zlen.
    destruct (Z.leb_spec 16 (Z.of_nat (length m))) as [L|L].
    + destruct (Nat.leb_spec (8 + (8 + 0)) (length m)); [|lia]. cbn. eexists _, _. reflexivity.
    + destruct (Nat.leb_spec (8 + (8 + 0)) (length m)); [lia|]. reflexivity.
  - change (4 <? 4) with false. cbv iota. unfold unpacks. eval_fmt. cbn [bind]. unfold unpack_from. cbn [calcsize item_size]. unfold zlen.
    destruct (Z.leb_spec 22 (Z.of_nat (length m))) as [L|L].
    + destruct (Nat.leb_spec (8 + (8 + (4 + (1 + (1 + 0))))) (length m)); [|lia]. cbn. eexists _, _. reflexivity.
    + destruct (Nat.leb_spec (8 + (8 + (4 + (1 + (1 + 0))))) (length m)); [lia|]. reflexivity.
Qed.

(** Negotiation with [main_accepts]. *)
Lemma main_ok : versions_ok main_accepts.
Proof. constructor; [exists 4; split; [left; reflexivity|lia]|constructor]. Qed.
Lemma main_accepts4 : forall w, accepts main_accepts w <-> w = 4.
Proof.
  intros w. split.
  - intros [y [[<-|[]] [E|[E _]]]]; [injection E as <-; reflexivity|discriminate].
  - intros ->. exists (VI 4). split; [left; reflexivity|left; reflexivity].
Qed.

Lemma neg_common : forall order xid c m, bytes_ok m -> hello_wf m -> advertises m 4 ->
  negotiate main_accepts order xid c m = (mkOch (Some 4) (o_sent c), Ok m).
Proof.
  intros order xid c m Hb Hw Ha.
  destruct (negotiate_common main_accepts order xid c m main_ok Hb Hw) as [v [[[_ V] _] E]].
  - exists 4. split; [exact Ha|apply main_accepts4; reflexivity].
  - apply main_accepts4 in V as ->. exact E.
Qed.

Definition refusal (xid : Z) : bytes := hello_failed 4 xid (bytes_of_string "Accept versions: ['1.3']").

Lemma neg_refused : forall order xid c m, (forall l : list Z, Permutation l (order l)) -> u32 xid -> bytes_ok m -> hello_wf m -> ~ advertises m 4 ->
  negotiate main_accepts order xid c m = (mkOch (o_version c) (o_sent c ++ [refusal xid]), Err ChannelClose).
Proof.
  intros order xid c m Ho Hx Hb Hw Ha.
  destruct (negotiate_none main_accepts order xid c m main_ok Hb Hw) as [_ [e E]].
  - intros w [W1 W2]. apply main_accepts4 in W2 as ->. contradiction.
  - assert (exists e', snd (negotiate main_accepts order xid c m) = Err e') as K by eauto. clear e E.
    destruct (negotiate_hello main_accepts order xid c m main_ok Ho Hx) as [[v [[[V1 V2] _] _]]|[_ [mx [txt [_ E]]]]]; try assumption.
    + intros v V. apply main_accepts4 in V as ->. lia.
    + apply main_accepts4 in V2 as ->. contradiction.
    + rewrite E. enough (X : hello_failed mx xid txt = refusal xid) by (rewrite X; reflexivity).
      assert (grows : forall v r x y (P : Prop), (mkOch v (o_sent c), r) = (mkOch x (o_sent c ++ [y]), Err (A := bytes) ChannelClose) -> P).
      { intros v r x y P F. apply (f_equal (fun p => length (o_sent (fst p)))) in F. cbn [fst o_sent] in F. rewrite app_length in F. cbn in F. lia. }
      assert (same : forall r x y (P : Prop), (c, r) = (mkOch x (o_sent c ++ [y]), Err (A := bytes) ChannelClose) -> P).
      { intros r x y P F. destruct c as [cv cs]. exact (grows _ _ _ _ _ F). }
      revert E. unfold negotiate. destruct m as [|b0 m']; [exact (same _ _ _ _)|]. unfold negotiate_msg.
      destruct (parse_ofp_header (b0 :: m')) as [h|e]; [|exact (same _ _ _ _)]. destruct (h_type h =? 0); [|exact (same _ _ _ _)].
      change (ofp_version_normalize main_accepts) with (Ok [4]). cbv iota zeta.
      destruct (parse_hello (b0 :: m')) as [peer|e]; [|exact (same _ _ _ _)].
      destruct (set_inter peer [4]) as [|x xs]; [|destruct (set_max (x :: xs)); [exact (grows _ _ _ _ _)|exact (same _ _ _ _)]].
      assert (Ho4 := Ho [4]). apply Permutation_length_1_inv in Ho4. rewrite Ho4.
      change (map_names [4]) with (Ok ["1.3"%string]). unfold bind at 1. change (set_max [4]) with (Ok 4). unfold bind at 1.
      change (ascii_txt ["1.3"%string]) with (bytes_of_string "Accept versions: ['1.3']").
      set (t := bytes_of_string "Accept versions: ['1.3']").
      unfold packs. eval_fmt. cbn [bind].
      rewrite !pack_FU by (first [apply in_u1; lia | apply in_u2; unfold zlen; vm_compute; split; congruence | apply in_u4; exact Hx]).
      cbn [pack bind]. intros E. apply (f_equal (fun p => o_sent (fst p))) in E. cbn [fst o_sent] in E. apply app_inv_head in E.
      apply (f_equal (fun l => nth 0 l [])) in E. cbn [nth] in E. rewrite <- E. unfold refusal, hello_failed. reflexivity.
Qed.

(** One message received. *)
Lemma recv_hello : forall order xid bxid c m ch, recv (w_chan c) = (ch, Got m) -> bytes_ok m -> hello_wf m -> advertises m 4 ->
  conn_recv order xid bxid c = (mkConn ch (with_version (w_k c) (Some 4)) (w_seen c), Got m).
Proof.
  intros order xid bxid c m ch R Hb Hw Ha. unfold conn_recv. rewrite R, neg_common by assumption. cbn [o_version o_sent k_sends].
  destruct Hw as [Hl [Ht _]]. rewrite ctl_plain by (first [exact Hl|lia]). reflexivity.
Qed.

Lemma with_version_id : forall k, with_version k (k_version k) = k.
Proof. intros []. reflexivity. Qed.

Lemma recv_refused : forall order xid bxid c m ch, recv (w_chan c) = (ch, Got m) ->
  (forall l : list Z, Permutation l (order l)) -> u32 xid -> bytes_ok m -> hello_wf m -> ~ advertises m 4 -> k_seq (w_k c) = [] ->
  conn_recv order xid bxid c = (mkConn ch (k_add (w_k c) (refusal xid)) (w_seen c), Raised ChannelClose).
Proof.
  intros order xid bxid c m ch R Ho Hx Hb Hw Ha Hs. unfold conn_recv. rewrite R, neg_refused by assumption. cbn [o_version o_sent k_sends Datatypes.app].
  rewrite with_version_id, send_idle; [reflexivity| |exact Hs| |].
  - unfold refusal, hello_failed. rewrite !app_length, !be_length. cbn. lia.
  - vm_compute. discriminate.
  - vm_compute. discriminate.
Qed.

Lemma recv_bad : forall order xid bxid c m ch, recv (w_chan c) = (ch, Got m) ->
  (8 <= length m)%nat -> byte_at m 1 = 0 -> ~ hello_wf m ->
  exists e, conn_recv order xid bxid c = (mkConn ch (w_k c) (w_seen c), Raised e) /\ (e = AssertionError \/ e = StructError).
Proof.
  intros order xid bxid c m ch R Hl Ht Hw. unfold conn_recv. rewrite R.
  destruct (negotiate_malformed main_accepts order xid (mkOch (k_version (w_k c)) []) m main_ok Hl Ht Hw) as [e [-> E]].
  cbn [o_version o_sent k_sends]. rewrite with_version_id. eauto.
Qed.

Lemma recv_plain : forall order xid bxid c m ch, recv (w_chan c) = (ch, Got m) ->
  (8 <= length m)%nat -> byte_at m 1 <> 0 ->
  conn_recv order xid bxid c = match ctl_recv (w_k c) m with
    | (k, Ok _) => (mkConn ch k (w_seen c), Got m) | (k, Err e) => (mkConn ch k (w_seen c), Raised e) end.
Proof.
  intros order xid bxid c m ch R Hl Ht. unfold conn_recv. rewrite R, negotiate_other by assumption.
  cbn [o_version o_sent k_sends]. rewrite with_version_id. reflexivity.
Qed.

Definition agreed (k : cch) (v : bool) : Prop := k_seq k = [] /\ k_version k = if v then Some 4 else None.

Lemma hello_wf_dec : forall m, hello_wf m \/ ~ hello_wf m.
Proof. intros m. unfold hello_wf. assert (D : forall a b : Z, {a = b} + {a <> b}) by (intros; apply Z.eq_dec).
  destruct (le_dec 8 (length m)); [|right; tauto]. destruct (D (byte_at m 1) 0); [|right; tauto].
  destruct (D (u16_at m 2) 8); [left; tauto|]. destruct (le_dec 12 (length m)); [|right; tauto].
  destruct (D (u16_at m 8) 1); [|right; tauto]. destruct (Z_le_dec 4 (u16_at m 10)); [|right; tauto].
  destruct (Z_le_dec (12 + 4 * (u16_at m 10 / 4 - 1)) (zlen m)); [left; tauto|right; tauto].
Qed.

Lemma advertises_dec : forall m v, advertises m v \/ ~ advertises m v.
Proof.
  intros m v. unfold advertises. assert (D : forall a b : Z, {a = b} + {a <> b}) by (intros; apply Z.eq_dec).
  destruct (D (u16_at m 2) 8).
  - destruct (D v (byte_at m 0)); [left; tauto|right; tauto].
  - destruct (Z_le_dec 0 v); [|right; tauto]. destruct (Z_lt_dec v (32 * (u16_at m 10 / 4 - 1))); [|right; tauto].
    destruct (Z.testbit _ _); [left; tauto|right; intros [[? _]|[_ [_ ?]]]; [contradiction|discriminate]].
Qed.

Lemma fill_quiet_wait need : forall es b n k,
  quiet es -> (length (b ++ delivered es) < need)%nat ->
  exists c', fill need b false es n k = (c', Some Waiting).
Proof.
  induction es as [|e es IH]; intros b n k Hq Hl; cbn [fill].
  - cbn in Hl. rewrite app_nil_r in Hl. destruct (Nat.leb_spec need (length b)); [lia|]. eauto.
  - inversion Hq as [|? ? He Hes]; subst.
    assert (L : (length b < need)%nat) by (rewrite app_length in Hl; lia). destruct (Nat.leb_spec need (length b)); [lia|].
    destruct He as [[-> | ->]|(x & d & ->)]; cbn [default_wrapper]; cbn.
    + apply IH; [exact Hes|exact Hl].
    + apply IH; [exact Hes|exact Hl].
    + apply IH; [exact Hes|]. cbn [delivered] in Hl. rewrite <- app_assoc. exact Hl.
Qed.

Theorem main_talk : forall order xid bxid, (forall l : list Z, Permutation l (order l)) -> u32 xid ->
  forall fin tl, ending fin tl -> forall ms c v k seen junk fuel,
    closed c = false -> quiet (envs c) -> Forall msg_wf ms -> Forall bytes_ok ms ->
    buf c ++ delivered (envs c) = concat ms ++ junk -> (length junk < 8)%nat -> (length ms < fuel)%nat -> agreed k v ->
    exists c' w h e,
      conn_loop order xid bxid fuel
        (mkConn (mkChan (buf c) (closed c) (envs c ++ tl) (nreads c) (nclose c)) k seen) = (c', e) /\
      talk xid fin v ms w h e /\ k_wire (w_k c') = k_wire k ++ w /\ w_seen c' = seen ++ h.
Proof.
  intros order xid bxid Ho Hx fin tl En. induction ms as [|m ms IH]; intros c v k seen junk fuel Hcl Hq Hw Hb Hs Hj Hf [Hk1 Hk2];
    (destruct fuel as [|fuel]; [cbn in Hf; lia|]); cbn [conn_loop concat] in *.
  - unfold conn_recv. cbn [w_chan]. unfold recv, fill_chan. cbn [buf closed envs nreads nclose]. rewrite Hcl.
    assert (Hj' : (length (buf c ++ delivered (envs c)) < 8)%nat) by (rewrite Hs; cbn; exact Hj).
    destruct En as [tl|].
    + destruct (fill_quiet_end 8 (envs c) (buf c) (nreads c) (nclose c) tl Hq Hj') as (c' & F & E & B).
      rewrite F. cbn [negotiate w_k o_version o_sent k_sends ctl_recv w_seen].
      eexists _, [], [], _. split; [reflexivity|]. split; [constructor|]. cbn [w_k w_seen with_version k_wire]. rewrite !app_nil_r. auto.
    + rewrite app_nil_r. destruct (fill_quiet_wait 8 (envs c) (buf c) (nreads c) (nclose c) Hq Hj') as (c' & F).
      rewrite F. eexists _, [], [], _. split; [reflexivity|]. split; [constructor|]. cbn [w_k w_seen]. rewrite !app_nil_r. auto.
  - inversion Hw as [|? ? Hm Hms]; subst. inversion Hb as [|? ? Hmb Hbs]; subst. rewrite <- app_assoc in Hs.
    destruct (recv_more c m _ (tl) Hcl Hq Hm Hs) as (c1 & R1 & C1 & Q1 & S1).
    destruct Hm as [Hl Hann]. cbn [length] in Hf. assert (Hf' : (length ms < fuel)%nat) by lia.
    set (cc := mkConn (mkChan (buf c) (closed c) (envs c ++ tl) (nreads c) (nclose c)) k seen).
    assert (R : recv (w_chan cc) = (mkChan (buf c1) (closed c1) (envs c1 ++ tl) (nreads c1) (nclose c1), Got m)) by exact R1.
    assert (Hne : exists b0 m', m = b0 :: m') by (destruct m; [cbn in Hl; lia|eauto]). destruct Hne as [b0 [m' Em]].
    (* to handle() *)
    assert (GO : forall k1 v1, agreed k1 v1 -> k_wire k1 = k_wire k -> byte_at m 1 <> 2 ->
      conn_recv order xid bxid cc = (mkConn (mkChan (buf c1) (closed c1) (envs c1 ++ tl) (nreads c1) (nclose c1)) k1 seen, Got m) ->
      (forall w h e, talk xid fin v1 ms w h e -> talk xid fin v (m :: ms) w (m :: h) e) ->
      exists c' w h e, conn_loop order xid bxid (S fuel) cc = (c', e) /\
        talk xid fin v (m :: ms) w h e /\ k_wire (w_k c') = k_wire k ++ w /\ w_seen c' = seen ++ h).
    { intros k1 v1 A1 W1 T2 RC T. cbn [conn_loop]. rewrite RC, Em. cbn match. rewrite <- Em. cbn [w_k w_chan w_seen].
      rewrite main_dispatch; [|exact Hl|exact Hmb|exact (proj1 A1)]. destruct (Z.eqb_spec (byte_at m 1) 2); [contradiction|].
      destruct (IH c1 v1 k1 (seen ++ [m]) junk fuel C1 Q1 Hms Hbs S1 Hj Hf' A1) as (c' & w & h & e & L & T' & W & X).
      exists c', w, (m :: h), e. split; [exact L|]. split; [exact (T _ _ _ T')|]. rewrite W, W1, X, <- app_assoc. auto. }
    change (exists c' w h e, conn_loop order xid bxid (S fuel) cc = (c', e) /\
        talk xid fin v (m :: ms) w h e /\ k_wire (w_k c') = k_wire k ++ w /\ w_seen c' = seen ++ h).
    destruct (Z.eq_dec (byte_at m 1) 0) as [T0|T0].
    + destruct (hello_wf_dec m) as [Hh|Hh].
      * destruct (advertises_dec m 4) as [Ha|Ha].
        -- apply (GO (with_version k (Some 4)) true); [split; [exact Hk1|reflexivity]|reflexivity|lia|exact (recv_hello _ _ _ _ _ _ R Hmb Hh Ha)|].
           intros w h e T. apply T_hello; assumption.
        -- cbn [conn_loop]. rewrite (recv_refused order xid bxid cc m _ R Ho Hx Hmb Hh Ha Hk1).
           eexists _, [refusal xid], [], LReturned. split; [reflexivity|]. split; [apply T_refuse; assumption|].
           cbn. rewrite app_nil_r. auto.
      * cbn [conn_loop]. destruct (recv_bad order xid bxid cc m _ R Hl T0 Hh) as [e [-> He]].
        eexists _, [], [], (LRaised e). split; [destruct He as [-> | ->]; reflexivity|]. split; [apply T_bad_hello; assumption|].
        cbn [w_k w_seen cc]. rewrite !app_nil_r. auto.
    + assert (RP := recv_plain order xid bxid cc m _ R Hl T0). cbn [cc w_k w_seen] in RP.
      destruct (Z.eq_dec (byte_at m 1) 6) as [T6|T6].
      * assert (CF := ctl_features k m Hl T6). rewrite Hk2 in CF. destruct v.
        -- specialize (CF (or_intror eq_refl)). cbv iota in CF. destruct (Z.leb_spec 22 (zlen m)) as [Lm|Lm].
           ++ destruct CF as [d [a CF]]. rewrite CF in RP.
              match type of RP with _ = (mkConn _ ?k1 _, _) => apply (GO k1 true) end; [split; [exact Hk1|reflexivity]|reflexivity|lia|exact RP|].
              intros w h e T. apply T_features; assumption.
           ++ rewrite CF in RP. cbn [conn_loop]. rewrite RP. eexists _, [], [], _. split; [reflexivity|]. split; [apply T_short_features; assumption|].
              cbn [w_k w_seen]. rewrite !app_nil_r. auto.
        -- specialize (CF (or_introl eq_refl)). cbv iota in CF. destruct (Z.leb_spec 16 (zlen m)) as [Lm|Lm].
           ++ destruct CF as [d [a CF]]. rewrite CF in RP.
              match type of RP with _ = (mkConn _ ?k1 _, _) => apply (GO k1 false) end; [split; [exact Hk1|reflexivity]|reflexivity|lia|exact RP|].
              intros w h e T. apply T_features; assumption.
           ++ rewrite CF in RP. cbn [conn_loop]. rewrite RP. eexists _, [], [], _. split; [reflexivity|]. split; [apply T_short_features; assumption|].
              cbn [w_k w_seen]. rewrite !app_nil_r. auto.
      * rewrite ctl_plain in RP by assumption. destruct (Z.eq_dec (byte_at m 1) 2) as [T2|T2].
        -- cbn [conn_loop]. rewrite RP, Em. cbn match. rewrite <- Em. cbn [w_k w_chan w_seen].
           rewrite main_dispatch by assumption. rewrite T2. change (2 =? 2) with true. cbv iota. rewrite Hk2. destruct v.
           ++ change ((0 <=? 4) && (4 <? 256)) with true. cbv iota.
              destruct (IH c1 true (k_add k (echo_reply 4 m)) seen junk fuel C1 Q1 Hms Hbs S1 Hj Hf') as (c' & w & h & e & L & T' & W & X).
              { split; [exact Hk1|exact Hk2]. }
              exists c', (echo_reply 4 m :: w), h, e. split; [exact L|]. split; [apply T_echo; assumption|]. rewrite W, X. cbn [k_add k_wire].
              rewrite <- app_assoc. auto.
           ++ eexists _, [], [], _. split; [reflexivity|]. split; [apply T_early_echo; assumption|]. cbn [w_k w_seen]. rewrite !app_nil_r. auto.
        -- apply (GO k v); [split; assumption|reflexivity|exact T2|exact RP|]. intros w h e T. apply T_other; assumption.
Qed.
