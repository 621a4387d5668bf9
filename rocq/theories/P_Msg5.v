(** Building OpenFlow 1.4 messages. *)

From Verif Require Import Py Struct P_Struct S_Hello S_Ports P_Hello P_Ports S_Wire4 S_Msg4 M_Build4 M_Parse4 P_Wire4 P_Act4 P_Stat4 P_Msg4 P_MsgParse4.
From Verif Require Import S_Wire5 S_Msg5 M_Build5 M_Parse5 P_Wire5 P_Act5 P_Stat5.
Local Open Scope Z_scope.
Local Open Scope list_scope.

(** *** Building multipart bodies *)

Lemma match_none dx d : ofp_match (obj dx d) VNone VNone (VList []) = Ok (match_wire (Match 1 [])).
Proof. reflexivity. Qed.

Definition rq_plain (r : request) : Prop := match r with RqPlain _ => True | _ => False end.

Lemma rq_obj dx d v r : rq_arg v r -> rq_ok r -> ~ rq_plain r -> (2 <= d)%nat -> obj dx d v = Ok (enc (rq_fields r)).
Proof.
  intros Ha [Hf Hx] Hp Hd. destruct d as [|[|d]]; [lia|lia|].
  destruct Ha as [r|ty v Hty|tv t pv p gv g cv c kv k mv m Ht Hpv Hg Hc Hk Hm|v p Hv|v p q Hv|v g Hv|ty m]; cbn [rq_fields rq_plain] in *.
  - reflexivity.
  - destruct (Hp I).
  - change (ofp_flow_stats_request (obj dx (S d)) tv pv gv cv kv mv =
      Ok (enc ([U 1 t; P 3; U 4 p; U 4 g; P 4; U 8 c; U 8 k] ++ [R (match_wire m)]))).
    change (fits ([U 1 t; P 3; U 4 p; U 4 g; P 4; U 8 c; U 8 k] ++ [R (match_wire m)])) in Hf.
    apply fits_app in Hf. destruct Hf as [F1 _].
    unfold ofp_flow_stats_request.
    rewrite (opt_default _ _ _ Ht), (opt_default _ _ _ Hpv), (opt_default _ _ _ Hg), (opt_default _ _ _ Hc), (opt_default _ _ _ Hk).
    use_packs "B3xII4xQQ"%string [U 1 t; P 3; U 4 p; U 4 g; P 4; U 8 c; U 8 k]; [|exact F1].
    rewrite enc_app, enc_R.
    assert (E : exists mv', match mv with VNone => b <- ofp_match (obj dx (S d)) VNone VNone (VList []) ;; Ok (VBytes b) | _ => Ok mv end = Ok mv' /\
                obj dx (S d) mv' = Ok (match_wire m)).
    { destruct Hm as [Hm|[-> ->]].
      - exists mv. split; [destruct Hm; reflexivity | apply match_build; [exact Hm | exact Hx | lia]].
      - exists (VBytes (match_wire (Match 1 []))). split; [rewrite match_none; reflexivity | reflexivity]. }
    destruct E as (mv' & E1 & E2). rewrite E1. cbn [bind]. rewrite enc_length. cbn [flen fld_len Nat.add Nat.eqb assert_ bind].
    rewrite E2. reflexivity.
  - change (ofp_port_stats_request v = Ok (enc [U 4 p; P 4])). unfold ofp_port_stats_request. rewrite (opt_default _ _ _ Hv).
    apply (packs_enc "I4x" [U 4 p; P 4] eq_refl Hf).
  - change (ofp_queue_stats_request v (VInt q) = Ok (enc [U 4 p; U 4 q])). unfold ofp_queue_stats_request. rewrite (opt_default _ _ _ Hv).
    apply (packs_enc "II" [U 4 p; U 4 q] eq_refl Hf).
  - change (ofp_group_stats_request v = Ok (enc [U 4 g; P 4])). unfold ofp_group_stats_request. rewrite (opt_default _ _ _ Hv).
    apply (packs_enc "I4x" [U 4 g; P 4] eq_refl Hf).
  - change (ofp_meter_multipart_request (VInt m) = Ok (enc [U 4 m; P 4])).
    apply (packs_enc "I4x" [U 4 m; P 4] eq_refl Hf).
Qed.

Lemma rq_not_none v r : rq_arg v r -> ~ rq_plain r -> v <> VNone.
Proof. intros Ha Hp. destruct Ha; try discriminate. destruct (Hp I). Qed.

Lemma request_body dx d v r : rq_arg v r -> rq_ok r -> (2 <= d)%nat ->
  (if py_inz (VInt (rq_type r)) [0; 3; 7; 8; 11; 13] then Ok (VBytes [])
   else if py_inz (VInt (rq_type r)) [1; 2; 4; 5; 6; 9; 10] then
     match v with VNone => Ok (VBytes []) | _ => b <- obj dx d v ;; Ok (VBytes b) end
   else if py_eqz (VInt (rq_type r)) 12 then
     match v with
     | VList l | VTup _ l => b <- join (obj dx d) l ;; Ok (VBytes b)
     | VNone => Ok (VList [])
     | _ => Ok v
     end
   else Ok v) = Ok (VBytes (enc (rq_fields r))).
Proof.
  intros Ha Hok Hd.
  assert (C : rq_plain r \/ ~ rq_plain r) by (destruct r; cbn; tauto). destruct C as [C|C].
  - destruct r; destruct C. cbn [rq_type rq_fields]. destruct Hok as [_ Hx].
    destruct (Z.eq_dec ty 14) as [->|Hn].
    + inversion Ha; subst; [reflexivity | congruence].
    + rewrite py_inz_In by (cbn in Hx |- *; intuition congruence). reflexivity.
  - pose proof (rq_obj dx d v r Ha Hok C Hd) as E. pose proof (rq_not_none v r Ha C) as Hn.
    assert (E2 : match v with VNone => Ok (VBytes []) | _ => b <- obj dx d v ;; Ok (VBytes b) end = Ok (VBytes (enc (rq_fields r)))).
    { rewrite E. destruct v; try reflexivity. congruence. }
    destruct r as [ty|t p g c k m|t p g c k m|p|p q|g|ty m|p q|i p g f t c m|b]; cbn [rq_type rq_plain] in *; try exact E2.
    + destruct (C I).
    + destruct Hok as [_ [<-|[<-|[]]]]; exact E2.
    + inversion Ha; subst. reflexivity.
    + inversion Ha; subst. reflexivity.
    + inversion Ha; subst. reflexivity.
Qed.

Lemma desc_build a b c d e a' b' c' d' e' :
  str_arg a a' -> str_arg b b' -> str_arg c c' -> str_arg d d' -> str_arg e e' ->
  rp_ok (RpDesc a' b' c' d' e') -> ofp_desc a b c d e = Ok (enc (rp_fields (RpDesc a' b' c' d' e'))).
Proof.
  intros Ha Hb Hc Hd He [Hf (La & Lb & Lc & Ld & Le)]. unfold ofp_desc.
  rewrite (str_default _ _ Ha), (str_default _ _ Hb), (str_default _ _ Hc), (str_default _ _ Hd), (str_default _ _ He).
  assert (Lp : forall n x, (length x <= n)%nat -> length (padded n x) = n).
  { intros n x H. unfold padded. rewrite app_length, zeros_length. lia. }
  unfold sized. cbn [rp_fields] in *.
  assert (Hs : map shape [R (padded 256 a'); R (padded 256 b'); R (padded 256 c'); R (padded 32 d'); R (padded 256 e')] =
    [FS 256; FS 256; FS 256; FS 32; FS 256]).
  { cbn [map shape]. rewrite !Lp by assumption. reflexivity. }
  rewrite (packs_norm _ [R (padded 256 a'); R (padded 256 b'); R (padded 256 c'); R (padded 32 d'); R (padded 256 e')]).
  - cbn [bind]. rewrite enc_length. cbn [flen fld_len]. rewrite !Lp by assumption. reflexivity.
  - rewrite Hs. reflexivity.
  - exact Hf.
  - rewrite Hs. cbn [norm norm_item vals]. rewrite !pad_short by assumption. reflexivity.
  - rewrite Hs. reflexivity.
Qed.

Lemma group_features_build t c m a m' a' : words4_arg m m' -> words4_arg a a' -> rp_ok (RpGroupFeatures t c m' a') ->
  ofp_group_features (VInt t) (VInt c) m a = Ok (enc (rp_fields (RpGroupFeatures t c m' a'))).
Proof.
  intros Hm Ha [Hf [Lm La]]. cbn [rp_fields] in *. apply fits_app in Hf. destruct Hf as [F1 F2]. apply fits_app in F2. destruct F2 as [F2 F3].
  unfold ofp_group_features. rewrite (four_words_ok m m'), (four_words_ok a a') by assumption. cbn [bind].
  unfold pack_app. use_packs "II"%string [U 4 t; U 4 c]; [|exact F1]. cbn [bind]. rewrite !enc_app. reflexivity.
Qed.

Lemma reply_body dx d v r : rp_arg v r -> rp_ok r -> (3 <= d)%nat ->
  (if py_inz (VInt (rp_type r)) [0; 2; 8; 11] then
     match v with
     | VTup _ _ | VBytes _ => obj dx d v
     | VNone => Ok []
     | _ => Err ValueError
     end
   else if py_inz (VInt (rp_type r)) [1; 3; 4; 5; 6; 7; 9; 10; 12; 13] then
     match v with
     | VList l | VTup _ l => join (obj dx d) l
     | VNone => Ok []
     | _ => Err ValueError
     end
   else if py_eqz (VInt (rp_type r)) 65535 then
     match v with VBytes b => Ok b | _ => Err ValueError end
   else Err ValueError) = Ok (enc (rp_fields r)).
Proof.
  intros Ha Hok Hd. destruct d as [|d]; [lia|].
  destruct Ha as [a b c d0 e a' b' c' d' e' Ha Hb Hc Hd0 He|v l H|p o f|v l H|v l H|v l H|v l H|v l H|t c m a m' a' Hm Ha|v l H|v l H|m t c b k|e t b]; cbn [rp_type].
  1: exact (desc_build a b c d0 e a' b' c' d' e' Ha Hb Hc Hd0 He Hok).
  2: exact (packs_enc "QQI4x" [U 8 p; U 8 o; U 4 f; P 4] eq_refl (proj1 Hok)).
  7: exact (group_features_build t c m a m' a' Hm Ha Hok).
  9: exact (packs_enc "IIIBB2x" [U 4 m; U 4 t; U 4 c; U 1 b; U 1 k; P 2] eq_refl (proj1 Hok)).
  9: reflexivity.
  all: destruct Hok as [_ Hl]; cbn [rp_fields]; rewrite enc_R;
    match goal with |- _ = Ok (concat (map ?w ?ll)) =>
      change (match v with VList l0 | VTup _ l0 => join (obj dx (S d)) l0 | VNone => Ok [] | _ => Err ValueError end = Ok (concat (map w ll))) end;
    eapply items_spec; [eassumption|]; intros w x Hin Hw; pose proof (Forall_In _ _ _ Hl Hin).
  - apply flow_stat_build; assumption.
  - apply table_stat_build; try assumption; lia.
  - apply port_stat_build; try assumption; lia.
  - apply queue_stat_build; try assumption; lia.
  - apply group_stat_build; try assumption; lia.
  - apply group_desc_build; assumption.
  - apply meter_stat_build; try assumption; lia.
  - apply meter_conf_build; try assumption; lia.
Qed.

(** *** Building messages *)

Lemma msg_ok_parts m : msg_ok m -> fits (body_fields m) /\ zlen (body m) <= 65527.
Proof. destruct m; intros H; exact (conj (proj1 H) (proj1 (proj2 H))). Qed.

Lemma mtype_u8 m : msg_ok m -> u8 (mtype m).
Proof.
  destruct m; intros (_ & _ & H); cbn [mtype]; try (unfold u8; lia); try exact (proj1 H); try exact (in_u8 _ _ H eq_refl);
  exact (in_u8 _ _ (proj1 H) eq_refl).
Qed.

Lemma message_data dx d m xid h t data :
  hdr_arg dx (msingle m) (mtype m) xid h -> msg_ok m -> u32 xid -> types_ok (msingle m) (mtype m) t ->
  data = Ok (body m) -> message (obj dx d) dx h t data = Ok (mwire xid m).
Proof.
  intros Hh Hm Hx Ht ->. apply message_ok with (msingle m); try assumption; [apply mtype_u8; exact Hm | apply msg_ok_parts; exact Hm].
Qed.

Lemma mwire_len xid m : length (mwire xid m) = (8 + flen (body_fields m))%nat.
Proof. unfold mwire, body. rewrite msg_len, enc_length. reflexivity. Qed.

Definition buildable (cls : string) (args : list pyval) (m : omsg) : Prop :=
  forall dx d xid h, msg_ok m -> hdr_arg dx (msingle m) (mtype m) xid h -> u32 xid -> (2 + mdepth m <= d)%nat ->
  call (obj dx d) dx cls (h :: args) = Ok (mwire xid m).

Definition objectable (v : pyval) (x : Z) (k : omsg) : Prop :=
  forall dx d, msg_ok k -> u32 x -> (3 + mdepth k <= d)%nat -> obj dx d v = Ok (mwire x k).

Ltac start m :=
  let dx := fresh "dx" in
  intros dx dd xid hh Hok Hh Hx Hd;
  pose proof (msg_ok_parts _ Hok) as [Hf Hlen];
  assert (MD : forall t data, types_ok (msingle m) (mtype m) t -> data = Ok (body m) -> message (obj dx dd) dx hh t data = Ok (mwire xid m))
    by (intros; apply message_data; assumption);
  assert (T1 : types_ok (msingle m) (mtype m) (VInt (mtype m))) by (left; reflexivity);
  destruct Hok as (_ & _ & Hext);
  cbn [msingle mdepth] in *; unfold body in *; cbn [body_fields] in *.

Lemma build_bundle_add b f mv x k v : empty_arg v -> objectable mv x k ->
  buildable "ofp_bundle_add_msg" [VInt b; VInt f; mv; v] (MBundleAdd b f x k).
Proof.
  intros Hv Hk. start (MBundleAdd b f x k). destruct Hext as [Hux Hok].
  change (ofp_bundle_add_msg (obj dx dd) dx hh (VInt b) (VInt f) mv v = Ok (mwire xid (MBundleAdd b f x k))).
  unfold ofp_bundle_add_msg. rewrite (seq_empty dx dd v Hv). cbn [bind]. apply MD; [exact T1|].
  head_fits [U 4 b; P 2; U 2 f]. use_packs "I2xH"%string [U 4 b; P 2; U 2 f]; [|assumption]. cbn [bind].
  rewrite (Hk dx dd Hok Hux) by lia. cbn [bind]. unfold mwire, body.
  change [U 4 b; P 2; U 2 f; R (msg 5 (mtype k) x (enc (body_fields k)))] with
    ([U 4 b; P 2; U 2 f] ++ [R (msg 5 (mtype k) x (enc (body_fields k)))]).
  rewrite enc_app, enc_R, app_nil_r. reflexivity.
Qed.

Lemma build_forward mv x k : objectable mv x k -> buildable "ofp_requestforward_header" [mv] (MForward x k).
Proof.
  intros Hk. start (MForward x k). destruct Hext as [Hux Hok].
  change (message (obj dx dd) dx hh (VInt 32) (obj dx dd mv) = Ok (mwire xid (MForward x k))).
  apply MD; [exact T1|]. rewrite (Hk dx dd Hok Hux) by lia. rewrite enc_R. reflexivity.
Qed.

Theorem msg_build cls args m : msg_args cls args m -> buildable cls args m.
Proof.
  intros Ha.
  induction Ha using msg_args_mind with (P0 := fun v x k _ => objectable v x k).
  21: apply build_bundle_add; assumption.
  21: apply build_forward; assumption.
  21: (intros dx d _ _ _; destruct d; reflexivity).
  21: (intros dx d Hok Hu Hd; destruct d as [|d]; [lia|]; apply (IHHa dx d x h Hok (h0 dx) Hu); lia).
  - (* hello *) start (MHello es).
    change (ofp_hello (obj dx dd) dx hh (v) = Ok (mwire xid (MHello es))). unfold ofp_hello.
    rewrite (seqarg_spec hello_arg hello_wire (obj dx dd) v es l) by
      (intros w x Hin Hw; apply hello_build; [exact Hw | exact (Forall_In _ _ _ Hext Hin) | lia]).
    cbn [bind]. apply (MD (VInt 0) (Ok _) T1). rewrite enc_R. reflexivity.
  - (* error *) start (MError t c d).
    change (message (obj dx dd) dx hh (VInt 1) (p <- packs "HH" [VInt t; VInt c] ;; d <- as_bytes (dflt_bytes v []) ;; Ok (p ++ d)) = Ok (mwire xid (MError t c d))).
    apply MD; [exact T1|]. head_fits [U 2 t; U 2 c]. use_packs "HH"%string [U 2 t; U 2 c]; [|assumption].
    rewrite (str_default _ _ s). cbn [bind as_bytes].
    change [U 2 t; U 2 c; R d] with ([U 2 t; U 2 c] ++ [R d]). rewrite enc_app, enc_R. reflexivity.
  - (* error_experimenter *) start (MError 65535 c (enc [U 4 e] ++ d)).
    change (message (obj dx dd) dx hh (VInt 1) (p <- packs "HHI" [VInt 65535; VInt c; VInt e] ;; d <- as_bytes (VBytes d) ;; Ok (p ++ d)) =
      Ok (mwire xid (MError 65535 c (enc [U 4 e] ++ d)))).
    apply MD; [exact T1|]. head_fits [U 2 65535; U 2 c].
    use_packs "HHI"%string [U 2 65535; U 2 c; U 4 e].
    + cbn [bind as_bytes]. change [U 2 65535; U 2 c; U 4 e] with ([U 2 65535; U 2 c] ++ [U 4 e]).
      change [U 2 65535; U 2 c; R (enc [U 4 e] ++ d)] with ([U 2 65535; U 2 c] ++ [R (enc [U 4 e] ++ d)]).
      rewrite !enc_app, enc_R, <- app_assoc. reflexivity.
    + change [U 2 65535; U 2 c; U 4 e] with ([U 2 65535; U 2 c] ++ [U 4 e]). apply fits_app. split; [assumption|].
      apply Forall_cons; [exact u | apply Forall_nil].
  - (* plain *) start (MPlain ty d).
    change (ofp_ (obj dx dd) dx hh (VBytes d) VNone = Ok (mwire xid (MPlain ty d))).
    assert (E := MD VNone (Ok d)). unfold message in E. cbn [bind] in E. apply E; [right; auto | rewrite enc_R; reflexivity].
  - (* plain, two arguments *) start (MPlain ty d).
    change (ofp_ (obj dx dd) dx hh (VBytes d) VNone = Ok (mwire xid (MPlain ty d))).
    assert (E := MD VNone (Ok d)). unfold message in E. cbn [bind] in E. apply E; [right; auto | rewrite enc_R; reflexivity].
  - (* features *) start (MFeatures d b t a c).
    change (ofp_switch_features (obj dx dd) dx hh (VInt d) (VInt b) (VInt t) (VInt a) (VInt c) = Ok (mwire xid (MFeatures d b t a c))).
    apply sized_ok; [|apply mwire_len]. apply MD; [exact T1|].
    apply (packs_enc "QIBB2xII" [U 8 d; U 4 b; U 1 t; U 1 a; P 2; U 4 c; U 4 0] eq_refl Hf).
  - (* config *) start (MConfig ty f s).
    change (ofp_switch_config (obj dx dd) dx hh (VInt f) v = Ok (mwire xid (MConfig ty f s))).
    apply sized_ok; [|apply mwire_len]. rewrite (opt_default _ _ _ o). apply MD.
    + right. split; [reflexivity|]. left. exists [9; 8]. split; [reflexivity|]. destruct Hext as [<-|[<-|[]]]; cbn; auto.
    + apply (packs_enc "HH" [U 2 f; U 2 s] eq_refl Hf).
  - (* packet_in *) start (MPacketIn b t r i c m d).
    change (ofp_packet_in (obj dx dd) dx hh (VInt b) (VInt t) (VInt r) (VInt i) (VInt c) mv (VBytes d) = Ok (mwire xid (MPacketIn b t r i c m d))).
    apply MD; [exact T1|]. head_fits [U 4 b; U 2 t; U 1 r; U 1 i; U 8 c].
    use_packs "IHBBQ"%string [U 4 b; U 2 t; U 1 r; U 1 i; U 8 c]; [|assumption]. cbn [bind].
    rewrite (match_build dx dd mv m) by (try assumption; lia). cbn [bind as_bytes].
    change [U 4 b; U 2 t; U 1 r; U 1 i; U 8 c; R (match_wire m); P 2; R d] with
      ([U 4 b; U 2 t; U 1 r; U 1 i; U 8 c] ++ [R (match_wire m); P 2; R d]).
    rewrite enc_app, (enc_cons (R (match_wire m))), (enc_cons (P 2)), enc_R. reflexivity.
  - (* flow_removed *) start (MFlowRemoved c p r t ds dn i h k o m).
    change (ofp_flow_removed (obj dx dd) dx hh (VInt c) (VInt p) (VInt r) (VInt t) (VInt ds) (VInt dn) (VInt i) (VInt h) (VInt k) (VInt o) mv =
      Ok (mwire xid (MFlowRemoved c p r t ds dn i h k o m))).
    apply MD; [exact T1|]. head_fits [U 8 c; U 2 p; U 1 r; U 1 t; U 4 ds; U 4 dn; U 2 i; U 2 h; U 8 k; U 8 o].
    use_packs "QHBBIIHHQQ"%string [U 8 c; U 2 p; U 1 r; U 1 t; U 4 ds; U 4 dn; U 2 i; U 2 h; U 8 k; U 8 o]; [|assumption]. cbn [bind].
    rewrite (match_build dx dd mv m) by (try assumption; lia). cbn [bind].
    change [U 8 c; U 2 p; U 1 r; U 1 t; U 4 ds; U 4 dn; U 2 i; U 2 h; U 8 k; U 8 o; R (match_wire m)] with
      ([U 8 c; U 2 p; U 1 r; U 1 t; U 4 ds; U 4 dn; U 2 i; U 2 h; U 8 k; U 8 o] ++ [R (match_wire m)]).
    rewrite enc_app, enc_R. reflexivity.
  - (* packet_out *) start (MPacketOut b i acts d).
    change (ofp_packet_out (obj dx dd) dx hh bv (VInt i) n av dv = Ok (mwire xid (MPacketOut b i acts d))).
    unfold ofp_packet_out. rewrite (acts_build dx dd av acts) by (try assumption; lia). cbn [bind].
    assert (E : match dv with VBytes b0 => Ok b0 | VNone => Ok [] | _ => Err ValueError end = Ok d)
      by (destruct s as [->|[-> ->]]; reflexivity).
    rewrite E. cbn [bind]. cbv zeta. rewrite (opt_default _ _ _ o). apply MD; [exact T1|].
    head_fits [U 4 b; U 4 i; U 2 (zlen (acts_wire acts)); P 6].
    unfold pack_app. use_packs "IIH6x"%string [U 4 b; U 4 i; U 2 (zlen (acts_wire acts)); P 6]; [|assumption]. cbn [bind].
    change [U 4 b; U 4 i; U 2 (zlen (acts_wire acts)); P 6; R (acts_wire acts); R d] with
      ([U 4 b; U 4 i; U 2 (zlen (acts_wire acts)); P 6] ++ [R (acts_wire acts); R d]).
    rewrite enc_app, enc_R2. reflexivity.
  - (* flow_mod *) start (MFlowMod c k t m i h p b o g f w mt is).
    change (ofp_flow_mod (obj dx dd) dx hh (VInt c) (VInt k) (VInt t) (VInt m) (VInt i) (VInt h) (VInt p) bv ov gv (VInt f) (VInt w) mv iv =
      Ok (mwire xid (MFlowMod c k t m i h p b o g f w mt is))).
    destruct Hext as [Hm Hi].
    unfold ofp_flow_mod. rewrite (insts_build dx dd iv is) by (try assumption; lia). cbn [bind]. cbv zeta.
    rewrite (opt_default _ _ _ o0), (opt_default _ _ _ o1), (opt_default _ _ _ o2). apply MD; [exact T1|].
    head_fits [U 8 c; U 8 k; U 1 t; U 1 m; U 2 i; U 2 h; U 2 p; U 4 b; U 4 o; U 4 g; U 2 f; U 2 w].
    use_packs "QQBB3H3IHH"%string [U 8 c; U 8 k; U 1 t; U 1 m; U 2 i; U 2 h; U 2 p; U 4 b; U 4 o; U 4 g; U 2 f; U 2 w]; [|assumption].
    cbn [bind]. rewrite (match_build dx dd mv mt) by (try assumption; lia). cbn [bind].
    change [U 8 c; U 8 k; U 1 t; U 1 m; U 2 i; U 2 h; U 2 p; U 4 b; U 4 o; U 4 g; U 2 f; U 2 w; R (match_wire mt); R (insts_wire is)] with
      ([U 8 c; U 8 k; U 1 t; U 1 m; U 2 i; U 2 h; U 2 p; U 4 b; U 4 o; U 4 g; U 2 f; U 2 w] ++ [R (match_wire mt); R (insts_wire is)]).
    rewrite enc_app, enc_R2. reflexivity.
  - (* group_mod *) start (MGroupMod c t g bs).
    change (ofp_group_mod (obj dx dd) dx hh (VInt c) (VInt t) (VInt g) v = Ok (mwire xid (MGroupMod c t g bs))).
    unfold ofp_group_mod. rewrite (buckets_build dx dd v bs) by (try assumption; lia). cbn [bind]. apply MD; [exact T1|].
    head_fits [U 2 c; U 1 t; P 1; U 4 g]. apply (pack_app_enc "HBxI" [U 2 c; U 1 t; P 1; U 4 g]); [reflexivity | assumption].
  - (* port_mod *) start (MPortMod p h c k ps). destruct Hext as [Hw Hps].
    change (ofp_port_mod (obj dx dd) dx hh (VInt p) (VBytes h) (VInt c) (VInt k) v = Ok (mwire xid (MPortMod p h c k ps))).
    unfold ofp_port_mod.
    rewrite (seqarg_spec pprop_arg pprop_wire (obj dx dd) v ps l) by
      (intros w x Hin Hw'; apply pprop_build; [exact Hw' | exact (Forall_In _ _ _ Hps Hin) | lia]).
    cbn [bind]. apply MD; [exact T1|].
    head_fits [U 4 p; P 4; R h; P 2; U 4 c; U 4 k].
    apply (pack_app_enc "I4x6s2xII" [U 4 p; P 4; R h; P 2; U 4 c; U 4 k]); [|assumption].
    cbn [map shape]. rewrite Hw. reflexivity.
  - (* table_mod *) start (MTableMod t c ps).
    change (message (obj dx dd) dx hh (VInt 17)
      (p <- packs "B3xI" [VInt t; VInt c] ;; d <- as_bytes (VBytes (concat (map tprop_wire ps))) ;; Ok (p ++ d)) = Ok (mwire xid (MTableMod t c ps))).
    apply MD; [exact T1|]. head_fits [U 1 t; P 3; U 4 c]. use_packs "B3xI"%string [U 1 t; P 3; U 4 c]; [|assumption]. cbn [bind as_bytes].
    change [U 1 t; P 3; U 4 c; R (concat (map tprop_wire ps))] with ([U 1 t; P 3; U 4 c] ++ [R (concat (map tprop_wire ps))]).
    rewrite enc_app, enc_R. reflexivity.
  - (* request *) start (MRequest f r).
    change (ofp_multipart_request (obj dx dd) dx hh (VInt (rq_type r)) (VInt f) v = Ok (mwire xid (MRequest f r))).
    unfold ofp_multipart_request. rewrite (request_body dx dd v r) by (try assumption; lia). cbn [bind]. apply MD; [exact T1|].
    head_fits [U 2 (rq_type r); U 2 f; P 4]. use_packs "HH4x"%string [U 2 (rq_type r); U 2 f; P 4]; [|assumption]. cbn [bind as_bytes].
    change [U 2 (rq_type r); U 2 f; P 4; R (enc (rq_fields r))] with ([U 2 (rq_type r); U 2 f; P 4] ++ [R (enc (rq_fields r))]).
    rewrite enc_app, enc_R. reflexivity.
  - (* reply *) start (MReply f r).
    change (ofp_multipart_reply (obj dx dd) dx hh (VInt (rp_type r)) (VInt f) v = Ok (mwire xid (MReply f r))).
    unfold ofp_multipart_reply. rewrite (reply_body dx dd v r) by (try assumption; lia). cbn [bind]. apply MD; [exact T1|].
    head_fits [U 2 (rp_type r); U 2 f; P 4].
    apply (pack_app_enc "HH4x" [U 2 (rp_type r); U 2 f; P 4]); [reflexivity | assumption].
  - (* role *) start (MRole ty r g).
    change (ofp_role_request (obj dx dd) dx hh (VInt r) (VInt g) = Ok (mwire xid (MRole ty r g))).
    apply MD.
    + right. split; [reflexivity|]. left. exists [24; 25]. split; [reflexivity|]. exact Hext.
    + apply (packs_enc "I4xQ" [U 4 r; P 4; U 8 g] eq_refl Hf).
  - (* async *) start (MAsync ty ps). destruct Hext as [Hty Hps].
    change (ofp_async_config (obj dx dd) dx hh v = Ok (mwire xid (MAsync ty ps))). unfold ofp_async_config.
    rewrite (seqarg_spec aprop_arg aprop_wire (obj dx dd) v ps l) by
      (intros w x Hin Hw; destruct (Forall_In _ _ _ Hps Hin); apply aprop_build; [exact Hw | assumption | assumption | lia]).
    cbn [bind]. apply (MD (tup [27; 28]) (Ok _)); [|rewrite enc_R; reflexivity].
    right. split; [reflexivity|]. left. exists [27; 28]. split; [reflexivity|]. exact Hty.
  - (* experimenter *) start (MExperimenter e t d).
    change (message (obj dx dd) dx hh (VInt 4) (p <- packs "II" [VInt e; VInt t] ;; d <- as_bytes (dflt_bytes v []) ;; Ok (p ++ d)) = Ok (mwire xid (MExperimenter e t d))).
    apply MD; [exact T1|]. head_fits [U 4 e; U 4 t]. use_packs "II"%string [U 4 e; U 4 t]; [|assumption].
    rewrite (str_default _ _ s). cbn [bind as_bytes].
    change [U 4 e; U 4 t; R d] with ([U 4 e; U 4 t] ++ [R d]). rewrite enc_app, enc_R. reflexivity.
  - (* bundle *) start (MBundle b t f).
    change (ofp_bundle_ctrl_msg (obj dx dd) dx hh (VInt b) (VInt t) (VInt f) v = Ok (mwire xid (MBundle b t f))).
    unfold ofp_bundle_ctrl_msg. rewrite (seq_empty dx dd v e). cbn [bind]. apply MD; [exact T1|].
    unfold pack_app. use_packs "IHH"%string [U 4 b; U 2 t; U 2 f]; [|exact Hf]. cbn [bind]. rewrite app_nil_r. reflexivity.
Qed.
