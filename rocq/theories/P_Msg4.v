(** Building and parsing OpenFlow 1.3 messages. *)

From Verif Require Import Py Struct P_Struct S_Hello S_Ports P_Hello P_Ports S_Wire4 S_Msg4 M_Build4 M_Parse4 P_Wire4 P_Act4 P_Stat4.
Local Open Scope Z_scope.
Local Open Scope list_scope.

(** *** Building multipart bodies *)

Lemma opt_default c v z : opt_arg c v z -> default v c = VInt z.
Proof. intros [[-> ->]| ->]; reflexivity. Qed.

Lemma match_none dx d : M_Build4.ofp_match (obj dx d) VNone VNone (VList []) = Ok (match_wire (Match 1 [])).
Proof. reflexivity. Qed.

Definition rq_plain (r : request) : Prop := match r with RqPlain _ => True | _ => False end.

Lemma rq_obj dx d v r : rq_arg v r -> rq_ok r -> ~ rq_plain r -> (2 <= d)%nat -> obj dx d v = Ok (enc (rq_fields r)).
Proof.
  intros Ha [Hf Hx] Hp Hd. destruct d as [|[|d]]; [lia|lia|].
  destruct Ha as [r|ty v|tv t pv p gv g cv c kv k mv m Ht Hpv Hg Hc Hk Hm|v p Hv|v p q Hv|v g Hv|ty m]; cbn [rq_fields rq_plain] in *.
  - reflexivity.
  - destruct (Hp I).
  - change (ofp_flow_stats_request (obj dx (S d)) tv pv gv cv kv mv =
      Ok (enc ([U 1 t; P 3; U 4 p; U 4 g; P 4; U 8 c; U 8 k] ++ [R (match_wire m)]))).
    change (fits ([U 1 t; P 3; U 4 p; U 4 g; P 4; U 8 c; U 8 k] ++ [R (match_wire m)])) in Hf.
    apply fits_app in Hf. destruct Hf as [F1 _].
    unfold ofp_flow_stats_request.
    rewrite (opt_default _ _ _ Ht), (opt_default _ _ _ Hpv), (opt_default _ _ _ Hg), (opt_default _ _ _ Hc), (opt_default _ _ _ Hk).
    use_packs "B3xII4xQQ"%string [U 1 t; P 3; U 4 p; U 4 g; P 4; U 8 c; U 8 k]; [|exact F1].
    rewrite enc_app, enc_R.
    assert (E : exists mv', match mv with VNone => b <- M_Build4.ofp_match (obj dx (S d)) VNone VNone (VList []) ;; Ok (VBytes b) | _ => Ok mv end = Ok mv' /\
                obj dx (S d) mv' = Ok (match_wire m)).
    { destruct Hm as [Hm|[-> ->]].
      - exists mv. split; [destruct Hm; reflexivity | apply match_build; [exact Hm | exact Hx | lia]].
      - exists (VBytes (match_wire (Match 1 []))). split; [rewrite match_none; reflexivity | reflexivity]. }
    destruct E as (mv' & E1 & E2). rewrite E1. cbn [bind]. rewrite enc_length. cbn [flen fld_len Nat.add Nat.eqb assert_ bind].
    rewrite E2. reflexivity.
  - change (ofp_port_stats_request v = Ok (enc [U 4 p; P 4])). unfold ofp_port_stats_request. rewrite (opt_default _ _ _ Hv).
    apply (packs_enc "I4x" [U 4 p; P 4] eq_refl Hf).
  - change (ofp_queue_stats_request v (VInt q) = Ok (enc [U 4 p; U 4 q])). unfold ofp_queue_stats_request. rewrite (opt_default _ _ _ Hv).
    apply (packs_enc "II" [U 4 p; U 4 q] eq_refl Hf).
  - change (ofp_group_stats_request v = Ok (enc [U 4 g; P 4])). unfold ofp_group_stats_request. rewrite (opt_default _ _ _ Hv).
    apply (packs_enc "I4x" [U 4 g; P 4] eq_refl Hf).
  - change (ofp_meter_multipart_request (VInt m) = Ok (enc [U 4 m; P 4])).
    apply (packs_enc "I4x" [U 4 m; P 4] eq_refl Hf).
Qed.

Lemma rq_not_none v r : rq_arg v r -> ~ rq_plain r -> v <> VNone.
Proof. intros Ha Hp. destruct Ha; try discriminate. destruct (Hp I). Qed.

Lemma request_body dx d v r : rq_arg v r -> rq_ok r -> (2 <= d)%nat ->
  (if py_inz (VInt (rq_type r)) [0; 3; 7; 8; 11; 13] then Ok (VBytes [])
   else if py_inz (VInt (rq_type r)) [1; 2; 4; 5; 6; 9; 10] then
     match v with VNone => Ok (VBytes []) | _ => b <- obj dx d v ;; Ok (VBytes b) end
   else if py_eqz (VInt (rq_type r)) 12 then
     match v with
     | VList l | VTup _ l => b <- join (obj dx d) l ;; Ok (VBytes b)
     | VNone => Ok (VList [])
     | _ => Ok v
     end
   else Ok v) = Ok (VBytes (enc (rq_fields r))).
Proof.
  intros Ha Hok Hd.
  assert (C : rq_plain r \/ ~ rq_plain r) by (destruct r; cbn; tauto). destruct C as [C|C].
  - destruct r; destruct C. cbn [rq_type rq_fields]. destruct Hok as [_ Hx]. rewrite py_inz_In by exact Hx. reflexivity.
  - pose proof (rq_obj dx d v r Ha Hok C Hd) as E. pose proof (rq_not_none v r Ha C) as Hn.
    assert (E2 : match v with VNone => Ok (VBytes []) | _ => b <- obj dx d v ;; Ok (VBytes b) end = Ok (VBytes (enc (rq_fields r)))).
    { rewrite E. destruct v; try reflexivity. congruence. }
    destruct r as [ty|t p g c k m|t p g c k m|p|p q|g|ty m|b]; cbn [rq_type rq_plain] in *; try exact E2.
    + destruct (C I).
    + destruct Hok as [_ [<-|[<-|[]]]]; exact E2.
    + inversion Ha; subst. reflexivity.
Qed.

Lemma str_default v b : str_arg v b -> dflt_bytes v [] = VBytes b.
Proof. intros [->|[-> ->]]; reflexivity. Qed.

Lemma desc_build a b c d e a' b' c' d' e' :
  str_arg a a' -> str_arg b b' -> str_arg c c' -> str_arg d d' -> str_arg e e' ->
  rp_ok (RpDesc a' b' c' d' e') -> ofp_desc a b c d e = Ok (enc (rp_fields (RpDesc a' b' c' d' e'))).
Proof.
  intros Ha Hb Hc Hd He [Hf (La & Lb & Lc & Ld & Le)]. unfold ofp_desc.
  rewrite (str_default _ _ Ha), (str_default _ _ Hb), (str_default _ _ Hc), (str_default _ _ Hd), (str_default _ _ He).
  assert (Lp : forall n x, (length x <= n)%nat -> length (padded n x) = n).
  { intros n x H. unfold padded. rewrite app_length, zeros_length. lia. }
  unfold sized. cbn [rp_fields] in *.
  assert (Hs : map shape [R (padded 256 a'); R (padded 256 b'); R (padded 256 c'); R (padded 32 d'); R (padded 256 e')] =
    [FS 256; FS 256; FS 256; FS 32; FS 256]).
  { cbn [map shape]. rewrite !Lp by assumption. reflexivity. }
  rewrite (packs_norm _ [R (padded 256 a'); R (padded 256 b'); R (padded 256 c'); R (padded 32 d'); R (padded 256 e')]).
  - cbn [bind]. rewrite enc_length. cbn [flen fld_len]. rewrite !Lp by assumption. reflexivity.
  - rewrite Hs. reflexivity.
  - exact Hf.
  - rewrite Hs. cbn [norm norm_item vals]. rewrite !pad_short by assumption. reflexivity.
  - rewrite Hs. reflexivity.
Qed.

Lemma four_words_ok v l : words4_arg v l -> length l = 4%nat -> fits (map (U 4) l) -> four_words v = Ok (enc (map (U 4) l)).
Proof.
  intros Hv Hl Hf. unfold four_words.
  assert (E : packs "4I" (all_z l) = Ok (enc (map (U 4) l))).
  { unfold all_z. rewrite <- vals_words. apply packs_enc; [|exact Hf]. rewrite shape_words, Hl. reflexivity. }
  destruct Hv as [->|[[c ->]|[->|[-> ->]]]]; try exact E.
  rewrite enc_length, flen_words, Hl. reflexivity.
Qed.

Lemma group_features_build t c m a m' a' : words4_arg m m' -> words4_arg a a' -> rp_ok (RpGroupFeatures t c m' a') ->
  ofp_group_features (VInt t) (VInt c) m a = Ok (enc (rp_fields (RpGroupFeatures t c m' a'))).
Proof.
  intros Hm Ha [Hf [Lm La]]. cbn [rp_fields] in *. apply fits_app in Hf. destruct Hf as [F1 F2]. apply fits_app in F2. destruct F2 as [F2 F3].
  unfold ofp_group_features. rewrite (four_words_ok m m'), (four_words_ok a a') by assumption. cbn [bind].
  unfold pack_app. use_packs "II"%string [U 4 t; U 4 c]; [|exact F1]. cbn [bind]. rewrite !enc_app. reflexivity.
Qed.

Lemma reply_body dx d v r : rp_arg v r -> rp_ok r -> (3 <= d)%nat ->
  (if py_inz (VInt (rp_type r)) [0; 2; 8; 11] then
     match v with
     | VTup _ _ | VBytes _ => obj dx d v
     | VNone => Ok []
     | _ => Err ValueError
     end
   else if py_inz (VInt (rp_type r)) [1; 3; 4; 5; 6; 7; 9; 10; 12; 13] then
     match v with
     | VList l | VTup _ l => join (obj dx d) l
     | VNone => Ok []
     | _ => Err ValueError
     end
   else if py_eqz (VInt (rp_type r)) 65535 then
     match v with VBytes b => Ok b | _ => Err ValueError end
   else Err ValueError) = Ok (enc (rp_fields r)).
Proof.
  intros Ha Hok Hd. destruct d as [|d]; [lia|].
  destruct Ha as [a b c d0 e a' b' c' d' e' Ha Hb Hc Hd0 He|v l H|v l H|v l H|v l H|v l H|t c m a m' a' Hm Ha|v l H|v l H|m t c b k|v l H]; cbn [rp_type].
  1: exact (desc_build a b c d0 e a' b' c' d' e' Ha Hb Hc Hd0 He Hok).
  6: exact (group_features_build t c m a m' a' Hm Ha Hok).
  8: exact (packs_enc "IIIBB2x" [U 4 m; U 4 t; U 4 c; U 1 b; U 1 k; P 2] eq_refl (proj1 Hok)).
  all: destruct Hok as [_ Hl]; cbn [rp_fields]; rewrite enc_R;
    match goal with |- _ = Ok (concat (map ?w ?ll)) =>
      change (match v with VList l0 | VTup _ l0 => join (obj dx (S d)) l0 | VNone => Ok [] | _ => Err ValueError end = Ok (concat (map w ll))) end;
    eapply items_spec; [eassumption|]; intros w x Hin Hw; pose proof (Forall_In _ _ _ Hl Hin).
  - apply flow_stat_build; assumption.
  - apply table_stat_build; try assumption; lia.
  - apply queue_stat_build; try assumption; lia.
  - apply group_stat_build; try assumption; lia.
  - apply group_desc_build; assumption.
  - apply meter_stat_build; try assumption; lia.
  - apply meter_conf_build; try assumption; lia.
  - apply port_build; try assumption; lia.
Qed.

(** *** Building messages *)

Lemma in_u8 ty l : In ty l -> forallb (fun x => (0 <=? x) && (x <? 256)) l = true -> u8 ty.
Proof.
  intros Hi Hl. rewrite forallb_forall in Hl. specialize (Hl ty Hi). apply andb_true_iff in Hl.
  destruct Hl as [H1 H2]. apply Z.leb_le in H1. apply Z.ltb_lt in H2. unfold u8. lia.
Qed.

Lemma mtype_u8 m : msg_ok m -> u8 (mtype m).
Proof.
  intros (_ & _ & H). destruct m; cbn [mtype]; try (unfold u8; lia); try exact (proj1 H); exact (in_u8 _ _ H eq_refl).
Qed.

Lemma message_data dx d m xid h t data :
  hdr_arg dx (msingle m) (mtype m) xid h -> msg_ok m -> u32 xid -> types_ok (msingle m) (mtype m) t ->
  data = Ok (body m) -> message (obj dx d) dx h t data = Ok (mwire xid m).
Proof.
  intros Hh Hm Hx Ht ->. apply message_ok with (msingle m); try assumption; [apply mtype_u8; exact Hm | apply Hm].
Qed.

Lemma sized_ok n r b : r = Ok b -> length b = n -> sized n r = Ok b.
Proof. intros -> Hl. unfold sized. cbn [bind]. rewrite Hl, Nat.eqb_refl. reflexivity. Qed.

Lemma mwire_len xid m : length (mwire xid m) = (8 + flen (body_fields m))%nat.
Proof. unfold mwire, body. rewrite msg_len, enc_length. reflexivity. Qed.

Lemma enc_R2 a b : enc [R a; R b] = a ++ b.
Proof. unfold enc. cbn [map enc1 concat]. rewrite app_nil_r. reflexivity. Qed.

Lemma queue_build dx d v q : queue_arg v q -> fits (queue_fields q) -> (1 <= d)%nat -> obj dx d v = Ok (enc (queue_fields q)).
Proof.
  intros Ha Hf Hd. destruct d as [|d]; [lia|]. destruct Ha as [q|i p n v Hv]; [reflexivity|].
  change (ofp_packet_queue (obj dx d) (VInt i) (VInt p) n v = Ok (enc [U 4 i; U 4 p; U 2 16; P 6])).
  unfold ofp_packet_queue.
  assert (E : seqarg (obj dx d) v = Ok []) by (destruct Hv as [->|[->|[->|[c ->]]]]; reflexivity).
  rewrite E. cbn [bind]. change (16 + zlen []) with 16.
  use_packs "IIH6x"%string [U 4 i; U 4 p; U 2 16; P 6]; [|exact Hf]. cbn [bind].
  rewrite enc_length. cbn [flen fld_len Nat.add Nat.eqb assert_ bind]. rewrite app_nil_r. reflexivity.
Qed.

Lemma async_data v a b c : pairs_arg v [a; b; c] -> fits (body_fields (MAsync 27 a b c)) ->
  exists x y z, v = [x; y; z] /\
  (s <- add_seq x y ;;
   s <- add_seq s z ;;
   match s with VTup _ l | VList l => packs "6I" l | VBytes _ => Err StructError | _ => Err TypeError end) =
  Ok (enc (body_fields (MAsync 27 a b c))).
Proof.
  intros Hv Hf. cbn [body_fields] in *.
  assert (E : packs "6I" [VInt (fst a); VInt (snd a); VInt (fst b); VInt (snd b); VInt (fst c); VInt (snd c)] =
    Ok (enc [U 4 (fst a); U 4 (snd a); U 4 (fst b); U 4 (snd b); U 4 (fst c); U 4 (snd c)])).
  { exact (packs_enc "6I" [U 4 (fst a); U 4 (snd a); U 4 (fst b); U 4 (snd b); U 4 (fst c); U 4 (snd c)] eq_refl Hf). }
  destruct Hv as [(cs & -> & Hl)| ->].
  - destruct cs as [|c1 [|c2 [|c3 [|? ?]]]]; try discriminate. cbn [combine map fst snd].
    do 3 eexists. split; [reflexivity|]. cbn [add_seq bind Datatypes.app]. exact E.
  - cbn [map]. do 3 eexists. split; [reflexivity|]. cbn [add_seq bind Datatypes.app]. exact E.
Qed.

Ltac head_fits pre :=
  match goal with Hf : fits ?l |- _ => change l with (pre ++ skipn (length pre) l) in Hf; apply fits_app in Hf; destruct Hf as [? _] end.

Theorem msg_build dx d cls args m xid h :
  msg_args cls args m -> msg_ok m -> hdr_arg dx (msingle m) (mtype m) xid h -> u32 xid -> (3 <= d)%nat ->
  call (obj dx d) dx cls (h :: args) = Ok (mwire xid m).
Proof.
  intros Ha Hok Hh Hx Hd. pose proof Hok as (Hf & Hlen & Hext).
  assert (MD : forall t data, types_ok (msingle m) (mtype m) t -> data = Ok (body m) -> message (obj dx d) dx h t data = Ok (mwire xid m))
    by (intros; apply message_data; assumption).
  assert (T1 : types_ok (msingle m) (mtype m) (VInt (mtype m))) by (left; reflexivity).
  destruct Ha; cbn [msg_ok msingle] in *; unfold body in *; cbn [body_fields] in *.
  - (* hello *)
    change (M_Build4.ofp_hello (obj dx d) dx h v = Ok (mwire xid (MHello es))). unfold M_Build4.ofp_hello.
    rewrite (seqarg_spec hello_arg hello_wire (obj dx d) v es H) by
      (intros w x Hin Hw; apply hello_build; [exact Hw | exact (Forall_In _ _ _ Hext Hin) | lia]).
    cbn [bind]. apply (MD (VInt 0) (Ok _) T1). rewrite enc_R. reflexivity.
  - (* error *)
    change (message (obj dx d) dx h (VInt 1) (p <- packs "HH" [VInt t; VInt c] ;; d <- as_bytes (dflt_bytes v []) ;; Ok (p ++ d)) = Ok (mwire xid (MError t c d0))).
    apply MD; [exact T1|]. head_fits [U 2 t; U 2 c]. use_packs "HH"%string [U 2 t; U 2 c]; [|assumption].
    rewrite (str_default _ _ H). cbn [bind as_bytes].
    change [U 2 t; U 2 c; R d0] with ([U 2 t; U 2 c] ++ [R d0]). rewrite enc_app, enc_R. reflexivity.
  - (* plain *)
    change (ofp_ (obj dx d) dx h (VBytes d0) VNone = Ok (mwire xid (MPlain ty d0))).
    assert (E := MD VNone (Ok d0)). unfold message in E. cbn [bind] in E. apply E; [right; auto | rewrite enc_R; reflexivity].
  - (* features *)
    change (ofp_switch_features (obj dx d) dx h (VInt d0) (VInt b) (VInt t) (VInt a) (VInt c) = Ok (mwire xid (MFeatures d0 b t a c))).
    apply sized_ok; [|apply mwire_len]. apply MD; [exact T1|].
    apply (packs_enc "QIBB2xII" [U 8 d0; U 4 b; U 1 t; U 1 a; P 2; U 4 c; U 4 0] eq_refl Hf).
  - (* config *)
    change (ofp_switch_config (obj dx d) dx h (VInt f) v = Ok (mwire xid (MConfig ty f s))).
    apply sized_ok; [|apply mwire_len]. rewrite (opt_default _ _ _ H). apply MD.
    + right. split; [reflexivity|]. left. exists [9; 8]. split; [reflexivity|]. destruct Hext as [<-|[<-|[]]]; cbn; auto.
    + apply (packs_enc "HH" [U 2 f; U 2 s] eq_refl Hf).
  - (* packet_in *)
    change (ofp_packet_in (obj dx d) dx h (VInt b) (VInt t) (VInt r) (VInt i) (VInt c) mv (VBytes d0) = Ok (mwire xid (MPacketIn b t r i c m d0))).
    apply MD; [exact T1|]. head_fits [U 4 b; U 2 t; U 1 r; U 1 i; U 8 c].
    use_packs "IHBBQ"%string [U 4 b; U 2 t; U 1 r; U 1 i; U 8 c]; [|assumption]. cbn [bind].
    rewrite (match_build dx d mv m) by (try assumption; lia). cbn [bind as_bytes].
    change [U 4 b; U 2 t; U 1 r; U 1 i; U 8 c; R (match_wire m); P 2; R d0] with
      ([U 4 b; U 2 t; U 1 r; U 1 i; U 8 c] ++ [R (match_wire m); P 2; R d0]).
    rewrite enc_app, (enc_cons (R (match_wire m))), (enc_cons (P 2)), enc_R. reflexivity.
  - (* flow_removed *)
    change (ofp_flow_removed (obj dx d) dx h (VInt c) (VInt p) (VInt r) (VInt t) (VInt ds) (VInt dn) (VInt i) (VInt h0) (VInt k) (VInt o) mv =
      Ok (mwire xid (MFlowRemoved c p r t ds dn i h0 k o m))).
    apply MD; [exact T1|]. head_fits [U 8 c; U 2 p; U 1 r; U 1 t; U 4 ds; U 4 dn; U 2 i; U 2 h0; U 8 k; U 8 o].
    use_packs "QHBBIIHHQQ"%string [U 8 c; U 2 p; U 1 r; U 1 t; U 4 ds; U 4 dn; U 2 i; U 2 h0; U 8 k; U 8 o]; [|assumption]. cbn [bind].
    rewrite (match_build dx d mv m) by (try assumption; lia). cbn [bind].
    change [U 8 c; U 2 p; U 1 r; U 1 t; U 4 ds; U 4 dn; U 2 i; U 2 h0; U 8 k; U 8 o; R (match_wire m)] with
      ([U 8 c; U 2 p; U 1 r; U 1 t; U 4 ds; U 4 dn; U 2 i; U 2 h0; U 8 k; U 8 o] ++ [R (match_wire m)]).
    rewrite enc_app, enc_R. reflexivity.
  - (* port_status *)
    change (ofp_port_status (obj dx d) dx h (VInt r) v = Ok (mwire xid (MPortStatus r p))).
    apply MD; [exact T1|]. head_fits [U 1 r; P 7]. use_packs "B7x"%string [U 1 r; P 7]; [|assumption]. cbn [bind].
    rewrite (port_build dx d v p) by (try assumption; lia). cbn [bind].
    change [U 1 r; P 7; R (port_wire p)] with ([U 1 r; P 7] ++ [R (port_wire p)]). rewrite enc_app, enc_R. reflexivity.
  - (* packet_out *)
    change (ofp_packet_out (obj dx d) dx h bv (VInt i) n av dv = Ok (mwire xid (MPacketOut b i acts d0))).
    unfold ofp_packet_out. rewrite (acts_build dx d av acts) by (try assumption; lia). cbn [bind].
    assert (E : match dv with VBytes b0 => Ok b0 | VNone => Ok [] | _ => Err ValueError end = Ok d0)
      by (destruct H1 as [->|[-> ->]]; reflexivity).
    rewrite E. cbn [bind]. cbv zeta. rewrite (opt_default _ _ _ H). apply MD; [exact T1|].
    head_fits [U 4 b; U 4 i; U 2 (zlen (acts_wire acts)); P 6].
    unfold pack_app. use_packs "IIH6x"%string [U 4 b; U 4 i; U 2 (zlen (acts_wire acts)); P 6]; [|assumption]. cbn [bind].
    change [U 4 b; U 4 i; U 2 (zlen (acts_wire acts)); P 6; R (acts_wire acts); R d0] with
      ([U 4 b; U 4 i; U 2 (zlen (acts_wire acts)); P 6] ++ [R (acts_wire acts); R d0]).
    rewrite enc_app, enc_R2. reflexivity.
  - (* flow_mod *)
    change (ofp_flow_mod (obj dx d) dx h (VInt c) (VInt k) (VInt t) (VInt m) (VInt i) (VInt h0) (VInt p) bv ov gv (VInt f) mv iv =
      Ok (mwire xid (MFlowMod c k t m i h0 p b o g f mt is))).
    destruct Hext as [Hm Hi].
    unfold ofp_flow_mod. rewrite (insts_build dx d iv is) by (try assumption; lia). cbn [bind]. cbv zeta.
    rewrite (opt_default _ _ _ H), (opt_default _ _ _ H0), (opt_default _ _ _ H1). apply MD; [exact T1|].
    head_fits [U 8 c; U 8 k; U 1 t; U 1 m; U 2 i; U 2 h0; U 2 p; U 4 b; U 4 o; U 4 g; U 2 f; P 2].
    use_packs "QQBB3H3IH2x"%string [U 8 c; U 8 k; U 1 t; U 1 m; U 2 i; U 2 h0; U 2 p; U 4 b; U 4 o; U 4 g; U 2 f; P 2]; [|assumption].
    cbn [bind]. rewrite (match_build dx d mv mt) by (try assumption; lia). cbn [bind].
    change [U 8 c; U 8 k; U 1 t; U 1 m; U 2 i; U 2 h0; U 2 p; U 4 b; U 4 o; U 4 g; U 2 f; P 2; R (match_wire mt); R (insts_wire is)] with
      ([U 8 c; U 8 k; U 1 t; U 1 m; U 2 i; U 2 h0; U 2 p; U 4 b; U 4 o; U 4 g; U 2 f; P 2] ++ [R (match_wire mt); R (insts_wire is)]).
    rewrite enc_app, enc_R2. reflexivity.
  - (* group_mod *)
    change (ofp_group_mod (obj dx d) dx h (VInt c) (VInt t) (VInt g) v = Ok (mwire xid (MGroupMod c t g bs))).
    unfold ofp_group_mod. rewrite (buckets_build dx d v bs) by (try assumption; lia). cbn [bind]. apply MD; [exact T1|].
    head_fits [U 2 c; U 1 t; P 1; U 4 g]. apply (pack_app_enc "HBxI" [U 2 c; U 1 t; P 1; U 4 g]); [reflexivity | assumption].
  - (* port_mod *)
    change (ofp_port_mod (obj dx d) dx h (VInt p) (VBytes h0) (VInt c) (VInt k) (VInt a) = Ok (mwire xid (MPortMod p h0 c k a))).
    apply sized_ok; [|rewrite mwire_len; cbn [body_fields flen fld_len]; rewrite Hext; reflexivity]. apply MD; [exact T1|].
    apply (packs_enc "I4x6s2xIII4x" [U 4 p; P 4; R h0; P 2; U 4 c; U 4 k; U 4 a; P 4]); [|exact Hf].
    cbn [map shape]. rewrite Hext. reflexivity.
  - (* table_mod *)
    change (ofp_table_mod (obj dx d) dx h (VInt t) (VInt c) = Ok (mwire xid (MTableMod t c))).
    apply sized_ok; [|apply mwire_len]. apply MD; [exact T1|].
    apply (packs_enc "B3xI" [U 1 t; P 3; U 4 c] eq_refl Hf).
  - (* meter_mod *)
    change (ofp_meter_mod (obj dx d) dx h (VInt c) (VInt f) (VInt m) v = Ok (mwire xid (MMeterMod c f m bs))).
    unfold ofp_meter_mod. rewrite (bands_build dx d v bs) by (try assumption; lia). cbn [bind]. apply MD; [exact T1|].
    head_fits [U 2 c; U 2 f; U 4 m]. apply (pack_app_enc "HHI" [U 2 c; U 2 f; U 4 m]); [reflexivity | assumption].
  - (* request *)
    change (ofp_multipart_request (obj dx d) dx h (VInt (rq_type r)) (VInt f) v = Ok (mwire xid (MRequest f r))).
    unfold ofp_multipart_request. rewrite (request_body dx d v r) by (try assumption; lia). cbn [bind]. apply MD; [exact T1|].
    head_fits [U 2 (rq_type r); U 2 f; P 4]. use_packs "HH4x"%string [U 2 (rq_type r); U 2 f; P 4]; [|assumption]. cbn [bind as_bytes].
    change [U 2 (rq_type r); U 2 f; P 4; R (enc (rq_fields r))] with ([U 2 (rq_type r); U 2 f; P 4] ++ [R (enc (rq_fields r))]).
    rewrite enc_app, enc_R. reflexivity.
  - (* reply *)
    change (ofp_multipart_reply (obj dx d) dx h (VInt (rp_type r)) (VInt f) v = Ok (mwire xid (MReply f r))).
    unfold ofp_multipart_reply. rewrite (reply_body dx d v r) by assumption. cbn [bind]. apply MD; [exact T1|].
    head_fits [U 2 (rp_type r); U 2 f; P 4].
    apply (pack_app_enc "HH4x" [U 2 (rp_type r); U 2 f; P 4]); [reflexivity | assumption].
  - (* queue request *)
    change (ofp_queue_get_config_request (obj dx d) dx h (VInt p) = Ok (mwire xid (MQueueRequest p))).
    apply MD; [exact T1|]. apply (packs_enc "I4x" [U 4 p; P 4] eq_refl Hf).
  - (* queue reply *)
    change (ofp_queue_get_config_reply (obj dx d) dx h (VInt p) v = Ok (mwire xid (MQueueReply p qs))).
    unfold ofp_queue_get_config_reply.
    rewrite (seqarg_spec queue_arg (fun q => enc (queue_fields q)) (obj dx d) v qs H) by
      (intros w x Hin Hw; apply queue_build; [exact Hw | exact (Forall_In _ _ _ Hext Hin) | lia]).
    cbn [bind]. apply MD; [exact T1|]. head_fits [U 4 p; P 4].
    apply (pack_app_enc "I4x" [U 4 p; P 4]); [reflexivity | assumption].
  - (* role *)
    change (ofp_role_request (obj dx d) dx h (VInt r) (VInt g) = Ok (mwire xid (MRole ty r g))).
    apply MD.
    + right. split; [reflexivity|]. left. exists [24; 25]. split; [reflexivity|]. exact Hext.
    + apply (packs_enc "I4xQ" [U 4 r; P 4; U 8 g] eq_refl Hf).
  - (* async *)
    destruct (async_data v a b c H Hf) as (x & y & z & -> & E).
    change (ofp_async_config (obj dx d) dx h x y z = Ok (mwire xid (MAsync ty a b c))).
    apply MD; [|exact E].
    right. split; [reflexivity|]. left. exists [27; 28]. split; [reflexivity|]. exact Hext.
Qed.
