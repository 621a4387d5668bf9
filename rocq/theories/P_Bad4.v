(** What the parser of OpenFlow 1.3 does with SET_MPLS_TTL actions, wherever
    they stand. *)

From Verif Require Import Py Struct P_Struct S_Hello S_Ports P_Hello P_Ports S_Wire4 S_Msg4 M_Build4 M_Parse4 P_Wire4 P_Act4 P_Stat4 P_Msg4 P_MsgParse4 P_Rebuild4.
Local Open Scope Z_scope.
Local Open Scope list_scope.

(** A list whose elements are parsed up to one that raises. *)
Lemma while_stops {A} (wire : A -> bytes) (good : A -> Prop) f m e l : forall n off limit,
  (forall x, {good x} + {~ good x}) ->
  (forall x o, In x l -> good x -> at_ m o (wire x) -> exists v, f o = Ok (v, (o + length (wire x))%nat)) ->
  (forall x o, In x l -> ~ good x -> at_ m o (wire x) -> f o = Err e) ->
  Forall (fun x => (0 < length (wire x))%nat) l ->
  ~ Forall good l ->
  at_ m off (concat (map wire l)) ->
  limit = (off + length (concat (map wire l)))%nat ->
  (length m <= n)%nat ->
  while_fetch n f limit off = Err e.
Proof.
  intros n off limit D Hf Hbad Hne Hno Hat -> Hn.
  assert (Hl : (length l <= n)%nat).
  { pose proof (wires_length wire l Hne). apply at_length in Hat. lia. }
  clear Hn. revert n off Hf Hbad Hno Hat Hl. induction l as [|x l IH]; intros n off Hf Hbad Hno Hat Hl.
  - exfalso. apply Hno. constructor.
  - cbn [map concat] in *. inversion Hne as [|? ? H1 H2]; subst. rewrite app_length.
    destruct n as [|n]; [cbn in Hl; lia|]. cbn [while_fetch].
    assert (E : (off <? off + (length (wire x) + length (concat (map wire l))))%nat = true) by (apply Nat.ltb_lt; lia).
    rewrite E. apply at_app in Hat. destruct Hat as [Hat1 Hat2].
    destruct (D x) as [G|G].
    + destruct (Hf x off (or_introl eq_refl) G Hat1) as [v Ev]. rewrite Ev. cbn [bind].
      rewrite Nat.add_assoc. rewrite (IH H2); [reflexivity| | | |exact Hat2|cbn in Hl; lia].
      * intros y o Hy. apply Hf. right. exact Hy.
      * intros y o Hy. apply Hbad. right. exact Hy.
      * intros F. apply Hno. constructor; assumption.
    + rewrite (Hbad x off (or_introl eq_refl) G Hat1). reflexivity.
Qed.

Lemma list_stops {A} (wire : A -> bytes) (good : A -> Prop) f m e l n off limit :
  (forall x, {good x} + {~ good x}) ->
  (forall x o, In x l -> good x -> at_ m o (wire x) -> exists v, f o = Ok (v, (o + length (wire x))%nat)) ->
  (forall x o, In x l -> ~ good x -> at_ m o (wire x) -> f o = Err e) ->
  Forall (fun x => (0 < length (wire x))%nat) l ->
  ~ Forall good l ->
  at_ m off (concat (map wire l)) ->
  limit = (off + length (concat (map wire l)))%nat ->
  (length m <= n)%nat ->
  list_fetch n f limit off = Err e.
Proof.
  intros D Hf Hb Hne Hno Hat Hlim Hn. unfold list_fetch.
  rewrite (while_stops wire good f m e l) by assumption. reflexivity.
Qed.

Lemma not_mpls_dec a : {not_mpls_ttl a} + {~ not_mpls_ttl a}.
Proof. destruct a; cbn; auto. Qed.

Lemma acts_dec l : {Forall not_mpls_ttl l} + {~ Forall not_mpls_ttl l}.
Proof. apply Forall_dec. exact not_mpls_dec. Qed.

Lemma inst_parsable_dec i : {inst_parsable i} + {~ inst_parsable i}.
Proof. destruct i; cbn; auto using acts_dec. Qed.

Lemma bucket_parsable_dec b : {bucket_parsable b} + {~ bucket_parsable b}.
Proof. destruct b; cbn; auto using acts_dec. Qed.

Lemma act_bad m off a : at_ m off (act_wire a) -> act_ok a -> ~ not_mpls_ttl a -> p_action m off = Err NameError.
Proof.
  intros Hat [Hf _] Hn. destruct a; try (exfalso; apply Hn; exact Logic.I).
  apply (mpls_ttl_parse m off ttl); [|exact Hat]. cbn [act_fields] in Hf.
  apply fits_cons in Hf. destruct Hf as [_ Hf]. apply fits_cons in Hf. destruct Hf as [_ Hf].
  apply fits_cons in Hf. destruct Hf as [Hf _]. exact Hf.
Qed.

Lemma acts_bad_while m n off l limit :
  at_ m off (acts_wire l) -> Forall act_ok l -> ~ Forall not_mpls_ttl l ->
  limit = (off + length (acts_wire l))%nat -> (length m <= n)%nat ->
  while_fetch n (p_action m) limit off = Err NameError.
Proof.
  intros Hat Hl Hm Hlim Hn.
  apply (while_stops act_wire not_mpls_ttl (p_action m) m NameError l); try assumption; [exact not_mpls_dec| | |apply act_pos].
  - intros a o Hin G Ho. eexists. apply act_parse; [exact Ho | exact (Forall_In _ _ _ Hl Hin) | exact G].
  - intros a o Hin G Ho. apply (act_bad m o a Ho (Forall_In _ _ _ Hl Hin) G).
Qed.

Lemma acts_bad m n off l :
  at_ m off (acts_wire l) -> Forall act_ok l -> ~ Forall not_mpls_ttl l -> (length m <= n)%nat ->
  list_fetch n (p_action m) (off + length (acts_wire l)) off = Err NameError.
Proof. intros Hat Hl Hm Hn. unfold list_fetch. rewrite (acts_bad_while m n off l) by auto. reflexivity. Qed.

Lemma inst_bad m n off i : at_ m off (inst_wire i) -> inst_ok i -> ~ inst_parsable i -> (length m <= n)%nat ->
  p_instruction n m off = Err NameError.
Proof.
  intros Hat [Hf Hx] Hp Hn. destruct i as [t|k w|t acts|k|e b]; try (exfalso; apply Hp; exact Logic.I).
  unfold inst_wire in Hat. cbn [inst_fields inst_parsable] in *. destruct Hx as [Hty Hacts].
  assert (Ht : 0 <= t < 65536) by (destruct Hty as [<-|[<-|[<-|[]]]]; lia).
  destruct (at_ihdr m off t [U 2 (8 + zlen (acts_wire acts)); P 4; R (acts_wire acts)] Hat) as [x Eh];
    [cbn [flen fld_len]; lia|exact Ht|].
  unfold p_instruction. rewrite Eh. cbn [bind].
  assert (En : forall k, ~ In k [3; 4; 5] -> (t =? k) = false).
  { intros k Hk. apply Z.eqb_neq. intros ->. apply Hk. exact Hty. }
  rewrite !En by (cbn; lia). rewrite py_inz_In by exact Hty.
  change [U 2 t; U 2 (8 + zlen (acts_wire acts)); P 4; R (acts_wire acts)]
    with ([U 2 t; U 2 (8 + zlen (acts_wire acts)); P 4] ++ [R (acts_wire acts)]) in Hat, Hf.
  apply at_enc_app in Hat. apply fits_app in Hf. destruct Hat as [H1 H2]. destruct Hf as [F1 _].
  unfold p_instruction_actions.
  rewrite (unp_enc "HH4x" [U 2 t; U 2 (8 + zlen (acts_wire acts)); P 4] m off eq_refl F1 H1).
  cbn [vals bind flen fld_len] in *. rewrite enc_R in H2.
  unfold list_fetch. rewrite (acts_bad_while m n _ acts) by (try assumption; unfold zlen; lia). reflexivity.
Qed.

Lemma insts_bad m n off l limit :
  at_ m off (insts_wire l) -> Forall inst_ok l -> ~ Forall inst_parsable l ->
  limit = (off + length (insts_wire l))%nat -> (length m <= n)%nat ->
  list_fetch n (p_instruction n m) limit off = Err NameError.
Proof.
  intros Hat Hl Hm Hlim Hn.
  apply (list_stops inst_wire inst_parsable (p_instruction n m) m NameError l); try assumption; [exact inst_parsable_dec| | |apply inst_pos].
  - intros a o Hin G Ho. eexists. apply inst_parse; [exact Ho | exact (Forall_In _ _ _ Hl Hin) | exact G | exact Hn].
  - intros a o Hin G Ho. apply (inst_bad m n o a Ho (Forall_In _ _ _ Hl Hin) G Hn).
Qed.

Lemma bucket_bad m n off b : at_ m off (bucket_wire b) -> bucket_ok b -> ~ bucket_parsable b -> (length m <= n)%nat ->
  p_bucket n m off = Err NameError.
Proof.
  destruct b as [w p g acts]. intros Hat [Hf Hx] Hp Hn. unfold bucket_wire in *.
  cbn [bucket_fields bucket_parsable] in *.
  change [U 2 (16 + zlen (acts_wire acts)); U 2 w; U 4 p; U 4 g; P 4; R (acts_wire acts)]
    with ([U 2 (16 + zlen (acts_wire acts)); U 2 w; U 4 p; U 4 g; P 4] ++ [R (acts_wire acts)]) in Hat, Hf.
  apply at_enc_app in Hat. apply fits_app in Hf. destruct Hat as [H1 H2]. destruct Hf as [F1 _].
  unfold p_bucket.
  rewrite (unp_enc "HHII4x" [U 2 (16 + zlen (acts_wire acts)); U 2 w; U 4 p; U 4 g; P 4] m off eq_refl F1 H1).
  cbn [vals bind flen fld_len Datatypes.app] in *. rewrite enc_R in H2.
  rewrite (acts_bad_while m n _ acts) by (try assumption; unfold zlen; lia). reflexivity.
Qed.

Lemma buckets_bad m n off l limit :
  at_ m off (buckets_wire l) -> Forall bucket_ok l -> ~ Forall bucket_parsable l ->
  limit = (off + length (buckets_wire l))%nat -> (length m <= n)%nat ->
  while_fetch n (p_bucket n m) limit off = Err NameError.
Proof.
  intros Hat Hl Hm Hlim Hn.
  apply (while_stops bucket_wire bucket_parsable (p_bucket n m) m NameError l); try assumption; [exact bucket_parsable_dec| | |apply bucket_pos].
  - intros a o Hin G Ho. eexists. apply bucket_parse; [exact Ho | exact (Forall_In _ _ _ Hl Hin) | exact G | exact Hn].
  - intros a o Hin G Ho. apply (bucket_bad m n o a Ho (Forall_In _ _ _ Hl Hin) G Hn).
Qed.

(** The three messages that carry actions. *)
Definition carries_actions (m : omsg) : Prop :=
  match m with
  | MPacketOut _ _ _ _ | MFlowMod _ _ _ _ _ _ _ _ _ _ _ _ _ | MGroupMod _ _ _ _ => True
  | _ => False
  end.

Theorem mpls_message n bs off xid m :
  at_ bs off (mwire xid m) -> msg_ok m -> carries_actions m -> ~ msg_parsable m -> u32 xid -> (length bs <= n)%nat ->
  parse n bs off = Err NameError.
Proof.
  intros Hat Hok Hc Hp Hx Hn. pose proof Hok as (Hf & Hlen & Hext).
  destruct (p_header_ok bs off (mtype m) xid (body m) Hat (mtype_u8 m Hok) Hx Hlen) as [Hh Hb].
  pose proof (enc_length (body_fields m)) as Hl. fold (body m) in Hl. rewrite Hl in Hh.
  set (h := hdr_view (mtype m) xid (body m)) in *. clearbody h.
  unfold body in Hb. clear Hat Hlen Hl Hok.
  destruct m; try (exfalso; exact Hc); cbn [mtype body_fields msg_parsable flen fld_len] in *; unfold body in *; clear Hc; by_type Hh.
  - change (p_packet_out n bs off = Err NameError).
    unfold p_packet_out. rewrite Hh. cbn [bind]. cut_layout [U 4 buffer; U 4 in_port; U 2 (zlen (acts_wire acts)); P 6] Hb Hf.
    rewrite (unp_enc "IIH6x" [U 4 buffer; U 4 in_port; U 2 (zlen (acts_wire acts)); P 6]) by (try assumption; reflexivity). cbn [bind vals flen fld_len] in *.
    rewrite enc_R2 in Hb. apply at_app in Hb. destruct Hb as [B1 B2].
    assert (Ez : Z.to_nat (zlen (acts_wire acts)) = length (acts_wire acts)) by (unfold zlen; lia). rewrite Ez.
    rewrite (acts_bad_while bs n _ acts) by (try assumption; reflexivity). reflexivity.
  - change (p_flow_mod n bs off = Err NameError). destruct Hext as [Hm Hi].
    unfold p_flow_mod. rewrite Hh. cbn [bind].
    cut_layout [U 8 cookie; U 8 mask; U 1 table; U 1 command; U 2 idle; U 2 hard; U 2 prio; U 4 buffer; U 4 out_port; U 4 out_group; U 2 flags; P 2] Hb Hf.
    rewrite (unp_enc "QQBB3H3IH2x" [U 8 cookie; U 8 mask; U 1 table; U 1 command; U 2 idle; U 2 hard; U 2 prio; U 4 buffer; U 4 out_port; U 4 out_group; U 2 flags; P 2])
      by (try assumption; reflexivity).
    cbn [bind vals flen fld_len] in *. rewrite enc_R2 in Hb. apply at_app in Hb. destruct Hb as [B1 B2].
    rewrite (match_parse _ _ m B1 Hm). cbn [bind].
    rewrite (insts_bad bs n _ is) by (try assumption; lia). reflexivity.
  - change (p_group_mod n bs off = Err NameError).
    unfold p_group_mod. rewrite Hh. cbn [bind]. cut_layout [U 2 command; U 1 ty; P 1; U 4 group] Hb Hf.
    rewrite (unp_enc "HBxI" [U 2 command; U 1 ty; P 1; U 4 group]) by (try assumption; reflexivity). cbn [bind vals flen fld_len] in *.
    rewrite enc_R in Hb. rewrite (buckets_bad bs n _ bs0) by (try assumption; lia). reflexivity.
Qed.

(** *** Payloads *)

Lemma set_field_padded m off f :
  at_ m off (act_wire (AcSetField f)) -> act_ok (AcSetField f) -> ((4 + length f) mod 8 <> 0)%nat ->
  exists x z o, p_action m off = Ok (VTup "ofp_action_set_field" [VInt 25; x; VBytes (f ++ z)], o) /\
    z <> [] /\ Forall (fun b => b = 0) z /\ (length (act_wire (AcSetField f)) = 4 + length f + length z)%nat.
Proof.
  intros Hat Hok Hm. rewrite (act_parse m off _ Hat Hok Logic.I). unfold act_view. cbn [act_padded act_class act_fields vals].
  do 2 eexists. eexists. split; [reflexivity|]. split; [|split].
  - intros E. apply (f_equal (@length Z)) in E. rewrite zeros_length in E. change (@length Z []) with 0%nat in E. unfold gap in E.
    pose proof (Nat.mod_upper_bound (4 + length f) 8 ltac:(lia)). rewrite Nat.mod_small in E by lia. lia.
  - unfold zeros. apply Forall_forall. intros b Hb. exact (repeat_spec _ _ _ Hb).
  - unfold act_wire. rewrite enc_length. cbn [act_fields flen fld_len]. rewrite zeros_length. lia.
Qed.

Lemma experimenter_padded m off e d :
  at_ m off (act_wire (AcExperimenter e d)) -> act_ok (AcExperimenter e d) -> (length d mod 8 <> 0)%nat ->
  exists x z o, p_action m off = Ok (VTup "ofp_action_experimenter_" [VInt 65535; x; VInt e; VBytes (d ++ z)], o) /\
    z <> [] /\ Forall (fun b => b = 0) z /\ (length (act_wire (AcExperimenter e d)) = 8 + length d + length z)%nat.
Proof.
  intros Hat Hok Hm. rewrite (act_parse m off _ Hat Hok Logic.I). unfold act_view. cbn [act_padded act_class act_fields vals].
  do 2 eexists. eexists. split; [reflexivity|]. split; [|split].
  - intros E. apply (f_equal (@length Z)) in E. rewrite zeros_length in E. change (@length Z []) with 0%nat in E. unfold gap in E.
    assert (E8 : ((8 + length d) mod 8 = length d mod 8)%nat) by (rewrite Nat.add_mod by lia; rewrite Nat.mod_same by lia; cbn [Nat.add]; apply Nat.mod_mod; lia).
    rewrite E8 in E.
    pose proof (Nat.mod_upper_bound (length d) 8 ltac:(lia)). rewrite Nat.mod_small in E by lia. lia.
  - unfold zeros. apply Forall_forall. intros b Hb. exact (repeat_spec _ _ _ Hb).
  - unfold act_wire. rewrite enc_length. cbn [act_fields flen fld_len]. rewrite zeros_length. lia.
Qed.

(** *** Replies *)

(** The start of a reply: header, type, flags. *)
Lemma reply_start n bs off ty xid f b :
  at_ bs off (msg 4 19 xid (be 2 ty ++ be 2 f ++ zeros 4 ++ b)) -> u32 xid -> u16 ty -> u16 f -> zlen b <= 65519 ->
  let body := be 2 ty ++ be 2 f ++ zeros 4 ++ b in
  p_header bs off = Ok (hdr_view 19 xid body, 19, (16 + length b)%nat, (off + 8)%nat) /\
  unp "HH4x" bs (off + 8) = Ok ([VInt ty; VInt f], (off + 16)%nat) /\
  at_ bs (off + 16) b /\ parse n bs off = p_multipart_reply n bs off.
Proof.
  intros Hat Hx Ht Hf Hl body. fold body in Hat.
  assert (Lb : length body = (8 + length b)%nat) by (unfold body; rewrite !app_length, !be_length, zeros_length; lia).
  destruct (p_header_ok bs off 19 xid body Hat ltac:(unfold u8; lia) Hx ltac:(unfold zlen in *; lia)) as [Hh Hb].
  assert (Eb : body = enc ([U 2 ty; U 2 f; P 4] ++ [R b])).
  { unfold body, enc. cbn [Datatypes.app map concat enc1]. rewrite app_nil_r. reflexivity. }
  rewrite Eb in Hb. apply at_enc_app in Hb. destruct Hb as [B1 B2]. rewrite enc_R in B2.
  split; [rewrite Lb in Hh; exact Hh|]. split; [|split].
  - rewrite (unp_enc "HH4x" [U 2 ty; U 2 f; P 4] bs (off + 8) eq_refl); [cbn [vals flen fld_len]; do 2 f_equal; lia| |exact B1].
    repeat constructor; cbn; unfold u16 in *; lia.
  - cbn [flen fld_len] in B2. replace (off + 16)%nat with (off + 8 + (2 + (2 + (4 + 0))))%nat by lia. exact B2.
  - by_type Hh. reflexivity.
Qed.

(** A loop over entries of one size. *)
Lemma while_fixed cls f k m limit : sizes f = Ok k -> forall n off vs o,
  while_fetch n (fixed cls f m) limit off = Ok (vs, o) -> o = (off + k * length vs)%nat.
Proof.
  intros Hk n. induction n as [|n IH]; intros off vs o; cbn [while_fetch]; destruct (off <? limit)%nat; try discriminate;
    try (intros E; injection E as <- <-; cbn [length]; lia).
  unfold fixed at 1, unp. destruct (unpacks f m off) as [v|e]; [|discriminate]. cbn [bind]. rewrite Hk. cbn [bind].
  destruct (while_fetch n (fixed cls f m) limit (off + k)) as [[vs' o']|e] eqn:Ew; [|discriminate]. cbn [bind].
  intros E. injection E as <- <-. apply IH in Ew. cbn [length]. lia.
Qed.

(** Port statistics: the entries take 112 bytes, the parser reads 111. *)
Theorem port_stats_never n bs off xid f b k h t fl l e :
  at_ bs off (msg 4 19 xid (be 2 4 ++ be 2 f ++ zeros 4 ++ b)) -> u32 xid -> u16 f -> zlen b <= 65519 ->
  length b = (112 * k)%nat -> (0 < k)%nat ->
  parse n bs off = Ok (VTup "ofp_multipart_reply" [h; t; fl; VList l], e) -> (111 * length l = 112 * k)%nat.
Proof.
  intros Hat Hx Hf Hl Hk Hk0 Hp.
  destruct (reply_start n bs off 4 xid f b Hat Hx ltac:(unfold u16; lia) Hf Hl) as (Hh & Hu & Hb & E). rewrite E in Hp.
  unfold p_multipart_reply in Hp. rewrite Hh in Hp. cbn [bind] in Hp. rewrite Hu in Hp. cbn [bind] in Hp. cbv zeta in Hp.
  change (4 =? 0) with false in Hp. change (4 =? 1) with false in Hp. change (4 =? 2) with false in Hp.
  change (4 =? 3) with false in Hp. change (4 =? 4) with true in Hp. cbv iota in Hp. unfold list_fetch, p_port_stats in Hp.
  destruct (while_fetch n (fixed "ofp_port_stats" "I3x12Q2I" bs) (off + (16 + length b)) (off + 16)) as [[vs o]|err] eqn:Ew; [|discriminate].
  pose proof (while_fixed "ofp_port_stats" "I3x12Q2I" 111 bs _ eq_refl n _ _ _ Ew) as Ho.
  cbn [bind] in Hp. destruct (o =? off + (16 + length b))%nat eqn:Eo; [|discriminate]. cbn [assert_ bind] in Hp.
  apply Nat.eqb_eq in Eo. injection Hp as _ _ _ <- _. lia.
Qed.

(** One aggregate comes back as a list of one; building that raises. *)
Theorem aggregate_reply n bs off xid f p b c :
  at_ bs off (msg 4 19 xid (be 2 2 ++ be 2 f ++ zeros 4 ++ enc [U 8 p; U 8 b; U 4 c; P 4])) -> u32 xid -> u16 f ->
  fits [U 8 p; U 8 b; U 4 c; P 4] -> (0 < n)%nat ->
  exists h, parse n bs off = Ok (VTup "ofp_multipart_reply" [h; VInt 2; VInt f; VList [VTup "ofp_aggregate_stats_reply" [VInt p; VInt b; VInt c]]], (off + 40)%nat).
Proof.
  intros Hat Hx Hf Hfit Hn.
  assert (L : length (enc [U 8 p; U 8 b; U 4 c; P 4]) = 24%nat) by (rewrite enc_length; reflexivity).
  destruct (reply_start n bs off 2 xid f _ Hat Hx ltac:(unfold u16; lia) Hf ltac:(unfold zlen; lia)) as (Hh & Hu & Hb & E). rewrite E.
  eexists. unfold p_multipart_reply. rewrite Hh. cbn [bind]. rewrite Hu. cbn [bind]. cbv zeta.
  change (2 =? 0) with false. change (2 =? 1) with false. change (2 =? 2) with true. cbv iota. unfold list_fetch, p_aggregate_stats_reply.
  rewrite L. destruct n as [|n]; [lia|]. cbn [while_fetch].
  assert (E1 : (off + 16 <? off + (16 + 24))%nat = true) by (apply Nat.ltb_lt; lia). rewrite E1.
  rewrite (fixed_enc "ofp_aggregate_stats_reply" "QQI4x" [U 8 p; U 8 b; U 4 c; P 4] bs (off + 16) eq_refl Hfit Hb).
  cbn [bind]. cbn [flen fld_len].
  replace (off + 16 + (8 + (8 + (4 + (4 + 0)))))%nat with (off + (16 + 24))%nat by lia.
  assert (E2 : (while_fetch n (fixed "ofp_aggregate_stats_reply" "QQI4x" bs) (off + (16 + 24)) (off + (16 + 24))) = Ok ([], (off + (16 + 24))%nat))
    by (destruct n; cbn [while_fetch]; rewrite Nat.ltb_irrefl; reflexivity).
  rewrite E2. cbn [bind]. rewrite Nat.eqb_refl. cbn [assert_ bind vals Datatypes.app]. do 2 f_equal. 
Qed.

Lemma aggregate_list_unbuilt dx d h f l w : obj dx d (VTup "ofp_multipart_reply" [h; VInt 2; f; VList l]) <> Ok w.
Proof. destruct d as [|d]; [discriminate|]. discriminate. Qed.

(** Experimenter replies. *)
Theorem experimenter_reply n bs off xid f e t d :
  at_ bs off (msg 4 19 xid (be 2 65535 ++ be 2 f ++ zeros 4 ++ be 4 e ++ be 4 t ++ d)) -> u32 xid -> u16 f -> u32 e -> u32 t ->
  zlen d <= 65511 ->
  exists h, parse n bs off = Ok (VTup "ofp_multipart_reply" [h; VInt 65535; VInt f;
     VTup "ofp_experimenter_multipart_" [VInt e; VInt t; VBytes d]], (off + 24 + length d)%nat).
Proof.
  intros Hat Hx Hf He Ht Hl.
  assert (L : length (be 4 e ++ be 4 t ++ d) = (8 + length d)%nat) by (rewrite !app_length, !be_length; lia).
  destruct (reply_start n bs off 65535 xid f _ Hat Hx ltac:(unfold u16; lia) Hf ltac:(unfold zlen in *; lia)) as (Hh & Hu & Hb & E). rewrite E.
  eexists. unfold p_multipart_reply. rewrite Hh. cbn [bind]. rewrite Hu. cbn [bind]. cbv zeta.
  repeat match goal with |- context [65535 =? ?k] => let b := eval vm_compute in (65535 =? k) in change (65535 =? k) with b end. cbv iota.
  rewrite L. unfold p_experimenter_multipart.
  assert (Eb : be 4 e ++ be 4 t ++ d = enc ([U 4 e; U 4 t] ++ [R d])).
  { unfold enc. cbn [Datatypes.app map concat enc1]. rewrite app_nil_r. reflexivity. }
  rewrite Eb in Hb. apply at_enc_app in Hb. destruct Hb as [B1 B2]. rewrite enc_R in B2. cbn [flen fld_len] in B2.
  rewrite (unp_enc "II" [U 4 e; U 4 t] bs (off + 16) eq_refl); [|repeat constructor; cbn; unfold u32 in *; lia|exact B1].
  cbn [bind vals flen fld_len Datatypes.app].
  rewrite (slice_at bs _ d) by (try exact B2; lia). do 2 f_equal. lia.
Qed.

Lemma experimenter_tuple_unbuilt dx d h f c l w : obj dx d (VTup "ofp_multipart_reply" [h; VInt 65535; f; VTup c l]) <> Ok w.
Proof. destruct d as [|d]; discriminate. Qed.
