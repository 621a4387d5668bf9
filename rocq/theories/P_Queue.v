(** Queues with properties. *)

From Verif Require Import Py Struct P_Struct S_Hello S_Ports P_Hello P_Ports S_Wire4 S_Msg4 M_Build4 M_Parse4 P_Wire4 P_Act4 P_Stat4 P_Msg4 P_MsgParse4 P_Rebuild4 P_Bad4 S_Queue.
Local Open Scope Z_scope.
Local Open Scope list_scope.

Lemma qhdr_build o ty h data : qhdr_arg ty h -> u16 ty -> o (VBytes data) = Ok data -> 8 + zlen data < 65536 ->
  ofp_queue_prop_ o h (VBytes data) (VInt ty) = Ok (enc ([U 2 ty; U 2 (8 + zlen data); P 4] ++ [R data])).
Proof.
  intros Hh Ht Ho Hl. unfold ofp_queue_prop_.
  assert (E : forall t, type_arg t ty -> fill_type t (VInt ty) = Ok (VInt ty)).
  { intros t [->| ->]; cbn [fill_type]; [reflexivity|]. unfold py_eqz. rewrite Z.eqb_refl. reflexivity. }
  match goal with |- bind ?r _ = _ => assert (Er : r = Ok (VInt ty)) end.
  { destruct Hh as [|c t l Ha|t l Ha|l rest Hu]; [reflexivity | exact (E t Ha) | exact (E t Ha) |].
    rewrite (unpacks_enc "HH" [U 2 ty; U 2 l]); [| reflexivity | repeat constructor; cbn; unfold u16 in *; lia | exists [], rest; split; reflexivity].
    cbn [bind vals check_type]. unfold py_eqz. rewrite Z.eqb_refl. reflexivity. }
  rewrite Er. cbn [bind]. rewrite Ho. cbn [bind]. unfold ofp_queue_prop_header. cbn [default].
  replace (zlen data + 8) with (8 + zlen data) by lia.
  pose proof (sized_enc 8 "HH4x" [U 2 ty; U 2 (8 + zlen data); P 4] eq_refl) as S. cbn [vals] in S. rewrite S.
  - cbn [bind]. rewrite enc_app, enc_R. reflexivity.
  - repeat constructor; cbn; unfold u16, zlen in *; lia.
  - reflexivity.
Qed.

Lemma body_size p : qprop_size p = 8 + zlen (enc (qprop_body p)).
Proof. unfold zlen. rewrite enc_length. destruct p; cbn [qprop_size qprop_body flen fld_len]; unfold zlen; lia. Qed.

Lemma qprop_layout p : qprop_wire p = enc ([U 2 (qprop_type p); U 2 (8 + zlen (enc (qprop_body p))); P 4] ++ [R (enc (qprop_body p))]).
Proof. unfold qprop_wire, qprop_fields. rewrite <- body_size. rewrite !enc_app, enc_R. reflexivity. Qed.

Lemma fits_type p : u16 (qprop_type p).
Proof. destruct p; cbn; unfold u16; lia. Qed.

Lemma fits_parts p : fits (qprop_fields p) -> fits (qprop_body p) /\ 8 + zlen (enc (qprop_body p)) < 65536.
Proof.
  intros F. unfold qprop_fields in F. apply fits_app in F. destruct F as [A B]. split; [exact B|].
  inversion A as [|? ? _ A']; subst. inversion A' as [|? ? R _]; subst. cbn in R. rewrite <- body_size. lia.
Qed.

Lemma qprop_build dx d v p : qprop_arg v p -> fits (qprop_fields p) -> (1 <= d)%nat -> obj dx d v = Ok (qprop_wire p).
Proof.
  intros Ha Hf Hd. destruct d as [|d]; [lia|]. destruct (fits_parts p Hf) as [Fb Fl].
  destruct Ha as [p|h r Hh|h r Hh|h e b Hh]; [reflexivity| | |]; rewrite qprop_layout; cbn [qprop_type] in *.
  - change (ofp_queue_prop_min_rate (obj dx d) h (VInt r) = Ok (enc ([U 2 1; U 2 (8 + zlen (enc (qprop_body (QMin r)))); P 4] ++ [R (enc (qprop_body (QMin r)))]))).
    unfold ofp_queue_prop_min_rate. pose proof (packs_enc "H6x" [U 2 r; P 6] eq_refl Fb) as K. cbn [vals] in K. rewrite K. cbn [bind].
    change [U 2 r; P 6] with (qprop_body (QMin r)).
    unfold sized. rewrite (qhdr_build _ 1 h); [| exact Hh | unfold u16; lia | apply obj_bytes | exact Fl]. cbn [bind].
    rewrite enc_length. reflexivity.
  - change (ofp_queue_prop_max_rate (obj dx d) h (VInt r) = Ok (enc ([U 2 2; U 2 (8 + zlen (enc (qprop_body (QMax r)))); P 4] ++ [R (enc (qprop_body (QMax r)))]))).
    unfold ofp_queue_prop_max_rate. pose proof (packs_enc "H6x" [U 2 r; P 6] eq_refl Fb) as K. cbn [vals] in K. rewrite K. cbn [bind].
    change [U 2 r; P 6] with (qprop_body (QMax r)).
    unfold sized. rewrite (qhdr_build _ 2 h); [| exact Hh | unfold u16; lia | apply obj_bytes | exact Fl]. cbn [bind].
    rewrite enc_length. reflexivity.
  - change (ofp_queue_prop_experimenter (obj dx d) h (VInt e) (VBytes b) = Ok (enc ([U 2 65535; U 2 (8 + zlen (enc (qprop_body (QExp e b)))); P 4] ++ [R (enc (qprop_body (QExp e b)))]))).
    unfold ofp_queue_prop_experimenter. inversion Fb as [|? ? F1 _]; subst.
    pose proof (packs_enc "I4x" [U 4 e; P 4] eq_refl ltac:(constructor; [exact F1 | repeat constructor])) as K. cbn [vals] in K. rewrite K. cbn [bind as_bytes].
    assert (E : enc [U 4 e; P 4] ++ b = enc (qprop_body (QExp e b))) by (cbn [qprop_body]; change [U 4 e; P 4; R b] with ([U 4 e; P 4] ++ [R b]); rewrite enc_app, enc_R; reflexivity).
    rewrite E. apply qhdr_build; [exact Hh | unfold u16; lia | apply obj_bytes | exact Fl].
Qed.

Lemma pqueue_build dx d v q : pqueue_arg v q -> pqueue_ok q -> (2 <= d)%nat -> obj dx d v = Ok (pqueue_wire q).
Proof.
  intros Ha [Hf Hp] Hd. destruct d as [|d]; [lia|]. destruct Ha as [q|i p n v ps Hv]; [reflexivity|].
  change (ofp_packet_queue (obj dx d) (VInt i) (VInt p) n v = Ok (pqueue_wire (PQueue i p ps))).
  unfold ofp_packet_queue. cbn [q_props] in Hp.
  rewrite (seqarg_spec qprop_arg qprop_wire (obj dx d) v ps Hv) by (intros w x Hin Hw; apply qprop_build; [exact Hw | exact (Forall_In _ _ _ Hp Hin) | lia]).
  cbn [bind]. fold (qprops_wire ps). unfold pqueue_fields in Hf. cbn [q_id q_port q_props] in Hf.
  assert (F : fits [U 4 i; U 4 p; U 2 (16 + zlen (qprops_wire ps)); P 6]) by (apply (fits_app [U 4 i; U 4 p; U 2 (16 + zlen (qprops_wire ps)); P 6] [R (qprops_wire ps)]) in Hf; apply Hf).
  pose proof (packs_enc "IIH6x" [U 4 i; U 4 p; U 2 (16 + zlen (qprops_wire ps)); P 6] eq_refl F) as K. cbn [vals] in K. rewrite K. cbn [bind].
  rewrite enc_length. cbn [flen fld_len]. cbn [Nat.add Nat.eqb assert_ bind].
  unfold pqueue_wire, pqueue_fields. cbn [q_id q_port q_props].
  change [U 4 i; U 4 p; U 2 (16 + zlen (qprops_wire ps)); P 6; R (qprops_wire ps)] with ([U 4 i; U 4 p; U 2 (16 + zlen (qprops_wire ps)); P 6] ++ [R (qprops_wire ps)]).
  rewrite enc_app, enc_R. reflexivity.
Qed.

Definition queues_wire (qs : list pqueue) : bytes := concat (map pqueue_wire qs).

Lemma queue_reply_build dx d xid h port v qs :
  hdr_arg dx true 23 xid h -> u32 xid -> u32 port -> list_arg pqueue_arg pqueue_wire v qs -> Forall pqueue_ok qs ->
  zlen (queues_wire qs) <= 65519 -> (3 <= d)%nat ->
  call (obj dx d) dx "ofp_queue_get_config_reply" [h; VInt port; v] = Ok (msg 4 23 xid (be 4 port ++ zeros 4 ++ queues_wire qs)).
Proof.
  intros Hh Hx Hp Hv Hq Hl Hd.
  change (ofp_queue_get_config_reply (obj dx d) dx h (VInt port) v = Ok (msg 4 23 xid (be 4 port ++ zeros 4 ++ queues_wire qs))).
  unfold ofp_queue_get_config_reply.
  rewrite (seqarg_spec pqueue_arg pqueue_wire (obj dx d) v qs Hv) by (intros w x Hin Hw; apply pqueue_build; [exact Hw | exact (Forall_In _ _ _ Hq Hin) | lia]).
  cbn [bind]. fold (queues_wire qs).
  pose proof (pack_app_enc "I4x" [U 4 port; P 4] (queues_wire qs) eq_refl ltac:(repeat constructor; cbn; unfold u32 in Hp; lia)) as K.
  cbn [vals] in K. rewrite K.
  assert (E : enc ([U 4 port; P 4] ++ [R (queues_wire qs)]) = be 4 port ++ zeros 4 ++ queues_wire qs) by (unfold enc; cbn [Datatypes.app map concat enc1]; rewrite app_nil_r; reflexivity).
  rewrite E. apply message_ok with true; try assumption.
  - unfold u8; lia.
  - left. split; reflexivity.
  - unfold zlen in *. rewrite !app_length, be_length, zeros_length. lia.
Qed.

(** *** Parsing *)

Lemma qprop_parse p m off : at_ m off (qprop_wire p) -> fits (qprop_fields p) ->
  match p with QMin _ => p_queue_prop_min_rate | QMax _ => p_queue_prop_max_rate | QExp _ _ => p_queue_prop_experimenter end m off =
  Ok (qprop_view p, (off + length (qprop_wire p))%nat).
Proof.
  intros Hat Hf. unfold qprop_wire in *. rewrite enc_length. unfold qprop_fields in *.
  apply at_enc_app in Hat. destruct Hat as [A1 A2]. apply fits_app in Hf. destruct Hf as [F1 F2]. cbn [flen fld_len] in A2.
  assert (Hh : p_queue_prop_header m off = Ok (VTup "ofp_queue_prop_header" [VInt (qprop_type p); VInt (qprop_size p)], (off + 8)%nat)).
  { unfold p_queue_prop_header. pose proof (fixed_enc "ofp_queue_prop_header" "HH4x" [U 2 (qprop_type p); U 2 (qprop_size p); P 4] m off eq_refl F1 A1) as K.
    cbn [vals flen fld_len] in K. rewrite K. reflexivity. }
  replace (off + (2 + (2 + (4 + 0))))%nat with (off + 8)%nat in A2 by lia.
  destruct p as [r|r|e d]; cbn [qprop_body] in *; rewrite ?flen_app.
  - unfold p_queue_prop_min_rate. rewrite Hh. cbn [bind]. rewrite (unp_enc "H6x" [U 2 r; P 6] m (off + 8) eq_refl F2 A2). cbn [bind vals]. unfold qprop_view. cbn [qprop_body vals Datatypes.app flen fld_len].
    do 2 f_equal; lia.
  - unfold p_queue_prop_max_rate. rewrite Hh. cbn [bind]. rewrite (unp_enc "H6x" [U 2 r; P 6] m (off + 8) eq_refl F2 A2). cbn [bind vals]. unfold qprop_view. cbn [qprop_body vals Datatypes.app flen fld_len].
    do 2 f_equal; lia.
  - unfold p_queue_prop_experimenter. rewrite Hh. cbn [bind].
    change [U 4 e; P 4; R d] with ([U 4 e; P 4] ++ [R d]) in A2, F2. apply at_enc_app in A2. destruct A2 as [A2 A3].
    apply fits_app in F2. destruct F2 as [F2 _].
    rewrite (unp_enc "I4x" [U 4 e; P 4] m (off + 8) eq_refl F2 A2). cbn [bind vals second_len qprop_size flen fld_len Datatypes.app] in *.
    rewrite enc_R in A3. unfold qprop_view. cbn [qprop_body vals qprop_type qprop_size].
    assert (E : (off + Z.to_nat (16 + zlen d) = off + 8 + (4 + (4 + 0)) + length d)%nat) by (unfold zlen; lia).
    rewrite E. rewrite (at_slice m _ d A3). do 2 f_equal. lia.
Qed.

(** The parser of a queue: with properties it raises. *)
Lemma pqueue_bad m off q : at_ m off (pqueue_wire q) -> pqueue_ok q -> q_props q <> [] -> p_packet_queue m off = Err NameError.
Proof.
  intros Hat [Hf Hp] Hn. unfold pqueue_wire, pqueue_fields in *.
  change [U 4 (q_id q); U 4 (q_port q); U 2 (16 + zlen (qprops_wire (q_props q))); P 6; R (qprops_wire (q_props q))]
    with ([U 4 (q_id q); U 4 (q_port q); U 2 (16 + zlen (qprops_wire (q_props q))); P 6] ++ [R (qprops_wire (q_props q))]) in Hat, Hf.
  apply at_enc_app in Hat. destruct Hat as [A1 A2]. apply fits_app in Hf. destruct Hf as [F1 _].
  unfold p_packet_queue. rewrite (unp_enc "IIH6x" [U 4 (q_id q); U 4 (q_port q); U 2 (16 + zlen (qprops_wire (q_props q))); P 6] m off eq_refl F1 A1). cbn [bind vals flen fld_len] in *. rewrite enc_R in A2.
  destruct (q_props q) as [|p ps]; [destruct (Hn eq_refl)|]. inversion Hp as [|? ? Hp1 _]; subst.
  assert (L : (8 <= length (qprop_wire p))%nat) by (unfold qprop_wire; rewrite enc_length; unfold qprop_fields; cbn [Datatypes.app flen fld_len]; lia).
  change (qprops_wire (p :: ps)) with (qprop_wire p ++ qprops_wire ps) in *. apply at_app in A2. destruct A2 as [A2 _].
  match goal with |- (if ?c then _ else _) = _ => replace c with true end.
  2:{ symmetry. apply Nat.ltb_lt. unfold zlen. rewrite app_length. lia. }
  unfold qprop_wire, qprop_fields in A2. apply at_enc_app in A2. destruct A2 as [A2 _]. unfold qprop_fields in Hp1. apply fits_app in Hp1. destruct Hp1 as [Hp1 _].
  unfold p_queue_prop_header.
  replace (off + 16)%nat with (off + (4 + (4 + (2 + (6 + 0)))))%nat by lia.
  rewrite (fixed_enc "ofp_queue_prop_header" "HH4x" [U 2 (qprop_type p); U 2 (qprop_size p); P 4] m _ eq_refl Hp1 A2). reflexivity.
Qed.

Lemma pqueue_good m off q : at_ m off (pqueue_wire q) -> pqueue_ok q -> q_props q = [] ->
  exists v, p_packet_queue m off = Ok (v, (off + length (pqueue_wire q))%nat).
Proof.
  intros Hat [Hf _] Hn. destruct q as [i p ps]. cbn in Hn. subst ps. unfold pqueue_wire, pqueue_fields in *. cbn [q_id q_port q_props] in *.
  change (qprops_wire []) with (@nil Z) in *. change (16 + zlen []) with 16 in *.
  assert (E : enc [U 4 i; U 4 p; U 2 16; P 6; R []] = enc (queue_fields (i, p))) by (unfold enc; reflexivity).
  rewrite E in *. eexists. apply queue_parse; [exact Hat|]. apply (fits_app [U 4 i; U 4 p; U 2 16; P 6] [R []]) in Hf. apply Hf.
Qed.

Lemma queue_reply_bad n bs off xid port qs :
  at_ bs off (msg 4 23 xid (be 4 port ++ zeros 4 ++ queues_wire qs)) -> u32 xid -> u32 port -> Forall pqueue_ok qs ->
  zlen (queues_wire qs) <= 65519 -> Exists (fun q => q_props q <> []) qs -> (length bs <= n)%nat ->
  parse n bs off = Err NameError.
Proof.
  intros Hat Hx Hp Hq Hl Hex Hn.
  set (b := queues_wire qs) in *.
  assert (Lb : length (be 4 port ++ zeros 4 ++ b) = (8 + length b)%nat) by (rewrite !app_length, be_length, zeros_length; lia).
  destruct (p_header_ok bs off 23 xid _ Hat ltac:(unfold u8; lia) Hx ltac:(unfold zlen in *; lia)) as [Hh Hb].
  rewrite Lb in Hh. by_type Hh. change (p_queue_get_config_reply n bs off = Err NameError).
  unfold p_queue_get_config_reply. rewrite Hh. cbn [bind].
  assert (Eb : be 4 port ++ zeros 4 ++ b = enc ([U 4 port; P 4] ++ [R b])) by (unfold enc; cbn [Datatypes.app map concat enc1]; rewrite app_nil_r; reflexivity).
  rewrite Eb in Hb. apply at_enc_app in Hb. destruct Hb as [B1 B2]. rewrite enc_R in B2.
  rewrite (unp_enc "I4x" [U 4 port; P 4] bs (off + 8) eq_refl) by (try exact B1; repeat constructor; cbn; unfold u32 in Hp; lia).
  cbn [bind vals flen fld_len] in *.
  rewrite (list_stops pqueue_wire (fun q => q_props q = []) (p_packet_queue bs) bs NameError qs); [reflexivity| | | | | |exact B2| |exact Hn].
  - intros x. destruct (q_props x); [left; reflexivity | right; discriminate].
  - intros x o Hin Hg Ho. apply pqueue_good; [exact Ho | exact (Forall_In _ _ _ Hq Hin) | exact Hg].
  - intros x o Hin Hg Ho. apply (pqueue_bad bs o x); [exact Ho | exact (Forall_In _ _ _ Hq Hin) | exact Hg].
  - apply Forall_forall. intros x _. unfold pqueue_wire. rewrite enc_length. cbn [pqueue_fields flen fld_len]. lia.
  - intros F. apply Exists_exists in Hex. destruct Hex as (x & Hin & Hx'). rewrite Forall_forall in F. exact (Hx' (F x Hin)).
  - fold (queues_wire qs). subst b. lia.
Qed.
