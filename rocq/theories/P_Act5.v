(** Building and parsing actions, instructions, matches, buckets and bands in
    OpenFlow 1.4. *)

From Verif Require Import Py Struct P_Struct S_Hello S_Ports P_Hello P_Ports S_Wire4 M_Build4 M_Parse4 P_Wire4 P_Act4.
From Verif Require Import S_Wire5 M_Build5 M_Parse5 P_Wire5.
Local Open Scope Z_scope.
Local Open Scope list_scope.

Lemma act_build dx d v a : act_arg v a -> act_ok a -> (1 <= d)%nat -> obj dx d v = Ok (act_wire a).
Proof.
  intros Ha [Hf Hx] Hd. destruct d as [|d]; [lia|].
  destruct Ha as [a|t l p m Ht|t l g Ht|t l q Ht|t l x Ht|t l x Ht|ty l e|t l e Ht|t l f Ht|t l e b Ht|ty l];
    unfold act_wire; cbn [act_fields] in *.
  - reflexivity.
  - change (ofp_action_output t l (VInt p) (VInt m) = Ok (enc [U 2 0; U 2 16; U 4 p; U 2 m; P 6])).
    unfold ofp_action_output. ta; fixed_build "HHIH6x"%string [U 2 0; U 2 16; U 4 p; U 2 m; P 6] Hf.
  - change (ofp_action_group t l (VInt g) = Ok (enc [U 2 22; U 2 8; U 4 g])).
    unfold ofp_action_group. ta; fixed_build "HHI"%string [U 2 22; U 2 8; U 4 g] Hf.
  - change (ofp_action_set_queue t l (VInt q) = Ok (enc [U 2 21; U 2 8; U 4 q])).
    unfold ofp_action_set_queue. ta; fixed_build "HHI"%string [U 2 21; U 2 8; U 4 q] Hf.
  - change (ofp_action_mpls_ttl t l (VInt x) = Ok (enc [U 2 15; U 2 8; U 1 x; P 3])).
    unfold ofp_action_mpls_ttl. ta; fixed_build "HHB3x"%string [U 2 15; U 2 8; U 1 x; P 3] Hf.
  - change (ofp_action_nw_ttl t l (VInt x) = Ok (enc [U 2 23; U 2 8; U 1 x; P 3])).
    unfold ofp_action_nw_ttl. ta; fixed_build "HHB3x"%string [U 2 23; U 2 8; U 1 x; P 3] Hf.
  - change (ofp_action_push (VInt ty) l (VInt e) = Ok (enc [U 2 ty; U 2 8; U 2 e; P 2])).
    unfold ofp_action_push. rewrite py_inz_In by exact Hx. fixed_build "3H2x"%string [U 2 ty; U 2 8; U 2 e; P 2] Hf.
  - change (ofp_action_pop_mpls t l (VInt e) = Ok (enc [U 2 20; U 2 8; U 2 e; P 2])).
    unfold ofp_action_pop_mpls. ta; fixed_build "3H2x"%string [U 2 20; U 2 8; U 2 e; P 2] Hf.
  - change (ofp_action_set_field t l (VBytes f) = Ok (enc ([U 2 25; U 2 (Z.of_nat (4 + length f + gap (4 + length f)))] ++ [R f; P (gap (4 + length f))]))).
    change (fits ([U 2 25; U 2 (Z.of_nat (4 + length f + gap (4 + length f)))] ++ [R f; P (gap (4 + length f))])) in Hf.
    apply fits_app in Hf. destruct Hf as [Hf _].
    unfold ofp_action_set_field. rewrite enc_app.
    assert (E : default t 25 = VInt 25) by (ta; reflexivity). rewrite E. cbn [py_eqz]. rewrite Z.eqb_refl.
    cbn [assert_ assert_bytes bind]. cbv zeta. rewrite gap_align, padding_gap.
    use_packs "HH"%string [U 2 25; U 2 (Z.of_nat (4 + length f + gap (4 + length f)))]; [|exact Hf].
    cbn [bind]. rewrite !enc_cons. cbn [enc1]. unfold enc. cbn [map concat]. rewrite !app_nil_r. reflexivity.
  - change (ofp_action_experimenter_ t l (VInt e) (VBytes b) = Ok (enc ([U 2 65535; U 2 (Z.of_nat (8 + length b + gap (8 + length b))); U 4 e] ++ [R b; P (gap (8 + length b))]))).
    change (fits ([U 2 65535; U 2 (Z.of_nat (8 + length b + gap (8 + length b))); U 4 e] ++ [R b; P (gap (8 + length b))])) in Hf.
    apply fits_app in Hf. destruct Hf as [Hf _].
    unfold ofp_action_experimenter_. rewrite enc_app.
    assert (E : default t 65535 = VInt 65535) by (ta; reflexivity). rewrite E. cbn [py_eqz]. rewrite Z.eqb_refl.
    cbn [assert_ assert_bytes bind]. cbv zeta. rewrite gap_align, padding_gap.
    use_packs "HHI"%string [U 2 65535; U 2 (Z.of_nat (8 + length b + gap (8 + length b))); U 4 e]; [|exact Hf].
    cbn [bind]. rewrite !enc_cons. cbn [enc1]. unfold enc. cbn [map concat]. rewrite !app_nil_r. reflexivity.
  - change (ofp_action_generic (VInt ty) l = Ok (enc [U 2 ty; U 2 8; P 4])).
    unfold ofp_action_generic. rewrite py_inz_In by (cbn [In] in *; tauto).
    apply (packs_enc "HH4x" [U 2 ty; U 2 8; P 4]); [reflexivity | exact Hf].
Qed.

Lemma at_hdr m off ty rest : at_ m off (enc (U 2 ty :: rest)) -> (2 <= flen rest)%nat ->
  0 <= ty < 65536 ->
  exists x, unp "HH" m off = Ok ([VInt ty; x], (off + 4)%nat).
Proof.
  intros Hat Hl Ht. unfold unp, unpacks, sizes.
  change (fmt "HH") with (Ok [FU 2; FU 2]). cbn [bind]. unfold unpack_from.
  pose proof (at_length _ _ _ Hat) as Hlen. rewrite enc_length in Hlen. cbn [flen fld_len] in Hlen.
  cbn [calcsize item_size].
  assert (E : (off + (2 + (2 + 0)) <=? length m)%nat = true) by (apply Nat.leb_le; lia). rewrite E. cbn [bind].
  destruct (at_skipn _ _ _ Hat) as [r Hr]. rewrite Hr. rewrite enc_cons, <- app_assoc. cbn [enc1].
  rewrite decode_FU by (apply in_u_range; cbn; lia). cbn [decode]. eexists. reflexivity.
Qed.

Lemma prop_type_at m off ty rest : at_ m off (enc (U 2 ty :: rest)) -> (2 <= flen rest)%nat ->
  0 <= ty < 65536 -> prop_type m off = Ok ty.
Proof. intros A B C. destruct (at_hdr m off ty rest A B C) as [x E]. unfold prop_type. rewrite E. reflexivity. Qed.

Lemma act_parse m off a : at_ m off (act_wire a) -> act_ok a -> not_mpls_ttl a ->
  p_action m off = Ok (act_view (act_padded a), (off + length (act_wire a))%nat).
Proof.
  intros Hat [Hf Hx] Hm. unfold act_wire in *. rewrite enc_length.
  assert (Hh : exists ty rest, act_fields a = U 2 ty :: rest /\ (6 <= flen rest)%nat /\ 0 <= ty < 65536 /\
    ty = match a with AcOutput _ _ => 0 | AcGroup _ => 22 | AcSetQueue _ => 21 | AcMplsTtl _ => 15 | AcNwTtl _ => 23
         | AcPush t _ => t | AcPopMpls _ => 20 | AcSetField _ => 25 | AcExperimenter _ _ => 65535 | AcPlain t => t end).
  { pose proof (proj1 (act_len a)) as Hlen. unfold act_wire in Hlen. rewrite enc_length in Hlen.
    destruct a; cbn [act_fields] in *; do 2 eexists; (split; [reflexivity|]); (split; [cbn [flen fld_len] in *; lia|]);
      (split; [|reflexivity]); apply fits_cons in Hf; destruct Hf as [Hf _]; exact Hf. }
  destruct Hh as (ty & rest & E & Hr & Ht & Hty). rewrite E in Hat.
  destruct (at_hdr m off ty rest Hat ltac:(lia) Ht) as [x Eh]. rewrite <- E in Hat. unfold p_action, p_action_header. unfold fixed at 1. rewrite Eh. cbn [bind].
  clear Hr Ht. unfold act_view.
  destruct a as [p k|g|q|t|t|t e|e|f|e b|t]; cbn [act_fields act_padded act_class] in *; subst ty; try clear rest E.
  - apply (fixed_enc "ofp_action_output" "HHIH6x"); try assumption; reflexivity.
  - apply (fixed_enc "ofp_action_group" "HHI"); try assumption; reflexivity.
  - apply (fixed_enc "ofp_action_set_queue" "HHI"); try assumption; reflexivity.
  - destruct Hm.
  - apply (fixed_enc "ofp_action_nw_ttl" "HHB3x"); try assumption; reflexivity.
  - cbn [In] in Hx.
    assert (En : forall k, ~ In k [17; 19; 26] -> (t =? k) = false).
    { intros k Hk. apply Z.eqb_neq. intros ->. apply Hk. cbn [In]. exact Hx. }
    rewrite !En by (cbn; lia). rewrite py_inz_In by exact Hx.
    apply (fixed_enc "ofp_action_push" "HHH2x"); try assumption; reflexivity.
  - apply (fixed_enc "ofp_action_pop_mpls" "HHH2x"); try assumption; reflexivity.
  - change (py_inz (VInt 25) [17; 19; 26]) with false.
    change (25 =? 0) with false. change (25 =? 22) with false. change (25 =? 21) with false.
    change (25 =? 15) with false. change (25 =? 23) with false. change (25 =? 20) with false. change (25 =? 25) with true. cbv iota.
    change [U 2 25; U 2 (Z.of_nat (4 + length f + gap (4 + length f))); R f; P (gap (4 + length f))]
      with ([U 2 25; U 2 (Z.of_nat (4 + length f + gap (4 + length f)))] ++ [R f; P (gap (4 + length f))]) in Hat, Hf.
    apply at_enc_app in Hat. apply fits_app in Hf. destruct Hat as [H1 H2]. destruct Hf as [F1 _].
    unfold p_action_set_field. rewrite (unp_enc "HH" [U 2 25; U 2 (Z.of_nat (4 + length f + gap (4 + length f)))] m off eq_refl F1 H1).
    cbn [vals bind]. rewrite !Nat2Z.id. cbn [flen fld_len] in *.
    rewrite (slice_at m (off + (2 + (2 + 0))) (f ++ zeros (gap (4 + length f)))).
    + rewrite app_length, zeros_length.
      rewrite (gap_0 (4 + (length f + gap (4 + length f)))) by (rewrite Nat.add_assoc; apply gap_mod).
      do 2 f_equal; [|lia]. do 2 f_equal. cbn [app]. do 3 f_equal. lia.
    + unfold enc in H2. cbn [map concat enc1] in H2. rewrite app_nil_r in H2. exact H2.
    + rewrite app_length, zeros_length. lia.
  - change (py_inz (VInt 65535) [17; 19; 26]) with false.
    change (65535 =? 0) with false. change (65535 =? 22) with false. change (65535 =? 21) with false.
    change (65535 =? 15) with false. change (65535 =? 23) with false. change (65535 =? 20) with false.
    change (65535 =? 25) with false. change (65535 =? 65535) with true. cbv iota.
    change [U 2 65535; U 2 (Z.of_nat (8 + length b + gap (8 + length b))); U 4 e; R b; P (gap (8 + length b))]
      with ([U 2 65535; U 2 (Z.of_nat (8 + length b + gap (8 + length b))); U 4 e] ++ [R b; P (gap (8 + length b))]) in Hat, Hf.
    apply at_enc_app in Hat. apply fits_app in Hf. destruct Hat as [H1 H2]. destruct Hf as [F1 _].
    unfold p_action_experimenter.
    rewrite (unp_enc "HHI" [U 2 65535; U 2 (Z.of_nat (8 + length b + gap (8 + length b))); U 4 e] m off eq_refl F1 H1).
    cbn [vals bind]. rewrite !Nat2Z.id. cbn [flen fld_len] in *.
    rewrite (slice_at m (off + (2 + (2 + (4 + 0)))) (b ++ zeros (gap (8 + length b)))).
    + rewrite app_length, zeros_length.
      rewrite (gap_0 (8 + (length b + gap (8 + length b)))) by (rewrite Nat.add_assoc; apply gap_mod).
      do 2 f_equal; [|lia]. do 2 f_equal. cbn [app]. do 3 f_equal. lia.
    + unfold enc in H2. cbn [map concat enc1] in H2. rewrite app_nil_r in H2. exact H2.
    + rewrite app_length, zeros_length. lia.
  - cbn [In] in Hx.
    assert (En : forall k, ~ In k [11; 12; 16; 18; 24; 27] -> (t =? k) = false).
    { intros k Hk. apply Z.eqb_neq. intros ->. apply Hk. cbn [In]. exact Hx. }
    assert (Ep : py_inz (VInt t) [17; 19; 26] = false).
    { unfold py_inz. cbn [existsb py_eqz]. rewrite !En by (cbn; lia). reflexivity. }
    rewrite !En by (cbn; lia). rewrite Ep. rewrite py_inz_In by (cbn [In]; tauto).
    apply (fixed_enc "ofp_action_generic" "HH4x"); try assumption; reflexivity.
Qed.

Definition acts_ok (l : list action) : Prop := Forall act_ok l.

Lemma acts_build dx d v l : acts_arg v l -> Forall act_ok l -> (1 <= d)%nat -> seqarg (obj dx d) v = Ok (acts_wire l).
Proof.
  intros Ha Hl Hd. apply (seqarg_spec act_arg act_wire); [exact Ha|].
  intros w a Hin Hw. apply act_build; [exact Hw | exact (Forall_In _ _ _ Hl Hin) | exact Hd].
Qed.

Lemma acts_while m n off l limit :
  at_ m off (acts_wire l) -> Forall act_ok l -> Forall not_mpls_ttl l ->
  limit = (off + length (acts_wire l))%nat -> (length m <= n)%nat ->
  while_fetch n (p_action m) limit off = Ok (map (fun a => act_view (act_padded a)) l, limit).
Proof.
  intros Hat Hl Hm Hlim Hn.
  apply (while_fetch_spec act_wire (fun a => act_view (act_padded a)) (p_action m) m l); try assumption; [|apply act_pos].
  intros a o Hin Ho. apply act_parse; [exact Ho | exact (Forall_In _ _ _ Hl Hin) | exact (Forall_In _ _ _ Hm Hin)].
Qed.

Lemma acts_list m n off l limit :
  at_ m off (acts_wire l) -> Forall act_ok l -> Forall not_mpls_ttl l ->
  limit = (off + length (acts_wire l))%nat -> (length m <= n)%nat ->
  list_fetch n (p_action m) limit off = Ok (map (fun a => act_view (act_padded a)) l, limit).
Proof.
  intros Hat Hl Hm Hlim Hn. unfold list_fetch. rewrite (acts_while m n off l) by assumption.
  cbn [bind]. rewrite Nat.eqb_refl. reflexivity.
Qed.

(** *** Instructions *)

Lemma inst_build dx d v i : inst_arg v i -> inst_ok i -> (2 <= d)%nat -> obj dx d v = Ok (inst_wire i).
Proof.
  intros Ha [Hf Hx] Hd. destruct d as [|[|d]]; [lia|lia|].
  destruct Ha as [i|t l x Ht|t l x k Ht|ty l w acts Hw|t l x Ht|t l e b Ht];
    unfold inst_wire; cbn [inst_fields] in *.
  - reflexivity.
  - change (ofp_instruction_goto_table t l (VInt x) = Ok (enc [U 2 1; U 2 8; U 1 x; P 3])).
    unfold ofp_instruction_goto_table. ta; fixed_build "HHB3x"%string [U 2 1; U 2 8; U 1 x; P 3] Hf.
  - change (ofp_instruction_write_metadata t l (VInt x) (VInt k) = Ok (enc [U 2 2; U 2 24; P 4; U 8 x; U 8 k])).
    unfold ofp_instruction_write_metadata. ta; fixed_build "HH4xQQ"%string [U 2 2; U 2 24; P 4; U 8 x; U 8 k] Hf.
  - destruct Hx as [Hty Hacts].
    change (ofp_instruction_actions (obj dx (S d)) (VInt ty) l w =
      Ok (enc ([U 2 ty; U 2 (8 + zlen (acts_wire acts)); P 4] ++ [R (acts_wire acts)]))).
    unfold ofp_instruction_actions. rewrite (acts_build dx (S d) w acts) by (try assumption; lia). cbn [bind].
    rewrite py_inz_In by exact Hty. cbn [assert_ bind].
    rewrite gap_align, (gap_0 (8 + length (acts_wire acts))) by (apply (mod8_add 8); [reflexivity | apply acts_len]).
    replace (Z.of_nat (8 + length (acts_wire acts) + 0)) with (8 + zlen (acts_wire acts)) by (unfold zlen; lia).
    apply (pack_app_enc "HH4x" [U 2 ty; U 2 (8 + zlen (acts_wire acts)); P 4]); [reflexivity|].
    apply (fits_app [U 2 ty; U 2 (8 + zlen (acts_wire acts)); P 4] [R (acts_wire acts)]) in Hf. apply Hf.
  - change (ofp_instruction_meter t l (VInt x) = Ok (enc [U 2 6; U 2 8; U 4 x])).
    unfold ofp_instruction_meter. ta; cbn [default py_eqz]; rewrite Z.eqb_refl; cbn [assert_ bind];
      apply (packs_enc "HHI" [U 2 6; U 2 8; U 4 x]); try reflexivity; exact Hf.
  - change (ofp_instruction_experimenter (obj dx (S d)) t l (VInt e) (VBytes b) =
      Ok (enc ([U 2 65535; U 2 (8 + zlen b); U 4 e] ++ [R b]))).
    apply (fits_app [U 2 65535; U 2 (8 + zlen b); U 4 e] [R b]) in Hf. destruct Hf as [Hf _].
    unfold ofp_instruction_experimenter. rewrite obj_bytes. cbn [bind].
    ta; cbn [default py_eqz]; rewrite Z.eqb_refl; cbn [assert_ bind];
      apply (pack_app_enc "HHI" [U 2 65535; U 2 (8 + zlen b); U 4 e]); try reflexivity; exact Hf.
Qed.

Lemma at_ihdr m off ty rest : at_ m off (enc (U 2 ty :: rest)) -> (6 <= flen rest)%nat ->
  0 <= ty < 65536 ->
  exists x, p_instruction_header m off = Ok (VTup "ofp_instruction_header" [VInt ty; x], (off + 4)%nat).
Proof.
  intros Hat Hl Ht. unfold p_instruction_header, fixed, unp, unpacks, sizes.
  change (fmt "HH") with (Ok [FU 2; FU 2]). cbn [bind]. unfold unpack_from.
  pose proof (at_length _ _ _ Hat) as Hlen. rewrite enc_length in Hlen. cbn [flen fld_len] in Hlen.
  cbn [calcsize item_size].
  assert (E : (off + (2 + (2 + 0)) <=? length m)%nat = true) by (apply Nat.leb_le; lia). rewrite E. cbn [bind].
  destruct (at_skipn _ _ _ Hat) as [r Hr]. rewrite Hr. rewrite enc_cons, <- app_assoc. cbn [enc1].
  rewrite decode_FU by (apply in_u_range; cbn; lia). cbn [decode]. eexists. reflexivity.
Qed.

Lemma inst_parse m n off i : at_ m off (inst_wire i) -> inst_ok i -> inst_parsable i -> (length m <= n)%nat ->
  p_instruction n m off = Ok (inst_parsed i, (off + length (inst_wire i))%nat).
Proof.
  intros Hat [Hf Hx] Hp Hn. unfold inst_wire in *. rewrite enc_length.
  assert (Hh : exists ty rest, inst_fields i = U 2 ty :: rest /\ (6 <= flen rest)%nat /\ 0 <= ty < 65536 /\
    ty = match i with InGoto _ => 1 | InMetadata _ _ => 2 | InActions t _ => t | InMeter _ => 6 | InExperimenter _ _ => 65535 end).
  { destruct i; cbn [inst_fields] in *; do 2 eexists; (split; [reflexivity|]); (split; [cbn [flen fld_len] in *; lia|]);
      (split; [|reflexivity]); apply fits_cons in Hf; destruct Hf as [Hf _]; exact Hf. }
  destruct Hh as (ty & rest & E & Hr & Ht & Hty). rewrite E in Hat.
  destruct (at_ihdr m off ty rest Hat Hr Ht) as [x Eh]. rewrite <- E in Hat. unfold p_instruction. rewrite Eh. cbn [bind].
  clear Eh Hr Ht.
  destruct i as [t|k w|t acts|k|e b]; cbn [inst_fields inst_parsed] in *; subst ty; clear rest E.
  - apply (fixed_enc "ofp_instruction_goto_table" "HHB3x" [U 2 1; U 2 8; U 1 t; P 3]); try assumption; reflexivity.
  - apply (fixed_enc "ofp_instruction_write_metadata" "HH4xQQ" [U 2 2; U 2 24; P 4; U 8 k; U 8 w]); try assumption; reflexivity.
  - destruct Hx as [Hty Hacts].
    assert (En : forall k, ~ In k [3; 4; 5] -> (t =? k) = false).
    { intros k Hk. apply Z.eqb_neq. intros ->. apply Hk. exact Hty. }
    rewrite !En by (cbn; lia). rewrite py_inz_In by exact Hty.
    change [U 2 t; U 2 (8 + zlen (acts_wire acts)); P 4; R (acts_wire acts)]
      with ([U 2 t; U 2 (8 + zlen (acts_wire acts)); P 4] ++ [R (acts_wire acts)]) in Hat, Hf.
    apply at_enc_app in Hat. apply fits_app in Hf. destruct Hat as [H1 H2]. destruct Hf as [F1 _].
    unfold p_instruction_actions.
    rewrite (unp_enc "HH4x" [U 2 t; U 2 (8 + zlen (acts_wire acts)); P 4] m off eq_refl F1 H1).
    cbn [vals bind flen fld_len] in *. rewrite enc_R in H2.
    rewrite (acts_list m n _ acts) by (try assumption; unfold zlen; lia).
    cbn [bind Datatypes.app]. unfold acts_parsed. do 2 f_equal. unfold zlen. lia.
  - apply (fixed_enc "ofp_instruction_meter" "HHI" [U 2 6; U 2 8; U 4 k]); try assumption; reflexivity.
  - change [U 2 65535; U 2 (8 + zlen b); U 4 e; R b] with ([U 2 65535; U 2 (8 + zlen b); U 4 e] ++ [R b]) in Hat, Hf.
    apply at_enc_app in Hat. apply fits_app in Hf. destruct Hat as [H1 H2]. destruct Hf as [F1 _].
    unfold p_instruction_experimenter.
    rewrite (unp_enc "HHI" [U 2 65535; U 2 (8 + zlen b); U 4 e] m off eq_refl F1 H1).
    cbn [vals bind flen fld_len] in *. rewrite enc_R in H2.
    change (65535 =? 1) with false. change (65535 =? 2) with false. change (py_inz (VInt 65535) [3; 4; 5]) with false.
    change (65535 =? 6) with false. change (65535 =? 65535) with true. cbv iota.
    rewrite (slice_at m _ b) by (try exact H2; unfold zlen; lia).
    cbn [Datatypes.app]. do 2 f_equal. unfold zlen. lia.
Qed.

Lemma insts_build dx d v l : insts_arg v l -> Forall inst_ok l -> (2 <= d)%nat -> seqarg (obj dx d) v = Ok (insts_wire l).
Proof.
  intros Ha Hl Hd. apply (seqarg_spec inst_arg inst_wire); [exact Ha|].
  intros w i Hin Hw. apply inst_build; [exact Hw | exact (Forall_In _ _ _ Hl Hin) | exact Hd].
Qed.

Lemma insts_list m n off l limit :
  at_ m off (insts_wire l) -> Forall inst_ok l -> Forall inst_parsable l ->
  limit = (off + length (insts_wire l))%nat -> (length m <= n)%nat ->
  list_fetch n (p_instruction n m) limit off = Ok (map inst_parsed l, limit).
Proof.
  intros Hat Hl Hm Hlim Hn.
  apply (list_fetch_spec inst_wire inst_parsed (p_instruction n m) m l); try assumption; [|apply inst_pos].
  intros i o Hin Ho. apply inst_parse; [exact Ho | exact (Forall_In _ _ _ Hl Hin) | exact (Forall_In _ _ _ Hm Hin) | exact Hn].
Qed.

(** *** Matches *)

Lemma oxm_join dx d l : join (obj dx d) (map VBytes l) = Ok (concat l).
Proof.
  unfold join. assert (E : mapM (obj dx d) (map VBytes l) = Ok l).
  { induction l as [|b l IH]; [reflexivity|]. cbn [map mapM]. rewrite obj_bytes. cbn [bind]. rewrite IH. reflexivity. }
  rewrite E. reflexivity.
Qed.

Lemma match_build dx d v m : match_arg v m -> fits (match_fields m) -> (1 <= d)%nat -> obj dx d v = Ok (match_wire m).
Proof.
  intros Ha Hf Hd. destruct d as [|d]; [lia|]. destruct Ha as [m|t ty l v oxm Ht Hv]; [reflexivity|].
  change (M_Build5.ofp_match (obj dx d) t l v = Ok (match_wire (Match ty oxm))).
  unfold M_Build5.ofp_match. cbn [match_fields] in Hf.
  assert (E : default t 1 = VInt ty) by (destruct Ht as [[-> ->]| ->]; reflexivity). rewrite E.
  assert (Eo : match v with VBytes b => Ok b | VList l0 | VTup _ l0 => join (obj dx d) l0 | VNone => Ok [] | _ => Err TypeError end = Ok oxm).
  { destruct Hv as [|b|ls|c ls]; try reflexivity; apply oxm_join. }
  rewrite Eo. cbn [bind]. cbv zeta. clear E Eo.
  change [U 2 ty; U 2 (4 + zlen oxm); R oxm; P (gap (4 + length oxm))]
    with ([U 2 ty; U 2 (4 + zlen oxm)] ++ [R oxm; P (gap (4 + length oxm))]) in Hf.
  apply fits_app in Hf. destruct Hf as [Hf _].
  replace (Z.of_nat (4 + length oxm)) with (4 + zlen oxm) by (unfold zlen; lia).
  use_packs "HH"%string [U 2 ty; U 2 (4 + zlen oxm)]; [|exact Hf]. cbn [bind]. rewrite padding_gap.
  assert (Ew : enc [U 2 ty; U 2 (4 + zlen oxm)] ++ oxm ++ zeros (gap (4 + length oxm)) = match_wire (Match ty oxm)).
  { unfold match_wire, match_fields, enc. cbn [map enc1 concat]. rewrite !app_nil_r, <- !app_assoc. reflexivity. }
  rewrite Ew. unfold match_wire at 1. rewrite enc_length. cbn [match_fields flen fld_len].
  replace (2 + (2 + (length oxm + (gap (4 + length oxm) + 0))))%nat with (4 + length oxm + gap (4 + length oxm))%nat by lia.
  rewrite gap_mod. reflexivity.
Qed.

Lemma match_parse m off x : at_ m off (match_wire x) -> fits (match_fields x) ->
  p_match m off = Ok (match_view x, (off + length (match_wire x))%nat).
Proof.
  destruct x as [ty oxm]. intros Hat Hf. unfold match_wire in *. rewrite enc_length. cbn [match_fields match_view] in *.
  change [U 2 ty; U 2 (4 + zlen oxm); R oxm; P (gap (4 + length oxm))]
    with ([U 2 ty; U 2 (4 + zlen oxm)] ++ [R oxm; P (gap (4 + length oxm))]) in Hat, Hf.
  apply at_enc_app in Hat. apply fits_app in Hf. destruct Hat as [H1 H2]. destruct Hf as [F1 _].
  unfold p_match. rewrite (unp_enc "HH" [U 2 ty; U 2 (4 + zlen oxm)] m off eq_refl F1 H1).
  cbn [vals bind flen fld_len Datatypes.app] in *. cbv zeta.
  unfold enc in H2. cbn [map enc1 concat] in H2. apply at_app in H2. destruct H2 as [H2 _].
  replace (Z.to_nat (4 + zlen oxm)) with (4 + length oxm)%nat by (unfold zlen; lia).
  rewrite (slice_at m _ oxm) by (try exact H2; lia). rewrite gap_align.
  do 2 f_equal. lia.
Qed.

(** *** Buckets and bands *)

Lemma bucket_build dx d v b : bucket_arg v b -> bucket_ok b -> (2 <= d)%nat -> obj dx d v = Ok (bucket_wire b).
Proof.
  intros Ha [Hf Hx] Hd. destruct d as [|[|d]]; [lia|lia|]. destruct Ha as [b|l w p g v acts Hv]; [reflexivity|].
  unfold bucket_wire. cbn [bucket_fields] in *.
  change (ofp_bucket (obj dx (S d)) l (VInt w) (VInt p) (VInt g) v =
    Ok (enc ([U 2 (16 + zlen (acts_wire acts)); U 2 w; U 4 p; U 4 g; P 4] ++ [R (acts_wire acts)]))).
  unfold ofp_bucket. rewrite (acts_build dx (S d) v acts) by (try assumption; lia). cbn [bind]. cbv zeta.
  apply (fits_app [U 2 (16 + zlen (acts_wire acts)); U 2 w; U 4 p; U 4 g; P 4] [R (acts_wire acts)]) in Hf. destruct Hf as [Hf _].
  rewrite gap_align, padding_gap. rewrite (gap_0 (16 + length (acts_wire acts))) by (apply (mod8_add 16); [reflexivity | apply acts_len]).
  replace (Z.of_nat (16 + length (acts_wire acts) + 0)) with (16 + zlen (acts_wire acts)) by (unfold zlen; lia).
  use_packs "HHII4x"%string [U 2 (16 + zlen (acts_wire acts)); U 2 w; U 4 p; U 4 g; P 4]; [|exact Hf].
  cbn [bind zeros repeat]. rewrite enc_app, enc_R, app_nil_r. reflexivity.
Qed.

Lemma bucket_parse m n off b : at_ m off (bucket_wire b) -> bucket_ok b -> bucket_parsable b -> (length m <= n)%nat ->
  p_bucket n m off = Ok (bucket_parsed b, (off + length (bucket_wire b))%nat).
Proof.
  destruct b as [w p g acts]. intros Hat [Hf Hx] Hp Hn. unfold bucket_wire in *. rewrite enc_length.
  cbn [bucket_fields bucket_parsed bucket_parsable] in *.
  change [U 2 (16 + zlen (acts_wire acts)); U 2 w; U 4 p; U 4 g; P 4; R (acts_wire acts)]
    with ([U 2 (16 + zlen (acts_wire acts)); U 2 w; U 4 p; U 4 g; P 4] ++ [R (acts_wire acts)]) in Hat, Hf.
  apply at_enc_app in Hat. apply fits_app in Hf. destruct Hat as [H1 H2]. destruct Hf as [F1 _].
  unfold p_bucket.
  rewrite (unp_enc "HHII4x" [U 2 (16 + zlen (acts_wire acts)); U 2 w; U 4 p; U 4 g; P 4] m off eq_refl F1 H1).
  cbn [vals bind flen fld_len Datatypes.app] in *. rewrite enc_R in H2.
  rewrite (acts_while m n _ acts) by (try assumption; unfold zlen; lia).
  cbn [bind]. unfold acts_parsed. do 2 f_equal. unfold zlen. lia.
Qed.

Lemma buckets_build dx d v l : buckets_arg v l -> Forall bucket_ok l -> (2 <= d)%nat -> seqarg (obj dx d) v = Ok (buckets_wire l).
Proof.
  intros Ha Hl Hd. apply (seqarg_spec bucket_arg bucket_wire); [exact Ha|].
  intros w i Hin Hw. apply bucket_build; [exact Hw | exact (Forall_In _ _ _ Hl Hin) | exact Hd].
Qed.

Lemma buckets_while m n off l limit :
  at_ m off (buckets_wire l) -> Forall bucket_ok l -> Forall bucket_parsable l ->
  limit = (off + length (buckets_wire l))%nat -> (length m <= n)%nat ->
  while_fetch n (p_bucket n m) limit off = Ok (map bucket_parsed l, limit).
Proof.
  intros Hat Hl Hm Hlim Hn.
  apply (while_fetch_spec bucket_wire bucket_parsed (p_bucket n m) m l); try assumption; [|apply bucket_pos].
  intros i o Hin Ho. apply bucket_parse; [exact Ho | exact (Forall_In _ _ _ Hl Hin) | exact (Forall_In _ _ _ Hm Hin) | exact Hn].
Qed.

Lemma band_build dx d v b : band_arg v b -> band_ok b -> (1 <= d)%nat -> obj dx d v = Ok (band_wire b).
Proof.
  intros Ha Hf Hd. destruct d as [|d]; [lia|]. unfold band_ok in Hf.
  destruct Ha as [b|t l r s Ht|t l r s p Ht|t l r s e b Ht]; unfold band_wire; cbn [band_fields] in *.
  - reflexivity.
  - change (ofp_meter_band_drop t l (VInt r) (VInt s) = Ok (enc [U 2 1; U 2 16; U 4 r; U 4 s; P 4])).
    unfold ofp_meter_band_drop. ta; fixed_build "HHII4x"%string [U 2 1; U 2 16; U 4 r; U 4 s; P 4] Hf.
  - change (ofp_meter_band_dscp_remark t l (VInt r) (VInt s) (VInt p) = Ok (enc [U 2 2; U 2 16; U 4 r; U 4 s; U 1 p; P 3])).
    unfold ofp_meter_band_dscp_remark. ta; fixed_build "HHIIB3x"%string [U 2 2; U 2 16; U 4 r; U 4 s; U 1 p; P 3] Hf.
  - change (ofp_meter_band_experimenter t l (VInt r) (VInt s) (VInt e) (VBytes b) =
      Ok (enc ([U 2 65535; U 2 (16 + zlen b); U 4 r; U 4 s; U 4 e] ++ [R b]))).
    apply (fits_app [U 2 65535; U 2 (16 + zlen b); U 4 r; U 4 s; U 4 e] [R b]) in Hf. destruct Hf as [Hf _].
    unfold ofp_meter_band_experimenter. cbn [assert_bytes bind].
    ta; cbn [default py_eqz]; rewrite Z.eqb_refl; cbn [assert_ bind];
      apply (pack_app_enc "HHIII" [U 2 65535; U 2 (16 + zlen b); U 4 r; U 4 s; U 4 e]); try reflexivity; exact Hf.
Qed.

Lemma band_parse m off b : at_ m off (band_wire b) -> band_ok b -> band_plain b ->
  p_meter_band m off = Ok (band_view b, (off + length (band_wire b))%nat).
Proof.
  intros Hat Hf Hp. unfold band_wire, band_ok, band_view in *. rewrite enc_length.
  unfold p_meter_band, p_meter_band_header.
  destruct b as [r s|r s p|r s e b]; cbn [band_fields band_class] in *; [| |destruct Hp].
  - pose proof (at_enc_app m off [U 2 1; U 2 16; U 4 r; U 4 s] [P 4] Hat) as [H1 _].
    assert (F1 : fits [U 2 1; U 2 16; U 4 r; U 4 s]) by (apply (fits_app _ [P 4]); exact Hf).
    rewrite (fixed_enc "ofp_meter_band_header" "HHII" [U 2 1; U 2 16; U 4 r; U 4 s] m off eq_refl F1 H1). cbn [bind vals].
    apply (fixed_enc "ofp_meter_band_drop" "HHII4x" [U 2 1; U 2 16; U 4 r; U 4 s; P 4]); try assumption; reflexivity.
  - pose proof (at_enc_app m off [U 2 2; U 2 16; U 4 r; U 4 s] [U 1 p; P 3] Hat) as [H1 _].
    assert (F1 : fits [U 2 2; U 2 16; U 4 r; U 4 s]) by (apply (fits_app _ [U 1 p; P 3]); exact Hf).
    rewrite (fixed_enc "ofp_meter_band_header" "HHII" [U 2 2; U 2 16; U 4 r; U 4 s] m off eq_refl F1 H1). cbn [bind vals].
    apply (fixed_enc "ofp_meter_band_dscp_remark" "HHIIB3x" [U 2 2; U 2 16; U 4 r; U 4 s; U 1 p; P 3]); try assumption; reflexivity.
Qed.

Lemma bands_build dx d v l : bands_arg v l -> Forall band_ok l -> (1 <= d)%nat -> seqarg (obj dx d) v = Ok (bands_wire l).
Proof.
  intros Ha Hl Hd. apply (seqarg_spec band_arg band_wire); [exact Ha|].
  intros w i Hin Hw. apply band_build; [exact Hw | exact (Forall_In _ _ _ Hl Hin) | exact Hd].
Qed.

Lemma bands_while m n off l limit :
  at_ m off (bands_wire l) -> Forall band_ok l -> Forall band_plain l ->
  limit = (off + length (bands_wire l))%nat -> (length m <= n)%nat ->
  while_fetch n (p_meter_band m) limit off = Ok (map band_view l, limit).
Proof.
  intros Hat Hl Hm Hlim Hn.
  apply (while_fetch_spec band_wire band_view (p_meter_band m) m l); try assumption; [|apply band_pos].
  intros i o Hin Ho. apply band_parse; [exact Ho | exact (Forall_In _ _ _ Hl Hin) | exact (Forall_In _ _ _ Hm Hin)].
Qed.
