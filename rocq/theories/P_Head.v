(** The headers of the messages that builders return. *)

From Verif Require Import Py Struct P_Struct S_Hello S_Ports P_Hello P_Ports S_Head S_Wire4 S_Msg4 M_Build4 P_Wire4 P_Act4 P_MsgRebuild4.
From Verif Require M_Build5.
Local Open Scope Z_scope.
Local Open Scope list_scope.

(** *** What the fields of the header argument become *)

Lemma header_bytes h vs : unpacks "BBHI" h 0 = Ok vs ->
  (8 <= length h)%nat /\ vs = [VInt (byte_at h 0); VInt (byte_at h 1); VInt (u16_at h 2); VInt (u32_at h 4)].
Proof.
  unfold unpacks. change (fmt "BBHI") with (Ok [FU 1; FU 1; FU 2; FU 4]). cbn [bind]. unfold unpack_from.
  change (calcsize [FU 1; FU 1; FU 2; FU 4]) with 8%nat. rewrite Nat.add_0_l.
  destruct (8 <=? length h)%nat eqn:E; [|discriminate]. apply Nat.leb_le in E. intros H.
  do 8 (destruct h as [|? h]; [cbn in E; lia|]). cbn in H. injection H as <-.
  split; [exact E|]. unfold u32_at, u16_at, byte_at. cbn [nth Nat.add].
  repeat f_equal; ring.
Qed.

(** The type that comes out of the header argument, where the builder asks for
    one type, for one of several, or for any. *)
Definition asked (t : pyval) (oftype : Z) (ot : option Z) : Prop :=
  match t with
  | VInt z => oftype = z /\ (ot = Some z \/ ot = None)
  | VNone => ot = Some oftype
  | VTup _ l => In (VInt oftype) l /\ ot = Some oftype
  | _ => False
  end.

Lemma py_in_In v l : py_in v l = true -> exists z, v = VInt z /\ In (VInt z) l.
Proof.
  unfold py_in. intros H. apply existsb_exists in H. destruct H as (x & Hin & H).
  destruct x as [|z| | | |]; try discriminate. unfold py_eqz in H. destruct v as [|y| | | |]; try discriminate.
  apply Z.eqb_eq in H. subst. eauto.
Qed.

Lemma assert_true b u : assert_ b = Ok u -> b = true.
Proof. unfold assert_. destruct b; [reflexivity | discriminate]. Qed.

Lemma check_asked y t u : (forall l, t <> VList l) -> check_type (VInt y) t = Ok u -> asked t y (Some y).
Proof.
  intros Hl H. unfold check_type in H. destruct t as [|z|?|?|l|c l]; try discriminate.
  - reflexivity.
  - apply assert_true in H. cbn in H. apply Z.eqb_eq in H. split; [exact H | left; congruence].
  - destruct (Hl l eq_refl).
  - apply assert_true, py_in_In in H. destruct H as (z & E & H). injection E as <-. split; [exact H | reflexivity].
Qed.

Lemma fill_asked v t r : (forall l, t <> VList l) -> fill_type v t = Ok r -> exists y ot, r = VInt y /\ field_says v ot /\ asked t y ot.
Proof.
  intros Hl H. unfold fill_type in H. destruct t as [|z|?|?|l|c l]; try discriminate.
  - apply bind_ok in H. destruct H as (u & Ha & H). injection H as <-. apply assert_true in Ha.
    destruct v; try discriminate. repeat eexists. constructor.
  - destruct v as [|y|?|?|?|?]; try (apply bind_ok in H; destruct H as (u & Ha & H); apply assert_true in Ha; try discriminate Ha).
    + injection H as <-. exists z, None. repeat split; [constructor | right; reflexivity].
    + injection H as <-. cbn in Ha. apply Z.eqb_eq in Ha. subst. exists z, (Some z). repeat split; [constructor | left; reflexivity].
  - destruct (Hl l eq_refl).
  - apply bind_ok in H. destruct H as (u & Ha & H). injection H as <-. apply assert_true, py_in_In in Ha.
    destruct Ha as (y & -> & Ha). exists y, (Some y). repeat split; [constructor | exact Ha].
Qed.

(** What ofp_header makes of them. *)
Definition header_of_version (k : Z) (hd : bytes) (v ty l x : pyval) (dx : Z) : Prop :=
  default v k = VInt k /\ exists t z, ty = VInt t /\ default x dx = VInt z /\ byte_at hd 0 = k /\ byte_at hd 1 = t /\ u32_at hd 4 = z /\ length hd = 8%nat.

Lemma packed_header k t l x hd : 0 <= k < 256 -> packs "BBHI" [VInt k; t; VInt l; x] = Ok hd ->
  exists ty z, t = VInt ty /\ x = VInt z /\ byte_at hd 0 = k /\ byte_at hd 1 = ty /\ u32_at hd 4 = z /\ length hd = 8%nat.
Proof.
  intros Hk Eh. apply (packs_inv "BBHI" [FU 1; FU 1; FU 2; FU 4] _ _ eq_refl) in Eh.
  cbn [pack] in Eh. cbn [pack_item] in Eh. destruct (in_u 1 k) eqn:Ek; [|discriminate]. cbn [bind] in Eh.
  destruct t as [|t| | | |]; try discriminate. cbn [pack_item] in Eh.
  destruct (in_u 1 t) eqn:Et; [|discriminate]. cbn [bind] in Eh.
  destruct (in_u 2 l) eqn:El; [|discriminate]. cbn [bind] in Eh.
  destruct x as [|z| | | |]; try discriminate. cbn [pack_item] in Eh.
  destruct (in_u 4 z) eqn:Ez; [|discriminate]. cbn [bind] in Eh.
  assert (Ehd : hd = be 1 k ++ be 1 t ++ be 2 l ++ be 4 z) by (injection Eh as <-; rewrite ?app_nil_r; reflexivity).
  clear Eh. subst hd. exists t, z.
  unfold in_u in Et, Ez. apply andb_true_iff in Et, Ez. destruct Et as [T0 T1], Ez as [Z0 Z1].
  apply Z.leb_le in T0, Z0. apply Z.ltb_lt in T1, Z1. change (256 ^ Z.of_nat 1) with 256 in T1. change (256 ^ Z.of_nat 4) with 4294967296 in Z1.
  split; [reflexivity|]. split; [reflexivity|].
  cbn [be Datatypes.app]. split; [|split; [|split]].
  - unfold byte_at; cbn [nth]. apply Z.mod_small; lia.
  - unfold byte_at; cbn [nth]. apply Z.mod_small; lia.
  - unfold u32_at, byte_at. cbn [nth Nat.add].
    pose proof (Z.div_mod z 256 ltac:(lia)). pose proof (Z.div_mod (z / 256) 256 ltac:(lia)). pose proof (Z.div_mod (z / 256 / 256) 256 ltac:(lia)).
    assert (0 <= z / 256 / 256 / 256 < 256) by (split; [repeat (apply Z.div_pos; [|lia]); lia | repeat (apply Z.div_lt_upper_bound; [lia|]); lia]).
    rewrite (Z.mod_small (z / 256 / 256 / 256) 256) by lia. lia.
  - reflexivity.
Qed.

Lemma header4 dx v t l x hd : ofp_header dx v t (VInt l) x = Ok hd -> header_of_version 4 hd v t (VInt l) x dx.
Proof.
  unfold ofp_header. cbv zeta. intros Eh. apply bind_ok in Eh. destruct Eh as (u & Ea & Eh). apply assert_true in Ea.
  assert (Ev : default v 4 = VInt 4) by (destruct (default v 4); try discriminate; cbn in Ea; apply Z.eqb_eq in Ea; subst; reflexivity).
  rewrite Ev in Eh. cbn [default] in Eh. destruct (packed_header 4 _ _ _ _ ltac:(lia) Eh) as (ty & z & H).
  split; [exact Ev|]. exists ty, z. exact H.
Qed.

Lemma header5 dx v t l x hd : M_Build5.ofp_header dx v t (VInt l) x = Ok hd -> header_of_version 5 hd v t (VInt l) x dx.
Proof.
  unfold M_Build5.ofp_header. cbv zeta. intros Eh. apply bind_ok in Eh. destruct Eh as (u & Ea & Eh). apply assert_true in Ea.
  assert (Ev : default v 5 = VInt 5) by (destruct (default v 5); try discriminate; cbn in Ea; apply Z.eqb_eq in Ea; subst; reflexivity).
  rewrite Ev in Eh. cbn [default] in Eh. destruct (packed_header 5 _ _ _ _ ltac:(lia) Eh) as (ty & z & H).
  split; [exact Ev|]. exists ty, z. exact H.
Qed.

Lemma default_says v k : default v k = VInt k -> exists ov, field_says v ov /\ (ov = None \/ ov = Some k).
Proof. destruct v; cbn; intros E; try discriminate; [exists None | exists (Some z)]; split; [constructor | auto | constructor | right; congruence]. Qed.

Lemma xid_says x dx z : default x dx = VInt z -> exists ox, field_says x ox /\ match ox with Some y => y | None => dx end = z.
Proof. destruct x; cbn; intros E; try discriminate; [exists None | exists (Some z0)]; split; try constructor; congruence. Qed.

(** What every message of version [k] says of itself, for the type argument [ty]. *)
Definition says_type (dx k : Z) (ty h : pyval) (b : bytes) : Prop :=
  exists v t x, header_says dx h v t x /\ (v = None \/ v = Some k) /\ byte_at b 0 = k /\ asked ty (byte_at b 1) t /\ u32_at b 4 = x.

Lemma app_bytes hd dt : length hd = 8%nat -> byte_at (hd ++ dt) 0 = byte_at hd 0 /\ byte_at (hd ++ dt) 1 = byte_at hd 1 /\ u32_at (hd ++ dt) 4 = u32_at hd 4.
Proof. intros L. do 9 (destruct hd as [|? hd]; [try discriminate L|]); [|discriminate L]. repeat split. Qed.

Lemma fields_says dx k h ty v t x hd dt b :
  (forall l, ty <> VList l) ->
  match h with
  | VBytes h =>
      vs <- unpacks "BBHI" h 0 ;;
      match vs with
      | [version; oftype; _; xid] => check_type oftype ty ;;; Ok (version, oftype, xid)
      | _ => Err ValueError
      end
  | VTup _ [version; oftype; _; xid] => oftype <- fill_type oftype ty ;; Ok (version, oftype, xid)
  | VTup _ _ => Err ValueError
  | VNone => match ty with VInt z => Ok (VInt k, VInt z, VInt dx) | _ => Err ValueError end
  | _ => Err ValueError
  end = Ok (v, t, x) ->
  header_of_version k hd v t (VInt (8 + zlen dt)) x dx -> b = hd ++ dt ->
  says_type dx k ty h b.
Proof.
  intros NL E (Ev & t' & z & -> & Ex & B0 & B1 & B4 & L) ->. destruct (app_bytes hd dt L) as (A0 & A1 & A4).
  unfold says_type. rewrite A0, A1, A4, B0, B1, B4.
  destruct h as [| |h| | |c l]; try discriminate.
  - destruct ty as [|y| | | |]; try discriminate. injection E as <- <- <-. cbn in Ex. injection Ex as <-.
    exists None, None, dx. repeat split; auto. constructor.
  - apply bind_ok in E. destruct E as (vs & Eu & E). apply header_bytes in Eu. destruct Eu as [L8 ->].
    apply bind_ok in E. destruct E as (u & Ec & E). injection E as <- <- <-.
    exists (Some (byte_at h 0)), (Some (byte_at h 1)), (u32_at h 4). cbn in Ev, Ex.
    split; [constructor; exact L8|]. split; [right; congruence|]. split; [reflexivity|].
    split; [exact (check_asked _ _ _ NL Ec) | congruence].
  - destruct l as [|v0 [|t0 [|l0 [|x0 [|? ?]]]]]; try discriminate.
    apply bind_ok in E. destruct E as (r & Ef & E). injection E as -> -> ->.
    destruct (fill_asked _ _ _ NL Ef) as (y & ot & Ey & Ho & Ha). injection Ey as <-.
    destruct (default_says _ _ Ev) as (ov & Hv & Hk). destruct (xid_says _ _ _ Ex) as (ox & Hx & Hz).
    exists ov, ot, z. split; [rewrite <- Hz; constructor; assumption|]. repeat split; assumption.
Qed.

Lemma ofp_says4 o dx h data ty b : (forall l, ty <> VList l) -> ofp_ o dx h data ty = Ok b -> says_type dx 4 ty h b.
Proof.
  unfold ofp_. intros NL E. apply bind_ok in E. destruct E as ([[v t] x] & Ef & E). apply bind_ok in E. destruct E as (dt & _ & E).
  apply bind_ok in E. destruct E as (hd & Eh & E). injection E as <-.
  exact (fields_says dx 4 h ty v t x hd dt _ NL Ef (header4 _ _ _ _ _ _ Eh) eq_refl).
Qed.

Lemma ofp_says5 o dx h data ty b : (forall l, ty <> VList l) -> M_Build5.ofp_ o dx h data ty = Ok b -> says_type dx 5 ty h b.
Proof.
  unfold M_Build5.ofp_. intros NL E. apply bind_ok in E. destruct E as ([[v t] x] & Ef & E). apply bind_ok in E. destruct E as (dt & _ & E).
  apply bind_ok in E. destruct E as (hd & Eh & E). injection E as <-.
  exact (fields_says dx 5 h ty v t x hd dt _ NL Ef (header5 _ _ _ _ _ _ Eh) eq_refl).
Qed.

Lemma says_headed dx k types h b :
  (says_type dx k (VInt (hd 0 types)) h b -> types = [hd 0 types] -> headed dx k types h b).
Proof.
  intros (v & t & x & H & Hv & B0 & (B1 & Ht) & B4) E. exists v, t, x. rewrite E at 1.
  repeat split; try assumption; [left; congruence|]. destruct Ht as [->| ->]; [left; congruence | right; split; [reflexivity | rewrite E; congruence]].
Qed.

Lemma says_headed_multi dx k l types h b :
  (says_type dx k (tup l) h b -> (forall z, In z l -> In z types) -> headed dx k types h b).
Proof.
  intros (v & t & x & H & Hv & B0 & (B1 & Ht) & B4) E. exists v, t, x.
  repeat split; try assumption; [|left; exact Ht]. apply E. apply in_map_iff in B1. destruct B1 as (z & Ez & Hz). congruence.
Qed.

(** *** The builders *)

Definition heads (dx k : Z) (types : list Z) (h : pyval) (r : res bytes) : Prop := forall b, r = Ok b -> headed dx k types h b.

Lemma heads_err dx k ts h e : heads dx k ts h (Err e).
Proof. intros b H. discriminate. Qed.
Lemma heads_bind {A} dx k ts h (r : res A) f : (forall a, heads dx k ts h (f a)) -> heads dx k ts h (bind r f).
Proof. intros H b E. apply bind_ok in E. destruct E as (a & _ & E). exact (H a b E). Qed.
Lemma heads_sized dx k ts h n r : heads dx k ts h r -> heads dx k ts h (sized n r).
Proof.
  intros H b E. unfold sized in E. apply bind_ok in E. destruct E as (a & E1 & E2). apply bind_ok in E2. destruct E2 as (u & _ & E2).
  injection E2 as <-. exact (H a E1).
Qed.
Lemma heads_ofp4 o dx z h data : heads dx 4 [z] h (ofp_ o dx h data (VInt z)).
Proof. intros b E. apply says_headed; [|reflexivity]. apply (ofp_says4 o dx h data (VInt z)); [discriminate | exact E]. Qed.
Lemma heads_multi4 o dx l ts h data : (forall z, In z l -> In z ts) -> heads dx 4 ts h (ofp_ o dx h data (tup l)).
Proof. intros H b E. apply (says_headed_multi dx 4 l); [|exact H]. apply (ofp_says4 o dx h data (tup l)); [discriminate | exact E]. Qed.
Lemma heads_ofp5 o dx z h data : heads dx 5 [z] h (M_Build5.ofp_ o dx h data (VInt z)).
Proof. intros b E. apply says_headed; [|reflexivity]. apply (ofp_says5 o dx h data (VInt z)); [discriminate | exact E]. Qed.
Lemma heads_multi5 o dx l ts h data : (forall z, In z l -> In z ts) -> heads dx 5 ts h (M_Build5.ofp_ o dx h data (tup l)).
Proof. intros H b E. apply (says_headed_multi dx 5 l); [|exact H]. apply (ofp_says5 o dx h data (tup l)); [discriminate | exact E]. Qed.

Ltac heads_of :=
  repeat match goal with
  | |- heads _ _ _ _ (Err _) => apply heads_err
  | |- heads _ _ _ _ (message _ _ _ _ _) => unfold message
  | |- heads _ _ _ _ (M_Build5.message _ _ _ _ _) => unfold M_Build5.message
  | |- heads _ _ _ _ (ofp_ _ _ _ _ (tup _)) => apply heads_multi4; cbn; intuition
  | |- heads _ _ _ _ (M_Build5.ofp_ _ _ _ _ (tup _)) => apply heads_multi5; cbn; intuition
  | |- heads _ _ _ _ (ofp_ _ _ _ _ _) => apply heads_ofp4
  | |- heads _ _ _ _ (M_Build5.ofp_ _ _ _ _ _) => apply heads_ofp5
  | |- heads _ _ _ _ (sized _ _) => apply heads_sized
  | |- heads _ _ _ _ (bind _ _) => apply heads_bind; intro
  | |- heads _ _ _ _ (match ?l with [] => _ | _ :: _ => _ end) => destruct l
  end.

Lemma built_headed4 o dx cls types h args : In (cls, types) message_types4 -> heads dx 4 types h (call o dx cls (h :: args)).
Proof.
  intros Hin.
  repeat (destruct Hin as [E|Hin]; [ injection E as <- <-;
    match goal with |- heads _ _ _ _ (call ?o ?dx ?c ?a) => let f := eval lazy [lookup builders String.eqb Ascii.eqb Bool.eqb] in (lookup c (builders o dx)) in
      match f with Some ?g => change (call o dx c a) with (g a) end end;
    unfold arg2, arg3, arg4, arg5, arg6, arg8; heads_of;
    cbv delta [ofp_hello ofp_switch_features ofp_switch_config ofp_table_mod ofp_flow_mod ofp_group_mod ofp_port_mod ofp_meter_mod ofp_multipart_request
      ofp_multipart_reply ofp_queue_get_config_request ofp_queue_get_config_reply ofp_packet_out ofp_role_request ofp_async_config ofp_packet_in
      ofp_flow_removed ofp_port_status ofp_error_msg ofp_experimenter_header] beta zeta; heads_of |]).
  destruct Hin.
Qed.

Lemma built_headed5 o dx cls types h args : In (cls, types) message_types5 -> heads dx 5 types h (M_Build5.call o dx cls (h :: args)).
Proof.
  intros Hin.
  repeat (destruct Hin as [E|Hin]; [ injection E as <- <-;
    match goal with |- heads _ _ _ _ (M_Build5.call ?o ?dx ?c ?a) => let f := eval lazy [lookup M_Build5.builders String.eqb Ascii.eqb Bool.eqb] in (lookup c (M_Build5.builders o dx)) in
      match f with Some ?g => change (M_Build5.call o dx c a) with (g a) end end;
    unfold arg2, arg3, arg4, arg5, arg6, arg8; heads_of;
    cbv delta [M_Build5.ofp_hello M_Build5.ofp_switch_features M_Build5.ofp_switch_config M_Build5.ofp_table_mod M_Build5.ofp_flow_mod M_Build5.ofp_group_mod
      M_Build5.ofp_port_mod M_Build5.ofp_multipart_request M_Build5.ofp_multipart_reply M_Build5.ofp_packet_out M_Build5.ofp_role_request M_Build5.ofp_async_config
      M_Build5.ofp_packet_in M_Build5.ofp_bundle_ctrl_msg M_Build5.ofp_bundle_add_msg M_Build5.ofp_flow_removed M_Build5.ofp_port_status M_Build5.ofp_error_msg
      M_Build5.ofp_error_experimenter_msg M_Build5.ofp_experimenter_msg M_Build5.ofp_table_status M_Build5.ofp_requestforward_header] beta zeta; heads_of |]).
  destruct Hin.
Qed.

Lemma role_status_headed o dx h args : heads dx 5 [24; 25] h (M_Build5.call o dx "ofp_role_status" (h :: args)).
Proof.
  match goal with |- heads _ _ _ _ (M_Build5.call ?o ?dx ?c ?a) => let f := eval lazy [lookup M_Build5.builders String.eqb Ascii.eqb Bool.eqb] in (lookup c (M_Build5.builders o dx)) in
      match f with Some ?g => change (M_Build5.call o dx c a) with (g a) end end.
  unfold arg5; heads_of; cbv delta [M_Build5.ofp_role_status] beta zeta; heads_of.
Qed.

(** A header argument has one meaning. *)
Lemma says_fun dx h v t x : header_says dx h v t x -> forall v' t' x', header_says dx h v' t' x' -> v = v' /\ t = t' /\ x = x'.
Proof.
  assert (F : forall y a b, field_says y a -> field_says y b -> a = b) by (intros y a b Ha Hb; destruct Ha; inversion Hb; reflexivity).
  intros H v' t' x' H'. destruct H; inversion H'; subst; auto.
  repeat match goal with A : field_says ?y _, B : field_says ?y _ |- _ => pose proof (F _ _ _ A B); clear A; subst end. auto.
Qed.

Lemma refused dx k types h r : heads dx k types h r ->
  (forall v t x, header_says dx h v t x ->
     (exists v', v = Some v' /\ v' <> k) \/ (exists t', t = Some t' /\ ~ In t' types) \/ t = None /\ length types <> 1%nat) ->
  exists e, r = Err e.
Proof.
  intros H N. destruct r as [b|e]; [|eauto]. exfalso. destruct (H b eq_refl) as (v & t & x & Hs & Hv & _ & Hi & Ht & _).
  destruct (N v t x Hs) as [(v' & -> & Hn)|[(t' & -> & Hn)|[-> Hn]]].
  - destruct Hv; congruence.
  - destruct Ht as [Ht|[Ht _]]; congruence.
  - destruct Ht as [Ht|[_ Ht]]; [discriminate|]. rewrite Ht in Hn. apply Hn. reflexivity.
Qed.
