(** Generic lemmas about layouts, and building and parsing them. *)

From Verif Require Import Py Struct P_Struct S_Hello S_Ports P_Hello P_Ports S_Wire4 M_Build4 M_Parse4.
Local Open Scope Z_scope.
Local Open Scope list_scope.

Definition shape (f : fld) : fitem :=
  match f with U w _ => FU w | P n => FX n | R b => FS (length b) end.

Lemma enc_cons f l : enc (f :: l) = enc1 f ++ enc l.
Proof. reflexivity. Qed.

Lemma enc_app a b : enc (a ++ b) = enc a ++ enc b.
Proof. unfold enc. rewrite map_app, concat_app. reflexivity. Qed.

Lemma enc_R b : enc [R b] = b.
Proof. unfold enc. cbn. apply app_nil_r. Qed.

Definition fld_len (f : fld) : nat := match f with U w _ => w | P n => n | R b => length b end.

Lemma enc1_length f : length (enc1 f) = fld_len f.
Proof. destruct f; cbn; [apply be_length | apply zeros_length | reflexivity]. Qed.

Fixpoint flen (l : list fld) : nat := match l with [] => O | f :: l' => (fld_len f + flen l')%nat end.

Lemma enc_length l : length (enc l) = flen l.
Proof.
  induction l as [|f l IH]; [reflexivity|]. rewrite enc_cons, app_length, enc1_length, IH. reflexivity.
Qed.

Lemma enc_zlen l : zlen (enc l) = Z.of_nat (flen l).
Proof. unfold zlen. rewrite enc_length. reflexivity. Qed.

Lemma shape_size l : calcsize (map shape l) = flen l.
Proof. induction l as [|f l IH]; [reflexivity|]. cbn [map calcsize flen]. rewrite IH. destruct f; reflexivity. Qed.

Lemma in_u_range w z : 0 <= z < 256 ^ Z.of_nat w -> in_u w z = true.
Proof. intros H. unfold in_u. apply andb_true_iff. split; [apply Z.leb_le | apply Z.ltb_lt]; apply H. Qed.

Lemma pad_whole (b : bytes) : firstn (length b) b ++ zeros (length b - length b) = b.
Proof. rewrite firstn_all, Nat.sub_diag. apply app_nil_r. Qed.

Lemma pack_enc l : fits l -> pack (map shape l) (vals l) = Ok (enc l).
Proof.
  induction l as [|f l IH]; intros H; [reflexivity|]. inversion H as [|? ? H1 H2]; subst.
  specialize (IH H2). rewrite enc_cons. destruct f as [w z|n|b]; cbn [map shape vals].
  - cbn [pack]. unfold pack_item. rewrite in_u_range by exact H1. cbn [bind]. rewrite IH. reflexivity.
  - cbn [pack]. rewrite IH. reflexivity.
  - cbn [pack]. unfold pack_item. cbn [bind]. rewrite IH. cbn [bind]. rewrite pad_whole. reflexivity.
Qed.

Lemma decode_enc l rest : fits l -> decode (map shape l) (enc l ++ rest) = vals l.
Proof.
  induction l as [|f l IH]; intros H; [reflexivity|]. inversion H as [|? ? H1 H2]; subst.
  rewrite enc_cons, <- app_assoc. destruct f as [w z|n|b]; cbn [map shape vals enc1].
  - rewrite decode_FU by (apply in_u_range; exact H1). rewrite IH by exact H2. reflexivity.
  - rewrite decode_FX. apply IH; exact H2.
  - rewrite decode_FS by reflexivity. rewrite IH by exact H2. reflexivity.
Qed.

Lemma packs_enc f l : fmt f = Ok (map shape l) -> fits l -> packs f (vals l) = Ok (enc l).
Proof. intros Hf Hl. unfold packs. rewrite Hf. cbn [bind]. apply pack_enc; exact Hl. Qed.

(** Packing of what does not fit. *)
Lemma pack_unfit l : ~ fits l -> pack (map shape l) (vals l) = Err StructError.
Proof.
  induction l as [|f l IH]; intros H; [exfalso; apply H; constructor|].
  destruct f as [w z|n|b]; cbn [map shape vals pack].
  - unfold pack_item. destruct (in_u w z) eqn:E; [|reflexivity]. cbn [bind]. rewrite IH; [reflexivity|].
    intros Hl. apply H. constructor; [|exact Hl]. unfold in_u in E. apply andb_true_iff in E.
    destruct E as [E1 E2]. apply Z.leb_le in E1. apply Z.ltb_lt in E2. cbn [in_range]. auto.
  - rewrite IH; [reflexivity|]. intros Hl. apply H. constructor; [exact I | exact Hl].
  - unfold pack_item. cbn [bind]. rewrite IH; [reflexivity|]. intros Hl. apply H. constructor; [exact I | exact Hl].
Qed.

Lemma unpacks_enc f l m off :
  fmt f = Ok (map shape l) -> fits l -> at_ m off (enc l) -> unpacks f m off = Ok (vals l).
Proof.
  intros Hf Hl Hat. unfold unpacks. rewrite Hf. cbn [bind].
  rewrite (unpack_decode _ _ _ _ Hat) by (rewrite enc_length, shape_size; reflexivity).
  rewrite <- (app_nil_r (enc l)), decode_enc by exact Hl. reflexivity.
Qed.

Lemma unp_enc f l m off :
  fmt f = Ok (map shape l) -> fits l -> at_ m off (enc l) -> unp f m off = Ok (vals l, (off + flen l)%nat).
Proof.
  intros Hf Hl Hat. unfold unp. rewrite (unpacks_enc f l) by assumption. cbn [bind].
  unfold sizes. rewrite Hf. cbn [bind]. rewrite shape_size. reflexivity.
Qed.

Lemma fixed_enc cls f l m off :
  fmt f = Ok (map shape l) -> fits l -> at_ m off (enc l) ->
  fixed cls f m off = Ok (VTup cls (vals l), (off + flen l)%nat).
Proof. intros Hf Hl Hat. unfold fixed. rewrite (unp_enc f l) by assumption. reflexivity. Qed.

(** Prefixes of a layout. *)
Lemma at_enc_app m off a b : at_ m off (enc (a ++ b)) -> at_ m off (enc a) /\ at_ m (off + flen a) (enc b).
Proof. rewrite enc_app. intros H. apply at_app in H. rewrite enc_length in H. exact H. Qed.

Lemma fits_app a b : fits (a ++ b) <-> fits a /\ fits b.
Proof. apply Forall_app. Qed.

(** *** Sizes *)

Lemma gap_align n : align8 n = (n + gap n)%nat.
Proof.
  unfold align8, gap.
  pose proof (Nat.div_mod n 8 ltac:(lia)) as H. pose proof (Nat.mod_upper_bound n 8 ltac:(lia)) as Hb.
  set (q := (n / 8)%nat) in *. set (r := (n mod 8)%nat) in *.
  assert (C : r = 0%nat \/ (0 < r)%nat) by lia. destruct C as [C|C].
  - rewrite C. change ((8 - 0) mod 8)%nat with 0%nat.
    replace ((n + 7) / 8)%nat with q; [lia|]. apply (Nat.div_unique (n + 7) 8 q 7); lia.
  - rewrite Nat.mod_small by lia.
    replace ((n + 7) / 8)%nat with (q + 1)%nat; [lia|]. apply (Nat.div_unique (n + 7) 8 (q + 1) (r - 1)); lia.
Qed.

Lemma padding_gap n : padding n = zeros (gap n).
Proof. unfold padding. rewrite gap_align. f_equal. lia. Qed.

Lemma gap_mod n : ((n + gap n) mod 8 = 0)%nat.
Proof. rewrite <- gap_align. unfold align8. apply Nat.mod_mul. lia. Qed.

Lemma gap_0 n : (n mod 8 = 0)%nat -> gap n = 0%nat.
Proof. intros H. unfold gap. rewrite H. reflexivity. Qed.

Lemma gap_lt n : (gap n < 8)%nat.
Proof. unfold gap. apply Nat.mod_upper_bound. lia. Qed.

Lemma mod8_add a b : (a mod 8 = 0 -> b mod 8 = 0 -> (a + b) mod 8 = 0)%nat.
Proof. intros Ha Hb. rewrite Nat.add_mod, Ha, Hb by lia. reflexivity. Qed.

(** *** Loops *)

Lemma wires_length {A} (wire : A -> bytes) l :
  Forall (fun x => (0 < length (wire x))%nat) l -> (length l <= length (concat (map wire l)))%nat.
Proof.
  induction 1 as [|x l Hx Hl IH]; [apply le_n|]. cbn [map concat length]. rewrite app_length. lia.
Qed.

Lemma while_fetch_spec {A} (wire : A -> bytes) (view : A -> pyval) f m l : forall n off limit,
  (forall x o, In x l -> at_ m o (wire x) -> f o = Ok (view x, (o + length (wire x))%nat)) ->
  Forall (fun x => (0 < length (wire x))%nat) l ->
  at_ m off (concat (map wire l)) ->
  limit = (off + length (concat (map wire l)))%nat ->
  (length m <= n)%nat ->
  while_fetch n f limit off = Ok (map view l, limit).
Proof.
  intros n off limit Hf Hne Hat -> Hn.
  assert (Hl : (length l <= n)%nat).
  { pose proof (wires_length wire l Hne). apply at_length in Hat. lia. }
  clear Hn. revert n off Hf Hat Hl. induction l as [|x l IH]; intros n off Hf Hat Hl.
  - cbn [map concat length]. rewrite Nat.add_0_r. destruct n; cbn [while_fetch]; rewrite Nat.ltb_irrefl; reflexivity.
  - cbn [map concat] in *. inversion Hne as [|? ? H1 H2]; subst. rewrite app_length.
    destruct n as [|n]; [cbn in Hl; lia|]. cbn [while_fetch].
    assert (E : (off <? off + (length (wire x) + length (concat (map wire l))))%nat = true) by (apply Nat.ltb_lt; lia).
    rewrite E. apply at_app in Hat. destruct Hat as [Hat1 Hat2].
    rewrite (Hf x) by (cbn; auto). cbn [bind].
    rewrite Nat.add_assoc. rewrite (IH H2) by (try assumption; try (cbn in Hl; lia); intros; apply Hf; cbn; auto).
    reflexivity.
Qed.

Lemma list_fetch_spec {A} (wire : A -> bytes) (view : A -> pyval) f m l n off limit :
  (forall x o, In x l -> at_ m o (wire x) -> f o = Ok (view x, (o + length (wire x))%nat)) ->
  Forall (fun x => (0 < length (wire x))%nat) l ->
  at_ m off (concat (map wire l)) ->
  limit = (off + length (concat (map wire l)))%nat ->
  (length m <= n)%nat ->
  list_fetch n f limit off = Ok (map view l, limit).
Proof.
  intros Hf Hne Hat Hlim Hn. unfold list_fetch. rewrite (while_fetch_spec wire view f m l) by assumption.
  cbn [bind]. rewrite Nat.eqb_refl. reflexivity.
Qed.

(** *** Building *)

Lemma join_spec {A} (arg : pyval -> A -> Prop) (wire : A -> bytes) o l : forall vs,
  Forall2 arg vs l -> (forall v x, In x l -> arg v x -> o v = Ok (wire x)) ->
  join o vs = Ok (concat (map wire l)).
Proof.
  unfold join. induction l as [|x l IH]; intros vs H2 Ho; inversion H2; subst; [reflexivity|].
  cbn [mapM]. rewrite (Ho _ x) by (cbn; auto). cbn [bind].
  match goal with H : Forall2 _ ?vs l |- _ => specialize (IH vs H (fun v y Hy => Ho v y (or_intror Hy))) end.
  destruct (mapM o _) as [bs|]; cbn [bind] in *; [|discriminate].
  injection IH as IH. cbn [map concat]. rewrite <- IH. reflexivity.
Qed.

Lemma seqarg_spec {A} (arg : pyval -> A -> Prop) (wire : A -> bytes) o v l :
  list_arg arg wire v l -> (forall v x, In x l -> arg v x -> o v = Ok (wire x)) ->
  seqarg o v = Ok (concat (map wire l)).
Proof.
  intros H Ho. destruct H as [|l|vs l H|c vs l H]; cbn [seqarg]; try reflexivity; eapply join_spec; eassumption.
Qed.

(** *** Headers *)

Lemma msg_enc v ty xid body : u8 v -> u8 ty ->
  msg v ty xid body = enc [U 1 v; U 1 ty; U 2 (8 + zlen body); U 4 xid; R body].
Proof.
  intros Hv Ht. unfold msg, enc, u8 in *. cbn [map enc1 concat]. rewrite app_nil_r.
  change (be 1 v) with [v mod 256]. change (be 1 ty) with [ty mod 256].
  rewrite (Z.mod_small v), (Z.mod_small ty) by lia. reflexivity.
Qed.

Lemma msg_len v ty xid body : length (msg v ty xid body) = (8 + length body)%nat.
Proof. unfold msg. rewrite !app_length, !be_length. cbn [length]. lia. Qed.

(** The type argument of [ofp_] for a builder of one type, or of several. *)
Definition types_ok (single : bool) (ty : Z) (t : pyval) : Prop :=
  t = VInt ty \/ single = false /\ ((exists l, t = tup l /\ In ty l) \/ t = VNone).

Lemma py_in_tup ty l : In ty l -> py_in (VInt ty) (map VInt l) = true.
Proof.
  intros H. unfold py_in. apply existsb_exists. exists (VInt ty). split; [apply in_map; exact H|].
  cbn [py_eqz]. apply Z.eqb_refl.
Qed.

Lemma header_fields_ok dx single ty xid h t :
  hdr_arg dx single ty xid h -> u8 ty -> u32 xid -> types_ok single ty t ->
  exists v x, header_fields dx h t = Ok (v, VInt ty, x) /\ type_arg v 4 /\ opt_arg dx x xid.
Proof.
  intros Hh Ht Hx Hs. inversion Hh as [Hsg Hxid|c v ty' l x Hv Hty Hxx|l rest Hl]; subst; cbn [header_fields].
  - destruct Hs as [->|[Hf _]]; [|congruence].
    exists (VInt 4), (VInt dx). split; [reflexivity|]. split; right; reflexivity.
  - exists v, x. split; [|split; assumption].
    destruct Hs as [->|[Hf [(l' & -> & Hin)| ->]]].
    + destruct Hty as [->|[_ ->]]; cbn [fill_type py_eqz]; rewrite ?Z.eqb_refl; reflexivity.
    + destruct Hty as [->|[Hc _]]; [|congruence]. cbn [fill_type tup]. rewrite py_in_tup by exact Hin. reflexivity.
    + destruct Hty as [->|[Hc _]]; [|congruence]. reflexivity.
  - exists (VInt 4), (VInt xid).
    rewrite (unpacks_enc "BBHI" [U 1 4; U 1 ty; U 2 l; U 4 xid]).
    + cbn [vals bind].
      assert (E : check_type (VInt ty) t = Ok tt).
      { destruct Hs as [->|[Hf [(l' & -> & Hin)| ->]]]; cbn [check_type tup py_eqz].
        - rewrite Z.eqb_refl. reflexivity.
        - rewrite py_in_tup by exact Hin. reflexivity.
        - reflexivity. }
      rewrite E. split; [reflexivity|]. split; right; reflexivity.
    + reflexivity.
    + unfold u8, u32 in *. repeat constructor; cbn; lia.
    + exists [], rest. split; reflexivity.
Qed.

Lemma ofp_header_ok dx v x ty len xid :
  type_arg v 4 -> opt_arg dx x xid -> u8 ty -> u32 xid -> u16 len ->
  M_Build4.ofp_header dx v (VInt ty) (VInt len) x = Ok (enc [U 1 4; U 1 ty; U 2 len; U 4 xid]).
Proof.
  intros Hv Hx Ht Hxid Hl. unfold M_Build4.ofp_header.
  assert (Ev : default v 4 = VInt 4) by (destruct Hv as [->| ->]; reflexivity).
  assert (Ex : default x dx = VInt xid) by (destruct Hx as [[-> ->]| ->]; reflexivity).
  rewrite Ev, Ex. cbn [py_eqz]. rewrite Z.eqb_refl. cbn [assert_ bind default].
  apply (packs_enc "BBHI" [U 1 4; U 1 ty; U 2 len; U 4 xid]); [reflexivity|].
  unfold u8, u16, u32 in *. repeat constructor; cbn; lia.
Qed.

Lemma ofp_ok o dx single ty xid h t body :
  o (VBytes body) = Ok body ->
  hdr_arg dx single ty xid h -> u8 ty -> u32 xid -> types_ok single ty t ->
  zlen body <= 65527 ->
  ofp_ o dx h (VBytes body) t = Ok (msg 4 ty xid body).
Proof.
  intros Ho Hh Ht Hx Hs Hl. unfold ofp_.
  destruct (header_fields_ok dx single ty xid h t Hh Ht Hx Hs) as (v & x & E & Hv & Hxx).
  rewrite E. cbn [bind]. rewrite Ho. cbn [bind].
  rewrite (ofp_header_ok dx v x ty (8 + zlen body) xid) by (try assumption; unfold u16, zlen in *; lia).
  cbn [bind]. rewrite msg_enc by (unfold u8 in *; lia).
  change [U 1 4; U 1 ty; U 2 (8 + zlen body); U 4 xid; R body] with ([U 1 4; U 1 ty; U 2 (8 + zlen body); U 4 xid] ++ [R body]).
  rewrite enc_app, enc_R. reflexivity.
Qed.

Lemma obj_bytes dx d b : obj dx d (VBytes b) = Ok b.
Proof. destruct d; reflexivity. Qed.

Lemma message_ok dx d single ty xid h t body :
  hdr_arg dx single ty xid h -> u8 ty -> u32 xid -> types_ok single ty t ->
  zlen body <= 65527 ->
  message (obj dx d) dx h t (Ok body) = Ok (msg 4 ty xid body).
Proof. intros. unfold message. cbn [bind]. apply ofp_ok with single; try assumption. apply obj_bytes. Qed.

(** Parsing the header. *)
Lemma p_header_ok m off ty xid body :
  at_ m off (msg 4 ty xid body) -> u8 ty -> u32 xid -> zlen body <= 65527 ->
  p_header m off = Ok (hdr_view ty xid body, ty, (8 + length body)%nat, (off + 8)%nat) /\
  at_ m (off + 8) body.
Proof.
  intros Hat Ht Hx Hl. rewrite msg_enc in Hat by (unfold u8 in *; lia).
  change [U 1 4; U 1 ty; U 2 (8 + zlen body); U 4 xid; R body] with ([U 1 4; U 1 ty; U 2 (8 + zlen body); U 4 xid] ++ [R body]) in Hat.
  apply at_enc_app in Hat. destruct Hat as [H1 H2]. rewrite enc_R in H2. split; [|exact H2].
  unfold p_header. rewrite (unp_enc "BBHI" [U 1 4; U 1 ty; U 2 (8 + zlen body); U 4 xid]).
  - cbn [vals bind]. change (4 =? 4) with true. cbn [assert_ bind flen fld_len].
    unfold hdr_view. do 2 f_equal. f_equal. unfold zlen. lia.
  - reflexivity.
  - unfold u8, u32, zlen in *. repeat constructor; cbn; lia.
  - exact H1.
Qed.
