(** Headers of OpenFlow 1.4 messages: building and parsing them. *)

From Verif Require Import Py Struct P_Struct S_Hello S_Ports P_Hello P_Ports S_Wire4 M_Build4 M_Parse4 P_Wire4.
From Verif Require Import S_Wire5 M_Build5 M_Parse5.
Local Open Scope Z_scope.
Local Open Scope list_scope.

Lemma header_fields_ok dx single ty xid h t :
  hdr_arg dx single ty xid h -> u8 ty -> u32 xid -> types_ok single ty t ->
  exists v x, header_fields dx h t = Ok (v, VInt ty, x) /\ type_arg v 5 /\ opt_arg dx x xid.
Proof.
  intros Hh Ht Hx Hs. inversion Hh as [Hsg Hxid|c v ty' l x Hv Hty Hxx|l rest Hl]; subst; cbn [header_fields].
  - destruct Hs as [->|[Hf _]]; [|congruence].
    exists (VInt 5), (VInt dx). split; [reflexivity|]. split; right; reflexivity.
  - exists v, x. split; [|split; assumption].
    destruct Hs as [->|[Hf [(l' & -> & Hin)| ->]]].
    + destruct Hty as [->|[_ ->]]; cbn [fill_type py_eqz]; rewrite ?Z.eqb_refl; reflexivity.
    + destruct Hty as [->|[Hc _]]; [|congruence]. cbn [fill_type tup]. rewrite py_in_tup by exact Hin. reflexivity.
    + destruct Hty as [->|[Hc _]]; [|congruence]. reflexivity.
  - exists (VInt 5), (VInt xid).
    rewrite (unpacks_enc "BBHI" [U 1 5; U 1 ty; U 2 l; U 4 xid]).
    + cbn [vals bind].
      assert (E : check_type (VInt ty) t = Ok tt).
      { destruct Hs as [->|[Hf [(l' & -> & Hin)| ->]]]; cbn [check_type tup py_eqz].
        - rewrite Z.eqb_refl. reflexivity.
        - rewrite py_in_tup by exact Hin. reflexivity.
        - reflexivity. }
      rewrite E. split; [reflexivity|]. split; right; reflexivity.
    + reflexivity.
    + unfold u8, u32 in *. repeat constructor; cbn; lia.
    + exists [], rest. split; reflexivity.
Qed.

Lemma ofp_header_ok dx v x ty len xid :
  type_arg v 5 -> opt_arg dx x xid -> u8 ty -> u32 xid -> u16 len ->
  M_Build5.ofp_header dx v (VInt ty) (VInt len) x = Ok (enc [U 1 5; U 1 ty; U 2 len; U 4 xid]).
Proof.
  intros Hv Hx Ht Hxid Hl. unfold M_Build5.ofp_header.
  assert (Ev : default v 5 = VInt 5) by (destruct Hv as [->| ->]; reflexivity).
  assert (Ex : default x dx = VInt xid) by (destruct Hx as [[-> ->]| ->]; reflexivity).
  rewrite Ev, Ex. cbn [py_eqz]. rewrite Z.eqb_refl. cbn [assert_ bind default].
  apply (packs_enc "BBHI" [U 1 5; U 1 ty; U 2 len; U 4 xid]); [reflexivity|].
  unfold u8, u16, u32 in *. repeat constructor; cbn; lia.
Qed.

Lemma ofp_ok o dx single ty xid h t body :
  o (VBytes body) = Ok body ->
  hdr_arg dx single ty xid h -> u8 ty -> u32 xid -> types_ok single ty t ->
  zlen body <= 65527 ->
  ofp_ o dx h (VBytes body) t = Ok (msg 5 ty xid body).
Proof.
  intros Ho Hh Ht Hx Hs Hl. unfold ofp_.
  destruct (header_fields_ok dx single ty xid h t Hh Ht Hx Hs) as (v & x & E & Hv & Hxx).
  rewrite E. cbn [bind]. rewrite Ho. cbn [bind].
  rewrite (ofp_header_ok dx v x ty (8 + zlen body) xid) by (try assumption; unfold u16, zlen in *; lia).
  cbn [bind]. rewrite msg_enc by (unfold u8 in *; lia).
  change [U 1 5; U 1 ty; U 2 (8 + zlen body); U 4 xid; R body] with ([U 1 5; U 1 ty; U 2 (8 + zlen body); U 4 xid] ++ [R body]).
  rewrite enc_app, enc_R. reflexivity.
Qed.

Lemma obj_bytes dx d b : obj dx d (VBytes b) = Ok b.
Proof. destruct d; reflexivity. Qed.

Lemma message_ok dx d single ty xid h t body :
  hdr_arg dx single ty xid h -> u8 ty -> u32 xid -> types_ok single ty t ->
  zlen body <= 65527 ->
  message (obj dx d) dx h t (Ok body) = Ok (msg 5 ty xid body).
Proof. intros. unfold message. cbn [bind]. apply ofp_ok with single; try assumption. apply obj_bytes. Qed.

(** Parsing the header. *)
Lemma p_header_ok m off ty xid body :
  at_ m off (msg 5 ty xid body) -> u8 ty -> u32 xid -> zlen body <= 65527 ->
  p_header m off = Ok (hdr_view ty xid body, ty, (8 + length body)%nat, (off + 8)%nat) /\
  at_ m (off + 8) body.
Proof.
  intros Hat Ht Hx Hl. rewrite msg_enc in Hat by (unfold u8 in *; lia).
  change [U 1 5; U 1 ty; U 2 (8 + zlen body); U 4 xid; R body] with ([U 1 5; U 1 ty; U 2 (8 + zlen body); U 4 xid] ++ [R body]) in Hat.
  apply at_enc_app in Hat. destruct Hat as [H1 H2]. rewrite enc_R in H2. split; [|exact H2].
  unfold p_header. rewrite (unp_enc "BBHI" [U 1 5; U 1 ty; U 2 (8 + zlen body); U 4 xid]).
  - cbn [vals bind]. change (5 =? 5) with true. cbn [assert_ bind flen fld_len].
    unfold hdr_view. do 2 f_equal. f_equal. unfold zlen. lia.
  - reflexivity.
  - unfold u8, u32, zlen in *. repeat constructor; cbn; lia.
  - exact H1.
Qed.
