(** Proofs about [ofptuple]. *)

From Verif Require Import P_Struct M_Tuple S_Tuple.
Local Open Scope Z_scope.
Local Open Scope list_scope.

Lemma decode_skip n (s : bytes) fs rest : length s = n -> decode (FX n :: fs) (s ++ rest) = decode fs rest.
Proof. intros H. cbn [decode]. rewrite skipn_app_l by exact H. reflexivity. Qed.

Lemma unpacks_at f fs msg off b : fmt f = Ok fs -> at_ msg off b -> (calcsize fs <= length b)%nat ->
  unpacks f msg off = Ok (decode fs b).
Proof.
  intros F A L. unfold unpacks. rewrite F. cbn [bind].
  assert (E : b = firstn (calcsize fs) b ++ skipn (calcsize fs) b) by (symmetry; apply firstn_skipn).
  assert (A1 : at_ msg off (firstn (calcsize fs) b)) by (rewrite E in A; apply (at_app _ _ _ _ A)).
  rewrite (unpack_decode fs _ _ _ A1) by (rewrite firstn_length; lia).
  rewrite <- (unpack_decode fs (firstn (calcsize fs) b) b 0).
  - unfold unpack_from. replace (0 + calcsize fs <=? length b)%nat with true by (symmetry; apply Nat.leb_le; lia). reflexivity.
  - exists [], (skipn (calcsize fs) b). split; [exact E|reflexivity].
  - rewrite firstn_length. lia.
Qed.

Lemma in_u_ok w z : 0 <= z < 256 ^ Z.of_nat w -> in_u w z = true.
Proof. unfold in_u. lia. Qed.

Lemma land_low x : Z.land x 4095 = x mod 4096.
Proof. change 4095 with (Z.ones 12). rewrite Z.land_ones by lia. reflexivity. Qed.

Lemma tci_vid p d v : 0 <= p < 8 -> 0 <= d < 2 -> 0 <= v < 4096 -> Z.land (p * 8192 + d * 4096 + v) 4095 = v.
Proof. intros. rewrite land_low. lia. Qed.

Lemma tci_pcp p d v : 0 <= p < 8 -> 0 <= d < 2 -> 0 <= v < 4096 -> Z.shiftr (p * 8192 + d * 4096 + v) 13 = p.
Proof. intros. rewrite Z.shiftr_div_pow2 by lia. change (2 ^ 13) with 8192. lia. Qed.

Definition hdr_len (t : tag) : nat := match t with None => 14 | Some _ => 18 end.
Definition hdr_off (t : tag) : Z := match t with None => 0 | Some _ => 4 end.

Lemma eth_payload dst src t ty payload : length dst = 6%nat -> length src = 6%nat ->
  at_ (eth dst src t ty payload) (hdr_len t) payload.
Proof.
  intros Hd Hs. exists (dst ++ src ++ tag_wire t ++ be 2 ty), []. split.
  - unfold eth. rewrite app_nil_r, <- !app_assoc. reflexivity.
  - destruct t as [[[p d] v]|]; rewrite !app_length; cbn [tag_wire]; rewrite ?app_length, !be_length, Hd, Hs; reflexivity.
Qed.

(** The Ethernet part. *)
Lemma eth_part dst src t ty payload in_port : length dst = 6%nat -> length src = 6%nat -> tag_ok t ->
  0 <= ty < 65536 -> (t = None -> ty <> 33024 /\ (4 <= length payload)%nat) ->
  ofptuple (eth dst src t ty payload) in_port =
    (' (ty2, off2) <- llc (eth dst src t ty payload) ty (hdr_off t) ;;
     nw <- network (eth dst src t ty payload) ty2 off2 ;;
     match nw with
     | [tos; proto; nsrc; ndst; tsrc; tdst] =>
         Ok (fields in_port dst src t ty2 nsrc ndst proto tos tsrc tdst)
     | _ => Err StructError
     end).
Proof.
  intros Hd Hs Ht Hty Hn. unfold ofptuple.
  rewrite (unpacks_at "!6s6sHHH" [FS 6; FS 6; FU 2; FU 2; FU 2] _ 0 _ eq_refl (at_whole _)).
  2:{ unfold eth. rewrite !app_length, be_length. destruct t as [[[p d] v]|]; cbn [tag_wire].
      - rewrite app_length, !be_length. cbn. lia.
      - destruct (Hn eq_refl). cbn. lia. }
  unfold eth. rewrite decode_FS by exact Hd. rewrite decode_FS by exact Hs.
  destruct t as [[[p d] v]|]; cbn [tag_wire].
  - destruct Ht as (Hp & Hd' & Hv). rewrite <- !app_assoc.
    rewrite !decode_FU by (apply in_u_ok; change (256 ^ Z.of_nat 2) with 65536; lia). cbn [decode bind].
    change (33024 =? 33024) with true. cbv iota. rewrite tci_vid, tci_pcp by assumption. reflexivity.
  - destruct (Hn eq_refl) as (Hne & Hl). cbn [Datatypes.app].
    rewrite decode_FU by (apply in_u_ok; change (256 ^ Z.of_nat 2) with 65536; lia). cbn [decode bind].
    replace (ty =? 33024) with false by lia. reflexivity.
Qed.

Lemma llc_type frame ty off : 1500 <= ty -> llc frame ty off = Ok (ty, off).
Proof. intros H. unfold llc. replace (ty <? 1500) with false by lia. reflexivity. Qed.

Lemma off_len t : Z.to_nat (14 + hdr_off t) = hdr_len t.
Proof. destruct t; reflexivity. Qed.

(** The IPv4 part. *)
Definition tp_of (proto sp dp : Z) : pyval * pyval :=
  if proto =? 1 then (VInt (Z.shiftr sp 8), VInt (Z.land sp 255))
  else if (proto =? 6) || (proto =? 17) then (VInt sp, VInt dp) else (VNone, VNone).

Lemma ip_part frame off h payload a b rest : ip_ok h -> at_ frame (Z.to_nat (14 + off)) (ip_wire h payload) ->
  options h ++ payload = be 2 a ++ be 2 b ++ rest -> 0 <= a < 65536 -> 0 <= b < 65536 ->
  network frame 2048 off =
  Ok [VInt (tos h); VInt (proto h); VBytes (nsrc h); VBytes (ndst h); fst (tp_of (proto h) a b); snd (tp_of (proto h) a b)].
Proof.
  intros (Ht & Hp & Hs & Hd) A E Ha Hb. unfold network. change (2048 =? 2048) with true. cbv iota.
  rewrite (unpacks_at "!xB7xB2x4s4sHH" [FX 1; FU 1; FX 7; FU 1; FX 2; FS 4; FS 4; FU 2; FU 2] _ _ _ eq_refl A).
  2:{ unfold ip_wire. rewrite E, !app_length, !be_length, Hs, Hd. cbn. lia. }
  unfold ip_wire. rewrite E. rewrite decode_skip by apply be_length.
  rewrite decode_FU by (apply in_u_ok; cbn; lia).
  rewrite (app_assoc (be 2 (total h))), (app_assoc (be 2 (total h) ++ _)), (app_assoc ((be 2 (total h) ++ _) ++ _)).
  rewrite decode_skip by (rewrite !app_length, !be_length; reflexivity).
  rewrite decode_FU by (apply in_u_ok; cbn; lia). rewrite decode_skip by apply be_length.
  rewrite !decode_FS by assumption. rewrite !decode_FU by (apply in_u_ok; change (256 ^ Z.of_nat 2) with 65536; lia). cbn [decode bind].
  unfold tp_of. destruct (proto h =? 1); [reflexivity|]. destruct ((proto h =? 6) || (proto h =? 17)); reflexivity.
Qed.

Lemma arp_part frame off op sha spa tha tpa rest : 0 <= op < 65536 ->
  length sha = 6%nat -> length spa = 4%nat -> length tha = 6%nat -> length tpa = 4%nat ->
  at_ frame (Z.to_nat (14 + off)) (arp_wire op sha spa tha tpa ++ rest) ->
  network frame 2054 off = Ok [VNone; VInt op; VBytes spa; VBytes tpa; VNone; VNone].
Proof.
  intros Ho H1 H2 H3 H4 A. unfold network. change (2054 =? 2048) with false. change (2054 =? 2054) with true. cbv iota.
  rewrite (unpacks_at "!6xH6x4s6x4s" [FX 6; FU 2; FX 6; FS 4; FX 6; FS 4] _ _ _ eq_refl A).
  2:{ unfold arp_wire. rewrite !app_length, !be_length, H1, H2, H3, H4. cbn. lia. }
  unfold arp_wire. rewrite <- !app_assoc.
  rewrite (app_assoc (be 2 1)), (app_assoc (be 2 1 ++ _)), (app_assoc ((be 2 1 ++ _) ++ _)).
  rewrite decode_skip by (rewrite !app_length, !be_length; reflexivity).
  rewrite decode_FU by (apply in_u_ok; change (256 ^ Z.of_nat 2) with 65536; lia).
  rewrite decode_skip, decode_FS, decode_skip, decode_FS by assumption. cbn [decode bind]. reflexivity.
Qed.

Lemma other_part frame ty off : ty <> 2048 -> ty <> 2054 ->
  network frame ty off = Ok [VNone; VNone; VNone; VNone; VNone; VNone].
Proof. intros. unfold network. replace (ty =? 2048) with false by lia. replace (ty =? 2054) with false by lia. reflexivity. Qed.

Lemma be2 a b : 0 <= a < 256 -> 0 <= b < 256 -> be 1 a ++ be 1 b = be 2 (a * 256 + b).
Proof.
  intros. cbn [be Datatypes.app]. change (256 ^ Z.of_nat 1) with 256. change (256 ^ Z.of_nat 0) with 1.
  repeat (apply (f_equal2 cons); [lia|]). reflexivity.
Qed.

(** What was not recognised as SNAP: nothing is. *)
Lemma oui_length a : length a = 3%nat -> bytes_eqb a zero_oui = false.
Proof.
  intros H. destruct a as [|x [|y [|z [|]]]]; try discriminate. unfold zero_oui. cbn.
  rewrite !andb_false_r. reflexivity.
Qed.

Lemma llc_never frame ty off ty' off' : llc frame ty off = Ok (ty', off') -> ty' = ty /\ off' = off.
Proof.
  unfold llc. destruct (ty <? 1500); [|intros H; injection H as <- <-; auto].
  unfold unpacks. change (fmt "!BBB3sH") with (Ok [FU 1; FU 1; FU 1; FS 3; FU 2]). cbn [bind]. unfold unpack_from.
  destruct (_ <=? _)%nat eqn:L; [|discriminate]. cbn [bind decode].
  rewrite oui_length.
  - rewrite !andb_false_r. intros H; injection H as <- <-; auto.
  - apply Nat.leb_le in L. cbn in L. rewrite firstn_length, !skipn_length. lia.
Qed.

(** *** Failures *)

Lemma unpacks_err f fs m off e : fmt f = Ok fs -> unpacks f m off = Err e ->
  e = StructError /\ (length m < off + calcsize fs)%nat.
Proof.
  intros F. unfold unpacks. rewrite F. cbn [bind]. unfold unpack_from. destruct (_ <=? _)%nat eqn:L; [discriminate|].
  intros H. injection H as <-. apply Nat.leb_gt in L. auto.
Qed.

Lemma unpacks_len f fs m off vs : fmt f = Ok fs -> unpacks f m off = Ok vs ->
  vs = decode fs (skipn off m) /\ (off + calcsize fs <= length m)%nat.
Proof.
  intros F. unfold unpacks. rewrite F. cbn [bind]. unfold unpack_from. destruct (_ <=? _)%nat eqn:L; [|discriminate].
  intros H. injection H as <-. apply Nat.leb_le in L. auto.
Qed.

Lemma llc_err frame ty off e : llc frame ty off = Err e -> e = StructError /\ (length frame < 22)%nat.
Proof.
  unfold llc. destruct (ty <? 1500); [|discriminate].
  destruct (unpacks "!BBB3sH" frame 14) as [vs|e'] eqn:U; cbn [bind].
  - apply (unpacks_len "!BBB3sH" [FU 1; FU 1; FU 1; FS 3; FU 2] _ _ _ eq_refl) in U. destruct U as (-> & L). cbn [decode].
    destruct (_ && _); discriminate.
  - intros H. injection H as <-. apply (unpacks_err "!BBB3sH" [FU 1; FU 1; FU 1; FS 3; FU 2] _ _ _ eq_refl) in U. cbn in U. auto.
Qed.

Lemma network_err frame ty off e : (off = 0 \/ off = 4) -> network frame ty off = Err e ->
  e = StructError /\ (length frame < 46)%nat.
Proof.
  intros Ho. unfold network. destruct (ty =? 2048); [|destruct (ty =? 2054); [|discriminate]].
  - destruct (unpacks _ frame _) as [vs|e'] eqn:U; cbn [bind].
    + apply (unpacks_len "!xB7xB2x4s4sHH" [FX 1; FU 1; FX 7; FU 1; FX 2; FS 4; FS 4; FU 2; FU 2] _ _ _ eq_refl) in U. destruct U as (-> & _). cbn [decode].
      destruct (_ =? 1); [discriminate|]. destruct (_ || _); discriminate.
    + intros H. injection H as <-.
      apply (unpacks_err "!xB7xB2x4s4sHH" [FX 1; FU 1; FX 7; FU 1; FX 2; FS 4; FS 4; FU 2; FU 2] _ _ _ eq_refl) in U.
      destruct U as (-> & L). cbn in L. split; [reflexivity|]. destruct Ho as [-> | ->]; cbn in L; lia.
  - destruct (unpacks _ frame _) as [vs|e'] eqn:U; cbn [bind].
    + apply (unpacks_len "!6xH6x4s6x4s" [FX 6; FU 2; FX 6; FS 4; FX 6; FS 4] _ _ _ eq_refl) in U. destruct U as (-> & _). cbn [decode]. discriminate.
    + intros H. injection H as <-.
      apply (unpacks_err "!6xH6x4s6x4s" [FX 6; FU 2; FX 6; FS 4; FX 6; FS 4] _ _ _ eq_refl) in U.
      destruct U as (-> & L). cbn in L. split; [reflexivity|]. destruct Ho as [-> | ->]; cbn in L; lia.
Qed.

Lemma network_six frame ty off nw : network frame ty off = Ok nw -> exists a b c d e f, nw = [a; b; c; d; e; f].
Proof.
  unfold network. destruct (ty =? 2048); [|destruct (ty =? 2054)].
  - intros H. inv_bind H. repeat match goal with H : context [match ?x with _ => _ end] |- _ => destruct x; try discriminate end;
      injection H as <-; eauto 8.
  - intros H. inv_bind H. repeat match goal with H : context [match ?x with _ => _ end] |- _ => destruct x; try discriminate end;
      injection H as <-; eauto 8.
  - intros H. injection H as <-. eauto 8.
Qed.

Lemma tuple_err frame in_port e : ofptuple frame in_port = Err e -> e = StructError /\ (length frame < 46)%nat.
Proof.
  unfold ofptuple. destruct (unpacks "!6s6sHHH" frame 0) as [vs|e'] eqn:U; cbn [bind].
  2:{ intros H. injection H as <-. apply (unpacks_err "!6s6sHHH" [FS 6; FS 6; FU 2; FU 2; FU 2] _ _ _ eq_refl) in U. cbn in U.
      destruct U. split; [assumption|lia]. }
  apply (unpacks_len "!6s6sHHH" [FS 6; FS 6; FU 2; FU 2; FU 2] _ _ _ eq_refl) in U. destruct U as (-> & L). cbn [decode].
  match goal with |- context [if ?c then _ else _] => destruct c end.
  - destruct (llc _ _ _) as [[ty2 off2]|e'] eqn:E; cbn [bind].
    + apply llc_never in E. destruct E as (-> & ->). destruct (network _ _ _) as [nw|e''] eqn:N; cbn [bind].
      * apply network_six in N. destruct N as (? & ? & ? & ? & ? & ? & ->). discriminate.
      * intros H. injection H as <-. apply network_err in N; auto.
    + intros H. injection H as <-. apply llc_err in E. destruct E. split; [assumption|lia].
  - destruct (llc _ _ _) as [[ty2 off2]|e'] eqn:E; cbn [bind].
    + apply llc_never in E. destruct E as (-> & ->). destruct (network _ _ _) as [nw|e''] eqn:N; cbn [bind].
      * apply network_six in N. destruct N as (? & ? & ? & ? & ? & ? & ->). discriminate.
      * intros H. injection H as <-. apply network_err in N; auto.
    + intros H. injection H as <-. apply llc_err in E. destruct E. split; [assumption|lia].
Qed.
