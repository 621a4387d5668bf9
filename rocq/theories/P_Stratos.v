(** Proofs for C114. *)

From Verif Require Import Py Struct P_Struct M_Oxm S_Oxm P_Oxm S_Stratos.
Local Open Scope Z_scope.
Local Open Scope list_scope.

Lemma le_rev n : forall z, le n z = rev (be n z).
Proof.
  induction n as [|n IH]; intros z; cbn [le be]; [reflexivity|].
  rewrite rev_app_distr. cbn [rev Datatypes.app]. rewrite IH. reflexivity.
Qed.

Lemma le_length n z : length (le n z) = n.
Proof. rewrite le_rev, rev_length, be_length. reflexivity. Qed.

Definition sitem (s : shape) : fitem := match s with Unsigned n => FU n | Signed n => FI n end.

Lemma pow_split n : (0 < n)%nat -> 256 ^ Z.of_nat n / 2 = 2 ^ (8 * Z.of_nat n - 1) /\ 256 ^ Z.of_nat n = 2 ^ (8 * Z.of_nat n).
Proof.
  intros H. assert (E : 256 ^ Z.of_nat n = 2 ^ (8 * Z.of_nat n)).
  { change 256 with (2 ^ 8). rewrite <- Z.pow_mul_r by lia. reflexivity. }
  split; [|exact E]. rewrite E. replace (8 * Z.of_nat n) with (8 * Z.of_nat n - 1 + 1) at 1 by lia.
  rewrite Z.pow_add_r by lia. change (2 ^ 1) with 2. apply Z.div_mul. lia.
Qed.

(** One number, read from its bytes reversed. *)
Lemma decode_shape s v : (0 < width s)%nat -> within s v -> decode [sitem s] (be (width s) v) = [VInt v].
Proof.
  intros Hw H.
  assert (E : pack [sitem s] [VInt v] = Ok (be (width s) v ++ [])).
  { destruct s as [n|n]; cbn [sitem width within] in *; destruct (pow_split n Hw) as [P1 P2]; cbn [pack pack_item bind].
    - replace (in_u n v) with true; [reflexivity|]. unfold in_u. rewrite P2. symmetry. apply andb_true_iff. lia.
    - replace (in_i n v) with true; [reflexivity|]. unfold in_i. rewrite P1. symmetry. apply andb_true_iff. lia. }
  rewrite <- (app_nil_r (be (width s) v)). rewrite app_nil_r in E.
  rewrite (decode_pack [sitem s] [VInt v] (be (width s) v) []); [destruct s; reflexivity| |exact E].
  destruct s as [n|[|n]]; cbn [forallb sitem fitem_ok width] in *; try reflexivity; lia.
Qed.

Lemma firstn_le s v rest : firstn (item_size (sitem s)) (le (width s) v ++ rest) = le (width s) v.
Proof. apply firstn_app_l. rewrite le_length. destruct s; reflexivity. Qed.

Lemma skipn_le s v rest : skipn (item_size (sitem s)) (le (width s) v ++ rest) = rest.
Proof. apply skipn_app_l. rewrite le_length. destruct s; reflexivity. Qed.

Lemma decode_le_cons s v fs rest : (0 < width s)%nat -> within s v ->
  decode_le (sitem s :: fs) (le (width s) v ++ rest) = VInt v :: decode_le fs rest.
Proof.
  intros Hw Hv. cbn [decode_le]. rewrite skipn_le, firstn_le.
  assert (E : match sitem s with FU _ | FI _ => rev (le (width s) v) | _ => le (width s) v end = be (width s) v).
  { rewrite le_rev, rev_involutive. destruct s; reflexivity. }
  pose proof (decode_shape s v Hw Hv) as D. rewrite <- E in D.
  exact (f_equal (fun l => l ++ decode_le fs rest) D).
Qed.

(** The format letters. *)
Definition letters (s : shape) (b : string) : Prop := fmt b = Ok [sitem s] /\ fmt (b ++ b) = Ok [sitem s; sitem s].

Lemma dot11_bits t s : In (t, s) dot11 -> s = Unsigned 1 /\ stratos_basic_bits (VInt t) = Some "B"%string.
Proof. intros H. cbn [dot11 In] in H. repeat (destruct H as [H|H]; [injection H as <- <-; split; reflexivity|]). destruct H. Qed.

Lemma radiotap_bits t s : In (t, s) radiotap -> (0 < width s)%nat /\ exists b, stratos_radiotap_bits (VInt t) = Some b /\ letters s b.
Proof.
  intros H. cbn [radiotap In] in H.
  repeat (destruct H as [H|H]; [injection H as <- <-; split; [cbn; lia|]; eexists; split; [reflexivity|]; split; reflexivity|]). destruct H.
Qed.

Lemma py_inz_false l t : Forall (fun x => t <> x) l -> py_inz (VInt t) l = false.
Proof.
  induction 1 as [|x l N _ IH]; [reflexivity|]. unfold py_inz in *. cbn [existsb]. rewrite IH, orb_false_r.
  cbn [py_eqz]. apply Z.eqb_neq. exact N.
Qed.

Lemma dot11_none t : (forall s, ~ In (t, s) dot11) -> stratos_basic_bits (VInt t) = None.
Proof.
  intros H. unfold stratos_basic_bits. rewrite py_inz_false; [reflexivity|].
  repeat (apply Forall_cons; [intros ->; eapply H; cbn; intuition reflexivity|]). apply Forall_nil.
Qed.

Lemma radiotap_none t : (forall s, ~ In (t, s) radiotap) -> stratos_radiotap_bits (VInt t) = None.
Proof.
  intros H. unfold stratos_radiotap_bits.
  rewrite !py_inz_false; [reflexivity|..]; (repeat (apply Forall_cons; [intros ->; eapply H; cbn; intuition reflexivity|]); apply Forall_nil).
Qed.

(** *** The head of a field *)

Lemma be2 z : be 2 z = [z / 256 mod 256; z mod 256].
Proof. reflexivity. Qed.

Lemma be4 z : be 4 z = [z / 2 ^ 24 mod 256; z / 2 ^ 16 mod 256; z / 2 ^ 8 mod 256; z mod 256].
Proof.
  cbn [be Datatypes.app]. rewrite !Z.div_div by lia. reflexivity.
Qed.

Lemma exp_tlv f masked n e t payload :
  experimenter_tlv f masked n e t payload = (be 2 65535 ++ [f * 2 + flag masked; n]) ++ be 4 e ++ be 2 t ++ payload.
Proof. unfold experimenter_tlv. rewrite be4, be2. rewrite (Z.mul_comm f). reflexivity. Qed.

Lemma flag_01 masked : 0 <= flag masked <= 1.
Proof. destruct masked; cbn; lia. Qed.

Lemma unpacks_u f w z m off : fmt f = Ok [FU w] -> 0 <= z < 256 ^ Z.of_nat w -> at_ m off (be w z) -> unpacks f m off = Ok [VInt z].
Proof.
  intros F H A. unfold unpacks. rewrite F. cbn [bind]. rewrite (unpack_decode [FU w] (be w z) m off A).
  - rewrite <- (app_nil_r (be w z)), decode_FU; [reflexivity|]. unfold in_u. apply andb_true_iff. lia.
  - rewrite be_length. cbn [calcsize item_size]. lia.
Qed.

(** Any experimenter. *)
Lemma exp_head f masked n e t payload m off : 0 <= f < 128 -> 0 <= n < 256 -> 0 <= e < 2 ^ 32 -> 0 <= t < 65536 ->
  at_ m off (experimenter_tlv f masked n e t payload) ->
  at_ m (off + 10) payload /\
  oxm_parse m off =
    (if e =? stratos_id then
       vs <- stratos_value f (flag masked) n t m (off + 10) ;;
       let vs := if negb (flag masked =? 0) then vs else vs ++ [VNone] in
       match vs with [v; k] => Ok (stratos_ 65535 f (flag masked) n e t v k) | _ => Err TypeError end
     else Err ValueError).
Proof.
  intros Hf Hn He Ht A. rewrite exp_tlv in A. pose proof (flag_01 masked) as Hm.
  apply unpack_hdr in A; try lia. destruct A as [E A].
  apply at_app in A. destruct A as [A1 A]. rewrite be_length in A. apply at_app in A. destruct A as [A2 A3]. rewrite be_length in A3.
  split; [replace (off + 10)%nat with (off + 4 + 4 + 2)%nat by lia; exact A3|].
  unfold oxm_parse. rewrite E. cbn [bind].
  change (65535 =? 32768) with false. change (65535 =? 1) with false. change (65535 =? 65535) with true. cbv iota zeta.
  rewrite (unpacks_u "I" 4 e m _ eq_refl He A1). cbn [bind].
  destruct (byte_field f (flag masked) Hf Hm) as [B1 B2]. rewrite B1, B2.
  destruct (e =? stratos_id); [|reflexivity].
  rewrite (unpacks_u "H" 2 t m _ eq_refl Ht A2). cbn [bind].
  replace (off + 4 + 6)%nat with (off + 10)%nat by lia. reflexivity.
Qed.

Lemma stratos_head f (masked : bool) n t payload m off : 0 <= f < 128 -> 0 <= n < 256 -> 0 <= t < 65536 ->
  at_ m off (experimenter_tlv f masked n stratos_number t payload) ->
  at_ m (off + 10) payload /\
  oxm_parse m off =
    (vs <- stratos_value f (flag masked) n t m (off + 10) ;;
     match (if masked then vs else vs ++ [VNone]) with [v; k] => Ok (stratos_view f masked n t v k) | _ => Err TypeError end).
Proof.
  intros Hf Hn Ht A. apply exp_head in A; [|exact Hf|exact Hn|unfold stratos_number; lia|exact Ht]. destruct A as [A E]. split; [exact A|]. rewrite E.
  change (stratos_number =? stratos_id) with true. cbv iota. destruct masked; reflexivity.
Qed.

Lemma holds_ok f t s : holds f t s -> 0 <= f < 128 /\ 0 <= t < 65536 /\ (0 < width s)%nat.
Proof.
  intros [t' s' H|t' s' H]; (split; [lia|]); cbn [dot11 radiotap In] in H;
  repeat (destruct H as [H|H]; [injection H as <- <-; cbn; lia|]); destruct H.
Qed.

(** *** Values *)

Definition numbers (masked : bool) (v k : Z) : list Z := if masked then [v; k] else [v].

Lemma value_read f t s masked n v k m off : holds f t s -> within s v -> within s k ->
  at_ m off (concat (map (le (width s)) (numbers masked v k))) ->
  stratos_value f (flag masked) n t m off = Ok (map VInt (numbers masked v k)).
Proof.
  intros H Hv Hk A. pose proof (at_length _ _ _ A) as L. destruct H as [t s H|t s H].
  - destruct (dot11_bits _ _ H) as [-> E]. unfold stratos_value. change (0 =? 0) with true. cbv iota zeta. rewrite E.
    cbn [width within] in *. change (2 ^ (8 * Z.of_nat 1)) with 256 in *.
    destruct masked; cbn [flag numbers map concat le Datatypes.app] in *.
    + change (negb (1 =? 0)) with true. cbv iota. change ("B" ++ "B")%string with "BB"%string. unfold unpacks.
      change (fmt "BB") with (Ok [FU 1; FU 1]). cbn [bind]. change [v mod 256; k mod 256] with (be 1 v ++ be 1 k ++ []) in A.
      rewrite (unpack_decode _ _ _ _ A) by reflexivity. rewrite !decode_FU; [reflexivity|..]; unfold in_u; change (256 ^ Z.of_nat 1) with 256; lia.
    + change (negb (0 =? 0)) with false. cbv iota. change [v mod 256] with (be 1 v) in A. apply (unpacks_u "B" 1 v m off eq_refl); [cbn; lia|exact A].
  - destruct (radiotap_bits _ _ H) as (W & b & E & F1 & F2). unfold stratos_value. change (1 =? 0) with false. change (1 =? 1) with true. cbv iota zeta. rewrite E.
    apply at_skipn in A. destruct A as [rest R]. unfold unpacks_le.
    destruct masked; cbn [flag numbers map concat] in *; rewrite ?app_nil_r in *.
    + change (negb (1 =? 0)) with true. cbv iota. rewrite F2. cbn [bind]. rewrite R.
      destruct (Nat.leb_spec (off + calcsize [sitem s; sitem s]) (length m)) as [_|C].
      2: { exfalso. rewrite !app_length, !le_length in L. destruct s; cbn [sitem calcsize item_size width] in *; lia. }
      rewrite <- app_assoc, !decode_le_cons by assumption. reflexivity.
    + change (negb (0 =? 0)) with false. cbv iota. rewrite F1. cbn [bind]. rewrite R.
      destruct (Nat.leb_spec (off + calcsize [sitem s]) (length m)) as [_|C].
      2: { exfalso. rewrite le_length in L. destruct s; cbn [sitem calcsize item_size width] in *; lia. }
      rewrite decode_le_cons by assumption. reflexivity.
Qed.

Lemma value_short f t s (masked : bool) n m off : holds f t s ->
  (length m < off + (if masked then 2 else 1) * width s)%nat ->
  stratos_value f (flag masked) n t m off = Err StructError.
Proof.
  intros H L. destruct H as [t s H|t s H].
  - destruct (dot11_bits _ _ H) as [-> E]. unfold stratos_value. change (0 =? 0) with true. cbv iota zeta. rewrite E.
    cbn [width] in *. destruct masked; cbn [flag]; unfold unpacks.
    + change (negb (1 =? 0)) with true. cbv iota. change (fmt ("B" ++ "B")%string) with (Ok [FU 1; FU 1]). cbn [bind]. unfold unpack_from.
      destruct (Nat.leb_spec (off + calcsize [FU 1; FU 1]) (length m)) as [C|_]; [cbn in C; lia|reflexivity].
    + change (negb (0 =? 0)) with false. cbv iota. change (fmt "B") with (Ok [FU 1]). cbn [bind]. unfold unpack_from.
      destruct (Nat.leb_spec (off + calcsize [FU 1]) (length m)) as [C|_]; [cbn in C; lia|reflexivity].
  - destruct (radiotap_bits _ _ H) as (W & b & E & F1 & F2). unfold stratos_value. change (1 =? 0) with false. change (1 =? 1) with true. cbv iota zeta. rewrite E.
    unfold unpacks_le. destruct masked; cbn [flag].
    + change (negb (1 =? 0)) with true. cbv iota. rewrite F2. cbn [bind].
      destruct (Nat.leb_spec (off + calcsize [sitem s; sitem s]) (length m)) as [C|_]; [|reflexivity].
      exfalso. destruct s; cbn [sitem calcsize item_size width] in *; lia.
    + change (negb (0 =? 0)) with false. cbv iota. rewrite F1. cbn [bind].
      destruct (Nat.leb_spec (off + calcsize [sitem s]) (length m)) as [C|_]; [|reflexivity].
      exfalso. destruct s; cbn [sitem calcsize item_size width] in *; lia.
Qed.

(** No number: the bytes themselves. *)
Lemma value_rest f t (masked : bool) n m off : (forall s, ~ holds f t s) ->
  stratos_value f (flag masked) n t m off =
    (if masked then Err TypeError else if n - 6 <? 0 then Err StructError else unpack_from [FS (Z.to_nat (n - 6))] m off).
Proof.
  intros N. unfold stratos_value. destruct (Z.eqb_spec f 0) as [->|F0].
  - rewrite dot11_none by (intros s I; apply (N s); constructor; exact I). destruct masked; reflexivity.
  - destruct (Z.eqb_spec f 1) as [->|F1].
    + rewrite radiotap_none by (intros s I; apply (N s); constructor; exact I). destruct masked; reflexivity.
    + destruct masked; reflexivity.
Qed.

(** *** Building *)

Lemma pack_item_err x v e : pack_item x v = Err e -> e = StructError.
Proof.
  destruct x, v; cbn [pack_item]; intros H; try congruence; [destruct (in_u w z)|destruct (in_i w z)]; congruence.
Qed.
