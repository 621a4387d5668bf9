(** Properties C48, C49, C56, C57: OXM match fields. *)

From Verif Require Import Py Struct P_Struct M_Oxm S_Oxm P_Oxm.
Local Open Scope Z_scope.
Local Open Scope list_scope.

(** The arguments a caller may give for the field [x]: no class or 0x8000; any
    length; the mask itself with any mask flag, or no mask and a false flag. *)
Inductive built_from (x : mfield) : list pyval -> Prop :=
| BF_plain c hm len :
    mf_mask x = None -> c = VNone \/ c = VInt 32768 -> hm = VNone \/ hm = VInt 0 ->
    built_from x [c; VInt (mf_field x); hm; len; mf_value x; VNone]
| BF_masked c hm len k :
    mf_mask x = Some k -> c = VNone \/ c = VInt 32768 ->
    built_from x [c; VInt (mf_field x); hm; len; mf_value x; k].

(** [oxm.build( *args)]. *)
Definition build_args (args : list pyval) : res bytes :=
  match args with
  | [c; f; h; n; v; k] => oxm_build c f h n v k
  | _ => Err TypeError
  end.

Definition tup_args (v : pyval) : list pyval := match v with VTup _ l => l | _ => [] end.

(** *** C48 *)

Theorem C48_build : forall x args, mf_ok x -> built_from x args -> build_args args = Ok (tlv x).
Proof.
  intros [f v k] args H B. inversion B as [c hm len E Hc Hh | c hm len k' E Hc]; subst; cbn [mf_mask mf_field mf_value] in *.
  - subst k. apply build_plain; [exact H|exact Hc|]. destruct Hh; subst; reflexivity.
  - subst k. apply build_masked; assumption.
Qed.
Print Assumptions C48_build.

(** Where the TLV stands does not matter, nor what follows it. *)
Theorem C48_round_trip : forall x args pre post, mf_ok x -> built_from x args ->
  exists b, build_args args = Ok b /\ oxm_parse (pre ++ b ++ post) (length pre) = Ok (view x).
Proof.
  intros x args pre post H B. exists (tlv x). split; [exact (C48_build x args H B)|].
  apply parse_tlv; [exact H|]. exists pre, post. auto.
Qed.
Print Assumptions C48_round_trip.

Theorem C48_list_round_trip : forall xs argss pre,
  Forall mf_ok xs -> Forall2 built_from xs argss ->
  exists bs, mapM build_args argss = Ok bs /\
    parse_list (pre ++ concat bs) (length pre) = Ok (map view xs).
Proof.
  intros xs argss pre H B. exists (map tlv xs). split.
  - induction B as [|x args xs argss Bx B IH]; [reflexivity|].
    inversion H as [|? ? Hx H']; subst. cbn [mapM map]. rewrite (C48_build _ _ Hx Bx), (IH H'). reflexivity.
  - unfold parse_list. apply parse_list_tlvs; [exact H|]. rewrite app_length. lia.
Qed.
Print Assumptions C48_list_round_trip.

(** What was parsed builds the very bytes it was parsed from. *)
Theorem C48_rebuild : forall m off v, bytes_ok m ->
  oxm_parse m off = Ok v -> is_oxm v ->
  exists x, mf_ok x /\ v = view x /\
    build_args (tup_args v) = Ok (tlv x) /\ slice m off (off + length (tlv x)) = tlv x.
Proof.
  intros m off v Hb H [vs ->]. destruct (parse_oxm_inv _ _ _ Hb H) as ([f v k] & X1 & X2 & X3 & _).
  exists (MF f v k). split; [exact X1|]. split; [exact X2|]. split; [|exact X3].
  rewrite X2. cbn [tup_args view build_args mf_mask mf_field mf_value]. destruct k as [k|].
  - apply build_masked; [exact X1|auto].
  - apply build_plain; [exact X1|auto|reflexivity].
Qed.
Print Assumptions C48_rebuild.

Theorem C48_rebuild_list : forall m off l, bytes_ok m -> (off <= length m)%nat ->
  parse_list m off = Ok l -> Forall is_oxm l ->
  exists bs, mapM (fun v => build_args (tup_args v)) l = Ok bs /\ concat bs = skipn off m.
Proof.
  intros m off l Hb Ho H Hl. destruct (parse_list_inv _ Hb _ _ _ H Hl Ho) as (xs & X1 & -> & ->).
  exists (map tlv xs). split; [|reflexivity]. clear H Hl.
  induction X1 as [|[f v k] xs X1 _ IH]; [reflexivity|]. cbn [map mapM].
  rewrite IH. cbn [tup_args view build_args mf_mask mf_field mf_value].
  assert (E : oxm_build (VInt 32768) (VInt f) (VInt (if k then 1 else 0)) (VInt (zlen (mf_payload (MF f v k)))) v
                (match k with Some k0 => k0 | None => VNone end) = Ok (tlv (MF f v k))).
  { destruct k as [k|]; [apply build_masked; [exact X1|auto] | apply build_plain; [exact X1|auto|reflexivity]]. }
  rewrite E. reflexivity.
Qed.
Print Assumptions C48_rebuild_list.

(** parse_list comes to an end on every input, and its result does not depend
    on the fuel. *)
Theorem C48_list_terminates : forall m off fuel, (length m - off < fuel)%nat ->
  parse_list_ fuel m off <> Err OutOfFuel /\ parse_list m off = parse_list_ fuel m off.
Proof.
  intros m off fuel H. split; [apply parse_list_terminates; exact H|].
  unfold parse_list. apply parse_list_fuel; lia.
Qed.
Print Assumptions C48_list_terminates.

(** An IPv4 source with mask, an Ethernet type, a port; parsed and built. *)
Definition ex_fields : list mfield :=
  [ MF 0 (VInt 222) None; MF 5 (VInt 2048) None;
    MF 11 (VBytes [10; 0; 0; 0]) (Some (VBytes [255; 0; 0; 0])); MF 38 (VInt (2 ^ 64 - 1)) (Some (VInt 1)) ].

Example C48_example :
  Forall mf_ok ex_fields /\
  Forall2 built_from ex_fields
    [ [VNone; VInt 0; VNone; VNone; VInt 222; VNone];
      [VInt 32768; VInt 5; VInt 0; VInt 77; VInt 2048; VNone];
      [VNone; VInt 11; VNone; VNone; VBytes [10; 0; 0; 0]; VBytes [255; 0; 0; 0]];
      [VNone; VInt 38; VInt 1; VNone; VInt (2 ^ 64 - 1); VInt 1] ] /\
  parse_list (concat (map tlv ex_fields)) 0 = Ok (map view ex_fields) /\
  Forall is_oxm (map view ex_fields).
Proof.
  split; [|split; [|split]].
  - repeat (apply Forall_cons; [repeat split; cbn; lia|]). apply Forall_nil.
  - constructor; [apply BF_plain; cbn; auto|]. constructor; [apply BF_plain; cbn; auto|].
    constructor; [apply BF_masked; cbn; auto|]. constructor; [apply BF_masked; cbn; auto|]. constructor.
  - vm_compute. reflexivity.
  - repeat (apply Forall_cons; [eexists; reflexivity|]). apply Forall_nil.
Qed.

(** *** C49 *)

(** For every field of OpenFlow 1.3 but IPV6_FLABEL (28) and MPLS_LABEL (34):
    whatever is built has the size of the specification, a TLV of that size is
    parsed and one of another size refused.  Missing: the two fields. *)
Theorem C49_sizes_partial : forall f, 0 <= f < 40 -> f <> 28 -> f <> 34 ->
  (forall c hm len v k b, oxm_build c (VInt f) hm len v k = Ok b ->
     length b = (4 + spec_size f)%nat /\ k = VNone \/
     length b = (4 + 2 * spec_size f)%nat) /\
  (forall (masked : bool) payload m off, bytes_ok m -> at_ m off (spec_tlv f masked payload) -> zlen payload < 256 ->
     (length payload = (if masked then 2 * spec_size f else spec_size f)%nat <->
      exists v, oxm_parse m off = Ok v)).
Proof.
  intros f Hf N1 N2. pose proof (sizes_spec f Hf N1 N2) as E. split.
  - intros c hm len v k b H. destruct (build_size f c hm len v k b ltac:(lia) H) as [(L & Hk & _)|(L & _)].
    + left. split; [lia|exact Hk].
    + right. lia.
  - intros masked payload m off Hb Hat Hp. split.
    + intros L. destruct (parse_right_size f masked payload m off) as (x & _ & _ & _ & X); try assumption; try lia.
      * destruct masked; lia.
      * eexists. exact X.
    + intros (v & V). destruct (Nat.eq_dec (length payload) (if masked then 2 * spec_size f else spec_size f)%nat) as [|N]; [assumption|].
      rewrite (parse_wrong_size f masked payload m off) in V; try lia; try assumption; [discriminate|].
      destruct masked; lia.
Qed.
Print Assumptions C49_sizes_partial.

Example C49_example :
  at_ (spec_tlv 27 true (repeat 254 32)) 0 (spec_tlv 27 true (repeat 254 32)) /\
  oxm_parse (spec_tlv 27 true (repeat 254 32)) 0 = Ok (view (MF 27 (VBytes (repeat 254 16)) (Some (VBytes (repeat 254 16))))) /\
  oxm_parse (spec_tlv 37 false [0; 1; 2]) 0 = Ok (view (MF 37 (VBytes [0; 1; 2]) None)).
Proof. split; [apply at_whole|]. split; vm_compute; reflexivity. Qed.

(** IPV6_FLABEL and MPLS_LABEL: every TLV of the specification's size is
    refused, and whatever is built has another size; only labels below 256 can be
    built at all. *)
Theorem C49_labels_refuted : forall f, f = 28 \/ f = 34 ->
  (forall (masked : bool) payload m off,
     length payload = (if masked then 2 * spec_size f else spec_size f)%nat ->
     at_ m off (spec_tlv f masked payload) -> oxm_parse m off = Err AssertionError) /\
  (forall c hm len v k b, oxm_build c (VInt f) hm len v k = Ok b ->
     length b <> (4 + spec_size f)%nat /\ length b <> (4 + 2 * spec_size f)%nat) /\
  (forall c hm len z k, 256 <= z -> oxm_build c (VInt f) hm len (VInt z) k = Err StructError).
Proof.
  intros f Hf. assert (R : 0 <= f < 128) by lia.
  assert (S : size_of f = 1%nat /\ spec_size f = 4%nat) by (destruct Hf; subst; split; reflexivity).
  destruct S as [S1 S2]. rewrite S2. split; [|split].
  - intros masked payload m off L Hat. apply (parse_wrong_size f masked payload m off R); [| |exact Hat].
    + unfold zlen. rewrite L. destruct masked; lia.
    + rewrite S1, L. destruct masked; lia.
  - intros c hm len v k b H. destruct (build_size _ _ _ _ _ _ _ R H) as [(L & _)|(L & _)]; lia.
  - intros c hm len z k Hz. destruct (bits_fmt _ R) as (E1 & E2 & E3 & E4 & E5 & _).
    assert (I : item f = FU 1) by (destruct Hf; subst; reflexivity).
    assert (Q : forall c' p n vs fs, pack (FU 2 :: FU 1 :: FU 1 :: FU 1 :: fs) (c' :: p :: n :: VInt z :: vs) = Err StructError).
    { intros c' p n vs fs. rewrite !pack_item_cons by reflexivity.
      assert (F : forall v w e, pack_item (FU w) v = Err e -> e = StructError).
      { intros v w e. destruct v as [|y| | | |]; cbn [pack_item]; try congruence. destruct (in_u w y); congruence. }
      destruct (pack_item (FU 2) c') as [b1|e] eqn:R1; cbn [bind]; [|rewrite (F _ _ _ R1); reflexivity].
      destruct (pack_item (FU 1) p) as [b2|e] eqn:R2; cbn [bind]; [|rewrite (F _ _ _ R2); reflexivity].
      destruct (pack_item (FU 1) n) as [b3|e] eqn:R3; cbn [bind]; [|rewrite (F _ _ _ R3); reflexivity].
      cbn [pack_item]. unfold in_u. change (256 ^ Z.of_nat 1) with 256.
      replace ((0 <=? z) && (z <? 256)) with false by lia. reflexivity. }
    unfold oxm_build. cbv zeta. match goal with |- (let '(_, _) := ?e in _) = _ => destruct e as [h k'] end.
    unfold sizes, packs. rewrite E1, E2, E3, E4, I. cbn [bind].
    destruct (h =? 1); apply Q.
Qed.
Print Assumptions C49_labels_refuted.

(** The match "IPv6 flow label 0x12345" of a switch. *)
Example C49_labels_example :
  oxm_parse (spec_tlv 28 false [0; 1; 35; 69]) 0 = Err AssertionError /\
  oxm_build VNone (VInt 34) VNone VNone (VInt 16) VNone = Ok [128; 0; 68; 1; 16].
Proof. split; vm_compute; reflexivity. Qed.

(** *** C56: what is built carries the caller's value. *)

(** A number of the wrong range or a value of the wrong type is refused. *)
Definition wrong (f : Z) (v : pyval) : Prop :=
  match kind_of f, v with
  | Num n, VInt z => ~ 0 <= z < 256 ^ Z.of_nat n
  | Str _, VBytes _ => False
  | _, _ => True
  end.

Lemma wrong_item f v : wrong f v -> exists e, pack_item (item f) v = Err e.
Proof.
  unfold wrong, item. destruct (kind_of f) as [n|n], v; intros H; cbn; try (eexists; reflexivity); try contradiction.
  unfold in_u. destruct (Z.leb_spec 0 z), (Z.ltb_spec z (256 ^ Z.of_nat n)); try (eexists; reflexivity). lia.
Qed.

(** Missing: strings of another length, a mask flag without mask. *)
Theorem C56_wrong_refused_partial : forall f c hm len v k, 0 <= f < 128 ->
  wrong f v \/ (k <> VNone /\ wrong f k) -> is_ok (oxm_build c (VInt f) hm len v k) = false.
Proof.
  intros f c hm len v k Hf H. destruct (bits_fmt _ Hf) as (E1 & E2 & E3 & E4 & _).
  destruct (oxm_build c (VInt f) hm len v k) as [b|] eqn:B; [exfalso|reflexivity].
  unfold oxm_build in B. cbv zeta in B.
  match type of B with (let '(_, _) := ?e in _) = _ => destruct e as [h k'] eqn:Ek end.
  unfold sizes, packs in B. rewrite E1, E2, E3, E4 in B. cbn [bind] in B.
  destruct (h =? 1) eqn:Eh.
  - rewrite !pack_item_cons in B by (try apply item_nopad; reflexivity).
    inv_bind B. inv_bind B. inv_bind Ha0. inv_bind Ha0. inv_bind Ha2. inv_bind Ha2. inv_bind Ha4. inv_bind Ha4. inv_bind Ha6.
    destruct H as [H|[Hk H]]; apply wrong_item in H; destruct H as [e H]; [congruence|].
    destruct k; try congruence; injection Ek as <- <-; congruence.
  - rewrite !pack_item_cons in B by (try apply item_nopad; reflexivity).
    inv_bind B. inv_bind B. inv_bind Ha0. inv_bind Ha0. inv_bind Ha2. inv_bind Ha2. inv_bind Ha4.
    destruct H as [H|[Hk H]]; [apply wrong_item in H; destruct H as [e H]; congruence|].
    destruct k; try congruence; injection Ek as <- <-; discriminate.
Qed.
Print Assumptions C56_wrong_refused_partial.

Example C56_example :
  wrong 6 (VInt 65536) /\ wrong 11 (VInt 167772161) /\
  oxm_build VNone (VInt 6) VNone VNone (VInt 65536) VNone = Err StructError.
Proof.
  split; [|split; [exact I|vm_compute; reflexivity]].
  change (~ 0 <= 65536 < 65536). lia.
Qed.

(** A string of any other length is cut or filled with NUL in silence. *)
Theorem C56_string_refuted : forall f n v, 0 <= f < 128 -> kind_of f = Str n -> length v <> n ->
  exists w, oxm_build VNone (VInt f) VNone VNone (VBytes v) VNone = Ok (tlv (MF f (VBytes w) None)) /\
    length w = n /\ w <> v.
Proof.
  intros f n v Hf Hk Hn. exists (firstn n v ++ zeros (n - length v)). split; [|split].
  - apply build_string; auto.
  - apply pad_length.
  - intros E. apply Hn. rewrite <- E. apply pad_length.
Qed.
Print Assumptions C56_string_refuted.

(** "10.0.0.1" becomes the address 49.48.46.48. *)
Example C56_string_example :
  kind_of 11 = Str 4 /\
  oxm_build VNone (VInt 11) VNone VNone (VBytes (bytes_of_string "10.0.0.1")) VNone
  = Ok [128; 0; 22; 4; 49; 48; 46; 48].
Proof. split; vm_compute; reflexivity. Qed.

(** A mask flag without a mask: numbers get the mask zero, which matches
    everything; strings fail. *)
Theorem C56_flag_only_refuted : forall f v hm, mf_ok (MF f v None) -> truthy hm = true ->
  match kind_of f with
  | Num _ => oxm_build VNone (VInt f) hm VNone v VNone = Ok (tlv (MF f v (Some (VInt 0))))
  | Str _ => oxm_build VNone (VInt f) hm VNone v VNone = Err StructError
  end.
Proof.
  intros f v hm H Hh. destruct (kind_of f) as [n|n] eqn:K.
  - apply (build_hasmask_num _ _ _ _ _ n); auto.
  - apply (build_hasmask_str _ _ _ _ _ n); auto.
Qed.
Print Assumptions C56_flag_only_refuted.

Example C56_flag_example :
  mf_ok (MF 13 (VInt 80) None) /\
  oxm_build VNone (VInt 13) (VInt 1) VNone (VInt 80) VNone = Ok [128; 0; 27; 4; 0; 80; 0; 0].
Proof. split; [repeat split; cbn; lia|vm_compute; reflexivity]. Qed.

(** *** C57: experimenter and NXM fields. *)

(** build_stratos returns for no arguments whatever. *)
Theorem C57_build_stratos_refuted : forall c f hm len exp ty v k,
  is_ok (build_stratos c f hm len exp ty v k) = false.
Proof. exact stratos_never. Qed.
Print Assumptions C57_build_stratos_refuted.

Example C57_build_stratos_example :
  build_stratos VNone (VInt 0) (VInt 0) VNone (VInt stratos_id) (VInt 1) (VInt 1) VNone = Err StructError.
Proof. vm_compute. reflexivity. Qed.

(** A list with an NXM field in front of which everything is fine: the field is
    parsed, the list is not. *)
Theorem C57_nxm_list_refuted : forall xs (addr : bytes) post,
  Forall mf_ok xs -> length addr = 4%nat ->
  let m := concat (map tlv xs) ++ [0; 1; 64; 4] ++ addr ++ post in
  oxm_parse m (length (concat (map tlv xs))) = Ok (VTup "nxm" [VInt 1; VInt 32; VInt 0; VInt 4; VBytes addr; VNone]) /\
  parse_list m 0 = Err AttributeError.
Proof.
  intros xs addr post Hx Ha m.
  assert (P : forall pre, oxm_parse (pre ++ [0; 1; 64; 4] ++ addr ++ post) (length pre)
              = Ok (VTup "nxm" [VInt 1; VInt 32; VInt 0; VInt 4; VBytes addr; VNone])).
  { intros pre. 
    assert (A : at_ (pre ++ [0; 1; 64; 4] ++ addr ++ post) (length pre) ((be 2 1 ++ [64; 4]) ++ addr)).
    { exists pre, post. split; [|reflexivity]. rewrite <- !app_assoc. reflexivity. }
    apply unpack_hdr in A; try lia. destruct A as [E A]. unfold oxm_parse. rewrite E. cbn [bind].
    change (1 =? 32768) with false. change (1 =? 1) with true.
    change (nxm_basic_bits (Z.shiftr 64 1)) with (Some "4s"%string). cbv iota zeta.
    unfold value_mask. change (Z.land 64 1) with 0. change (negb (0 =? 0)) with false. cbv iota.
    unfold sizes, unpacks. change (fmt "4s") with (Ok [FS 4]). cbn [bind calcsize item_size].
    change (4 =? Z.of_nat (4 + 0)) with true. cbn [assert_ bind].
    rewrite (unpack_decode [FS 4] addr) by (try exact A; rewrite Ha; reflexivity).
    rewrite <- (app_nil_r addr) at 1. rewrite decode_FS by exact Ha. reflexivity. }
  split; [apply P|].
  assert (G : forall xs fuel pre, Forall mf_ok xs -> (length xs < fuel)%nat ->
     parse_list_ fuel (pre ++ concat (map tlv xs) ++ [0; 1; 64; 4] ++ addr ++ post) (length pre) = Err AttributeError).
  { clear - P. induction xs as [|x xs IH]; intros fuel pre H F; (destruct fuel as [|fuel]; [lia|]); cbn [parse_list_].
    - cbn [map concat Datatypes.app]. destruct (Nat.ltb_spec (length pre) (length (pre ++ 0 :: 1 :: 64 :: 4 :: addr ++ post))) as [_|C].
      2: { rewrite app_length in C. cbn in C. lia. }
      rewrite P. reflexivity.
    - inversion H as [|? ? H1 H2]; subst. cbn [map concat].
      replace (pre ++ (tlv x ++ concat (map tlv xs)) ++ [0; 1; 64; 4] ++ addr ++ post)
        with ((pre ++ tlv x) ++ concat (map tlv xs) ++ [0; 1; 64; 4] ++ addr ++ post).
      2: { rewrite <- !app_assoc. reflexivity. }
      pose proof (tlv_len x) as Tl.
      match goal with |- context [(?a <? ?b)%nat] => destruct (Nat.ltb_spec a b) as [_|C] end.
      2: { rewrite !app_length in C. lia. }
      rewrite (parse_tlv x); [|exact H1|].
      2: { eexists pre, _. rewrite <- app_assoc. auto. }
      cbn [bind oxm_length view]. change (("oxm" =? "nxm")%string) with false. cbn [bind].
      rewrite <- Nat.add_assoc, <- Tl, <- app_length. rewrite IH; [reflexivity|exact H2|cbn in F; lia]. }
  unfold parse_list. apply (G xs (S (length m)) []); [exact Hx|].
  unfold m. rewrite app_length. clear. generalize (length ([0; 1; 64; 4] ++ addr ++ post)). intros r.
  induction xs as [|x xs IH]; cbn [map concat length]; [lia|]. rewrite app_length, tlv_len. lia.
Qed.
Print Assumptions C57_nxm_list_refuted.

Example C57_nxm_example : Forall mf_ok ex_fields /\ length [10; 0; 0; 1] = 4%nat.
Proof.
  split; [|reflexivity]. repeat (apply Forall_cons; [repeat split; cbn; lia|]). apply Forall_nil.
Qed.

(** A stratos field is read without regard to its length: for every declared
    length and every field that follows, the value is taken from the bytes after
    the header, though the length leaves no room for it; with length zero the list goes on
    in the middle of the experimenter id. *)
Theorem C57_stratos_length_refuted : forall n v post, 0 <= n < 256 -> 0 <= v < 256 ->
  oxm_parse ([255; 255; 0; n; 255; 0; 224; 77; 0; 1; v] ++ post) 0
  = Ok (VTup "stratos" [VInt 65535; VInt 0; VInt 0; VInt n; VInt stratos_id; VInt 1; VInt v; VNone]).
Proof.
  intros n v post Hn Hv.
  assert (A : at_ ([255; 255; 0; n; 255; 0; 224; 77; 0; 1; v] ++ post) 0
                ((be 2 65535 ++ [0; n]) ++ be 4 stratos_id ++ be 2 1 ++ be 1 v)).
  { exists [], post. split; [|reflexivity]. cbn. rewrite (Z.mod_small v) by lia. reflexivity. }
  apply unpack_hdr in A; try lia. destruct A as [E A]. unfold oxm_parse. rewrite E. cbn [bind].
  change (65535 =? 32768) with false. change (65535 =? 1) with false. change (65535 =? 65535) with true. cbv iota zeta.
  apply at_app in A. destruct A as [A1 A]. rewrite be_length in A. apply at_app in A. destruct A as [A2 A3]. rewrite be_length in A3.
  unfold unpacks at 1. change (fmt "I") with (Ok [FU 4]). cbn [bind].
  rewrite (unpack_decode _ _ _ _ A1) by (rewrite be_length; reflexivity).
  rewrite <- (app_nil_r (be 4 stratos_id)), decode_FU by reflexivity. cbn [decode bind].
  change (stratos_id =? stratos_id) with true. cbv iota.
  unfold unpacks. change (fmt "H") with (Ok [FU 2]). cbn [bind].
  rewrite (unpack_decode _ _ _ _ A2) by (rewrite be_length; reflexivity).
  rewrite <- (app_nil_r (be 2 1)), decode_FU by reflexivity. cbn [decode bind].
  unfold stratos_value. change (Z.shiftr 0 1) with 0. change (Z.land 0 1) with 0. change (negb (0 =? 0)) with false.
  change (0 =? 0) with true. cbv iota zeta. change (stratos_basic_bits (VInt 1)) with (Some "B"%string). cbv iota.
  unfold unpacks. change (fmt "B") with (Ok [FU 1]). cbn [bind].
  rewrite (unpack_decode _ _ _ _ A3) by (rewrite be_length; reflexivity).
  rewrite <- (app_nil_r (be 1 v)), decode_FU by (unfold in_u; change (256 ^ Z.of_nat 1) with 256; lia).
  reflexivity.
Qed.
Print Assumptions C57_stratos_length_refuted.

Example C57_stratos_example :
  exists l, parse_list ([255; 255; 0; 0; 255; 0; 224; 77; 0; 1; 1] ++ tlv (MF 0 (VInt 1) None)) 0 = Err ValueError /\
  parse_list ([255; 255; 0; 7; 255; 0; 224; 77; 0; 1; 1] ++ tlv (MF 0 (VInt 1) None)) 0 = Ok l /\ length l = 2%nat.
Proof.
  eexists. split; [vm_compute; reflexivity|]. split; [vm_compute; reflexivity|]. vm_compute. reflexivity.
Qed.

(** What is true of them: an NXM field of the right size and a stratos field of
    the right length parse to what they carry.  Missing: building, lists. *)
Theorem C57_stratos_rest_partial : forall f t data pre post,
  2 <= f < 128 -> 0 <= t < 65536 -> zlen data + 6 < 256 ->
  oxm_parse (pre ++ ((be 2 65535 ++ [f * 2; zlen data + 6]) ++ be 4 stratos_id ++ be 2 t ++ data) ++ post) (length pre)
  = Ok (VTup "stratos" [VInt 65535; VInt f; VInt 0; VInt (zlen data + 6); VInt stratos_id; VInt t; VBytes data; VNone]).
Proof.
  intros f t data pre post Hf Ht Hd.
  match goal with |- oxm_parse (_ ++ ?b ++ _) _ = _ =>
    assert (A : at_ (pre ++ b ++ post) (length pre) b) by (exists pre, post; auto) end.
  match type of A with at_ ?m _ _ => set (mm := m) in * end.
  unfold zlen in *.
  apply unpack_hdr in A; try lia. destruct A as [E A]. unfold oxm_parse. rewrite E. cbn [bind].
  change (65535 =? 32768) with false. change (65535 =? 1) with false. change (65535 =? 65535) with true. cbv iota zeta.
  apply at_app in A. destruct A as [A1 A]. rewrite be_length in A. apply at_app in A. destruct A as [A2 A3]. rewrite be_length in A3.
  unfold unpacks at 1. change (fmt "I") with (Ok [FU 4]). cbn [bind].
  rewrite (unpack_decode _ _ _ _ A1) by (rewrite be_length; reflexivity).
  rewrite <- (app_nil_r (be 4 stratos_id)), decode_FU by reflexivity. cbn [decode bind].
  change (stratos_id =? stratos_id) with true. cbv iota.
  unfold unpacks. change (fmt "H") with (Ok [FU 2]). cbn [bind].
  rewrite (unpack_decode _ _ _ _ A2) by (rewrite be_length; reflexivity).
  rewrite <- (app_nil_r (be 2 t)), decode_FU by (unfold in_u; change (256 ^ Z.of_nat 2) with 65536; lia). cbn [decode bind].
  destruct (byte_field f 0 ltac:(lia) ltac:(lia)) as [B1 B2]. rewrite Z.add_0_r in B1, B2. rewrite B1, B2.
  unfold stratos_value. change (negb (0 =? 0)) with false.
  replace (f =? 0) with false by lia. replace (f =? 1) with false by lia. cbv iota zeta.
  replace (Z.of_nat (length data) + 6 - 6 <? 0) with false by lia.
  replace (Z.to_nat (Z.of_nat (length data) + 6 - 6)) with (length data) by lia.
  rewrite <- Nat.add_assoc in A3. change (4 + 2)%nat with 6%nat in A3.
  rewrite (unpack_decode [FS (length data)] data) by (try exact A3; cbn [calcsize item_size]; lia).
  rewrite <- (app_nil_r data) at 2. rewrite decode_FS by reflexivity. reflexivity.
Qed.
Print Assumptions C57_stratos_rest_partial.

Example C57_rest_example : 2 <= 5 < 128 /\ 0 <= 7 < 65536 /\ zlen [1; 2; 3] + 6 < 256.
Proof. unfold zlen. cbn. lia. Qed.
