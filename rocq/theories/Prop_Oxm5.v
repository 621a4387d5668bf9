(** Properties C83, C84: OXM match fields of OpenFlow 1.4. *)

From Verif Require Import Py Struct P_Struct M_Oxm S_Oxm P_Oxm M_Oxm5 S_Oxm5 P_Oxm5.
From Verif Require M_Enum M_EnumData5 S_Enum P_Enum Prop_Enum.
Local Open Scope Z_scope.
Local Open Scope list_scope.

(** The arguments a caller may give for the field [x]: no class or 0x8000; any
    length; the mask itself with any mask flag, or no mask (or none given) and a
    false flag. *)
Inductive built_from5 (x : mfield) : list pyval -> Prop :=
| BF5_short c hm len :
    mf_mask x = None -> c = VNone \/ c = VInt 32768 -> hm = VNone \/ hm = VInt 0 ->
    built_from5 x [c; VInt (mf_field x); hm; len; mf_value x]
| BF5_plain c hm len :
    mf_mask x = None -> c = VNone \/ c = VInt 32768 -> hm = VNone \/ hm = VInt 0 ->
    built_from5 x [c; VInt (mf_field x); hm; len; mf_value x; VNone]
| BF5_masked c hm len k :
    mf_mask x = Some k -> c = VNone \/ c = VInt 32768 ->
    built_from5 x [c; VInt (mf_field x); hm; len; mf_value x; k].

Definition tup_args (v : pyval) : list pyval := match v with VTup _ l => l | _ => [] end.

(** *** C83 *)

Theorem C83_build : forall x args, mf_ok x -> built_from5 x args -> build5_args args = Ok (tlv x).
Proof.
  intros [f v k] args H B.
  inversion B as [c hm len E Hc Hh | c hm len E Hc Hh | c hm len k' E Hc]; subst; cbn [mf_mask mf_field mf_value build5_args] in *; subst k;
    (rewrite build5_rel by exact Hc).
  1, 2: apply build_plain; [exact H|exact Hc|destruct Hh; subst; reflexivity].
  apply build_masked; assumption.
Qed.
Print Assumptions C83_build.

(** Where the TLV stands does not matter, nor what follows it. *)
Theorem C83_round_trip : forall x args pre post, mf_ok x -> built_from5 x args ->
  exists b, build5_args args = Ok b /\ oxm5_parse (pre ++ b ++ post) (length pre) = Ok (view5 x).
Proof.
  intros x args pre post H B. exists (tlv x). split; [exact (C83_build x args H B)|].
  apply parse5_tlv; [exact H|]. exists pre, post. auto.
Qed.
Print Assumptions C83_round_trip.

Theorem C83_list_round_trip : forall xs argss pre,
  Forall mf_ok xs -> Forall2 built_from5 xs argss ->
  exists bs, mapM build5_args argss = Ok bs /\
    parse_list5 (pre ++ concat bs) (length pre) = Ok (map view5 xs).
Proof.
  intros xs argss pre H B. exists (map tlv xs). split.
  - induction B as [|x args xs argss Bx B IH]; [reflexivity|].
    inversion H as [|? ? Hx H']; subst. cbn [mapM map]. rewrite (C83_build _ _ Hx Bx), (IH H'). reflexivity.
  - unfold parse_list5. apply parse_list5_tlvs; [exact H|]. rewrite app_length. lia.
Qed.
Print Assumptions C83_list_round_trip.

Lemma rebuild_view x : mf_ok x -> build5_args (tup_args (view5 x)) = Ok (tlv x).
Proof.
  intros H. apply C83_build; [exact H|]. destruct x as [f v [k|]].
  - apply BF5_masked; [reflexivity|right; reflexivity].
  - apply BF5_short; [reflexivity|right; reflexivity|right; reflexivity].
Qed.

(** Whatever was parsed builds the very bytes it was parsed from. *)
Theorem C83_rebuild : forall m off v, bytes_ok m -> oxm5_parse m off = Ok v ->
  exists x, mf_ok x /\ v = view5 x /\
    build5_args (tup_args v) = Ok (tlv x) /\ slice m off (off + length (tlv x)) = tlv x.
Proof.
  intros m off v Hb H. destruct (parse5_inv _ _ _ Hb H) as (x & X1 & -> & X3 & _).
  exists x. split; [exact X1|]. split; [reflexivity|]. split; [exact (rebuild_view x X1)|exact X3].
Qed.
Print Assumptions C83_rebuild.

Theorem C83_rebuild_list : forall m off l, bytes_ok m -> (off <= length m)%nat ->
  parse_list5 m off = Ok l ->
  exists bs, mapM (fun v => build5_args (tup_args v)) l = Ok bs /\ concat bs = skipn off m.
Proof.
  intros m off l Hb Ho H. destruct (parse_list5_inv _ Hb _ _ _ H Ho) as (xs & X1 & -> & ->).
  exists (map tlv xs). split; [|reflexivity]. clear H.
  induction X1 as [|x xs X1 _ IH]; [reflexivity|]. cbn [map mapM].
  rewrite IH, (rebuild_view x X1). reflexivity.
Qed.
Print Assumptions C83_rebuild_list.

(** parse_list comes to an end on every input, and its result does not depend
    on the fuel. *)
Theorem C83_list_terminates : forall m off fuel, (length m - off < fuel)%nat ->
  parse_list5_ fuel m off <> Err OutOfFuel /\ parse_list5 m off = parse_list5_ fuel m off.
Proof.
  intros m off fuel H. split; [apply parse_list5_terminates; exact H|].
  unfold parse_list5. apply parse_list5_fuel; lia.
Qed.
Print Assumptions C83_list_terminates.

Definition ex_fields : list mfield :=
  [ MF 0 (VInt 222) None; MF 5 (VInt 2048) None;
    MF 11 (VBytes [10; 0; 0; 0]) (Some (VBytes [255; 0; 0; 0])); MF 38 (VInt (2 ^ 64 - 1)) (Some (VInt 1)) ].

Example C83_example :
  Forall mf_ok ex_fields /\
  Forall2 built_from5 ex_fields
    [ [VNone; VInt 0; VNone; VNone; VInt 222];
      [VInt 32768; VInt 5; VInt 0; VInt 77; VInt 2048; VNone];
      [VNone; VInt 11; VNone; VNone; VBytes [10; 0; 0; 0]; VBytes [255; 0; 0; 0]];
      [VNone; VInt 38; VInt 1; VNone; VInt (2 ^ 64 - 1); VInt 1] ] /\
  parse_list5 (concat (map tlv ex_fields)) 0 = Ok (map view5 ex_fields).
Proof.
  split; [|split].
  - repeat (apply Forall_cons; [repeat split; cbn; lia|]). apply Forall_nil.
  - constructor; [apply BF5_short; cbn; auto|]. constructor; [apply BF5_plain; cbn; auto|].
    constructor; [apply BF5_masked; cbn; auto|]. constructor; [apply BF5_masked; cbn; auto|]. constructor.
  - vm_compute. reflexivity.
Qed.

(** Refuted for the other classes of the specification (NXM and
    experimenter): one such field anywhere makes the whole match unreadable, and
    it cannot be built. *)
Theorem C83_other_class_refuted : forall xs pre post c f hm len v k,
  Forall mf_ok xs -> bytes_ok pre -> bytes_ok post -> (4 <= length post)%nat -> class_at post 0 <> 32768 ->
  parse_list5 (pre ++ concat (map tlv xs) ++ post) (length pre) = Err ValueError /\
  (c <> 32768 -> oxm5_build (VInt c) f hm len v k = Err AssertionError).
Proof.
  intros xs pre post c f hm len v k Hx Hpre Hpost Hl Hc. split.
  - unfold parse_list5. apply parse_list5_stops; [exact Hx|intros ->; cbn in Hl; lia|rewrite !app_length; lia|].
    rewrite app_assoc. rewrite parse5_rel.
    assert (E : exists c p n, unpacks "HBB" ((pre ++ concat (map tlv xs)) ++ post) (length (pre ++ concat (map tlv xs))) = Ok [VInt c; VInt p; VInt n] /\ c = class_at post 0).
    { destruct post as [|a [|b [|d [|e r]]]]; cbn in Hl; try lia.
      unfold unpacks. change (fmt "HBB") with (Ok [FU 2; FU 1; FU 1]). cbn [bind]. unfold unpack_from.
      rewrite (app_length (pre ++ concat (map tlv xs)) (a :: _)). cbn [calcsize item_size length].
      rewrite (proj2 (Nat.leb_le _ _)) by lia.
      rewrite (skipn_app_l (length (pre ++ concat (map tlv xs)))) by reflexivity.
      exists (a * 256 + b), d, e. split; [|reflexivity]. cbn. repeat f_equal; lia. }
    destruct E as (c0 & p & n & E & ->). rewrite E. cbn [bind]. rewrite (proj2 (Z.eqb_neq _ _) Hc). reflexivity.
  - intros Hn. unfold oxm5_build. cbv zeta. cbn [default py_eqz]. rewrite (proj2 (Z.eqb_neq _ _) Hn). reflexivity.
Qed.
Print Assumptions C83_other_class_refuted.

(** An Ethernet type, then TCP flags as an experimenter field of ONF. *)
Example C83_other_class_example :
  class_at [255; 255; 84; 6; 79; 78; 70; 0; 0; 2] 0 = 65535 /\
  parse_list5 (concat (map tlv [MF 5 (VInt 2048) None]) ++ [255; 255; 84; 6; 79; 78; 70; 0; 0; 2]) 0 = Err ValueError.
Proof. split; vm_compute; reflexivity. Qed.

(** *** C84 *)

(** The payload sizes of OpenFlow 1.4: those of 1.3, and one byte for PBB_UCA,
    which is field 41 (40 is not used). *)
Definition spec_size14 (f : Z) : nat := if f =? 41 then 1%nat else spec_size f.

(** Missing: IPV6_FLABEL (28) and MPLS_LABEL (34). *)
Theorem C84_sizes_partial : forall f, 0 <= f < 40 \/ f = 41 -> f <> 28 -> f <> 34 ->
  (forall c hm len v k b, oxm5_build c (VInt f) hm len v k = Ok b ->
     length b = (4 + spec_size14 f)%nat /\ k = VNone \/
     length b = (4 + 2 * spec_size14 f)%nat) /\
  (forall (masked : bool) payload m off, bytes_ok m -> at_ m off (spec_tlv f masked payload) -> zlen payload < 256 ->
     (length payload = (if masked then 2 * spec_size14 f else spec_size14 f)%nat <->
      exists v, oxm5_parse m off = Ok v)).
Proof.
  intros f Hf N1 N2.
  assert (E : size_of f = spec_size14 f).
  { unfold spec_size14. destruct (Z.eqb_spec f 41) as [->|]; [reflexivity|]. apply sizes_spec; lia. }
  assert (Hf' : 0 <= f < 128) by lia. split.
  - intros c hm len v k b H. pose proof (class_eq _ (build5_class _ _ _ _ _ _ _ H)) as Hc.
    rewrite (build5_rel _ _ _ _ _ _ Hc) in H.
    destruct (build_size f c hm len v k b Hf' H) as [(L & Hk & _)|(L & _)].
    + left. split; [lia|exact Hk].
    + right. lia.
  - intros masked payload m off Hb Hat Hp.
    assert (U : unpacks "HBB" m off = Ok [VInt 32768; VInt (f * 2 + (if masked then 1 else 0)); VInt (zlen payload)]).
    { apply (class_ok _ _ _ _ payload); [destruct masked; lia|unfold zlen in *; lia|exact Hat]. }
    split.
    + intros L. destruct (parse_right_size f masked payload m off) as (x & _ & _ & _ & X); try assumption.
      { destruct masked; lia. }
      rewrite (parse5_of_parse _ _ _ _ _ U X). eexists. reflexivity.
    + intros (v & V). destruct (Nat.eq_dec (length payload) (if masked then 2 * spec_size14 f else spec_size14 f)%nat) as [|N]; [assumption|].
      rewrite (parse5_of_parse _ _ _ _ _ U (parse_wrong_size f masked payload m off Hf' Hp ltac:(destruct masked; lia) Hat)) in V. discriminate V.
Qed.
Print Assumptions C84_sizes_partial.

Example C84_example :
  at_ (spec_tlv 41 true [1; 1]) 0 (spec_tlv 41 true [1; 1]) /\
  oxm5_parse (spec_tlv 41 true [1; 1]) 0 = Ok (view5 (MF 41 (VInt 1) (Some (VInt 1)))) /\
  oxm5_parse (spec_tlv 37 false [0; 1; 2]) 0 = Ok (view5 (MF 37 (VBytes [0; 1; 2]) None)).
Proof. split; [apply at_whole|]. split; vm_compute; reflexivity. Qed.

(** IPV6_FLABEL and MPLS_LABEL: as in C49. *)
Theorem C84_labels_refuted : forall f, f = 28 \/ f = 34 ->
  (forall (masked : bool) payload m off,
     length payload = (if masked then 2 * spec_size f else spec_size f)%nat ->
     at_ m off (spec_tlv f masked payload) -> oxm5_parse m off = Err AssertionError) /\
  (forall c hm len v k b, oxm5_build c (VInt f) hm len v k = Ok b ->
     length b <> (4 + spec_size f)%nat /\ length b <> (4 + 2 * spec_size f)%nat).
Proof.
  intros f Hf. assert (R : 0 <= f < 128) by lia.
  assert (S : size_of f = 1%nat /\ spec_size f = 4%nat) by (destruct Hf; subst; split; reflexivity).
  destruct S as [S1 S2]. rewrite S2. split.
  - intros masked payload m off L Hat.
    assert (Hz : zlen payload < 256) by (unfold zlen; rewrite L; destruct masked; lia).
    assert (U : unpacks "HBB" m off = Ok [VInt 32768; VInt (f * 2 + (if masked then 1 else 0)); VInt (zlen payload)]).
    { apply (class_ok _ _ _ _ payload); [destruct masked; lia|unfold zlen in *; lia|exact Hat]. }
    rewrite (parse5_of_parse _ _ _ _ _ U (parse_wrong_size f masked payload m off R Hz ltac:(rewrite S1, L; destruct masked; lia) Hat)).
    reflexivity.
  - intros c hm len v k b H. pose proof (class_eq _ (build5_class _ _ _ _ _ _ _ H)) as Hc.
    rewrite (build5_rel _ _ _ _ _ _ Hc) in H. destruct (build_size _ _ _ _ _ _ _ R H) as [(L & _)|(L & _)]; lia.
Qed.
Print Assumptions C84_labels_refuted.

(** PBB_UCA: the constant of oxm.py makes the field 40, whatever the value;
    the specification's is 41. *)
Theorem C84_uca_refuted : forall es' v uca, Forall2 S_Enum.walked M_EnumData5.x5_enums es' ->
  M_Enum.global (M_Enum.load [] es') "OXM_OF_PBB_UCA" = Some uca -> 0 <= v < 256 ->
  build5_args [VNone; VInt uca; VNone; VNone; VInt v] = Ok [128; 0; 40 * 2; 1; v] /\
  [128; 0; 40 * 2; 1; v] <> spec_tlv 41 false [v].
Proof.
  intros es' v uca F G Hv. destruct (Prop_Enum.C66_match_fields_partial es') as (_ & _ & H).
  destruct (H F) as [E _]. rewrite E in G. injection G as <-. split; [|discriminate].
  rewrite (C83_build (MF 40 (VInt v) None)).
  - assert (E1 : be 1 v = [v]) by (unfold be; cbn [rev app]; repeat f_equal; cbn; lia).
    unfold tlv, mf_payload, val_bytes. change (size_of (mf_field (MF 40 (VInt v) None))) with 1%nat.
    cbn [mf_value mf_mask mf_field]. rewrite E1. reflexivity.
  - repeat split; cbn; lia.
  - apply BF5_short; cbn; auto.
Qed.
Print Assumptions C84_uca_refuted.

Example C84_uca_example :
  M_Enum.global (M_Enum.load [] M_EnumData5.x5_enums) "OXM_OF_PBB_UCA" = Some 40 /\
  build5_args [VNone; VInt 40; VNone; VNone; VInt 1] = Ok [128; 0; 80; 1; 1].
Proof. split; vm_compute; reflexivity. Qed.
