(** Parsed actions, instructions, matches, buckets and bands of OpenFlow 1.4 are
    arguments from which the same bytes are built again (as P_Rebuild4.v). *)

From Verif Require Import Py Struct P_Struct S_Hello S_Ports P_Hello P_Ports S_Wire4 M_Build4 M_Parse4 P_Wire4 P_Act4 P_Rebuild4.
From Verif Require Import S_Wire5 M_Build5 M_Parse5 P_Wire5 P_Act5.
Local Open Scope Z_scope.
Local Open Scope list_scope.

Lemma view_arg a : act_ok a -> match a with AcSetField _ | AcExperimenter _ _ => act_aligned a | _ => True end ->
  act_arg (act_view a) a.
Proof.
  intros _ Ha. unfold act_view. destruct a; cbn [act_class act_fields vals]; constructor; right; reflexivity.
Qed.

Lemma padded_view_arg a : act_arg (act_view (act_padded a)) (act_padded a).
Proof.
  unfold act_view. destruct a; cbn [act_padded act_class act_fields vals]; constructor; right; reflexivity.
Qed.

Lemma padded_ok a : act_ok a -> act_ok (act_padded a).
Proof.
  intros [Hf Hx]. split; [|destruct a; exact Hx].
  destruct a as [p m|g|q|t|t|ty e|e|f|e b|ty]; cbn [act_padded act_fields] in *; try exact Hf.
  - set (g := gap (4 + length f)) in *. rewrite app_length, zeros_length.
    replace (4 + (length f + g))%nat with (4 + length f + g)%nat by lia.
    rewrite (gap_0 (4 + length f + g)) by apply gap_mod. rewrite Nat.add_0_r.
    unfold fits in *. inversion Hf as [|? ? H1 H2]; subst. inversion H2; subst. repeat (apply Forall_cons; [first [exact I | assumption]|]); apply Forall_nil.
  - set (g := gap (8 + length b)) in *. rewrite app_length, zeros_length.
    replace (8 + (length b + g))%nat with (8 + length b + g)%nat by lia.
    rewrite (gap_0 (8 + length b + g)) by apply gap_mod. rewrite Nat.add_0_r.
    unfold fits in *. inversion Hf as [|? ? H1 H2]; subst. inversion H2 as [|? ? H3 H4]; subst. inversion H4; subst.
    repeat (apply Forall_cons; [first [exact I | assumption]|]); apply Forall_nil.
Qed.

Lemma acts_padded_ok l : Forall act_ok l -> Forall act_ok (map act_padded l).
Proof. intros H. apply Forall_map. revert H. apply Forall_impl. intros a. apply padded_ok. Qed.

Lemma acts_parsed_arg l : acts_arg (acts_parsed l) (map act_padded l).
Proof.
  unfold acts_parsed. apply LA_list. induction l as [|a l IH]; constructor; [apply padded_view_arg | exact IH].
Qed.

(** The bytes built from what was parsed. *)
Lemma acts_rebuild dx d l : Forall act_ok l -> (1 <= d)%nat -> seqarg (obj dx d) (acts_parsed l) = Ok (acts_wire l).
Proof.
  intros Hl Hd. rewrite (acts_build dx d _ (map act_padded l)); [|apply acts_parsed_arg | apply acts_padded_ok; exact Hl | exact Hd].
  rewrite acts_padded_wire. reflexivity.
Qed.

Lemma aligned_parsed l : Forall act_aligned l -> acts_parsed l = VList (map act_view l).
Proof.
  intros H. unfold acts_parsed. f_equal. induction H as [|a l Ha Hl IH]; [reflexivity|].
  cbn [map]. rewrite Ha, IH. reflexivity.
Qed.

(** *** Instructions *)

Lemma inst_padded_ok i : inst_ok i -> inst_ok (inst_padded i).
Proof.
  intros [Hf Hx]. destruct i; try (split; assumption). destruct Hx as [H1 H2]. split.
  - cbn [inst_padded inst_fields] in *. rewrite acts_padded_wire. exact Hf.
  - split; [exact H1 | apply acts_padded_ok; exact H2].
Qed.

Lemma inst_parsed_arg i : inst_arg (inst_parsed i) (inst_padded i).
Proof.
  destruct i; cbn [inst_parsed inst_padded]; constructor; try (right; reflexivity). apply acts_parsed_arg.
Qed.

Lemma insts_padded_ok l : Forall inst_ok l -> Forall inst_ok (map inst_padded l).
Proof. intros H. apply Forall_map. revert H. apply Forall_impl. intros a. apply inst_padded_ok. Qed.

Lemma insts_parsed_arg l : insts_arg (insts_parsed l) (map inst_padded l).
Proof.
  unfold insts_parsed. apply LA_list. induction l as [|a l IH]; constructor; [apply inst_parsed_arg | exact IH].
Qed.

Lemma insts_rebuild dx d l : Forall inst_ok l -> (2 <= d)%nat -> seqarg (obj dx d) (insts_parsed l) = Ok (insts_wire l).
Proof.
  intros Hl Hd. rewrite (insts_build dx d _ (map inst_padded l)); [|apply insts_parsed_arg | apply insts_padded_ok; exact Hl | exact Hd].
  rewrite insts_padded_wire. reflexivity.
Qed.

(** *** Matches, buckets and bands *)

Lemma bucket_padded_ok b : bucket_ok b -> bucket_ok (bucket_padded b).
Proof.
  destruct b. intros [Hf Hx]. split; cbn [bucket_padded bucket_fields] in *; [rewrite acts_padded_wire; exact Hf|].
  apply acts_padded_ok. exact Hx.
Qed.

Lemma bucket_parsed_arg b : bucket_arg (bucket_parsed b) (bucket_padded b).
Proof. destruct b. constructor. apply acts_parsed_arg. Qed.

Lemma buckets_padded_ok l : Forall bucket_ok l -> Forall bucket_ok (map bucket_padded l).
Proof. intros H. apply Forall_map. revert H. apply Forall_impl. intros a. apply bucket_padded_ok. Qed.

Lemma buckets_parsed_arg l : buckets_arg (VList (map bucket_parsed l)) (map bucket_padded l).
Proof. apply LA_list. induction l as [|a l IH]; constructor; [apply bucket_parsed_arg | exact IH]. Qed.

(** *** Further facts *)

Lemma inst_view_parsed i : inst_aligned i -> inst_parsed i = inst_view i.
Proof. destruct i; try reflexivity. cbn [inst_aligned inst_parsed inst_view]. intros H. rewrite aligned_parsed by exact H. reflexivity. Qed.

Lemma mpls_ttl_parse m off ttl : 0 <= ttl < 256 -> at_ m off (act_wire (AcMplsTtl ttl)) -> p_action m off = Err NameError.
Proof.
  intros Ht Hat. unfold act_wire in Hat. cbn [act_fields] in Hat.
  destruct (at_hdr m off 15 [U 2 8; U 1 ttl; P 3] Hat) as [x Eh]; [cbn; lia | lia|].
  unfold p_action, p_action_header. unfold fixed at 1. rewrite Eh. reflexivity.
Qed.

Lemma inst_unknown m n off ty rest :
  at_ m off (be 2 ty ++ rest) -> (2 <= length rest)%nat -> 0 <= ty < 65536 -> ~ In ty [1; 2; 3; 4; 5; 6; 65535] ->
  p_instruction n m off = Err ValueError.
Proof.
  intros Hat Hl Ht Hn. unfold p_instruction, p_instruction_header, fixed, unp, unpacks, sizes.
  change (fmt "HH") with (Ok [FU 2; FU 2]). cbn [bind]. unfold unpack_from.
  pose proof (at_length _ _ _ Hat) as Hlen. rewrite app_length, be_length in Hlen. cbn [calcsize item_size].
  assert (E : (off + (2 + (2 + 0)) <=? length m)%nat = true) by (apply Nat.leb_le; lia). rewrite E. cbn [bind].
  destruct (at_skipn _ _ _ Hat) as [r Hr]. rewrite Hr, <- app_assoc.
  rewrite decode_FU by (apply in_u_range; cbn; lia). cbn [decode].
  assert (En : forall k, In k [1; 2; 3; 4; 5; 6; 65535] -> (ty =? k) = false).
  { intros k Hk. apply Z.eqb_neq. intros ->. apply Hn. exact Hk. }
  cbv beta iota. cbn [py_inz existsb py_eqz]. rewrite !En by (cbn; tauto). reflexivity.
Qed.

Lemma match_long dx d t ty len v oxm :
  opt_arg 1 t ty -> oxm_arg v oxm -> 65531 < zlen oxm ->
  obj dx (S d) (VTup "ofp_match" [t; len; v]) = Err StructError.
Proof.
  intros Ht Hv Hl. change (ofp_match (obj dx d) t len v = Err StructError). unfold ofp_match.
  assert (E : default t 1 = VInt ty) by (destruct Ht as [[-> ->]| ->]; reflexivity). rewrite E.
  assert (Eo : match v with VBytes b => Ok b | VList l0 | VTup _ l0 => join (obj dx d) l0 | VNone => Ok [] | _ => Err TypeError end = Ok oxm).
  { destruct Hv as [|b|ls|c ls]; try reflexivity; apply oxm_join. }
  rewrite Eo. cbn [bind]. cbv zeta.
  unfold packs. change (fmt "HH") with (Ok (map shape [U 2 ty; U 2 (Z.of_nat (4 + length oxm))])). cbn [bind].
  change [VInt ty; VInt (Z.of_nat (4 + length oxm))] with (vals [U 2 ty; U 2 (Z.of_nat (4 + length oxm))]).
  rewrite pack_unfit; [reflexivity|]. intros Hf. apply fits_cons in Hf. destruct Hf as [_ Hf].
  apply fits_cons in Hf. destruct Hf as [Hf _]. unfold in_range in Hf. change (256 ^ Z.of_nat 2) with 65536 in Hf. unfold zlen in *. lia.
Qed.

(** Range side conditions of concrete structures. *)
Ltac solve_ok :=
  repeat first [ exact I | match goal with |- Forall _ [] => apply Forall_nil | |- Forall _ (_ :: _) => apply Forall_cons | |- _ /\ _ => split end
               | progress cbv beta iota delta [fits in_range act_ok inst_ok act_fields inst_fields bucket_ok bucket_fields band_ok band_fields match_fields]
               | (cbn; lia) | (vm_compute; reflexivity) | (vm_compute; discriminate) | (cbn; tauto) ].
