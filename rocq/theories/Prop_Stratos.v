(** C114: match fields of other organisations (twink/ofp4/oxm.py). *)

From Verif Require Import Py Struct P_Struct M_Oxm S_Oxm P_Oxm S_Stratos P_Stratos.
Local Open Scope Z_scope.
Local Open Scope list_scope.

(** A Stratos field that holds a number is read exactly, with its mask or
    without: radiotap fields with the least significant byte first, powers in
    dBm with their sign.  What length the field declares does not matter. *)
Theorem C114_number : forall f t s v k n pre post, holds f t s -> within s v -> within s k -> 0 <= n < 256 ->
  oxm_parse (pre ++ experimenter_tlv f false n stratos_number t (le (width s) v) ++ post) (length pre)
    = Ok (stratos_view f false n t (VInt v) VNone) /\
  oxm_parse (pre ++ experimenter_tlv f true n stratos_number t (le (width s) v ++ le (width s) k) ++ post) (length pre)
    = Ok (stratos_view f true n t (VInt v) (VInt k)).
Proof.
  intros f t s v k n pre post H Hv Hk Hn. destruct (holds_ok _ _ _ H) as (Hf & Ht & _). split.
  - destruct (stratos_head f false n t (le (width s) v) _ (length pre) Hf Hn Ht (ex_intro _ pre (ex_intro _ post (conj eq_refl eq_refl)))) as [A E].
    rewrite E, (value_read f t s false n v k); try assumption; [reflexivity|]. cbn [numbers map concat]. rewrite app_nil_r. exact A.
  - destruct (stratos_head f true n t (le (width s) v ++ le (width s) k) _ (length pre) Hf Hn Ht (ex_intro _ pre (ex_intro _ post (conj eq_refl eq_refl)))) as [A E].
    rewrite E, (value_read f t s true n v k); try assumption; [reflexivity|]. cbn [numbers map concat]. rewrite app_nil_r. exact A.
Qed.
Print Assumptions C114_number.

(** It is refused exactly when the message ends before the number, or its mask,
    is complete. *)
Theorem C114_number_short : forall f t s (masked : bool) n pre payload, holds f t s -> 0 <= n < 256 ->
  (length payload < (if masked then 2 else 1) * width s)%nat ->
  oxm_parse (pre ++ experimenter_tlv f masked n stratos_number t payload) (length pre) = Err StructError.
Proof.
  intros f t s masked n pre payload H Hn L. destruct (holds_ok _ _ _ H) as (Hf & Ht & _).
  destruct (stratos_head f masked n t payload (pre ++ experimenter_tlv f masked n stratos_number t payload) (length pre) Hf Hn Ht) as [A E].
  { exists pre, []. rewrite app_nil_r. auto. }
  rewrite E, (value_short f t s masked n); [reflexivity|exact H|].
  rewrite app_length. unfold experimenter_tlv. rewrite app_length. cbn [length]. lia.
Qed.
Print Assumptions C114_number_short.

(** Any other Stratos field without a mask is the bytes its declared length
    leaves after experimenter and type, if that many are there. *)
Theorem C114_bytes : forall f t n pre payload, (forall s, ~ holds f t s) -> 0 <= f < 128 -> 0 <= t < 65536 -> 0 <= n < 256 ->
  oxm_parse (pre ++ experimenter_tlv f false n stratos_number t payload) (length pre) =
    (if Z_le_dec 6 n then
       if Z_le_dec (n - 6) (zlen payload) then Ok (stratos_view f false n t (VBytes (firstn (Z.to_nat (n - 6)) payload)) VNone)
       else Err StructError
     else Err StructError).
Proof.
  intros f t n pre payload N Hf Ht Hn.
  destruct (stratos_head f false n t payload (pre ++ experimenter_tlv f false n stratos_number t payload) (length pre) Hf Hn Ht) as [A E].
  { exists pre, []. rewrite app_nil_r. auto. }
  rewrite E, value_rest by exact N. clear E. destruct (Z_le_dec 6 n) as [G|G].
  2: { replace (n - 6 <? 0) with true by lia. reflexivity. }
  replace (n - 6 <? 0) with false by lia. unfold unpack_from. cbn [calcsize item_size].
  assert (L : length (pre ++ experimenter_tlv f false n stratos_number t payload) = (length pre + 10 + length payload)%nat).
  { rewrite app_length. unfold experimenter_tlv. rewrite app_length. cbn [length]. lia. }
  rewrite L. unfold zlen. destruct (Z_le_dec (n - 6) (Z.of_nat (length payload))) as [B|B].
  - destruct (Nat.leb_spec (length pre + 10 + (Z.to_nat (n - 6) + 0)) (length pre + 10 + length payload)) as [_|C]; [|lia].
    cbn [bind decode]. replace (skipn (length pre + 10) (pre ++ experimenter_tlv f false n stratos_number t payload)) with payload; [reflexivity|].
    destruct A as (p & q & P1 & P2). rewrite P1, P2, skipn_app_l by reflexivity.
    assert (Q : length q = 0%nat). { apply (f_equal (@length Z)) in P1. rewrite L, !app_length in P1. lia. }
    destruct q; [rewrite app_nil_r; reflexivity|discriminate].
  - destruct (Nat.leb_spec (length pre + 10 + (Z.to_nat (n - 6) + 0)) (length pre + 10 + length payload)) as [C|_]; [lia|reflexivity].
Qed.
Print Assumptions C114_bytes.

(** With a mask no such field can be read: the parser divides a string. *)
Theorem C114_masked_bytes_refuted : forall f t n pre payload, (forall s, ~ holds f t s) -> 0 <= f < 128 -> 0 <= t < 65536 -> 0 <= n < 256 ->
  oxm_parse (pre ++ experimenter_tlv f true n stratos_number t payload) (length pre) = Err TypeError.
Proof.
  intros f t n pre payload N Hf Ht Hn.
  destruct (stratos_head f true n t payload (pre ++ experimenter_tlv f true n stratos_number t payload) (length pre) Hf Hn Ht) as [_ E].
  { exists pre, []. rewrite app_nil_r. auto. }
  rewrite E, value_rest by exact N. reflexivity.
Qed.
Print Assumptions C114_masked_bytes_refuted.

(** Fields of any other experimenter and of any other class are refused; the
    class of the Nicira extensions has one field, the address of a tunnel. *)
Theorem C114_others_refused : forall c f e t masked n pre payload,
  0 <= c < 65536 -> 0 <= f < 128 -> 0 <= e < 2 ^ 32 -> 0 <= t < 65536 -> 0 <= n < 256 ->
  (e <> stratos_number -> oxm_parse (pre ++ experimenter_tlv f masked n e t payload) (length pre) = Err ValueError) /\
  (~ In c [1; 32768; 65535] -> oxm_parse (pre ++ class_tlv c f masked n payload) (length pre) = Err ValueError) /\
  (f <> 32 -> oxm_parse (pre ++ class_tlv 1 f masked n payload) (length pre) = Err TypeError).
Proof.
  intros c f e t masked n pre payload Hc Hf He Ht Hn. pose proof (flag_01 masked) as Hm.
  assert (A : forall b, at_ (pre ++ b) (length pre) b) by (intros b; exists pre, []; rewrite app_nil_r; auto).
  assert (T : forall c, class_tlv c f masked n payload = (be 2 c ++ [f * 2 + flag masked; n]) ++ payload).
  { intros x. unfold class_tlv. rewrite be2, (Z.mul_comm f). reflexivity. }
  split; [|split].
  - intros N. destruct (exp_head f masked n e t payload _ _ Hf Hn He Ht (A _)) as [_ E]. rewrite E.
    change stratos_id with stratos_number. apply Z.eqb_neq in N. rewrite N. reflexivity.
  - intros N. pose proof (A (class_tlv c f masked n payload)) as B. rewrite T in B at 2. apply unpack_hdr in B; try lia. destruct B as [E _].
    unfold oxm_parse. rewrite E. cbn [bind]. cbv zeta. cbn [In] in N.
    replace (c =? 32768) with false by lia. replace (c =? 1) with false by lia. replace (c =? 65535) with false by lia. reflexivity.
  - intros N. pose proof (A (class_tlv 1 f masked n payload)) as B. rewrite T in B at 2. apply unpack_hdr in B; try lia. destruct B as [E _].
    unfold oxm_parse. rewrite E. cbn [bind]. cbv zeta. change (1 =? 32768) with false. change (1 =? 1) with true. cbv iota.
    destruct (byte_field f (flag masked) Hf Hm) as [B1 _]. rewrite B1. unfold nxm_basic_bits.
    replace (f =? 32) with false by lia. reflexivity.
Qed.
Print Assumptions C114_others_refused.

(** The tunnel address, with its mask or without. *)
Theorem C114_tunnel : forall (masked : bool) n (addr mask post : bytes) pre, length addr = 4%nat -> length mask = 4%nat -> 0 <= n < 256 ->
  oxm_parse (pre ++ class_tlv 1 32 masked n (addr ++ (if masked then mask else []) ++ post)) (length pre) =
    if Z.eq_dec n (if masked then 8 else 4)
    then Ok (VTup "nxm" [VInt 1; VInt 32; VInt (flag masked); VInt n; VBytes addr; if masked then VBytes mask else VNone])
    else Err AssertionError.
Proof.
  intros masked n addr mask post pre La Lm Hn. pose proof (flag_01 masked) as Hm.
  set (payload := addr ++ (if masked then mask else []) ++ post).
  assert (B : at_ (pre ++ class_tlv 1 32 masked n payload) (length pre) ((be 2 1 ++ [64 + flag masked; n]) ++ payload)).
  { exists pre, []. rewrite app_nil_r. split; reflexivity. }
  generalize dependent (pre ++ class_tlv 1 32 masked n payload). intros mm B.
  apply unpack_hdr in B; try lia. destruct B as [E B]. unfold oxm_parse. rewrite E. cbn [bind]. cbv zeta. clear E.
  change (1 =? 32768) with false. change (1 =? 1) with true. cbv iota.
  destruct (byte_field 32 (flag masked) ltac:(lia) Hm) as [B1 B2]. change (32 * 2) with 64 in B1, B2. rewrite B1, B2.
  change (nxm_basic_bits 32) with (Some "4s"%string). cbv iota. unfold value_mask.
  destruct masked; cbn [flag] in *.
  - change (negb (1 =? 0)) with true. cbv iota. change (sizes ("4s" ++ "4s")%string) with (Ok 8%nat). cbn [bind]. change (Z.of_nat 8) with 8.
    destruct (Z.eq_dec n 8) as [->|N]; [|replace (n =? 8) with false by lia; reflexivity].
    change (8 =? 8) with true. cbn [assert_ bind]. unfold unpacks. change (fmt ("4s" ++ "4s")%string) with (Ok [FS 4; FS 4]). cbn [bind].
    unfold payload in B. rewrite app_assoc in B. apply at_app in B. destruct B as [B _].
    rewrite (unpack_decode [FS 4; FS 4] _ _ _ B) by (rewrite app_length; cbn; lia).
    rewrite decode_FS by exact La. rewrite <- (app_nil_r mask) at 1. rewrite decode_FS by exact Lm. reflexivity.
  - change (negb (0 =? 0)) with false. cbv iota. change (sizes "4s") with (Ok 4%nat). cbn [bind]. change (Z.of_nat 4) with 4.
    destruct (Z.eq_dec n 4) as [->|N]; [|replace (n =? 4) with false by lia; reflexivity].
    change (4 =? 4) with true. cbn [assert_ bind]. unfold unpacks. change (fmt "4s") with (Ok [FS 4]). cbn [bind].
    unfold payload in B. apply at_app in B. destruct B as [B _].
    rewrite (unpack_decode [FS 4] _ _ _ B) by (cbn; lia).
    rewrite <- (app_nil_r addr) at 1. rewrite decode_FS by exact La. reflexivity.
Qed.
Print Assumptions C114_tunnel.

(** *** Lists *)

(** A Stratos field without mask whose length is true. *)
Record sfield : Type := SF { sf_field : Z; sf_type : Z; sf_value : pyval; sf_payload : bytes }.

Definition sf_ok (x : sfield) : Prop :=
  0 <= sf_field x < 128 /\ 0 <= sf_type x < 65536 /\ zlen (sf_payload x) <= 249 /\
  ((exists s v, holds (sf_field x) (sf_type x) s /\ within s v /\ sf_value x = VInt v /\ sf_payload x = le (width s) v) \/
   (forall s, ~ holds (sf_field x) (sf_type x) s) /\ sf_value x = VBytes (sf_payload x)).

Definition sf_tlv (x : sfield) : bytes :=
  experimenter_tlv (sf_field x) false (6 + zlen (sf_payload x)) stratos_number (sf_type x) (sf_payload x).

Definition sf_view (x : sfield) : pyval :=
  stratos_view (sf_field x) false (6 + zlen (sf_payload x)) (sf_type x) (sf_value x) VNone.

Lemma sf_parse x m off : sf_ok x -> at_ m off (sf_tlv x) -> oxm_parse m off = Ok (sf_view x).
Proof.
  intros (Hf & Ht & Hl & C) A. unfold zlen in Hl.
  destruct (stratos_head (sf_field x) false (6 + zlen (sf_payload x)) (sf_type x) (sf_payload x) m off Hf ltac:(unfold zlen; lia) Ht A) as [B E].
  rewrite E. destruct C as [(s & v & H & Hv & E1 & E2)|[N E1]].
  - rewrite (value_read _ _ s false _ v v); [| exact H | exact Hv | exact Hv | cbn [numbers map concat]; rewrite app_nil_r, <- E2; exact B].
    unfold sf_view. rewrite E1. reflexivity.
  - rewrite value_rest by exact N. replace (6 + zlen (sf_payload x) - 6) with (zlen (sf_payload x)) by lia. unfold zlen.
    replace (Z.of_nat (length (sf_payload x)) <? 0) with false by lia. rewrite Nat2Z.id.
    rewrite (unpack_decode [FS (length (sf_payload x))] (sf_payload x)); [|exact B|cbn; lia].
    rewrite <- (app_nil_r (sf_payload x)) at 2. rewrite decode_FS by reflexivity. unfold sf_view. rewrite E1. reflexivity.
Qed.

(** OpenFlow fields and Stratos fields in any order: the list reads back. *)
Definition any_field : Type := (mfield + sfield)%type.
Definition any_ok (x : any_field) : Prop := match x with inl x => mf_ok x | inr x => sf_ok x end.
Definition any_tlv (x : any_field) : bytes := match x with inl x => tlv x | inr x => sf_tlv x end.
Definition any_view (x : any_field) : pyval := match x with inl x => view x | inr x => sf_view x end.

Lemma any_step x m off : any_ok x -> at_ m off (any_tlv x) ->
  oxm_parse m off = Ok (any_view x) /\ exists n, oxm_length (any_view x) = Ok n /\ length (any_tlv x) = (4 + Z.to_nat n)%nat.
Proof.
  intros H A. destruct x as [x|x]; cbn [any_ok any_tlv any_view] in *.
  - split; [apply parse_tlv; assumption|]. exists (zlen (mf_payload x)). split; [reflexivity|apply tlv_len].
  - split; [apply sf_parse; assumption|]. exists (6 + zlen (sf_payload x)). split; [reflexivity|].
    unfold sf_tlv, experimenter_tlv, zlen. rewrite app_length. cbn [length]. lia.
Qed.

Theorem C114_list : forall xs pre, Forall any_ok xs ->
  parse_list (pre ++ concat (map any_tlv xs)) (length pre) = Ok (map any_view xs).
Proof.
  intros xs pre0 H0. unfold parse_list.
  assert (G : forall xs fuel pre, Forall any_ok xs -> (length xs < fuel)%nat ->
    parse_list_ fuel (pre ++ concat (map any_tlv xs)) (length pre) = Ok (map any_view xs)).
  { clear. induction xs as [|x xs IH]; intros fuel pre H F; (destruct fuel as [|fuel]; [lia|]); cbn [parse_list_ map concat].
    - rewrite app_nil_r, Nat.ltb_irrefl. reflexivity.
    - inversion H as [|? ? H1 H2]; subst. destruct (any_step x (pre ++ any_tlv x ++ concat (map any_tlv xs)) (length pre) H1) as (P & n & L1 & L2).
      { eexists pre, _. auto. }
      match goal with |- context [(?a <? ?b)%nat] => destruct (Nat.ltb_spec a b) as [_|C] end.
      2: { rewrite !app_length in C. lia. }
      rewrite P. cbn [bind]. rewrite L1. cbn [bind]. rewrite <- Nat.add_assoc, <- L2, <- app_length, app_assoc.
      cbn [length] in F. rewrite IH by (try exact H2; lia). reflexivity. }
  apply G; [exact H0|]. rewrite app_length. clear - H0. induction H0 as [|x xs H1 H2 IH]; cbn [map concat length]; [lia|].
  rewrite app_length. destruct (any_step x (any_tlv x) 0 H1 (at_whole _)) as (_ & n & _ & L). lia.
Qed.
Print Assumptions C114_list.

(** *** Building *)

(** build_stratos raises for all arguments: ValueError for another
    experimenter or a field that is neither BASIC nor RADIOTAP, TypeError for a type
    that holds no number, struct.error for every one that does, since it takes the
    format for two numbers when there is one and the format for one when there
    are two. *)
Theorem C114_build_refuted : forall c f t hm len v k,
  (forall e, e <> stratos_number -> build_stratos c (VInt f) hm len (VInt e) (VInt t) v k = Err ValueError) /\
  (~ In f [0; 1] -> build_stratos c (VInt f) hm len (VInt stratos_number) (VInt t) v k = Err ValueError) /\
  (In f [0; 1] -> (forall s, ~ holds f t s) -> build_stratos c (VInt f) hm len (VInt stratos_number) (VInt t) v k = Err TypeError) /\
  (forall s, holds f t s -> build_stratos c (VInt f) hm len (VInt stratos_number) (VInt t) v k = Err StructError).
Proof.
  intros c f t hm len v k. split; [|split; [|split]].
  - intros e N. unfold build_stratos. cbn [py_eqz]. change stratos_id with stratos_number.
    apply Z.eqb_neq in N. rewrite N. reflexivity.
  - intros N. cbn [In] in N. unfold build_stratos. cbn [py_eqz]. change (stratos_number =? stratos_id) with true. cbv iota.
    replace (f =? 0) with false by lia. replace (f =? 1) with false by lia. reflexivity.
  - intros [<-|[<-|[]]] N; unfold build_stratos; cbn [py_eqz]; change (stratos_number =? stratos_id) with true; cbv iota.
    + change (0 =? 0) with true. cbv iota. rewrite dot11_none by (intros s J; apply (N s); constructor; exact J). reflexivity.
    + change (1 =? 0) with false. change (1 =? 1) with true. cbv iota. rewrite radiotap_none by (intros s J; apply (N s); constructor; exact J). reflexivity.
  - intros s [t' s' H|t' s' H]; unfold build_stratos; cbn [py_eqz]; change (stratos_number =? stratos_id) with true; cbv iota.
    + change (0 =? 0) with true. cbv iota. destruct (dot11_bits _ _ H) as [_ E]. rewrite E. unfold packs.
      destruct (truthy hm); [change (fmt "B") with (Ok [FU 1])|change (fmt ("B" ++ "B")%string) with (Ok [FU 1; FU 1])]; cbn [bind pack];
      destruct (pack_item (FU 1) v) as [b|e] eqn:Ei; cbn [bind]; try reflexivity; apply pack_item_err in Ei; subst e; reflexivity.
    + change (1 =? 0) with false. change (1 =? 1) with true. cbv iota. destruct (radiotap_bits _ _ H) as (_ & b & E & F1 & F2). rewrite E. unfold packs_le.
      destruct (truthy hm); [rewrite F1|rewrite F2]; cbn [bind pack_le];
      destruct (pack_item (sitem s') v) as [b'|e] eqn:Ei; cbn [bind]; try reflexivity; apply pack_item_err in Ei; subst e; reflexivity.
Qed.
Print Assumptions C114_build_refuted.

(** Noise of -95 dBm under the mask 127, the time 513, and a list. *)
Example C114_example :
  holds 1 6 (Signed 1) /\ within (Signed 1) (-95) /\ within (Signed 1) 127 /\
  oxm_parse [255; 255; 3; 8; 255; 0; 224; 77; 0; 6; 161; 127] 0 = Ok (stratos_view 1 true 8 6 (VInt (-95)) (VInt 127)) /\
  holds 1 0 (Unsigned 8) /\
  oxm_parse [255; 255; 2; 14; 255; 0; 224; 77; 0; 0; 1; 2; 0; 0; 0; 0; 0; 0] 0 = Ok (stratos_view 1 false 14 0 (VInt 513) VNone) /\
  (forall s, ~ holds 1 3 s) /\
  Forall any_ok [inl (MF 0 (VInt 1) None); inr (SF 1 6 (VInt (-95)) [161]); inr (SF 1 3 (VBytes [1; 2; 3; 4]) [1; 2; 3; 4])] /\
  oxm_parse [255; 255; 3; 10; 255; 0; 224; 77; 0; 3; 1; 2; 3; 4] 0 = Err TypeError /\
  build_stratos VNone (VInt 1) (VInt 1) VNone (VInt stratos_number) (VInt 6) (VInt (-95)) (VInt 127) = Err StructError.
Proof.
  assert (H6 : holds 1 6 (Signed 1)) by (constructor; cbn; tauto).
  assert (N3 : forall s, ~ holds 1 3 s).
  { intros s H. inversion H as [|t s' I]; subst. cbn [radiotap In] in I. repeat (destruct I as [I|I]; [discriminate I|]). exact I. }
  split; [exact H6|]. split; [cbn; lia|]. split; [cbn; lia|]. split; [vm_compute; reflexivity|].
  split; [constructor; cbn; tauto|]. split; [vm_compute; reflexivity|]. split; [exact N3|]. split.
  - apply Forall_cons; [repeat split; cbn; lia|]. apply Forall_cons.
    + split; [cbn; lia|]. split; [cbn; lia|]. split; [vm_compute; discriminate|]. left. exists (Signed 1), (-95).
      split; [exact H6|]. split; [cbn; lia|]. split; reflexivity.
    + apply Forall_cons; [|apply Forall_nil]. split; [cbn; lia|]. split; [cbn; lia|]. split; [vm_compute; discriminate|]. right. split; [exact N3|reflexivity].
  - split; vm_compute; reflexivity.
Qed.
