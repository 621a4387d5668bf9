(** Proofs about the OXM codec of OpenFlow 1.4, by comparison with that of
    1.3. *)

From Verif Require Import Py Struct P_Struct M_Oxm S_Oxm P_Oxm M_Oxm5 S_Oxm5.
Local Open Scope Z_scope.
Local Open Scope list_scope.

Lemma bits_same : bits5 = bits_.
Proof. reflexivity. Qed.

(** Every field has one value. *)
Lemma one_item f : exists i, fmt (bits_ f) = Ok [i] /\ is_pad i = false.
Proof.
  unfold bits_.
  repeat (match goal with |- context [if ?b then _ else _] => destruct b end;
          [eexists; split; [vm_compute; reflexivity|reflexivity]|]).
  eexists; split; [vm_compute; reflexivity|reflexivity].
Qed.

Lemma one_value f m off vs : unpacks (bits_ f) m off = Ok vs -> exists v, vs = [v].
Proof.
  destruct (one_item f) as (i & E & P). unfold unpacks. rewrite E. cbn [bind]. unfold unpack_from.
  destruct (_ <=? _)%nat; [|discriminate]. intros H. injection H as <-.
  destruct i; try discriminate P; cbn [decode]; eexists; reflexivity.
Qed.

(** The result without the field for the mask that is not there. *)
Definition shorten (v : pyval) : pyval :=
  match v with
  | VTup cls [c; f; VInt h; n; w; k] => if h =? 0 then VTup cls [c; f; VInt h; n; w] else v
  | _ => v
  end.

Lemma parse5_rel m off :
  oxm5_parse m off =
  (vs <- unpacks "HBB" m off ;;
   match vs with
   | [VInt c; VInt p; VInt n] => if c =? 32768 then (v <- oxm_parse m off ;; Ok (shorten v)) else Err ValueError
   | _ => Err ValueError
   end).
Proof.
  unfold oxm5_parse, oxm_parse. destruct (unpacks "HBB" m off) as [vs|]; cbn [bind]; [|reflexivity].
  destruct vs as [|[|c| | | |] vs]; try reflexivity.
  destruct vs as [|[|p| | | |] vs]; try reflexivity.
  destruct vs as [|[|n| | | |] vs]; try reflexivity.
  destruct vs; try reflexivity. cbv zeta. destruct (c =? 32768); [|reflexivity].
  cbn [negb]. rewrite bits_same. unfold value_mask. destruct (Z.land p 1 =? 0) eqn:H; cbn [negb].
  - destruct (sizes _) as [s|]; cbn [bind]; [|reflexivity]. destruct (n =? _); cbn [assert_ bind]; [|reflexivity].
    destruct (unpacks _ m (off + 4)) as [vs|] eqn:U; cbn [bind]; [|reflexivity].
    destruct (one_value _ _ _ _ U) as [v ->]. cbn [bind]. unfold oxm_, shorten. rewrite H. reflexivity.
  - destruct (sizes _) as [s|]; cbn [bind]; [|reflexivity]. destruct (n =? _); cbn [assert_ bind]; [|reflexivity].
    destruct (unpacks _ m (off + 4)) as [vs|]; cbn [bind]; [|reflexivity].
    destruct vs as [|v [|k [|]]]; try reflexivity. cbn [bind]. unfold oxm_, shorten. rewrite H. reflexivity.
Qed.

Lemma shorten_view x : shorten (view x) = view5 x.
Proof. destruct x as [f v [k|]]; reflexivity. Qed.

(** The header of a TLV that is parsed. *)
Lemma parse5_ok m off v : oxm5_parse m off = Ok v ->
  exists p n w, unpacks "HBB" m off = Ok [VInt 32768; VInt p; VInt n] /\ oxm_parse m off = Ok w /\ v = shorten w.
Proof.
  rewrite parse5_rel. destruct (unpacks "HBB" m off) as [vs|] eqn:U; cbn [bind]; [|discriminate].
  destruct vs as [|[|c| | | |] vs]; try discriminate.
  destruct vs as [|[|p| | | |] vs]; try discriminate.
  destruct vs as [|[|n| | | |] vs]; try discriminate.
  destruct vs; try discriminate. destruct (Z.eqb_spec c 32768) as [->|]; [|discriminate].
  intros H. apply bind_ok in H. destruct H as (w & W & H). exists p, n, w. repeat split; congruence.
Qed.

Lemma parse5_of_parse m off v p n :
  unpacks "HBB" m off = Ok [VInt 32768; VInt p; VInt n] -> oxm_parse m off = v ->
  oxm5_parse m off = (w <- v ;; Ok (shorten w)).
Proof. intros U H. rewrite parse5_rel, U. cbn [bind]. change (32768 =? 32768) with true. cbv iota. rewrite H. reflexivity. Qed.

Lemma class_ok (p n : Z) m off rest : 0 <= p < 256 -> 0 <= n < 256 -> at_ m off ([128; 0; p; n] ++ rest) ->
  unpacks "HBB" m off = Ok [VInt 32768; VInt p; VInt n].
Proof. intros Hp Hn H. apply (unpack_hdr 32768 p n m off rest) in H; try lia. exact (proj1 H). Qed.

Lemma parse5_tlv x m off : mf_ok x -> at_ m off (tlv x) -> oxm5_parse m off = Ok (view5 x).
Proof.
  intros H Hat. pose proof H as (Hf & _).
  rewrite (parse5_of_parse m off (Ok (view x)) (mf_field x * 2 + (if mf_mask x then 1 else 0)) (zlen (mf_payload x))).
  - cbn [bind]. rewrite shorten_view. reflexivity.
  - apply (class_ok _ _ _ _ (mf_payload x)); [destruct (mf_mask x); lia|pose proof (payload_small _ H); lia|exact Hat].
  - apply parse_tlv; assumption.
Qed.

Lemma parse_is_oxm m off p n v : unpacks "HBB" m off = Ok [VInt 32768; VInt p; VInt n] -> oxm_parse m off = Ok v -> is_oxm v.
Proof.
  intros U H. unfold oxm_parse in H. rewrite U in H. cbn [bind] in H. change (32768 =? 32768) with true in H. cbv iota zeta in H.
  unfold value_mask in H. destruct (negb _); inv_bind H; inv_bind H; inv_bind H.
  - destruct a1 as [|? [|? [|]]]; try discriminate. injection H as <-. eexists. reflexivity.
  - destruct a1; try discriminate. injection H as <-. eexists. reflexivity.
Qed.

Lemma parse5_inv m off v : bytes_ok m -> oxm5_parse m off = Ok v ->
  exists x, mf_ok x /\ v = view5 x /\ slice m off (off + length (tlv x)) = tlv x /\
    (off + length (tlv x) <= length m)%nat.
Proof.
  intros Hb H. destruct (parse5_ok _ _ _ H) as (p & n & w & U & W & ->).
  destruct (parse_is_oxm _ _ _ _ _ U W) as [vs ->]. destruct (parse_oxm_inv _ _ _ Hb W) as (x & X1 & X2 & X3 & X4).
  exists x. rewrite X2, shorten_view. auto.
Qed.

Lemma build5_rel c f hm len v k : c = VNone \/ c = VInt 32768 ->
  oxm5_build c f hm len v k = oxm_build c f hm len v k.
Proof. intros [->| ->]; reflexivity. Qed.

Lemma build5_class c f hm len v k b : oxm5_build c f hm len v k = Ok b -> py_eqz (default c 32768) 32768 = true.
Proof. unfold oxm5_build. cbv zeta. destruct (py_eqz _ _); [reflexivity|discriminate]. Qed.

Lemma class_eq c : py_eqz (default c 32768) 32768 = true -> c = VNone \/ c = VInt 32768.
Proof. destruct c; cbn; try discriminate; auto. intros H. apply Z.eqb_eq in H. subst. auto. Qed.

(** *** Lists *)

Lemma length5 x : oxm5_length (view5 x) = Ok (zlen (mf_payload x)).
Proof. reflexivity. Qed.

Lemma parse_list5_tlvs l : forall fuel pre,
  Forall mf_ok l -> (length (concat (map tlv l)) < fuel)%nat ->
  parse_list5_ fuel (pre ++ concat (map tlv l)) (length pre) = Ok (map view5 l).
Proof.
  induction l as [|x l IH]; intros fuel pre Hl Hfu; (destruct fuel as [|fuel]; [cbn in Hfu; lia|]).
  - cbn [map concat parse_list5_]. rewrite app_nil_r, Nat.ltb_irrefl. reflexivity.
  - inversion Hl as [|? ? Hx Hl']; subst. cbn [map concat] in *. rewrite app_length in Hfu.
    pose proof (tlv_len x) as Tl.
    cbn [parse_list5_].
    destruct (Nat.ltb_spec (length pre) (length (pre ++ tlv x ++ concat (map tlv l)))) as [_|C].
    2: { rewrite !app_length in C. lia. }
    rewrite (parse5_tlv x) by (try exact Hx; exists pre, (concat (map tlv l)); auto).
    cbn [bind]. rewrite length5. cbn [bind].
    rewrite <- Nat.add_assoc, <- Tl.
    replace (pre ++ tlv x ++ concat (map tlv l)) with ((pre ++ tlv x) ++ concat (map tlv l)) by apply app_assoc_reverse.
    rewrite <- app_length. rewrite IH; [reflexivity|exact Hl'|lia].
Qed.

(** The same with anything behind the fields that the parser refuses. *)
Lemma parse_list5_stops l : forall fuel pre post e,
  Forall mf_ok l -> post <> [] -> (length (concat (map tlv l) ++ post) < fuel)%nat ->
  oxm5_parse (pre ++ concat (map tlv l) ++ post) (length (pre ++ concat (map tlv l))) = Err e ->
  parse_list5_ fuel (pre ++ concat (map tlv l) ++ post) (length pre) = Err e.
Proof.
  induction l as [|x l IH]; intros fuel pre post e Hl Hp Hfu He; (destruct fuel as [|fuel]; [cbn in Hfu; lia|]).
  - cbn [map concat parse_list5_ app] in *. rewrite app_nil_r in He.
    destruct (Nat.ltb_spec (length pre) (length (pre ++ post))) as [_|C].
    2: { rewrite app_length in C. destruct post; [congruence|cbn in C; lia]. }
    rewrite He. reflexivity.
  - inversion Hl as [|? ? Hx Hl']; subst. cbn [map concat] in *. rewrite !app_length in Hfu.
    pose proof (tlv_len x) as Tl.
    cbn [parse_list5_].
    destruct (Nat.ltb_spec (length pre) (length (pre ++ (tlv x ++ concat (map tlv l)) ++ post))) as [_|C].
    2: { rewrite !app_length in C. lia. }
    rewrite (parse5_tlv x); [|exact Hx|].
    2: { exists pre, (concat (map tlv l) ++ post). rewrite <- !app_assoc. auto. }
    cbn [bind]. rewrite length5. cbn [bind].
    rewrite <- Nat.add_assoc, <- Tl.
    replace (pre ++ (tlv x ++ concat (map tlv l)) ++ post) with ((pre ++ tlv x) ++ concat (map tlv l) ++ post) in *
      by (rewrite <- !app_assoc; reflexivity).
    rewrite <- app_length. rewrite (IH fuel (pre ++ tlv x) post e); [reflexivity|exact Hl'|exact Hp|rewrite app_length; lia|].
    rewrite <- (app_assoc pre (tlv x) (concat (map tlv l))). exact He.
Qed.

Lemma parse_list5_fuel m : forall f1 f2 off,
  (length m - off < f1)%nat -> (length m - off < f2)%nat -> parse_list5_ f1 m off = parse_list5_ f2 m off.
Proof.
  induction f1 as [|f1 IH]; intros f2 off H1 H2; [lia|]. destruct f2 as [|f2]; [lia|].
  cbn [parse_list5_]. destruct (Nat.ltb_spec off (length m)); [|reflexivity].
  destruct (oxm5_parse m off) as [x|]; [|reflexivity]. cbn [bind].
  destruct (oxm5_length x) as [n|]; [|reflexivity]. cbn [bind].
  rewrite (IH f2); [reflexivity| |]; lia.
Qed.

Lemma parse5_not_fuel m off : oxm5_parse m off <> Err OutOfFuel.
Proof.
  pose proof (parse_err_not_fuel m off) as P. rewrite parse5_rel.
  destruct (unpacks "HBB" m off) as [vs|] eqn:U; cbn [bind].
  - destruct vs as [|[|c| | | |] vs]; try discriminate.
    destruct vs as [|[|p| | | |] vs]; try discriminate.
    destruct vs as [|[|n| | | |] vs]; try discriminate.
    destruct vs; try discriminate. destruct (c =? 32768); [|discriminate].
    destruct (oxm_parse m off); cbn [bind]; congruence.
  - unfold oxm_parse in P. rewrite U in P. exact P.
Qed.

Lemma parse_list5_terminates m : forall fuel off,
  (length m - off < fuel)%nat -> parse_list5_ fuel m off <> Err OutOfFuel.
Proof.
  induction fuel as [|fuel IH]; intros off H; [lia|]. cbn [parse_list5_].
  destruct (Nat.ltb_spec off (length m)); [|discriminate].
  pose proof (parse5_not_fuel m off) as P1. destruct (oxm5_parse m off) as [x|]; cbn [bind]; [|congruence].
  assert (P2 : oxm5_length x <> Err OutOfFuel).
  { unfold oxm5_length. destruct x; try discriminate. destruct l as [|? [|? [|? [|[|n| | | |] ?]]]]; discriminate. }
  destruct (oxm5_length x) as [n|]; cbn [bind]; [|congruence].
  specialize (IH (off + 4 + Z.to_nat n)%nat ltac:(lia)).
  destruct (parse_list5_ fuel m (off + 4 + Z.to_nat n)); cbn; congruence.
Qed.

Lemma parse_list5_inv m : bytes_ok m -> forall fuel off l,
  parse_list5_ fuel m off = Ok l -> (off <= length m)%nat ->
  exists xs, Forall mf_ok xs /\ l = map view5 xs /\ skipn off m = concat (map tlv xs).
Proof.
  intros Hb. induction fuel as [|fuel IH]; intros off l H Ho; [discriminate|].
  cbn [parse_list5_] in H. destruct (Nat.ltb_spec off (length m)) as [Hlt|Hge].
  - inv_bind H. inv_bind H. inv_bind H. injection H as <-.
    destruct (parse5_inv _ _ _ Hb Ha) as (x & X1 & -> & X3 & X4).
    rewrite length5 in Ha0. injection Ha0 as <-.
    rewrite <- Nat.add_assoc, <- tlv_len in Ha1.
    destruct (IH _ _ Ha1 X4) as (xs & Y1 & -> & Y3).
    exists (x :: xs). split; [constructor; assumption|]. split; [reflexivity|].
    cbn [map concat]. rewrite <- Y3. unfold slice in X3.
    replace (off + length (tlv x) - off)%nat with (length (tlv x)) in X3 by lia.
    transitivity (firstn (length (tlv x)) (skipn off m) ++ skipn (length (tlv x)) (skipn off m)).
    { symmetry. apply firstn_skipn. }
    rewrite X3. f_equal.
    generalize (length (tlv x)). intros n.
    clear. revert off. induction m as [|y m IHm]; intros off; [rewrite !skipn_nil; reflexivity|].
    destruct off; [reflexivity|]. cbn. apply IHm.
  - injection H as <-. exists []. split; [constructor|]. split; [reflexivity|].
    cbn. apply skipn_all2. exact Hge.
Qed.

(** *** Other classes *)

Lemma parse5_other_class m off : bytes_ok m -> (off + 4 <= length m)%nat -> class_at m off <> 32768 ->
  oxm5_parse m off = Err ValueError.
Proof.
  intros Hb Hl Hc. rewrite parse5_rel.
  assert (E : exists c p n, unpacks "HBB" m off = Ok [VInt c; VInt p; VInt n] /\ c = class_at m off).
  { assert (D : m = firstn off m ++ skipn off m) by (symmetry; apply firstn_skipn).
    assert (Ls : (4 <= length (skipn off m))%nat) by (rewrite skipn_length; lia).
    assert (Lf : length (firstn off m) = off) by (rewrite firstn_length; lia).
    unfold class_at. rewrite D, !app_nth2 by (rewrite Lf; lia). rewrite Lf, Nat.sub_diag. replace (S off - off)%nat with 1%nat by lia.
    destruct (skipn off m) as [|a [|b [|c [|d r]]]] eqn:Es; cbn in Ls; try lia.
    unfold unpacks. change (fmt "HBB") with (Ok [FU 2; FU 1; FU 1]). cbn [bind]. unfold unpack_from.
    rewrite app_length, Lf. cbn [calcsize item_size length].
    rewrite (proj2 (Nat.leb_le _ _)) by lia.
    rewrite (skipn_app_l off) by exact Lf.
    exists (a * 256 + b), c, d. split; [|reflexivity]. cbn. repeat f_equal; lia. }
  destruct E as (c & p & n & E & ->). rewrite E. cbn [bind]. rewrite (proj2 (Z.eqb_neq _ _) Hc). reflexivity.
Qed.
