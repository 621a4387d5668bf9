(** Lemmas about [Struct.v]. *)

From Verif Require Export Struct.
Local Open Scope Z_scope.

Lemma bind_ok {A B} (r : res A) (k : A -> res B) (b : B) :
  bind r k = Ok b -> exists a, r = Ok a /\ k a = Ok b.
Proof. destruct r as [a|e]; cbn; intros H; [exists a; auto | discriminate]. Qed.

Ltac inv_bind H :=
  let a := fresh "a" in let Ha := fresh "Ha" in
  apply bind_ok in H; destruct H as [a [Ha H]].

(** Evaluate the (closed) format strings of the goal. *)
Ltac eval_fmt :=
  repeat match goal with
  | |- context [fmt ?s] =>
      let v := eval vm_compute in (fmt s) in
      replace (fmt s) with v by (vm_compute; reflexivity)
  end.

Lemma pow256_pos w : 0 < 256 ^ Z.of_nat w.
Proof. apply Z.pow_pos_nonneg; lia. Qed.

Lemma pow256_S w : 256 ^ Z.of_nat (S w) = 256 * 256 ^ Z.of_nat w.
Proof. rewrite Nat2Z.inj_succ, Z.pow_succ_r by lia. reflexivity. Qed.

Lemma be_length w : forall z, length (be w z) = w.
Proof.
  induction w as [|w IH]; intros z; cbn [be]; [reflexivity|].
  rewrite app_length, IH. cbn. lia.
Qed.

Lemma be_ok w : forall z, bytes_ok (be w z).
Proof.
  induction w as [|w IH]; intros z; cbn [be]; [constructor|].
  apply Forall_app; split; [apply IH|].
  constructor; [|constructor]. unfold byte_ok. lia.
Qed.

Lemma of_be_app l x : of_be (l ++ [x]) = of_be l * 256 + x.
Proof. unfold of_be. rewrite fold_left_app. reflexivity. Qed.

Lemma of_be_be_mod w : forall z, of_be (be w z) = z mod 256 ^ Z.of_nat w.
Proof.
  induction w as [|w IH]; intros z; cbn [be].
  - change (256 ^ Z.of_nat 0) with 1. rewrite Z.mod_1_r. reflexivity.
  - rewrite of_be_app, IH, pow256_S.
    pose proof (pow256_pos w) as Hp.
    rewrite (Z.rem_mul_r z 256 (256 ^ Z.of_nat w)) by lia. lia.
Qed.

Lemma of_be_be w z : in_u w z = true -> of_be (be w z) = z.
Proof.
  unfold in_u. intros H. rewrite of_be_be_mod. apply Z.mod_small. lia.
Qed.

Lemma of_be_range l : bytes_ok l -> 0 <= of_be l < 256 ^ zlen l.
Proof.
  unfold zlen. induction l as [|x l IH] using rev_ind; intros H.
  - cbn. lia.
  - apply Forall_app in H; destruct H as [Hl Hx].
    inversion Hx as [|? ? Hb _]; subst. specialize (IH Hl).
    rewrite of_be_app, app_length. cbn [length].
    replace (length l + 1)%nat with (S (length l)) by lia.
    rewrite pow256_S. unfold byte_ok in Hb. lia.
Qed.

Lemma be_of_be l : bytes_ok l -> be (length l) (of_be l) = l.
Proof.
  induction l as [|x l IH] using rev_ind; intros H; [reflexivity|].
  apply Forall_app in H; destruct H as [Hl Hx].
  inversion Hx as [|? ? Hb _]; subst. specialize (IH Hl).
  rewrite of_be_app, app_length. cbn [length].
  replace (length l + 1)%nat with (S (length l)) by lia. cbn [be].
  unfold byte_ok in Hb.
  replace ((of_be l * 256 + x) / 256) with (of_be l) by lia.
  replace ((of_be l * 256 + x) mod 256) with x by lia.
  rewrite IH. reflexivity.
Qed.

Lemma zeros_length n : length (zeros n) = n.
Proof. apply repeat_length. Qed.

Lemma zeros_ok n : bytes_ok (zeros n).
Proof.
  unfold zeros. induction n; cbn; constructor; [unfold byte_ok; lia|assumption].
Qed.

Lemma bytes_ok_app a b : bytes_ok a -> bytes_ok b -> bytes_ok (a ++ b).
Proof. intros Ha Hb. apply Forall_app; split; assumption. Qed.

(** Solve [bytes_ok] of a concatenation of fields. *)
Ltac bok :=
  repeat match goal with
  | |- bytes_ok (be _ _) => apply be_ok
  | |- bytes_ok (zeros _) => apply zeros_ok
  | |- bytes_ok (_ ++ _) => apply bytes_ok_app
  end.

Lemma pad_length n (b : bytes) : length (firstn n b ++ zeros (n - length b)) = n.
Proof. rewrite app_length, firstn_length, zeros_length. lia. Qed.

Lemma pack_item_length f v b : pack_item f v = Ok b -> length b = item_size f.
Proof.
  destruct f as [w|w|n|n], v as [|z|s|t|l|c l]; cbn; try discriminate.
  - destruct (in_u w z); intros H; inversion H. apply be_length.
  - destruct (in_i w z); intros H; inversion H. apply be_length.
  - intros H; inversion H. apply pad_length.
Qed.

Lemma pack_length fs : forall vs b, pack fs vs = Ok b -> length b = calcsize fs.
Proof.
  induction fs as [|f fs IH]; intros vs b H; cbn [pack calcsize] in *.
  - destruct vs; inversion H; reflexivity.
  - assert (Hx : forall n, f = FX n -> length b = (item_size f + calcsize fs)%nat).
    { intros n ->. cbn [item_size]. inv_bind H. inversion H; subst.
      rewrite app_length, zeros_length. f_equal. eapply IH; eassumption. }
    destruct f as [w|w|n|n]; try (eapply Hx; reflexivity);
      (destruct vs as [|v vs]; [discriminate|];
       inv_bind H; inv_bind H; inversion H; subst;
       rewrite app_length, (pack_item_length _ _ _ Ha), (IH _ _ Ha0); reflexivity).
Qed.

(** What unpacking returns for packed arguments: integers unchanged, strings
    cut or padded to the field size. *)
Definition norm_item (f : fitem) (v : pyval) : pyval :=
  match f, v with
  | FS n, VBytes b => VBytes (firstn n b ++ zeros (n - length b))
  | _, _ => v
  end.

Fixpoint norm (fs : list fitem) (vs : list pyval) : list pyval :=
  match fs, vs with
  | [], _ => []
  | FX _ :: fs', _ => norm fs' vs
  | f :: fs', v :: vs' => norm_item f v :: norm fs' vs'
  | _, [] => []
  end.

Lemma firstn_app_l {A} n (a b : list A) : length a = n -> firstn n (a ++ b) = a.
Proof.
  intros <-. rewrite firstn_app, Nat.sub_diag, firstn_O, app_nil_r. apply firstn_all.
Qed.

Lemma skipn_app_l {A} n (a b : list A) : length a = n -> skipn n (a ++ b) = b.
Proof. intros <-. rewrite skipn_app, Nat.sub_diag, skipn_all. reflexivity. Qed.

Lemma of_be_be_signed w z :
  in_i w z = true -> (0 < w)%nat ->
  (let u := of_be (be w z) in
   if u <? 256 ^ Z.of_nat w / 2 then u else u - 256 ^ Z.of_nat w) = z.
Proof.
  intros H Hw. cbv zeta. rewrite of_be_be_mod. unfold in_i in H.
  pose proof (pow256_pos w) as Hp.
  assert (He : 256 ^ Z.of_nat w = 2 * (256 ^ Z.of_nat w / 2)).
  { destruct w as [|w]; [lia|]. rewrite pow256_S. lia. }
  set (M := 256 ^ Z.of_nat w) in *. set (h := M / 2) in *.
  assert (Hc : 0 <= z \/ z < 0) by lia. destruct Hc as [Hc|Hc].
  - rewrite Z.mod_small by lia. destruct (Z.ltb_spec z h); lia.
  - replace (z mod M) with (z + M).
    + destruct (Z.ltb_spec (z + M) h); lia.
    + symmetry. rewrite <- (Z.mod_small (z + M) M) by lia.
      rewrite <- (Z.mul_1_l M) at 2. rewrite Z.mod_add by lia. reflexivity.
Qed.

(** Formats in which no signed item has width 0 (always so in [fmt]). *)
Definition fitem_ok (f : fitem) : bool :=
  match f with FI O => false | _ => true end.

Lemma decode_pack fs : forall vs b rest,
  forallb fitem_ok fs = true ->
  pack fs vs = Ok b -> decode fs (b ++ rest) = norm fs vs.
Proof.
  induction fs as [|f fs IH]; intros vs b rest Hf H; cbn [pack decode norm] in *; [reflexivity|].
  cbn [forallb] in Hf. apply andb_true_iff in Hf. destruct Hf as [Hf1 Hf].
  destruct f as [w|w|n|n].
  - destruct vs as [|v vs]; [discriminate|]. inv_bind H. inv_bind H. inversion H; subst.
    pose proof (pack_item_length _ _ _ Ha) as Hl. cbn in Hl.
    rewrite <- app_assoc, firstn_app_l, skipn_app_l by exact Hl.
    rewrite (IH _ _ _ Hf Ha0).
    destruct v; cbn in Ha; try discriminate.
    destruct (in_u w z) eqn:Hz; inversion Ha; subst.
    rewrite of_be_be by exact Hz. reflexivity.
  - destruct vs as [|v vs]; [discriminate|]. inv_bind H. inv_bind H. inversion H; subst.
    pose proof (pack_item_length _ _ _ Ha) as Hl. cbn in Hl.
    rewrite <- app_assoc, firstn_app_l, skipn_app_l by exact Hl.
    rewrite (IH _ _ _ Hf Ha0).
    destruct v; cbn in Ha; try discriminate.
    clear Hl. destruct (in_i w z) eqn:Hz; inversion Ha; subst. cbn [norm_item].
    do 2 f_equal. apply of_be_be_signed; [exact Hz|].
    destruct w; [discriminate Hf1 | lia].
  - destruct vs as [|v vs]; [discriminate|]. inv_bind H. inv_bind H. inversion H; subst.
    pose proof (pack_item_length _ _ _ Ha) as Hl. cbn in Hl.
    rewrite <- app_assoc, firstn_app_l, skipn_app_l by exact Hl.
    rewrite (IH _ _ _ Hf Ha0).
    destruct v; cbn in Ha; try discriminate. inversion Ha; subst. reflexivity.
  - inv_bind H. inversion H; subst.
    rewrite <- app_assoc, skipn_app_l by apply zeros_length.
    eapply IH; eassumption.
Qed.

(** [at_ msg off b]: the bytes [b] stand at offset [off] of [msg]. *)
Definition at_ (msg : bytes) (off : nat) (b : bytes) : Prop :=
  exists pre post, msg = pre ++ b ++ post /\ off = length pre.

Lemma at_whole b : at_ b 0 b.
Proof. exists [], []. rewrite app_nil_r. auto. Qed.

Lemma at_app msg off a b :
  at_ msg off (a ++ b) -> at_ msg off a /\ at_ msg (off + length a) b.
Proof.
  intros (pre & post & -> & ->). split.
  - exists pre, (b ++ post). rewrite <- app_assoc. auto.
  - exists (pre ++ a), post. rewrite <- !app_assoc, app_length. auto.
Qed.

Lemma at_length msg off b : at_ msg off b -> (off + length b <= length msg)%nat.
Proof. intros (pre & post & -> & ->). rewrite !app_length. lia. Qed.

Lemma at_skipn msg off b : at_ msg off b -> exists rest, skipn off msg = b ++ rest.
Proof.
  intros (pre & post & -> & ->). exists post. apply skipn_app_l. reflexivity.
Qed.

Lemma at_slice msg off b : at_ msg off b -> slice msg off (off + length b) = b.
Proof.
  intros (pre & post & -> & ->). unfold slice.
  rewrite skipn_app_l by reflexivity. rewrite firstn_app_l by lia. reflexivity.
Qed.

Lemma at_slice' msg off b e :
  at_ msg off b -> e = (off + length b)%nat -> slice msg off e = b.
Proof. intros H ->. apply at_slice; exact H. Qed.

Lemma at_ext msg off a pre post : at_ msg off a -> at_ (pre ++ msg ++ post) (length pre + off) a.
Proof.
  intros (p & q & -> & ->). exists (pre ++ p), (q ++ post).
  rewrite <- !app_assoc, app_length. auto.
Qed.

Lemma unpack_pack fs vs b msg off :
  forallb fitem_ok fs = true ->
  pack fs vs = Ok b -> at_ msg off b -> unpack_from fs msg off = Ok (norm fs vs).
Proof.
  intros Hf Hp Hat. unfold unpack_from.
  pose proof (pack_length _ _ _ Hp) as Hl. pose proof (at_length _ _ _ Hat) as Hm.
  rewrite Hl in Hm. apply Nat.leb_le in Hm. rewrite Hm.
  destruct (at_skipn _ _ _ Hat) as [rest Hr]. rewrite Hr.
  erewrite decode_pack by eassumption. reflexivity.
Qed.

(** Step lemmas used to run [unpack_from] on explicit layouts. *)
Lemma unpack_decode fs b msg off :
  at_ msg off b -> length b = calcsize fs ->
  unpack_from fs msg off = Ok (decode fs b).
Proof.
  intros Hat Hl. unfold unpack_from.
  pose proof (at_length _ _ _ Hat) as Hm. rewrite Hl in Hm.
  apply Nat.leb_le in Hm. rewrite Hm.
  destruct (at_skipn _ _ _ Hat) as [rest Hr]. rewrite Hr.
  f_equal. clear - Hl. revert b rest Hl.
  induction fs as [|f fs IH]; intros b rest Hl; cbn [decode calcsize] in *; [reflexivity|].
  assert (Hs : (item_size f <= length b)%nat) by lia.
  assert (Hfn : firstn (item_size f) (b ++ rest) = firstn (item_size f) b).
  { rewrite firstn_app. replace (item_size f - length b)%nat with 0%nat by lia.
    rewrite firstn_O, app_nil_r. reflexivity. }
  assert (Hsk : skipn (item_size f) (b ++ rest) = skipn (item_size f) b ++ rest).
  { rewrite skipn_app. replace (item_size f - length b)%nat with 0%nat by lia. reflexivity. }
  assert (Hrec : decode fs (skipn (item_size f) (b ++ rest)) = decode fs (skipn (item_size f) b)).
  { rewrite Hsk. apply IH. rewrite skipn_length. lia. }
  destruct f as [w|w|n|n]; cbn [item_size] in *; rewrite ?Hfn, Hrec; reflexivity.
Qed.

Lemma decode_FU w z fs rest :
  in_u w z = true ->
  decode (FU w :: fs) (be w z ++ rest) = VInt z :: decode fs rest.
Proof.
  intros H. cbn [decode].
  rewrite firstn_app_l, skipn_app_l by apply be_length.
  rewrite of_be_be by exact H. reflexivity.
Qed.

Lemma decode_FX n fs rest :
  decode (FX n :: fs) (zeros n ++ rest) = decode fs rest.
Proof. cbn [decode]. rewrite skipn_app_l by apply zeros_length. reflexivity. Qed.

Lemma decode_FS n s fs rest :
  length s = n ->
  decode (FS n :: fs) (s ++ rest) = VBytes s :: decode fs rest.
Proof.
  intros H. cbn [decode]. rewrite firstn_app_l, skipn_app_l by exact H. reflexivity.
Qed.

Lemma pack_FU w z fs vs :
  in_u w z = true ->
  pack (FU w :: fs) (VInt z :: vs) = (r <- pack fs vs ;; Ok (be w z ++ r)).
Proof. intros H. cbn [pack pack_item]. rewrite H. reflexivity. Qed.

(** Every packed byte is a byte. *)
Lemma pack_ok fs : forall vs b,
  Forall (fun v => match v with VBytes s => bytes_ok s | _ => True end) vs ->
  pack fs vs = Ok b -> bytes_ok b.
Proof.
  induction fs as [|f fs IH]; intros vs b Hv H; cbn [pack] in H.
  - destruct vs; inversion H; constructor.
  - assert (Hx : forall n, f = FX n -> bytes_ok b).
    { intros n ->. inv_bind H. inversion H; subst.
      apply Forall_app; split; [apply zeros_ok | eapply IH; eassumption]. }
    destruct f as [w|w|n|n]; try (eapply Hx; reflexivity);
      (destruct vs as [|v vs]; [discriminate|];
       inversion Hv as [|? ? Hv1 Hv2]; subst;
       inv_bind H; inv_bind H; inversion H; subst;
       apply Forall_app; split; [|eapply IH; eassumption];
       destruct v; cbn in Ha; try discriminate).
    + destruct (in_u w z); inversion Ha; apply be_ok.
    + destruct (in_i w z); inversion Ha; apply be_ok.
    + inversion Ha; subst. apply Forall_app; split; [|apply zeros_ok].
      apply Forall_forall. intros x Hin. unfold bytes_ok in Hv1.
      rewrite Forall_forall in Hv1. apply Hv1.
      match goal with |- In _ ?s => rewrite <- (firstn_skipn n s) end.
      apply in_or_app; left; exact Hin.
Qed.

(** Packing succeeds exactly when the arguments fit. *)
Definition fits_item (f : fitem) (v : pyval) : Prop :=
  match f, v with
  | FU w, VInt z => 0 <= z < 256 ^ Z.of_nat w
  | FI w, VInt z => - (256 ^ Z.of_nat w / 2) <= z < 256 ^ Z.of_nat w / 2
  | FS _, VBytes _ => True
  | _, _ => False
  end.

Definition is_pad (f : fitem) : bool := match f with FX _ => true | _ => false end.

Lemma pack_item_fits f v : is_pad f = false -> (exists b, pack_item f v = Ok b) <-> fits_item f v.
Proof.
  intros Hp. destruct f as [w|w|n|n], v as [|z|s|t|l|c l]; cbn in *;
    try (split; [intros [b H]; discriminate | tauto]); try discriminate.
  - unfold in_u. destruct (Z.leb_spec 0 z), (Z.ltb_spec z (256 ^ Z.of_nat w)); cbn;
      split; intros H'; try lia; try (destruct H'; discriminate); eauto.
  - unfold in_i. destruct (Z.leb_spec (- (256 ^ Z.of_nat w / 2)) z), (Z.ltb_spec z (256 ^ Z.of_nat w / 2)); cbn;
      split; intros H'; try lia; try (destruct H'; discriminate); eauto.
  - split; eauto.
Qed.

Lemma pack_fits fs : forall vs,
  (exists b, pack fs vs = Ok b) <->
  Forall2 fits_item (filter (fun f => negb (is_pad f)) fs) vs.
Proof.
  induction fs as [|f fs IH]; intros vs; cbn [pack filter].
  - destruct vs; split; intros H; eauto; try (destruct H; discriminate); inversion H.
  - destruct (is_pad f) eqn:Hp; cbn [negb].
    + destruct f; try discriminate. rewrite <- IH. split; intros [b H].
      * inv_bind H. eauto.
      * rewrite H. cbn. eauto.
    + assert (Hgoal : (exists b, match vs with [] => Err StructError
           | v :: vs' => b <- pack_item f v ;; r <- pack fs vs' ;; Ok (b ++ r) end = Ok b) <->
           Forall2 fits_item (f :: filter (fun f0 => negb (is_pad f0)) fs) vs).
      { destruct vs as [|v vs].
        - split; [intros [b H]; discriminate | intros H; inversion H].
        - split.
          + intros [b H]. inv_bind H. inv_bind H. constructor.
            * apply pack_item_fits; eauto.
            * apply IH. eauto.
          + intros H. inversion H as [|? ? ? ? H1 H2]; subst.
            apply (pack_item_fits _ _ Hp) in H1. destruct H1 as [b1 H1].
            apply IH in H2. destruct H2 as [b2 H2]. rewrite H1, H2. cbn. eauto. }
      destruct f; try discriminate; exact Hgoal.
Qed.
