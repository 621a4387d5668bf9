(** Proofs about the receive path. *)

From Verif Require Import P_Struct M_Channel S_Framing.
Local Open Scope Z_scope.

Fixpoint reads_in (es : list env) : nat :=
  match es with
  | [] => 0
  | ERead _ :: es' => S (reads_in es')
  | EClose :: es' => reads_in es'
  end.

Lemma delivered_app a b : delivered (a ++ b) = delivered a ++ delivered b.
Proof.
  induction a as [|e a IH]; cbn; [reflexivity|].
  destruct e as [[d| | |]|]; cbn; rewrite ?IH, ?app_assoc; reflexivity.
Qed.

Lemma quiet_app a b : quiet (a ++ b) <-> quiet a /\ quiet b.
Proof. apply Forall_app. Qed.

(** General behaviour of the fill loop: it consumes a prefix of the
    environment and appends exactly the delivered bytes. *)
Lemma fill_gen need : forall es b cl n k c' o,
  fill need b cl es n k = (c', o) ->
  exists used, es = used ++ envs c' /\ buf c' = b ++ delivered used /\
    nreads c' = (n + reads_in used)%nat /\
    (o = None -> (need <= length (buf c'))%nat) /\
    (cl = true -> used = []) /\
    (closed c' = true -> cl = true \/ In EClose used) /\
    (cl = true -> closed c' = true) /\
    ((need <= length b)%nat -> used = [] /\ o = None /\ closed c' = cl).
Proof.
  induction es as [|e es IH]; intros b cl n k c' o H; cbn [fill] in H;
    (destruct (Nat.leb_spec need (length b)) as [Hle|Hgt];
     [inversion H; subst; exists []; cbn; rewrite app_nil_r;
      repeat split; auto; lia |]).
  - destruct cl; inversion H; subst; exists []; cbn; rewrite app_nil_r;
      repeat split; try congruence; auto; lia.
  - destruct cl.
    { inversion H; subst; exists []; cbn; rewrite app_nil_r;
        repeat split; try congruence; auto; lia. }
    destruct e as [r|].
    + assert (Hstop : forall o0, (mkChan b false es (S n) k, Some o0) = (c', o) ->
         delivered [ERead r] = [] ->
         exists used, ERead r :: es = used ++ envs c' /\ buf c' = b ++ delivered used /\
           nreads c' = (n + reads_in used)%nat /\
           (o = None -> (need <= length (buf c'))%nat) /\
           (false = true -> used = []) /\
           (closed c' = true -> false = true \/ In EClose used) /\
           (false = true -> closed c' = true) /\
           ((need <= length b)%nat -> used = [] /\ o = None /\ closed c' = false)).
      { intros o0 Ho Hd. inversion Ho; subst. exists [ERead r].
        rewrite Hd, app_nil_r. cbn. repeat split; try congruence; auto; lia. }
      assert (Hgo : forall add, delivered [ERead r] = add ->
         fill need (b ++ add) false es (S n) k = (c', o) ->
         exists used, ERead r :: es = used ++ envs c' /\ buf c' = b ++ delivered used /\
           nreads c' = (n + reads_in used)%nat /\
           (o = None -> (need <= length (buf c'))%nat) /\
           (false = true -> used = []) /\
           (closed c' = true -> false = true \/ In EClose used) /\
           (false = true -> closed c' = true) /\
           ((need <= length b)%nat -> used = [] /\ o = None /\ closed c' = false)).
      { intros add Hd Hf. apply IH in Hf.
        destruct Hf as (used & H1 & H2 & H3 & H4 & H5 & H6 & H7 & H8).
        exists (ERead r :: used).
        change (delivered (ERead r :: used)) with (delivered ([ERead r] ++ used)).
        rewrite delivered_app, Hd. cbn [app reads_in].
        rewrite H1, H2, H3, <- app_assoc. repeat split; try congruence; auto; try lia.
        - intros Ho. specialize (H4 Ho). rewrite H2, <- app_assoc in H4. exact H4.
        - intros Hc. destruct (H6 Hc) as [|Hin]; [auto|right; right; exact Hin]. }
      destruct r as [d| |en|]; cbn [default_wrapper] in H.
      * destruct d as [|x d].
        -- eapply Hstop; [exact H|reflexivity].
        -- eapply (Hgo (x :: d)); [cbn; rewrite app_nil_r; reflexivity | exact H].
      * eapply (Hgo []); [reflexivity | rewrite app_nil_r; exact H].
      * destruct ((en =? EAGAIN) || (en =? ECONNRESET) || (en =? EBADF)).
        -- eapply Hstop; [exact H|reflexivity].
        -- destruct (en =? EINTR).
           ++ eapply (Hgo []); [reflexivity | rewrite app_nil_r; exact H].
           ++ eapply Hstop; [exact H|reflexivity].
      * eapply Hstop; [exact H|reflexivity].
    + apply IH in H. destruct H as (used & H1 & H2 & H3 & H4 & H5 & H6 & H7 & H8).
      exists (EClose :: used). cbn. rewrite H1, H2, H3.
      repeat split; try congruence; auto; try lia.
      intros Ho. specialize (H4 Ho). rewrite H2 in H4. exact H4.
Qed.

(** On a quiet environment that will deliver enough bytes, the loop
    succeeds. *)
Lemma fill_quiet need : forall es b n k,
  quiet es -> (need <= length (b ++ delivered es))%nat ->
  exists c', fill need b false es n k = (c', None) /\ closed c' = false /\
    quiet (envs c') /\ buf c' ++ delivered (envs c') = b ++ delivered es /\
    (need <= length (buf c'))%nat.
Proof.
  induction es as [|e es IH]; intros b n k Hq Hl; cbn [fill];
    (destruct (Nat.leb_spec need (length b)) as [Hle|Hgt];
     [eexists; repeat split; [exact Hq|exact Hle]|]).
  - cbn in Hl. rewrite app_nil_r in Hl. lia.
  - inversion Hq as [|? ? He Hq']; subst.
    destruct He as [[->| ->]|(x & d & ->)].
    + cbn. apply (IH b (S n) k Hq'). exact Hl.
    + cbn. apply (IH b (S n) k Hq'). exact Hl.
    + cbn [default_wrapper delivered] in *.
      destruct (IH (b ++ x :: d) (S n) k Hq') as (c' & H1 & H2 & H3 & H4 & H5).
      { rewrite <- app_assoc. exact Hl. }
      exists c'. rewrite H4, <- app_assoc. auto.
Qed.

Lemma announced_prefix a x : (4 <= length a)%nat -> announced (a ++ x) = announced a.
Proof. intros H. unfold announced. rewrite !app_nth1 by lia. reflexivity. Qed.

(** Decoding of the OpenFlow header. *)
Lemma unpack_header b :
  (8 <= length b)%nat ->
  exists v t x, unpacks "!BBHI" b 0 = Ok [VInt v; VInt t; VInt (announced b); VInt x]
    /\ v = nth 0 b 0 /\ t = nth 1 b 0 /\
    x = nth 4 b 0 * 16777216 + nth 5 b 0 * 65536 + nth 6 b 0 * 256 + nth 7 b 0.
Proof.
  intros H. unfold unpacks. eval_fmt. cbn [bind].
  unfold unpack_from. cbn [calcsize item_size].
  match goal with |- context [(?a <=? ?b)%nat] =>
    replace (a <=? b)%nat with true by (symmetry; apply Nat.leb_le; cbn; lia) end.
  do 8 (destruct b as [|? b]; [cbn in H; lia|]).
  cbn. unfold of_be, announced. cbn. do 3 eexists. split; [repeat f_equal; lia|].
  repeat split; lia.
Qed.

Lemma announced_nonneg_small b : bytes_ok b -> 0 <= announced b < 65536.
Proof.
  intros H. unfold announced.
  assert (Hn : forall i, byte_ok (nth i b 0)).
  { intros i. destruct (nth_in_or_default i b 0) as [Hin| ->]; [|unfold byte_ok; lia].
    unfold bytes_ok in H. rewrite Forall_forall in H. apply H. exact Hin. }
  pose proof (Hn 2%nat). pose proof (Hn 3%nat). unfold byte_ok in *. lia.
Qed.

(** One receive on a stream starting with a well-formed message. *)
Lemma recv_quiet c m rest :
  closed c = false -> quiet (envs c) -> msg_wf m ->
  buf c ++ delivered (envs c) = m ++ rest ->
  exists c', recv c = (c', Got m) /\ closed c' = false /\ quiet (envs c') /\
    buf c' ++ delivered (envs c') = rest.
Proof.
  intros Hcl Hq [Hm8 Hann] Hs. unfold recv, fill_chan. rewrite Hcl.
  destruct (fill_quiet 8 (envs c) (buf c) (nreads c) (nclose c) Hq) as (c1 & F1 & C1 & Q1 & S1 & L1).
  { rewrite Hs, app_length. lia. }
  rewrite F1. rewrite Hs in S1.
  destruct (unpack_header (buf c1) L1) as (v & t & x & Hu & _). rewrite Hu.
  assert (Ha : announced (buf c1) = zlen m).
  { rewrite <- Hann. rewrite <- (announced_prefix (buf c1) (delivered (envs c1))) by lia.
    rewrite S1. apply announced_prefix. lia. }
  rewrite Ha. unfold zlen. rewrite Nat2Z.id. rewrite C1.
  destruct (fill_quiet (length m) (envs c1) (buf c1) (nreads c1) (nclose c1) Q1)
    as (c2 & F2 & C2 & Q2 & S2 & L2).
  { rewrite S1, app_length. lia. }
  rewrite F2. rewrite S1 in S2.
  assert (Hf : firstn (length m) (buf c2) = m).
  { transitivity (firstn (length m) (buf c2 ++ delivered (envs c2))).
    - rewrite firstn_app. replace (length m - length (buf c2))%nat with 0%nat by lia.
      rewrite firstn_O, app_nil_r. reflexivity.
    - rewrite S2. apply firstn_app_l. reflexivity. }
  eexists. rewrite Hf. split; [reflexivity|]. cbn [closed envs buf].
  split; [exact C2|]. split; [exact Q2|].
  transitivity (skipn (length m) (buf c2 ++ delivered (envs c2))).
  - rewrite skipn_app. replace (length m - length (buf c2))%nat with 0%nat by lia. reflexivity.
  - rewrite S2. apply skipn_app_l. reflexivity.
Qed.

Lemma recvs_quiet ms : forall c rest,
  closed c = false -> quiet (envs c) -> Forall msg_wf ms ->
  buf c ++ delivered (envs c) = concat ms ++ rest ->
  exists c', recvs (length ms) c = (map Got ms, c') /\ closed c' = false /\
    quiet (envs c') /\ buf c' ++ delivered (envs c') = rest.
Proof.
  induction ms as [|m ms IH]; intros c rest Hcl Hq Hw Hs; cbn [recvs length map concat] in *.
  - exists c. auto.
  - inversion Hw as [|? ? Hm Hms]; subst. rewrite <- app_assoc in Hs.
    destruct (recv_quiet c m _ Hcl Hq Hm Hs) as (c1 & R1 & C1 & Q1 & S1). rewrite R1.
    destruct (IH c1 rest C1 Q1 Hms S1) as (c2 & R2 & C2 & Q2 & S2). rewrite R2.
    exists c2. auto.
Qed.

(** C01, any number of recv() calls. *)
Theorem framing_recvs ms es :
  Forall msg_wf ms -> quiet es -> delivered es = concat ms ->
  fst (recvs (length ms) (new_chan es)) = map Got ms.
Proof.
  intros Hw Hq Hd.
  destruct (recvs_quiet ms (new_chan es) []) as (c' & R & _); auto.
  { cbn. rewrite Hd, app_nil_r. reflexivity. }
  rewrite R. reflexivity.
Qed.

(** Iteration, the environment continuing with an end of file. *)
Lemma fill_quiet_end need : forall es b n k tl,
  quiet es -> (length (b ++ delivered es) < need)%nat ->
  exists c', fill need b false (es ++ ERead (RData []) :: tl) n k = (c', Some (Got [])) /\
    envs c' = tl /\ buf c' = b ++ delivered es.
Proof.
  induction es as [|e es IH]; intros b n k tl Hq Hl; cbn [app fill].
  - cbn in Hl. rewrite app_nil_r in Hl.
    destruct (Nat.leb_spec need (length b)); [lia|]. cbn.
    eexists; repeat split. rewrite app_nil_r. reflexivity.
  - destruct (Nat.leb_spec need (length b)) as [Hle|Hgt].
    { rewrite app_length in Hl. lia. }
    inversion Hq as [|? ? He Hq']; subst.
    destruct He as [[->| ->]|(x & d & ->)]; cbn [default_wrapper delivered] in *.
    + apply (IH b (S n) k tl Hq'). exact Hl.
    + apply (IH b (S n) k tl Hq'). exact Hl.
    + destruct (IH (b ++ x :: d) (S n) k tl Hq') as (c' & H1 & H2 & H3).
      { rewrite <- app_assoc. exact Hl. }
      exists c'. rewrite H3, <- app_assoc. auto.
Qed.

(** Appending further outcomes does not disturb a loop that succeeds. *)
Lemma fill_more need tl : forall es b n k c',
  quiet es -> fill need b false es n k = (c', None) ->
  fill need b false (es ++ tl) n k =
    (mkChan (buf c') (closed c') (envs c' ++ tl) (nreads c') (nclose c'), None).
Proof.
  induction es as [|e es IH]; intros b n k c' Hq H; cbn [app fill] in *.
  - destruct (Nat.leb_spec need (length b)) as [Hle|Hgt]; [|discriminate].
    inversion H; subst. cbn. destruct tl; cbn; apply Nat.leb_le in Hle; rewrite Hle; reflexivity.
  - destruct (Nat.leb_spec need (length b)) as [Hle|Hgt]; [inversion H; reflexivity|].
    inversion Hq as [|? ? He Hq']; subst.
    destruct He as [[->| ->]|(x & d & ->)]; cbn [default_wrapper] in *; cbn in H |- *;
      apply IH; assumption.
Qed.

Lemma recv_more c m rest tl :
  closed c = false -> quiet (envs c) -> msg_wf m ->
  buf c ++ delivered (envs c) = m ++ rest ->
  exists c', recv (mkChan (buf c) (closed c) (envs c ++ tl) (nreads c) (nclose c))
      = (mkChan (buf c') (closed c') (envs c' ++ tl) (nreads c') (nclose c'), Got m) /\
    closed c' = false /\ quiet (envs c') /\ buf c' ++ delivered (envs c') = rest.
Proof.
  intros Hcl Hq Hm Hs.
  destruct (recv_quiet c m rest Hcl Hq Hm Hs) as (c' & R & C & Q & S).
  exists c'. split; [|auto].
  unfold recv, fill_chan in *. cbn [buf closed envs nreads nclose] in *. rewrite Hcl in *.
  destruct (fill_quiet 8 (envs c) (buf c) (nreads c) (nclose c) Hq) as (c1 & F1 & C1 & Q1 & S1 & L1).
  { destruct Hm as [H8 _]. rewrite Hs, app_length. lia. }
  rewrite F1 in R. rewrite (fill_more 8 tl _ _ _ _ _ Hq F1). cbn [buf closed envs nreads nclose].
  destruct (unpack_header (buf c1) L1) as (v & t & x & Hu & _). rewrite Hu in R |- *.
  rewrite C1 in R |- *.
  destruct (fill (Z.to_nat (announced (buf c1))) (buf c1) false (envs c1) (nreads c1) (nclose c1))
    as [c2 [r|]] eqn:F2.
  - inversion R; subst. exfalso.
    destruct Hm as [H8 Hann].
    assert (Ha : announced (buf c1) = zlen m).
    { rewrite <- Hann. rewrite <- (announced_prefix (buf c1) (delivered (envs c1))) by lia.
      rewrite S1, Hs. apply announced_prefix. lia. }
    destruct (fill_quiet (Z.to_nat (announced (buf c1))) (envs c1) (buf c1) (nreads c1) (nclose c1) Q1)
      as (c3 & F3 & _).
    { rewrite S1, Hs, app_length, Ha. unfold zlen. lia. }
    rewrite F3 in F2. discriminate.
  - rewrite (fill_more _ tl _ _ _ _ _ Q1 F2). cbn [buf closed envs nreads nclose].
    inversion R; subst. reflexivity.
Qed.

(** A stream that ends within a message. *)
Lemma fill_ends need e : is_end e -> forall es b n k tl,
  quiet es -> (length (b ++ delivered es) < need)%nat ->
  exists c', fill need b false (es ++ e :: tl) n k = (c', Some (Got [])) /\
    envs c' = tl /\ buf c' = b ++ delivered es /\ closed c' = closes e.
Proof.
  intros He. induction es as [|e0 es IH]; intros b n k tl Hq Hl; cbn [app fill].
  - cbn [delivered] in Hl |- *. rewrite app_nil_r in Hl |- *.
    destruct (Nat.leb_spec need (length b)) as [H8|H8]; [lia|].
    destruct He as [->|[->|[->|(x & -> & Hx)]]]; cbn [default_wrapper].
    + eexists; eauto.
    + eexists; eauto.
    + destruct tl; cbn [fill]; destruct (Nat.leb_spec need (length b)); try lia; eexists; eauto.
    + assert (Hb : (x =? EAGAIN) || (x =? ECONNRESET) || (x =? EBADF) = true).
      { unfold EAGAIN, ECONNRESET, EBADF. cbn in Hx. lia. }
      rewrite Hb. eexists; eauto.
  - destruct (Nat.leb_spec need (length b)) as [Hle|Hgt].
    { rewrite app_length in Hl. lia. }
    inversion Hq as [|? ? He0 Hq']; subst.
    destruct He0 as [[->| ->]|(x & d & ->)]; cbn [default_wrapper delivered] in *.
    + apply (IH b (S n) k tl Hq'). exact Hl.
    + apply (IH b (S n) k tl Hq'). exact Hl.
    + destruct (IH (b ++ x :: d) (S n) k tl Hq') as (c' & H1 & H2 & H3 & H4).
      { rewrite <- app_assoc. exact Hl. }
      exists c'. rewrite H3, <- app_assoc. auto.
Qed.

Lemma recv_ends c e tl part :
  closed c = false -> quiet (envs c) -> buf c ++ delivered (envs c) = part -> incomplete part -> is_end e ->
  exists c', recv (mkChan (buf c) (closed c) (envs c ++ e :: tl) (nreads c) (nclose c)) = (c', Got []) /\
    envs c' = tl /\ buf c' = part /\ closed c' = closes e.
Proof.
  intros Hcl Hq Hs Hi He. unfold recv, fill_chan. cbn [buf closed envs nreads nclose]. rewrite Hcl.
  destruct (Nat.ltb_spec (length part) 8) as [H8|H8].
  - destruct (fill_ends 8 e He (envs c) (buf c) (nreads c) (nclose c) tl Hq) as (c' & F & E & B & Cl).
    { rewrite Hs. exact H8. }
    rewrite F. exists c'. rewrite B. auto.
  - destruct Hi as [Hi|Hi]; [lia|].
    destruct (fill_quiet 8 (envs c) (buf c) (nreads c) (nclose c) Hq) as (c1 & F1 & C1 & Q1 & S1 & L1).
    { rewrite Hs. exact H8. }
    rewrite (fill_more 8 (e :: tl) _ _ _ _ _ Hq F1). cbn [buf closed envs nreads nclose].
    destruct (unpack_header (buf c1) L1) as (v & t & x & Hu & _). rewrite Hu, C1.
    assert (Ha : announced (buf c1) = announced part).
    { rewrite <- (announced_prefix (buf c1) (delivered (envs c1))) by lia. rewrite S1, Hs. reflexivity. }
    destruct (fill_ends (Z.to_nat (announced (buf c1))) e He (envs c1) (buf c1) (nreads c1) (nclose c1) tl Q1)
      as (c' & F & E & B & Cl).
    { rewrite S1, Hs, Ha. unfold zlen in Hi. lia. }
    rewrite F. exists c'. rewrite B, S1. auto.
Qed.

Theorem framing_iterate_gen ms : forall c e tl junk fuel,
  closed c = false -> quiet (envs c) -> Forall msg_wf ms ->
  buf c ++ delivered (envs c) = concat ms ++ junk ->
  incomplete junk -> is_end e -> (length ms < fuel)%nat ->
  exists c', iterate fuel (mkChan (buf c) (closed c) (envs c ++ e :: tl) (nreads c) (nclose c))
    = (ms, Got [], c') /\ envs c' = tl /\ buf c' = junk.
Proof.
  induction ms as [|m ms IH]; intros c e tl junk fuel Hcl Hq Hw Hs Hj He Hf;
    (destruct fuel as [|fuel]; [cbn in Hf; lia|]); cbn [iterate concat] in *.
  - destruct (recv_ends c e tl junk Hcl Hq Hs Hj He) as (c' & R & E & B & _).
    rewrite R. exists c'. auto.
  - inversion Hw as [|? ? Hm Hms]; subst. rewrite <- app_assoc in Hs.
    destruct (recv_more c m _ (e :: tl) Hcl Hq Hm Hs) as (c1 & R1 & C1 & Q1 & S1).
    rewrite R1. destruct m as [|x m]; [destruct Hm as [H8 _]; cbn in H8; lia|].
    cbn [length] in Hf.
    destruct (IH c1 e tl junk fuel C1 Q1 Hms S1 Hj He ltac:(lia)) as (c2 & R2 & E2 & B2).
    rewrite R2. exists c2. auto.
Qed.

Theorem framing_iterate ms es e tl junk fuel :
  Forall msg_wf ms -> quiet es -> delivered es = concat ms ++ junk ->
  incomplete junk -> is_end e -> (length ms < fuel)%nat ->
  exists c', iterate fuel (new_chan (es ++ e :: tl)) = (ms, Got [], c')
    /\ envs c' = tl /\ buf c' = junk.
Proof.
  intros Hw Hq Hd Hj He Hf.
  exact (framing_iterate_gen ms (new_chan es) e tl junk fuel eq_refl Hq Hw Hd Hj He Hf).
Qed.

(** C02: conservation, for one receive of any channel. *)
Definition out_bytes (r : rcv) : bytes := match r with Got b => b | _ => [] end.

(** Why the loop is left early. *)
Lemma fill_early need : forall es b cl n k c' r,
  fill need b cl es n k = (c', Some r) ->
  (r = Got [] /\ (cl = true \/ exists used e, es = used ++ e :: envs c' /\ is_end e)
   \/ (exists used e x, r = Raised (SocketError x) /\ es = used ++ e :: envs c' /\ e = ERead (RErr x)
         /\ ~ In x [4; 9; 11; 104])
   \/ r = Waiting /\ envs c' = []) /\ (length (buf c') < need)%nat.
Proof.
  induction es as [|e es IH]; intros b cl n k c' r H; cbn [fill] in H;
    (destruct (Nat.leb_spec need (length b)) as [Hle|Hgt]; [discriminate|]).
  - destruct cl; inversion H; subst; split; auto.
  - destruct cl; [inversion H; subst; split; auto|].
    assert (Hrec : forall b0 n0 k0 cl0, fill need b0 cl0 es n0 k0 = (c', Some r) ->
       (cl0 = true -> e = EClose) ->
       (r = Got [] /\ (false = true \/ exists used e0, e :: es = used ++ e0 :: envs c' /\ is_end e0)
        \/ (exists used e0 x, r = Raised (SocketError x) /\ e :: es = used ++ e0 :: envs c' /\ e0 = ERead (RErr x)
              /\ ~ In x [4; 9; 11; 104])
        \/ r = Waiting /\ envs c' = []) /\ (length (buf c') < need)%nat).
    { intros b0 n0 k0 cl0 Hf Hc0. pose proof Hf as Hg. apply IH in Hf. destruct Hf as [Hf Hlen].
      split; [|exact Hlen].
      destruct Hf as [[Hr Hw]|[Hw|Hw]].
      - left. split; [exact Hr|]. right. destruct Hw as [Hc|(u & e0 & He & Hend)].
        + specialize (Hc0 Hc). subst. apply fill_gen in Hg.
          destruct Hg as (u & Hu & _ & _ & _ & Hnil & _). rewrite (Hnil eq_refl) in Hu.
          exists [], EClose. rewrite Hu. split; [reflexivity|]. right; right; left; reflexivity.
        + exists (e :: u), e0. rewrite He. auto.
      - right; left. destruct Hw as (u & e0 & x & Hr & He & Hw). exists (e :: u), e0, x.
        rewrite He. auto.
      - right; right. exact Hw. }
    destruct e as [rr|]; [|eapply Hrec; [exact H|reflexivity]].
    destruct rr as [d| |en|]; cbn [default_wrapper] in H.
    + destruct d as [|x d].
      * inversion H; subst. split; [|exact Hgt]. left. split; [reflexivity|]. right.
        exists [], (ERead (RData [])). split; [reflexivity|]. left; reflexivity.
      * eapply Hrec; [exact H|discriminate].
    + eapply Hrec; [exact H|discriminate].
    + destruct ((en =? EAGAIN) || (en =? ECONNRESET) || (en =? EBADF)) eqn:Hen.
      * inversion H; subst. split; [|exact Hgt]. left. split; [reflexivity|]. right.
        exists [], (ERead (RErr en)). split; [reflexivity|]. right; right; right.
        exists en. split; [reflexivity|]. unfold EAGAIN, ECONNRESET, EBADF in Hen. cbn. lia.
      * destruct (en =? EINTR) eqn:Hei; [eapply Hrec; [exact H|discriminate]|].
        inversion H; subst. split; [|exact Hgt]. right; left. exists [], (ERead (RErr en)), en.
        repeat split. unfold EAGAIN, ECONNRESET, EBADF, EINTR in *. cbn. lia.
    + inversion H; subst. split; [|exact Hgt]. left. split; [reflexivity|]. right.
      exists [], (ERead RKbd). split; [reflexivity|]. right; left; reflexivity.
Qed.

Lemma fill_early_nil need es b cl n k c' r :
  fill need b cl es n k = (c', Some r) -> out_bytes r = [].
Proof.
  intros H. apply fill_early in H.
  destruct H as [[[-> _]|[(u & e & x & -> & _)|[-> _]]] _]; reflexivity.
Qed.

(** The two halves of a receive. *)
Lemma recv_cases c c' r :
  recv c = (c', r) ->
  (fill_chan 8 c = (c', Some r)) \/
  (exists c1, fill_chan 8 c = (c1, None) /\ (8 <= length (buf c1))%nat /\
     (fill_chan (Z.to_nat (announced (buf c1))) c1 = (c', Some r) \/
      exists c2, fill_chan (Z.to_nat (announced (buf c1))) c1 = (c2, None) /\
     r = Got (firstn (Z.to_nat (announced (buf c1))) (buf c2)) /\
     c' = mkChan (skipn (Z.to_nat (announced (buf c1))) (buf c2)) (closed c2) (envs c2)
               (nreads c2) (nclose c2))).
Proof.
  unfold recv. destruct (fill_chan 8 c) as [c1 [r1|]] eqn:F1; intros H.
  - inversion H; subst. left. reflexivity.
  - right. exists c1. split; [reflexivity|].
    pose proof F1 as G1. unfold fill_chan in G1. apply fill_gen in G1.
    destruct G1 as (u1 & _ & _ & _ & L1 & _). specialize (L1 eq_refl). split; [exact L1|].
    destruct (unpack_header (buf c1) L1) as (v & t & x & Hu & _). rewrite Hu in H.
    destruct (fill_chan (Z.to_nat (announced (buf c1))) c1) as [c2 [r2|]] eqn:F2.
    + inversion H; subst. left. reflexivity.
    + right. exists c2. inversion H; subst. auto.
Qed.

Lemma recv_conserve c c' r :
  recv c = (c', r) ->
  exists used, envs c = used ++ envs c' /\
    buf c ++ delivered used = out_bytes r ++ buf c' /\
    nreads c' = (nreads c + reads_in used)%nat /\
    (closed c = true -> used = [] /\ closed c' = true).
Proof.
  intros H. apply recv_cases in H.
  destruct H as [F1|(c1 & F1 & _ & [F2|(c2 & F2 & -> & ->)])]; unfold fill_chan in *.
  - rewrite (fill_early_nil _ _ _ _ _ _ _ _ F1). apply fill_gen in F1.
    destruct F1 as (u1 & E1 & B1 & N1 & _ & X1 & _ & Z1 & _). exists u1.
    rewrite B1. cbn [app]. repeat split; auto.
  - rewrite (fill_early_nil _ _ _ _ _ _ _ _ F2).
    apply fill_gen in F1. destruct F1 as (u1 & E1 & B1 & N1 & _ & X1 & _ & Z1 & _).
    apply fill_gen in F2. destruct F2 as (u2 & E2 & B2 & N2 & _ & X2 & _ & Z2 & _).
    exists (u1 ++ u2). rewrite delivered_app, E1, E2, B2, B1, <- !app_assoc.
    repeat split; auto.
    + rewrite N2, N1. clear. induction u1 as [|[|] u1 IH]; cbn; try lia.
    + rewrite (X1 H), (X2 (Z1 H)). reflexivity.
  - apply fill_gen in F1. destruct F1 as (u1 & E1 & B1 & N1 & _ & X1 & _ & Z1 & _).
    apply fill_gen in F2. destruct F2 as (u2 & E2 & B2 & N2 & _ & X2 & _ & Z2 & _).
    cbn [envs buf nreads closed out_bytes]. rewrite firstn_skipn.
    exists (u1 ++ u2). rewrite delivered_app, E1, E2, B2, B1, <- !app_assoc.
    repeat split; auto.
    + rewrite N2, N1. clear. induction u1 as [|[|] u1 IH]; cbn; try lia.
    + rewrite (X1 H), (X2 (Z1 H)). reflexivity.
Qed.

(** C02 for any number of receives. *)
Theorem recvs_conserve n : forall c rs c',
  recvs n c = (rs, c') ->
  exists used, envs c = used ++ envs c' /\
    buf c ++ delivered used = concat (map out_bytes rs) ++ buf c'.
Proof.
  induction n as [|n IH]; intros c rs c' H; cbn [recvs] in H.
  - inversion H; subst. exists []. cbn. rewrite app_nil_r. auto.
  - destruct (recv c) as [c1 r1] eqn:R1. destruct (recvs n c1) as [rs2 c2] eqn:R2.
    inversion H; subst. apply recv_conserve in R1. destruct R1 as (u1 & E1 & B1 & _).
    apply IH in R2. destruct R2 as (u2 & E2 & B2).
    exists (u1 ++ u2). rewrite E1, E2, delivered_app, <- app_assoc. split; [reflexivity|].
    cbn [map concat]. rewrite app_assoc, B1, <- !app_assoc, B2. reflexivity.
Qed.

(** A returned message of at least 8 bytes announces its length. *)
Lemma recv_got_announced c c' m :
  recv c = (c', Got m) -> (8 <= length m)%nat -> announced m = zlen m.
Proof.
  intros H Hm. apply recv_cases in H.
  destruct H as [F1|(c1 & F1 & L1 & [F2|(c2 & F2 & Hg & _)])].
  - unfold fill_chan in F1. apply fill_early_nil in F1. cbn in F1. subst. cbn in Hm. lia.
  - unfold fill_chan in F2. apply fill_early_nil in F2. cbn in F2. subst. cbn in Hm. lia.
  - injection Hg as Hg'.
    unfold fill_chan in F2. apply fill_gen in F2.
    destruct F2 as (u2 & _ & B2 & _ & L2 & _). specialize (L2 eq_refl).
    assert (Hl : length m = Z.to_nat (announced (buf c1))).
    { rewrite Hg', firstn_length. lia. }
    assert (Ha : announced m = announced (buf c1)).
    { transitivity (announced (buf c2)).
      - rewrite <- (firstn_skipn (Z.to_nat (announced (buf c1))) (buf c2)), <- Hg'.
        symmetry. apply announced_prefix. lia.
      - rewrite B2. apply announced_prefix. lia. }
    rewrite Ha. unfold zlen. rewrite Hl. lia.
Qed.

Lemma fill_none_closed need : forall es b cl n k c',
  fill need b cl es n k = (c', None) -> closed c' = cl.
Proof.
  induction es as [|e es IH]; intros b cl n k c' H; cbn [fill] in H;
    (destruct (Nat.leb_spec need (length b)) as [Hle|Hgt]; [inversion H; reflexivity|]).
  - destruct cl; discriminate.
  - destruct cl; [discriminate|]. destruct e as [r|].
    + destruct (default_wrapper r) as [[[|x d]|]|]; try discriminate; eapply IH; exact H.
    + exfalso. destruct es as [|e es]; cbn [fill] in H;
        destruct (Nat.leb_spec need (length b)); try lia; discriminate.
Qed.

(** C03, the part that holds: if the header at the front of the stream
    announces at least 8 bytes, b"" means end of stream and anything else is a
    whole message. *)
Theorem recv_end_or_message c c' m :
  recv c = (c', Got m) ->
  ((8 <= length (buf c ++ delivered (envs c)))%nat ->
     8 <= announced (buf c ++ delivered (envs c))) ->
  (m = [] /\ (closed c = true \/ exists used e, envs c = used ++ e :: envs c' /\ is_end e))
  \/ ((8 <= length m)%nat /\ announced m = zlen m).
Proof.
  intros H Hann. pose proof H as H0. apply recv_cases in H.
  destruct H as [F1|(c1 & F1 & L1 & [F2|(c2 & F2 & Hg & Hc')])].
  - left. unfold fill_chan in F1. apply fill_early in F1.
    destruct F1 as [[[Hm Hw]|[(u & e & x & Hx & _)|[Hx _]]] _]; try discriminate.
    inversion Hm; auto.
  - left. unfold fill_chan in *. apply fill_early in F2.
    pose proof (fill_none_closed _ _ _ _ _ _ _ F1) as C1. apply fill_gen in F1.
    destruct F1 as (u1 & E1 & _).
    destruct F2 as [[[Hm Hw]|[(u & e & x & Hx & _)|[Hx _]]] _]; try discriminate.
    inversion Hm; subst. split; [reflexivity|].
    destruct Hw as [Hc|(u & e & He & Hend)].
    + left. congruence.
    + right. exists (u1 ++ u), e. rewrite E1, He, <- app_assoc. auto.
  - right. injection Hg as Hg'.
    assert (Hl : (8 <= length m)%nat).
    { unfold fill_chan in *. apply fill_gen in F1. destruct F1 as (u1 & E1 & B1 & _).
      apply fill_gen in F2. destruct F2 as (u2 & E2 & B2 & _ & L2 & _). specialize (L2 eq_refl).
      assert (Ha : 8 <= announced (buf c1)).
      { rewrite E1, delivered_app in Hann.
        rewrite app_assoc, <- B1 in Hann.
        rewrite announced_prefix in Hann by lia. apply Hann. rewrite app_length. lia. }
      rewrite Hg', firstn_length. lia. }
    split; [exact Hl|]. eapply recv_got_announced; eassumption.
Qed.

(** C03 refuted: a header announcing 0 makes recv return b"" although nothing
    ended, forever; one announcing 1..7 is returned as a fragment on which
    header decoding fails. *)
Definition zero_len_stream : list env := [ERead (RData ([4; 2; 0; 0; 0; 0; 0; 1] ++ [4; 2; 0; 8; 0; 0; 0; 2]))].
Definition short_len_stream : list env := [ERead (RData ([4; 2; 0; 4; 0; 0; 0; 1] ++ [4; 2; 0; 8; 0; 0; 0; 2]))].

Theorem recv_zero_length_stuck n : forall c m,
  buf c = m -> (8 <= length m)%nat -> announced m = 0 ->
  recvs n c = (repeat (Got []) n, c).
Proof.
  induction n as [|n IH]; intros c m Hb Hl Ha; cbn [recvs repeat]; [reflexivity|].
  assert (Hr : recv c = (c, Got [])).
  { unfold recv, fill_chan.
    assert (Hf : forall need, (need <= length (buf c))%nat ->
      fill need (buf c) (closed c) (envs c) (nreads c) (nclose c) = (c, None)).
    { intros need Hn. apply Nat.leb_le in Hn.
      destruct c as [b cl es nr nc]; cbn in *. destruct es; cbn [fill]; rewrite Hn; reflexivity. }
    rewrite Hf by (rewrite Hb; exact Hl). rewrite Hb.
    destruct (unpack_header m Hl) as (v & t & x & Hu & _). rewrite Hu, Ha.
    change (Z.to_nat 0) with 0%nat. rewrite <- Hb, Hf by lia. cbn.
    destruct c; reflexivity. }
  rewrite Hr. rewrite (IH c m Hb Hl Ha). reflexivity.
Qed.

(** C04: once closed, no transport read. *)
Lemma recv_closed c c' r :
  closed c = true -> recv c = (c', r) ->
  nreads c' = nreads c /\ envs c' = envs c /\ closed c' = true /\ nclose c' = nclose c /\
  (r = Got [] \/ exists m, r = Got m /\ buf c = m ++ buf c').
Proof.
  intros Hc H. pose proof H as H0. apply recv_conserve in H0.
  destruct H0 as (used & E & B & N & X). destruct (X Hc) as [-> Hc']. cbn in *.
  rewrite app_nil_r in B. rewrite Nat.add_0_r in N.
  assert (Hn : forall need b, fill need b true (envs c) (nreads c) (nclose c) =
     (mkChan b true (envs c) (nreads c) (nclose c),
      if (need <=? length b)%nat then None else Some (Got []))).
  { intros need b. destruct (envs c); cbn [fill]; destruct (need <=? length b)%nat; reflexivity. }
  unfold recv, fill_chan in H. rewrite Hc, Hn in H.
  destruct (8 <=? length (buf c))%nat eqn:H8.
  - cbn [buf closed envs nreads nclose] in H. apply Nat.leb_le in H8.
    destruct (unpack_header (buf c) H8) as (v & t & x & Hu & _). rewrite Hu in H.
    rewrite Hn in H. destruct (Z.to_nat (announced (buf c)) <=? length (buf c))%nat eqn:HL.
    + inversion H; subst. cbn. repeat split; auto. right. eexists; split; [reflexivity|].
      rewrite firstn_skipn. reflexivity.
    + inversion H; subst; cbn. repeat split; auto.
  - inversion H; subst; cbn. repeat split; auto.
Qed.

Theorem closed_no_reads os : forall c c' rs,
  closed c = true -> chan_run c os = (c', rs) ->
  nreads c' = nreads c /\ envs c' = envs c /\ closed c' = true.
Proof.
  induction os as [|o os IH]; intros c c' rs Hc H; cbn [chan_run] in H.
  - inversion H; subst. auto.
  - destruct (chan_step c o) as [c1 r1] eqn:S1.
    destruct (chan_run c1 os) as [c2 rs2] eqn:R2. inversion H; subst.
    assert (H1 : nreads c1 = nreads c /\ envs c1 = envs c /\ closed c1 = true).
    { destruct o; cbn in S1.
      - destruct (recv c) as [cx rx] eqn:Rx. inversion S1; subst.
        destruct (recv_closed _ _ _ Hc Rx) as (A & B & C & _). auto.
      - inversion S1; subst. auto.
      - unfold logging_close in S1. rewrite Hc in S1. inversion S1; subst. auto. }
    destruct H1 as (A1 & B1 & C1). destruct (IH _ _ _ C1 R2) as (A2 & B2 & C2).
    repeat split; congruence.
Qed.

(** LoggingChannel: at most one socket.close() whatever the history (of its
    own close calls). *)
Theorem logging_close_once os : forall c c' rs,
  ~ In OpClose os -> Forall (fun e => e <> EClose) (envs c) ->
  chan_run c os = (c', rs) ->
  (nclose c' <= nclose c + (if closed c then 0 else 1))%nat.
Proof.
  induction os as [|o os IH]; intros c c' rs Hno Hen H; cbn [chan_run] in H.
  - inversion H; subst. lia.
  - destruct (chan_step c o) as [c1 r1] eqn:S1.
    destruct (chan_run c1 os) as [c2 rs2] eqn:R2. inversion H; subst.
    assert (Ho : o <> OpClose) by (intros ->; apply Hno; left; reflexivity).
    assert (Hno' : ~ In OpClose os) by (intros Hin; apply Hno; right; exact Hin).
    destruct o; [|congruence|]; cbn in S1.
    + destruct (recv c) as [cx rx] eqn:Rx. inversion S1; subst.
      assert (Hk : nclose c1 = nclose c /\ closed c1 = closed c /\ Forall (fun e => e <> EClose) (envs c1)).
      { clear - Rx Hen.
        assert (Hfill : forall need es b cl n k c0 o0, Forall (fun e => e <> EClose) es ->
          fill need b cl es n k = (c0, o0) ->
          nclose c0 = k /\ closed c0 = cl /\ Forall (fun e => e <> EClose) (envs c0)).
        { intros need. induction es as [|e es IH]; intros b cl n k c0 o0 Hf H; cbn [fill] in H.
          - destruct (need <=? length b)%nat; [|destruct cl]; inversion H; subst; cbn; auto.
          - inversion Hf as [|? ? He Hf']; subst.
            destruct (need <=? length b)%nat; [inversion H; subst; cbn; auto|].
            destruct cl; [inversion H; subst; cbn; auto|].
            destruct e as [r|]; [|congruence].
            destruct (default_wrapper r) as [[[|x d]|]|];
              try (inversion H; subst; cbn; auto; fail); eapply IH; eassumption. }
        apply recv_cases in Rx. unfold fill_chan in Rx.
        destruct Rx as [F1|(cy & F1 & _ & [F2|(c2 & F2 & _ & ->)])].
        - eapply Hfill; eassumption.
        - apply Hfill in F1; [|exact Hen]. destruct F1 as (A & B & C).
          apply Hfill in F2; [|exact C]. destruct F2 as (A2 & B2 & C2).
          repeat split; congruence.
        - apply Hfill in F1; [|exact Hen]. destruct F1 as (A & B & C).
          apply Hfill in F2; [|exact C]. destruct F2 as (A2 & B2 & C2).
          cbn. repeat split; congruence. }
      destruct Hk as (K1 & K2 & K3). specialize (IH _ _ _ Hno' K3 R2).
      rewrite K1, K2 in IH. exact IH.
    + inversion S1; subst. unfold logging_close in *. destruct (closed c) eqn:Hc.
      * specialize (IH _ _ _ Hno' Hen R2). rewrite Hc in IH. exact IH.
      * assert (Hen' : Forall (fun e => e <> EClose) (envs (chan_close c))) by exact Hen.
        specialize (IH _ _ _ Hno' Hen' R2). cbn in IH. lia.
Qed.

(** C05: delays are invisible; every other error surfaces and keeps the
    buffer. *)
Definition same_up_to_delay (x y : chan * option rcv) : Prop :=
  snd x = snd y /\ buf (fst x) = buf (fst y) /\ closed (fst x) = closed (fst y) /\
  strip (envs (fst x)) = envs (fst y) /\ nclose (fst x) = nclose (fst y).

Lemma fill_delay need : forall es b cl n m k,
  same_up_to_delay (fill need b cl es n k) (fill need b cl (strip es) m k).
Proof.
  assert (Hstop : forall (b : bytes) cl es n m k (o : option rcv),
    same_up_to_delay (mkChan b cl es n k, o) (mkChan b cl (strip es) m k, o))
   by (intros; red; cbn; auto).
  assert (Hhalt : forall es (b : bytes) (cl : bool) n m k (o : option rcv),
    (if (need <=? length b)%nat then Some None else if cl then Some (Some (Got [])) else None) = Some o ->
    same_up_to_delay (mkChan b cl es n k, o) (fill need b cl (strip es) m k)).
  { intros es b cl n m k o H.
    destruct (strip es) eqn:Hs; cbn [fill]; destruct (need <=? length b)%nat;
      try destruct cl; inversion H; subst; rewrite <- Hs; apply Hstop. }
  induction es as [|e es IH]; intros b cl n m k.
  - cbn [strip fill]. destruct (need <=? length b)%nat; [apply (Hstop b cl [])|].
    destruct cl; apply (Hstop b _ []).
  - cbn [fill]. destruct (need <=? length b)%nat eqn:HL.
    { apply Hhalt. rewrite HL. reflexivity. }
    destruct cl.
    { apply Hhalt. rewrite HL. reflexivity. }
    destruct e as [r|]; [|cbn [strip delayb fill]; rewrite HL; apply IH].
    destruct r as [d| |en|]; cbn [strip delayb default_wrapper].
    + cbn [fill]. rewrite HL. cbn [default_wrapper].
      destruct d as [|x d]; [apply Hstop|apply IH].
    + apply IH.
    + destruct (Z.eqb_spec en 4) as [->|Hne].
      * cbn. apply IH.
      * cbn [fill]. rewrite HL. cbn [default_wrapper].
        replace (en =? EINTR) with false by (symmetry; apply Z.eqb_neq; exact Hne).
        destruct ((en =? EAGAIN) || (en =? ECONNRESET) || (en =? EBADF)); apply Hstop.
    + cbn [fill]. rewrite HL. cbn [default_wrapper]. apply Hstop.
Qed.

Theorem recv_delay c c1 r1 c2 r2 :
  recv c = (c1, r1) ->
  recv (mkChan (buf c) (closed c) (strip (envs c)) (nreads c) (nclose c)) = (c2, r2) ->
  r1 = r2 /\ buf c1 = buf c2 /\ closed c1 = closed c2 /\ strip (envs c1) = envs c2.
Proof.
  unfold recv, fill_chan. cbn [buf closed envs nreads nclose].
  pose proof (fill_delay 8 (envs c) (buf c) (closed c) (nreads c) (nreads c) (nclose c)) as H.
  destruct (fill 8 (buf c) (closed c) (envs c) (nreads c) (nclose c)) as [d1 o1].
  destruct (fill 8 (buf c) (closed c) (strip (envs c)) (nreads c) (nclose c)) as [d2 o2].
  unfold same_up_to_delay in H. cbn [fst snd] in H.
  destruct H as (-> & B & C & E & K).
  destruct o2 as [r|]; [intros H1 H2; inversion H1; inversion H2; subst; auto|].
  rewrite B. destruct (unpacks "!BBHI" (buf d2) 0) as [vs|e];
    [|intros H1 H2; inversion H1; inversion H2; subst; auto].
  destruct vs as [|v1 [|v2 [|v3 [|v4 [|v5 vs]]]]];
    try (intros H1 H2; inversion H1; inversion H2; subst; auto; fail);
    (destruct v3; try (intros H1 H2; inversion H1; inversion H2; subst; auto; fail)).
  pose proof (fill_delay (Z.to_nat z) (envs d1) (buf d2) (closed d1) (nreads d1) (nreads d2) (nclose d1)) as H.
  rewrite E, C, K in H. rewrite C, K.
  destruct (fill (Z.to_nat z) (buf d2) (closed d2) (envs d1) (nreads d1) (nclose d2)) as [c3 o3].
  destruct (fill (Z.to_nat z) (buf d2) (closed d2) (envs d2) (nreads d2) (nclose d2)) as [c4 o4].
  unfold same_up_to_delay in H. cbn [fst snd] in H.
  destruct H as (-> & B4 & C4 & E4 & _).
  destruct o4; intros H1 H2; inversion H1; inversion H2; subst; cbn; rewrite ?B4; auto.
Qed.

Theorem recv_error_keeps c c' e :
  recv c = (c', Raised e) ->
  exists used x, e = SocketError x /\ envs c = used ++ ERead (RErr x) :: envs c' /\
    ~ In x [4; 9; 11; 104] /\ buf c' = buf c ++ delivered used.
Proof.
  intros H. pose proof H as H0. apply recv_conserve in H0.
  destruct H0 as (used & E & B & _). cbn in B.
  assert (Hx : exists u x, e = SocketError x /\ envs c = u ++ ERead (RErr x) :: envs c' /\
             ~ In x [4; 9; 11; 104]).
  { apply recv_cases in H. unfold fill_chan in H.
    destruct H as [F1|(c1 & F1 & _ & [F2|(c2 & F2 & Hg & _)])]; [| |discriminate].
    - apply fill_early in F1.
      destruct F1 as [[[Hr _]|[(u & e0 & x & Hr & He & -> & Hn)|[Hr _]]] _]; try discriminate.
      exists u, x. inversion Hr; auto.
    - apply fill_early in F2. apply fill_gen in F1. destruct F1 as (u1 & E1 & _).
      destruct F2 as [[[Hr _]|[(u & e0 & x & Hr & He & -> & Hn)|[Hr _]]] _]; try discriminate.
      exists (u1 ++ u), x. inversion Hr; subst. rewrite E1, He, <- app_assoc. auto. }
  destruct Hx as (u & x & -> & Hu & Hn). exists u, x. repeat split; auto.
  rewrite <- B. f_equal. assert (used = u ++ [ERead (RErr x)]) as ->.
  { rewrite Hu in E. change (ERead (RErr x) :: envs c') with ([ERead (RErr x)] ++ envs c') in E.
    rewrite app_assoc in E. apply app_inv_tail in E. auto. }
  rewrite delivered_app. cbn. rewrite app_nil_r. reflexivity.
Qed.

Lemma recv_end_outcome es e tl b n k :
  quiet es -> is_end e -> incomplete (b ++ delivered es) ->
  exists c', recv (mkChan b false (es ++ e :: tl) n k) = (c', Got []) /\
    buf c' = b ++ delivered es /\ envs c' = tl.
Proof.
  intros Hq He Hi.
  destruct (recv_ends (mkChan b false es n k) e tl _ eq_refl Hq eq_refl Hi He) as (c' & R & E & B & _).
  exists c'. auto.
Qed.

(** A second close() changes nothing but the count of socket.close() calls. *)
Lemma closed_close c : closed c = true ->
  chan_close c = mkChan (buf c) (closed c) (envs c) (nreads c) (S (nclose c)) /\ logging_close c = c.
Proof. intros H. unfold logging_close, chan_close. rewrite H. auto. Qed.
