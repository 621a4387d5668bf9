(** Proofs about start-up, echo and the server loop. *)

From Verif Require Import P_Struct M_Loop S_Framing S_Hello S_Loop P_Channel P_Hello P_Negotiate.
Local Open Scope Z_scope.

(** *** start / attach *)

Definition starts (w : list (nat * (origin * bytes))) : list bytes :=
  flat_map (fun e => match snd e with (WStart, m) => [m] | _ => [] end) w.

Lemma starts_app a b : starts (a ++ b) = starts a ++ starts b.
Proof. unfold starts. apply flat_map_app. Qed.

(** Invariant: nothing was written by start() unless started; then exactly
    one HELLO for the accepted versions. *)
Definition start_inv (accept : versions) (s : lst) : Prop :=
  if l_started s then exists xid m, hello accept xid = Ok m /\ starts (l_wire s) = [m]
  else starts (l_wire s) = [].

Lemma lstep_inv accept s o : start_inv accept s -> start_inv accept (fst (lstep accept s o)).
Proof.
  intros H.
  assert (Hstart : forall s0 xid ok, start_inv accept s0 -> start_inv accept (fst (start accept s0 xid ok))).
  { intros s0 xid ok H0. unfold start. destruct (l_started s0) eqn:E; [exact H0|].
    unfold start_inv in H0. rewrite E in H0.
    destruct (hello accept xid) as [m|e] eqn:Eh; [|cbn; unfold start_inv; rewrite E; exact H0].
    unfold base_send. destruct (l_sock s0) as [k|]; [|cbn; unfold start_inv; rewrite E; exact H0].
    destruct ok as [e|]; [cbn; unfold start_inv; rewrite E; exact H0|].
    cbn. unfold start_inv. cbn. exists xid, m. split; [exact Eh|].
    rewrite starts_app, H0. reflexivity. }
  destruct o as [xid ok|k a xid ok|m ok]; cbn [lstep].
  - apply Hstart, H.
  - unfold attach. destruct a; [apply Hstart|]; exact H.
  - unfold base_send. destruct (l_sock s) as [k|]; [|exact H].
    destruct ok; [exact H|]. cbn. unfold start_inv in *. cbn.
    destruct (l_started s); rewrite starts_app; cbn; rewrite app_nil_r; exact H.
Qed.

Theorem start_once accept sock os :
  let s := lrun accept (lnew sock) os in
  if l_started s then exists xid m, hello accept xid = Ok m /\ starts (l_wire s) = [m]
  else starts (l_wire s) = [].
Proof.
  cbv zeta. change (start_inv accept (lrun accept (lnew sock) os)).
  assert (H0 : start_inv accept (lnew sock)) by reflexivity.
  revert H0. generalize (lnew sock) as s. induction os as [|o os IH]; intros s H0; cbn [lrun]; [exact H0|].
  apply IH, lstep_inv, H0.
Qed.

(** A successful start is remembered. *)
Lemma started_mono accept os : forall s, l_started s = true -> l_started (lrun accept s os) = true.
Proof.
  assert (Hstep : forall s o, l_started s = true -> l_started (fst (lstep accept s o)) = true).
  { intros s o H. destruct o as [xid ok|k a xid ok|m ok]; cbn [lstep].
    - unfold start. rewrite H. exact H.
    - unfold attach. destruct a; cbn; [unfold start; cbn; rewrite H; reflexivity|exact H].
    - unfold base_send. destruct (l_sock s); [|exact H]. destruct ok; exact H. }
  induction os as [|o os IH]; intros s H; cbn [lrun]; [exact H|]. apply IH, Hstep, H.
Qed.

Theorem start_first accept k xid os m :
  hello accept xid = Ok m ->
  exists rest, l_wire (lrun accept (lnew (Some k)) (LStart xid None :: os)) = (k, (WStart, m)) :: rest
    /\ starts rest = [].
Proof.
  intros Hm. cbn [lrun lstep]. unfold start. cbn [lnew l_started]. rewrite Hm. cbn.
  set (s1 := mkLst true (Some k) [(k, (WStart, m))]).
  assert (H1 : exists rest, l_wire s1 = (k, (WStart, m)) :: rest /\ starts rest = []) by (exists []; auto).
  assert (H2 : l_started s1 = true) by reflexivity.
  revert H1 H2. generalize s1 as s. clear s1.
  induction os as [|o os IH]; intros s (rest & Hr & Hs) H2; cbn [lrun]; [exists rest; auto|].
  apply IH.
  - destruct o as [x ok|kk a x ok|mm ok]; cbn [lstep].
    + unfold start. rewrite H2. exists rest; auto.
    + unfold attach. destruct a; cbn; [unfold start; cbn; rewrite H2; cbn|]; exists rest; auto.
    + unfold base_send. destruct (l_sock s) as [k0|]; [|exists rest; auto].
      destruct ok; [exists rest; auto|]. cbn. exists (rest ++ [(k0, (WUser, mm))]).
      rewrite Hr. split; [reflexivity|]. rewrite starts_app, Hs. reflexivity.
  - apply (started_mono accept [o] s H2).
Qed.

(** *** Echo *)

Lemma app_sends_och out : forall a,
  fold_left app_send out a = mkApp (mkOch (o_version (a_och a)) (o_sent (a_och a) ++ out)) (a_seen a).
Proof.
  induction out as [|m out IH]; intros [[v s] seen]; cbn [fold_left].
  - cbn. rewrite app_nil_r. reflexivity.
  - rewrite IH. cbn. rewrite <- app_assoc. reflexivity.
Qed.

Lemma echo_pack v m : (8 <= length m)%nat -> bytes_ok m -> 0 <= v < 256 ->
  exists p, packs "!BBHI" [VInt v; VInt 3; VInt (u16_at m 2); VInt (u32_at m 4)] = Ok p /\
    p ++ skipn 8 m = echo_reply v m.
Proof.
  intros Hl Hb Hv. unfold packs. eval_fmt. cbn [bind].
  assert (R : forall k, 0 <= byte_at m k < 256) by (intros; apply byte_at_range; exact Hb).
  rewrite !pack_FU.
  - cbn [pack bind]. rewrite app_nil_r. eexists. split; [reflexivity|].
    unfold echo_reply. destruct m as [|b0 [|b1 [|b2 [|b3 [|b4 [|b5 [|b6 [|b7 m]]]]]]]]; cbn in Hl; try lia.
    unfold u16_at, u32_at, byte_at. cbn [nth Nat.add skipn].
    pose proof (R 2%nat) as R2. pose proof (R 3%nat) as R3. pose proof (R 4%nat) as R4.
    pose proof (R 5%nat) as R5. pose proof (R 6%nat) as R6. pose proof (R 7%nat) as R7.
    cbn in R2, R3, R4, R5, R6, R7. clear R Hb Hl. cbn [be Datatypes.app].
    repeat (apply (f_equal2 (@cons Z)); [lia|]). reflexivity.
  - apply in_u4. pose proof (R 4%nat). pose proof (R 5%nat). pose proof (R 6%nat). pose proof (R 7%nat).
    unfold u32_at. cbn [Nat.add]. lia.
  - apply in_u2. pose proof (R 2%nat). pose proof (R 3%nat). unfold u16_at. cbn [Nat.add]. lia.
  - apply in_u1. lia.
  - apply in_u1. exact Hv.
Qed.

Lemma auto_echo_echo next a m v :
  (8 <= length m)%nat -> bytes_ok m -> o_version (a_och a) = Some v -> 0 <= v < 256 ->
  is_echo m = true -> auto_echo_proxy next a m = (app_send a (echo_reply v m), Ok tt).
Proof.
  intros Hl Hb Hv Hr He. destruct m as [|b0 m']; [cbn in Hl; lia|]. set (m := b0 :: m') in *.
  change (auto_echo_proxy next a m) with
    (match parse_ofp_header m with Err e => (a, Err e) | Ok h =>
      if h_type h =? 2 then
        match packs "!BBHI" [vint (o_version (a_och a)); VInt 3; VInt (h_length h); VInt (h_xid h)] with
        | Ok p => (app_send a (p ++ skipn 8 m), Ok tt) | Err e => (a, Err e) end
      else next a m end).
  rewrite parse_header_spec by exact Hl. cbn [h_type h_length h_xid].
  unfold is_echo in He. rewrite He, Hv. cbn [vint].
  destruct (echo_pack v m Hl Hb Hr) as (p & Hp & Hrep). rewrite Hp, Hrep. reflexivity.
Qed.

Lemma auto_echo_other next a m :
  (8 <= length m)%nat -> is_echo m = false -> auto_echo_proxy next a m = next a m.
Proof.
  intros Hl He. destruct m as [|b0 m']; [cbn in Hl; lia|]. set (m := b0 :: m') in *.
  unfold auto_echo_proxy. unfold m at 1. rewrite parse_header_spec by exact Hl. cbn [h_type].
  unfold is_echo in He. rewrite He. reflexivity.
Qed.

Theorem echo_stream h v a ms :
  silent h -> 0 <= v < 256 -> o_version (a_och a) = Some v ->
  Forall (fun m => (8 <= length m)%nat /\ bytes_ok m) ms ->
  handle_all (auto_echo_proxy (server_proxy (user_handle h))) a ms =
  (mkApp (mkOch (Some v) (o_sent (a_och a) ++ map (echo_reply v) (filter is_echo ms)))
         (a_seen a ++ filter (fun m => negb (is_echo m)) ms), Ok tt).
Proof.
  intros Hs Hv. revert a. induction ms as [|m ms IH]; intros a Ha Hms; cbn [handle_all filter map].
  - rewrite !app_nil_r. destruct a as [[v0 s] seen]; cbn in *. subst. reflexivity.
  - inversion Hms as [|? ? [Hl Hb] Hms']; subst.
    destruct (is_echo m) eqn:E.
    + rewrite (auto_echo_echo _ _ _ v) by assumption. rewrite IH by assumption.
      cbn. rewrite <- app_assoc. reflexivity.
    + rewrite auto_echo_other by assumption. unfold server_proxy, user_handle at 1. rewrite Hs.
      cbn [fold_left]. rewrite IH by assumption. cbn. rewrite <- app_assoc. reflexivity.
Qed.

(** Before a version is agreed on there is no answer. *)
Lemma echo_early next sent seen m : (8 <= length m)%nat -> is_echo m = true ->
  auto_echo_proxy next (mkApp (mkOch None sent) seen) m = (mkApp (mkOch None sent) seen, Err StructError).
Proof.
  intros Hl He. destruct m as [|b m]; [cbn in Hl; lia|]. unfold auto_echo_proxy.
  rewrite parse_header_spec by exact Hl. cbn [h_type h_length h_xid a_och o_version vint].
  unfold is_echo in He. rewrite He. reflexivity.
Qed.

(** Any handler: what each message causes. *)
Theorem echo_step h v a m :
  0 <= v < 256 -> o_version (a_och a) = Some v -> (8 <= length m)%nat -> bytes_ok m ->
  let '(a', r) := auto_echo_proxy (server_proxy (user_handle h)) a m in
  if is_echo m then r = Ok tt /\ a_seen a' = a_seen a /\ o_sent (a_och a') = o_sent (a_och a) ++ [echo_reply v m]
  else r = snd (h (a_seen a) m) /\ a_seen a' = a_seen a ++ [m] /\
       o_sent (a_och a') = o_sent (a_och a) ++ fst (h (a_seen a) m).
Proof.
  intros Hv Ha Hl Hb. destruct (is_echo m) eqn:E.
  - rewrite (auto_echo_echo _ _ _ v) by assumption. cbn. auto.
  - rewrite auto_echo_other by assumption. unfold server_proxy, user_handle.
    destruct (h (a_seen a) m) as [out r] eqn:Eh. rewrite app_sends_och. cbn. auto.
Qed.

(** *** Server loop *)

Section Loop.
  Context (accept : versions) (order : list Z -> list Z) (xid : Z).

  Definition verdict (m : bytes) : res bytes := snd (negotiate accept order xid (mkOch None []) m).

  Lemma negotiate_verdict c m : snd (negotiate accept order xid c m) = verdict m.
  Proof.
    unfold verdict. destruct m as [|b m]; [reflexivity|]. unfold negotiate, negotiate_msg.
    destruct (parse_ofp_header (b :: m)) as [hd|e]; [|reflexivity].
    destruct (h_type hd =? 0); [|reflexivity].
    destruct (ofp_version_normalize accept) as [acc0|e]; [|reflexivity].
    destruct (parse_hello (b :: m)) as [peer|e]; [|reflexivity].
    destruct (set_inter peer _) as [|x xs]; [|destruct (set_max (x :: xs)); reflexivity].
    match goal with |- context [match ?r with Ok _ => _ | Err _ => _ end] => destruct r end; reflexivity.
  Qed.

  Lemma negotiate_ok_msg c m m' : snd (negotiate accept order xid c m) = Ok m' -> m' = m.
  Proof.
    destruct m as [|b m]; cbn [negotiate]; [intros H; inversion H; reflexivity|]. unfold negotiate_msg.
    destruct (parse_ofp_header (b :: m)) as [hd|e]; [|discriminate].
    destruct (h_type hd =? 0); [|intros H; inversion H; reflexivity].
    destruct (ofp_version_normalize accept) as [acc0|e]; [|discriminate].
    destruct (parse_hello (b :: m)) as [peer|e]; [|discriminate].
    destruct (set_inter peer _) as [|x xs].
    - match goal with |- context [match ?r with Ok _ => _ | Err _ => _ end] => destruct r end; discriminate.
    - destruct (set_max (x :: xs)); [|discriminate]. intros H; inversion H; reflexivity.
  Qed.

  Theorem loop_serve h ms : forall c a e0 tl junk fuel,
    closed c = false -> quiet (envs c) -> Forall msg_wf ms ->
    buf c ++ delivered (envs c) = concat ms ++ junk -> incomplete junk -> is_end e0 -> closes e0 = false ->
    (length ms < fuel)%nat ->
    let '(s', e) := loop accept order xid (server_proxy (user_handle h)) fuel
        (mkSrv (mkChan (buf c) (closed c) (envs c ++ e0 :: tl) (nreads c) (nclose c)) a) in
    let '(seen, e', cl) := serve verdict h (a_seen a) ms in
    a_seen (s_app s') = seen /\ e = e' /\ closed (s_chan s') = cl.
  Proof.
    induction ms as [|m ms IH]; intros c a e0 tl junk fuel Hcl Hq Hw Hs Hj He Hk Hf;
      (destruct fuel as [|fuel]; [cbn in Hf; lia|]); cbn [loop serve concat] in *.
    - unfold of_recv. cbn [s_chan].
      destruct (recv_ends c e0 tl junk Hcl Hq Hs Hj He) as (c' & R & E & B & Cl).
      rewrite R. cbn [negotiate s_app]. cbn [a_och a_seen s_chan]. rewrite Cl, Hk. auto.
    - inversion Hw as [|? ? Hm Hms]; subst. rewrite <- app_assoc in Hs.
      destruct (recv_more c m _ (e0 :: tl) Hcl Hq Hm Hs) as (c1 & R1 & C1 & Q1 & S1).
      unfold of_recv at 1. cbn [s_chan]. rewrite R1. cbn [s_app].
      pose proof (negotiate_verdict (a_och a) m) as Hv.
      destruct (negotiate accept order xid (a_och a) m) as [o r] eqn:En. cbn [snd] in Hv. rewrite <- Hv.
      destruct r as [m'|e].
      + assert (m' = m) as ->.
        { apply (negotiate_ok_msg (a_och a) m m'). rewrite En. reflexivity. }
        destruct m as [|x m]; [destruct Hm as [H8 _]; cbn in H8; lia|].
        cbn [s_app s_chan]. unfold server_proxy, user_handle at 1. cbn [a_seen a_och].
        destruct (h (a_seen a) (x :: m)) as [out r] eqn:Eh. cbn [snd].
        rewrite app_sends_och. cbn [a_och a_seen o_version o_sent].
        destruct r as [u|e].
        * cbn [length] in Hf.
          exact (IH c1 (mkApp (mkOch (o_version o) (o_sent o ++ out)) (a_seen a ++ [x :: m])) e0 tl junk fuel
                   C1 Q1 Hms S1 Hj He Hk ltac:(lia)).
        * destruct e; cbn; auto.
      + destruct e; cbn; auto.
  Qed.
End Loop.

(** Consequences of the specification. *)
Lemma serve_prefix nego h ms : forall seen,
  exists k, fst (fst (serve nego h seen ms)) = seen ++ firstn k ms.
Proof.
  induction ms as [|m ms IH]; intros seen; cbn [serve].
  - exists 0%nat. cbn. rewrite app_nil_r. reflexivity.
  - assert (H0 : seen = seen ++ firstn 0 (m :: ms)) by (rewrite firstn_O, app_nil_r; reflexivity).
    assert (H1 : seen ++ [m] = seen ++ firstn 1 (m :: ms)) by reflexivity.
    destruct (nego m) as [m'|e].
    + destruct (snd (h seen m)) as [u|e].
      * destruct (IH (seen ++ [m])) as [k Hk]. exists (S k). rewrite Hk, <- app_assoc. reflexivity.
      * destruct e; cbn [fst]; exists 1%nat; exact H1.
    + destruct e; cbn [fst]; exists 0%nat; exact H0.
Qed.

Lemma serve_all nego h ms : forall seen,
  Forall (fun m => is_ok (nego m) = true) ms -> (forall s m, is_ok (snd (h s m)) = true) ->
  serve nego h seen ms = (seen ++ ms, LReturned, false).
Proof.
  induction ms as [|m ms IH]; intros seen Hn Hh; cbn [serve].
  - rewrite app_nil_r. reflexivity.
  - inversion Hn as [|? ? Hm Hms]; subst. specialize (Hh seen m) as Hhm.
    destruct (nego m); [|discriminate]. destruct (snd (h seen m)); [|discriminate].
    rewrite IH by assumption. rewrite <- app_assoc. reflexivity.
Qed.
