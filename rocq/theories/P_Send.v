From Verif Require Import Py Struct P_Struct M_Channel S_Framing P_Channel M_Send S_Send.
Local Open Scope Z_scope.

Lemma digit_hex d : 0 <= d < 16 -> digit_val (hexdigit d) = Some d.
Proof.
  intros H. unfold hexdigit, digit_val.
  destruct (d <? 10) eqn:E.
  - apply Z.ltb_lt in E.
    replace (48 <=? 48 + d) with true by (symmetry; apply Z.leb_le; lia).
    replace (48 + d <=? 57) with true by (symmetry; apply Z.leb_le; lia).
    cbn [andb]. f_equal. lia.
  - apply Z.ltb_ge in E.
    replace (87 + d <=? 57) with false by (symmetry; apply Z.leb_gt; lia).
    rewrite andb_false_r.
    replace (97 <=? 87 + d) with true by (symmetry; apply Z.leb_le; lia).
    replace (87 + d <=? 102) with true by (symmetry; apply Z.leb_le; lia).
    cbn [andb]. f_equal. lia.
Qed.

Lemma unhex_hex m : bytes_ok m -> unhex (b2a_hex m) = Some m.
Proof.
  induction m as [|x m IH]; intros H; [reflexivity|].
  inversion H as [|? ? Hx Hm]; subst. unfold byte_ok in Hx.
  change (b2a_hex (x :: m)) with (hexdigit (x / 16) :: hexdigit (x mod 16) :: b2a_hex m).
  cbn [unhex].
  assert (0 <= x / 16 < 16)
    by (split; [apply Z.div_pos; lia | apply Z.div_lt_upper_bound; lia]).
  assert (0 <= x mod 16 < 16) by (apply Z.mod_pos_bound; lia).
  rewrite !digit_hex, IH by assumption. f_equal. f_equal.
  pose proof (Z.div_mod x 16). lia.
Qed.

Lemma of_line_send rp m : bytes_ok m ->
  of_line rp (LgSend, hex_line rp m) = Some (TSent m).
Proof.
  intros H. unfold of_line, hex_line.
  replace (skipn (S (length rp)) (rp ++ [32] ++ b2a_hex m)) with (b2a_hex m).
  - now rewrite unhex_hex.
  - rewrite app_assoc. replace (S (length rp)) with (length (rp ++ [32])).
    + now rewrite skipn_app, skipn_all, Nat.sub_diag.
    + rewrite app_length. cbn. lia.
Qed.

Lemma of_line_recv rp m : bytes_ok m ->
  of_line rp (LgRecv, hex_line rp m) = Some (TGot m).
Proof.
  intros H. unfold of_line, hex_line.
  replace (skipn (S (length rp)) (rp ++ [32] ++ b2a_hex m)) with (b2a_hex m).
  - now rewrite unhex_hex.
  - rewrite app_assoc. replace (S (length rp)) with (length (rp ++ [32])).
    + now rewrite skipn_app, skipn_all, Nat.sub_diag.
    + rewrite app_length. cbn. lia.
Qed.

Lemma read_log_app rp a b : read_log rp (a ++ b) = read_log rp a ++ read_log rp b.
Proof.
  induction a as [|x a IH]; [reflexivity|]. cbn [app read_log].
  destruct (of_line rp x); cbn [app]; now rewrite IH.
Qed.

(** recv does not depend on the count of closes. *)
Definition wk (k : nat) (c : chan) : chan :=
  mkChan (buf c) (closed c) (envs c) (nreads c) k.

Lemma fill_k : forall es need b cl n k k',
  exists k2, fill need b cl es n k' =
    (wk k2 (fst (fill need b cl es n k)), snd (fill need b cl es n k)).
Proof.
  induction es as [|e es IH]; intros need b cl n k k'.
  - cbn [fill]. destruct (need <=? length b)%nat; [exists k'; reflexivity|].
    destruct cl; exists k'; reflexivity.
  - cbn [fill]. destruct (need <=? length b)%nat; [exists k'; reflexivity|].
    destruct cl; [exists k'; reflexivity|].
    destruct e as [r|].
    + destruct (default_wrapper r) as [[[|x t]|]|ex]; try (exists k'; reflexivity); apply IH.
    + apply IH.
Qed.

Lemma recv_k c k : exists k2,
  recv (wk k c) = (wk k2 (fst (recv c)), snd (recv c)).
Proof.
  unfold recv, fill_chan. cbn [wk buf closed envs nreads nclose].
  destruct (fill_k (envs c) 8 (buf c) (closed c) (nreads c) (nclose c) k) as [k1 E].
  rewrite E. clear E.
  destruct (fill 8 (buf c) (closed c) (envs c) (nreads c) (nclose c)) as [c1 [r|]] eqn:F;
    cbn [fst snd]; [exists k1; reflexivity|].
  change (buf (wk k1 c1)) with (buf c1).
  destruct (unpacks "!BBHI" (buf c1) 0) as [[|v0 [|v1 [|v2 [|v3 [|]]]]]|e];
    try (exists k1; reflexivity).
  all: destruct v2; try (exists k1; reflexivity).
  cbn [wk buf closed envs nreads nclose].
  destruct (fill_k (envs c1) (Z.to_nat z) (buf c1) (closed c1) (nreads c1) (nclose c1) k1) as [k2 E].
  rewrite E. clear E.
  destruct (fill (Z.to_nat z) (buf c1) (closed c1) (envs c1) (nreads c1) (nclose c1)) as [c2 [r|]];
    cbn [fst snd]; exists k2; reflexivity.
Qed.

Lemma same_wk a b : same_but_closes a b -> d_in a = wk (nclose (d_in a)) (d_in b).
Proof.
  intros (_ & H1 & H2 & H3 & H4). destruct a as [[? ? ? ? ?] ta]; destruct b as [[? ? ? ? ?] tb].
  cbn in *. subst. reflexivity.
Qed.

Definition tclosed_sync (d : dch) : Prop :=
  closed (d_in d) = true -> t_closed (d_out d) = true.

Lemma step_same l d o : same_but_closes (l_d l) d -> tclosed_sync d ->
  exists l' d' r, log_step l o = (l', r) /\ plain_step d o = (d', r) /\
    same_but_closes (l_d l') d' /\ tclosed_sync d'.
Proof.
  intros S T. destruct o as [w m| |].
  - cbn [log_step plain_step]. pose proof S as (E & S').
    rewrite E. destruct (send (d_out d) w m) as [t r] eqn:F.
    eexists _, _, _. split; [reflexivity|]. split; [reflexivity|].
    split.
    + unfold same_but_closes in *. cbn. destruct S' as (? & ? & ? & ?). auto.
    + unfold tclosed_sync in *. cbn. intros H. specialize (T H).
      unfold send in F. rewrite T in F. destruct (t_sendto (d_out d)), (t_socket (d_out d));
        injection F as <- <-; assumption.
  - cbn [log_step plain_step]. rewrite (same_wk _ _ S).
    destruct (recv_k (d_in d) (nclose (d_in (l_d l)))) as [k2 E]. rewrite E.
    destruct (recv (d_in d)) as [c r]. cbn [fst snd].
    eexists _, _, _. split; [reflexivity|]. split; [reflexivity|].
    destruct S as (E2 & _). split.
    + unfold same_but_closes. cbn. rewrite E2. unfold sync_closed. cbn. auto.
    + unfold tclosed_sync, sync_closed. cbn. intros H. rewrite H. reflexivity.
  - cbn [log_step plain_step].
    destruct (closed (d_in (l_d l))) eqn:C.
    + eexists _, _, _. split; [reflexivity|]. split; [reflexivity|].
      destruct S as (E & E1 & E2 & E3 & E4). split.
      * unfold same_but_closes, dch_close. cbn. rewrite E, C.
        rewrite C in E2. symmetry in E2. specialize (T E2). repeat split; auto.
        destruct (d_out d); cbn in *; subst; reflexivity.
      * unfold tclosed_sync. cbn. reflexivity.
    + eexists _, _, _. split; [reflexivity|]. split; [reflexivity|].
      destruct S as (E & E1 & E2 & E3 & E4). split.
      * unfold same_but_closes, dch_close. cbn. rewrite E. auto.
      * unfold tclosed_sync. cbn. reflexivity.
Qed.

Lemma log_transparent : forall os l d, same_but_closes (l_d l) d -> tclosed_sync d ->
  exists l' d' rs, log_run l os = (l', rs) /\ plain_run d os = (d', rs) /\
    same_but_closes (l_d l') d'.
Proof.
  induction os as [|o os IH]; intros l d S T.
  - exists l, d, []. auto.
  - destruct (step_same l d o S T) as (l1 & d1 & r & E1 & E2 & S1 & T1).
    destruct (IH l1 d1 S1 T1) as (l2 & d2 & rs & F1 & F2 & S2).
    exists l2, d2, (r :: rs). cbn [log_run plain_run].
    rewrite E1, F1, E2, F2. auto.
Qed.

(** What was read is made of the bytes delivered. *)
Definition op_ok (o : dop) : Prop :=
  match o with DSend _ m => bytes_ok m | _ => True end.

Definition in_ok (c : chan) : Prop := bytes_ok (buf c) /\ bytes_ok (delivered (envs c)).

Lemma bytes_ok_app a b : bytes_ok (a ++ b) <-> bytes_ok a /\ bytes_ok b.
Proof. apply Forall_app. Qed.

Lemma delivered_app a b : delivered (a ++ b) = delivered a ++ delivered b.
Proof.
  induction a as [|e a IH]; [reflexivity|].
  cbn [app delivered]. destruct e as [[x| | |]|]; rewrite IH; try reflexivity.
  apply app_assoc.
Qed.

Lemma recv_ok c c' r : in_ok c -> recv c = (c', r) ->
  in_ok c' /\ forall m, r = Got m -> bytes_ok m.
Proof.
  intros [Hb He] E.
  assert (R : recvs 1 c = ([r], c')) by (cbn [recvs]; rewrite E; reflexivity).
  destruct (recvs_conserve _ _ _ _ R) as (used & E1 & E2).
  rewrite E1, delivered_app in He. apply bytes_ok_app in He. destruct He as [Hu He].
  assert (A : bytes_ok (concat (map out_bytes [r]) ++ buf c'))
    by (rewrite <- E2; apply bytes_ok_app; auto).
  apply bytes_ok_app in A. destruct A as [A1 A2].
  split; [split; assumption|]. intros m ->. cbn [map concat out_bytes] in A1.
  now rewrite app_nil_r in A1.
Qed.

Lemma log_step_reads l o l' r : in_ok (d_in (l_d l)) -> op_ok o ->
  log_step l o = (l', r) ->
  in_ok (d_in (l_d l')) /\ l_repr l' = l_repr l /\
  read_log (l_repr l) (l_log l') = read_log (l_repr l) (l_log l) ++ seen [o] [r].
Proof.
  intros I O E. destruct o as [w m| |]; cbn [log_step plain_step] in E.
  - destruct (send (d_out (l_d l)) w m) as [t r'].
    injection E as <- <-. cbn [l_d d_in l_repr l_log]. split; [exact I|]. split; [reflexivity|].
    rewrite read_log_app. cbn [read_log]. rewrite of_line_send by exact O. reflexivity.
  - destruct (recv (d_in (l_d l))) as [c r'] eqn:R.
    destruct (recv_ok _ _ _ I R) as [I' G].
    injection E as <- <-. cbn [l_d d_in l_repr l_log]. split; [exact I'|]. split; [reflexivity|].
    destruct r' as [[|x m]|e|]; cbn [seen]; try (now rewrite app_nil_r).
    rewrite read_log_app. cbn [read_log]. rewrite of_line_recv by (apply G; reflexivity).
    reflexivity.
  - destruct (closed (d_in (l_d l))).
    + injection E as <- <-. cbn [seen]. rewrite app_nil_r. auto.
    + injection E as <- <-. cbn [l_d d_in l_repr l_log dch_close]. split; [exact I|].
      split; [reflexivity|]. rewrite read_log_app. reflexivity.
Qed.

Lemma seen_cons o os r rs : seen (o :: os) (r :: rs) = seen [o] [r] ++ seen os rs.
Proof. destruct o; [reflexivity| |reflexivity]. destruct r as [|[[|]| |]|]; reflexivity. Qed.

Lemma log_run_reads : forall os l l' rs, in_ok (d_in (l_d l)) -> Forall op_ok os ->
  log_run l os = (l', rs) ->
  read_log (l_repr l) (l_log l') = read_log (l_repr l) (l_log l) ++ seen os rs.
Proof.
  induction os as [|o os IH]; intros l l' rs I O E.
  - injection E as <- <-. cbn. now rewrite app_nil_r.
  - cbn [log_run] in E. destruct (log_step l o) as [l1 r] eqn:S.
    destruct (log_run l1 os) as [l2 rs2] eqn:R. injection E as <- <-.
    inversion O as [|? ? O1 O2]; subst.
    destruct (log_step_reads _ _ _ _ I O1 S) as (I1 & N & L).
    specialize (IH _ _ _ I1 O2 R). rewrite N in IH. rewrite IH, L, <- app_assoc.
    now rewrite <- seen_cons.
Qed.

(** * Sending *)

Definition stream (t : tr) : Prop := t_sendto t = false /\ t_socket t = true /\ t_closed t = false.

Lemma sends_full : forall ws t, stream t -> Forall full ws ->
  exists t', sends t ws = (t', map (fun _ => Ok tt) ws) /\ stream t' /\
    t_wire t' = t_wire t ++ concat (map snd ws).
Proof.
  induction ws as [|[o m] ws IH]; intros t S F.
  - exists t. cbn. rewrite app_nil_r. auto.
  - inversion F as [|? ? (n & E & L) F']; subst. cbn [fst snd] in *. subst o.
    destruct S as (S1 & S2 & S3).
    cbn [sends]. unfold send at 1. rewrite S1, S2, S3.
    rewrite firstn_all2 by exact L.
    destruct (IH (mkTr false true false (t_wire t ++ m) (t_grams t))) as (t' & E & S' & W).
    + repeat split.
    + exact F'.
    + rewrite E. exists t'. split; [reflexivity|]. split; [exact S'|].
      rewrite W. cbn [t_wire map concat snd]. now rewrite app_assoc.
Qed.

Lemma sends_short t n m : stream t ->
  send t (WAccept n) m =
    (mkTr false true false (t_wire t ++ firstn n m) (t_grams t), Ok tt).
Proof. intros (S1 & S2 & S3). unfold send. now rewrite S1, S2, S3. Qed.

Lemma sends_grams : forall ws t,
  t_sendto t = true -> t_closed t = false -> Forall (fun w => exists n, fst w = WAccept n) ws ->
  exists t', sends t ws = (t', map (fun _ => Ok tt) ws) /\
    t_grams t' = t_grams t ++ map snd ws.
Proof.
  induction ws as [|[o m] ws IH]; intros t S C F.
  - exists t. cbn. rewrite app_nil_r. auto.
  - inversion F as [|? ? (n & E) F']; subst. cbn [fst] in E. subst o.
    cbn [sends]. unfold send at 1. rewrite S, C.
    destruct (IH (mkTr true (t_socket t) false (t_wire t) (t_grams t ++ [m]))) as (t' & E & G);
      auto.
    rewrite E. exists t'. split; [reflexivity|]. rewrite G. cbn [t_grams map snd].
    now rewrite <- app_assoc.
Qed.

Lemma closed_sends : forall ws t, t_closed t = true ->
  exists rs, sends t ws = (t, rs) /\ length rs = length ws /\
    Forall (fun r => exists e, r = Err e) rs.
Proof.
  induction ws as [|[o m] ws IH]; intros t C.
  - exists []. auto.
  - destruct (IH t C) as (rs & E & L & F).
    cbn [sends]. unfold send at 1. rewrite C.
    destruct (t_sendto t), (t_socket t);
    rewrite E; eexists; (split; [reflexivity|]); (split; [cbn; now rewrite L|]);
    constructor; eauto.
Qed.

(** * Read wrappers *)

Lemma wrun_inst : forall p s s' e l, wrun p s = (s', e, l) ->
  forall i, ~ In i (entered p) -> rw_inst s' i = rw_inst s i.
Proof.
  induction p as [|ex|a IHa b IHb| |i body IH]; intros s s' e l E j N; cbn [wrun entered] in *.
  - congruence.
  - congruence.
  - destruct (wrun a s) as [[s1 [e1|]] l1] eqn:A.
    + injection E as <- <- <-. eapply IHa; [exact A|]. intros H; apply N, in_app_iff; auto.
    + destruct (wrun b s1) as [[s2 e2] l2] eqn:B. injection E as <- <- <-.
      rewrite (IHb _ _ _ _ B), (IHa _ _ _ _ A); auto;
        intros H; apply N, in_app_iff; auto.
  - congruence.
  - destruct (wrun body (rw_enter s i)) as [[s1 e1] l1] eqn:B.
    assert (J : rw_inst s1 j = rw_inst s j).
    { rewrite (IH _ _ _ _ B) by (intros H; apply N; right; exact H).
      unfold rw_enter. cbn. destruct (Nat.eqb j i) eqn:Q; [|reflexivity].
      apply Nat.eqb_eq in Q. subst. exfalso. apply N. left. reflexivity. }
    unfold rw_exit in E. destruct (rw_inst s1 i); injection E as <- <- <-; exact J.
Qed.

Lemma wrun_restores : forall p s, not_reentered p ->
  exists s' e l, wrun p s = (s', e, l) /\ rw_cur s' = rw_cur s /\
    l = fst (scopes p (rw_cur s)) /\
    (e = None <-> snd (scopes p (rw_cur s)) = true).
Proof.
  induction p as [|ex|a IHa b IHb| |i body IH]; intros s N; cbn [wrun scopes not_reentered] in *.
  - exists s, None, []. repeat split; auto.
  - exists s, (Some ex), []. repeat split; auto; discriminate.
  - destruct N as [Na Nb].
    destruct (IHa s Na) as (s1 & e1 & l1 & E1 & C1 & L1 & X1).
    rewrite E1. destruct (scopes a (rw_cur s)) as [la oka]. cbn [fst snd] in *. subst la.
    destruct e1 as [e1|].
    + destruct oka; [exfalso; destruct X1 as [_ X]; discriminate (X eq_refl)|].
      exists s1, (Some e1), l1. split; [reflexivity|]. split; [exact C1|].
      split; [reflexivity|]. exact X1.
    + destruct oka; [|exfalso; destruct X1 as [X _]; discriminate (X eq_refl)].
      destruct (IHb s1 Nb) as (s2 & e2 & l2 & E2 & C2 & L2 & X2).
      rewrite E2, C1 in *. destruct (scopes b (rw_cur s)) as [lb okb]. cbn [fst snd] in *. subst.
      exists s2, e2, (l1 ++ lb). split; [reflexivity|]. split; [congruence|].
      split; [reflexivity|exact X2].
  - exists s, None, [rw_cur s]. repeat split; auto.
  - destruct N as [Ni Nb].
    destruct (IH (rw_enter s i) Nb) as (s1 & e1 & l1 & E1 & C1 & L1 & X1).
    rewrite E1. unfold rw_exit.
    rewrite (wrun_inst _ _ _ _ _ E1 i Ni). unfold rw_enter. cbn [rw_inst].
    rewrite Nat.eqb_refl.
    exists (mkRws (rw_cur s) (rw_inst s1)), e1, l1. split; [reflexivity|].
    split; [reflexivity|]. split; [exact L1|exact X1].
Qed.

(** * What the peer can have received *)

Lemma sends_total : forall ws t t' rs, stream t -> sends t ws = (t', rs) -> Forall (fun r => r = Ok tt) rs ->
  Forall (fun w => exists n, fst w = WAccept n) ws /\
  (length (t_wire t') <= length (t_wire t) + length (concat (map snd ws)))%nat /\
  ((length (t_wire t') = length (t_wire t) + length (concat (map snd ws)))%nat -> Forall full ws).
Proof.
  induction ws as [|[o m] ws IH]; intros t t' rs St E F.
  - cbn in E. injection E as <- <-. cbn. repeat split; auto; lia.
  - cbn [sends] in E. destruct o as [n|e].
    + rewrite (sends_short t n m St) in E.
      destruct (sends (mkTr false true false (t_wire t ++ firstn n m) (t_grams t)) ws) as [t2 rs2] eqn:E2.
      injection E as <- <-. inversion F; subst.
      assert (St2 : stream (mkTr false true false (t_wire t ++ firstn n m) (t_grams t))) by (unfold stream; auto).
      destruct (IH _ _ _ St2 E2 ltac:(assumption)) as (A & L & Q).
      cbn [t_wire] in L, Q. rewrite app_length, firstn_length in L, Q. cbn [map concat snd]. rewrite app_length.
      split; [constructor; [exists n; reflexivity|exact A]|]. split; [lia|]. intros X. constructor.
      * exists n. cbn [fst snd]. split; [reflexivity|lia].
      * apply Q. lia.
    + destruct St as (S1 & S2 & S3). unfold send at 1 in E. rewrite S1, S2, S3 in E.
      destruct (sends t ws) as [t2 rs2]. injection E as <- <-. inversion F; discriminate.
Qed.

Theorem received_exactly ws t' rs es :
  sends (mkTr false true false [] []) ws = (t', rs) -> Forall (fun r => r = Ok tt) rs ->
  Forall msg_wf (map snd ws) -> quiet es -> delivered es = t_wire t' ->
  (fst (recvs (length ws) (new_chan es)) = map Got (map snd ws) <-> Forall full ws).
Proof.
  intros E O W Q D. split.
  - intros R. destruct (recvs (length ws) (new_chan es)) as [rs0 c'] eqn:Er. cbn [fst] in R. subst rs0.
    destruct (recvs_conserve _ _ _ _ Er) as (used & Eu & B).
    assert (St2 : stream (mkTr false true false [] [])) by (unfold stream; auto).
    destruct (sends_total ws _ _ _ St2 E O) as (_ & L & X). cbn [t_wire length Nat.add] in L, X.
    apply X. rewrite <- D. cbn [new_chan envs buf Datatypes.app] in Eu, B.
    assert (M : concat (map out_bytes (map Got (map snd ws))) = concat (map snd ws)).
    { clear. induction ws as [|w ws IH]; [reflexivity|]. cbn [map concat out_bytes]. rewrite IH. reflexivity. }
    rewrite M in B. rewrite Eu, delivered_app, app_length. apply (f_equal (@length Z)) in B. rewrite app_length in B.
    rewrite <- D, Eu, delivered_app, app_length in L. lia.
  - intros F. destruct (sends_full ws (mkTr false true false [] [])) as (t2 & E2 & _ & T); [repeat split|exact F|].
    rewrite E in E2. injection E2 as <- _. rewrite <- (map_length snd ws). apply framing_recvs; auto. rewrite D, T. reflexivity.
Qed.
