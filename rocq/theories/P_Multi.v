(** Proofs about simple calls, multi() and close(). *)

From Verif Require Import Py Struct P_Struct M_Hello M_Loop M_Controller M_Sync S_Hello S_Controller S_Sync P_Hello P_Controller P_Sync.
Local Open Scope Z_scope.

(** *** What a tracker can hold, closes included *)

Definition held (x : Z) (R : list bytes) (d : option bytes) : Prop :=
  d = None \/ d = Some [] \/
  exists bm rest, d = Some (bm ++ rest) /\ In bm (mine x R) /\ (8 <= length bm)%nat.

Definition winv (x : Z) (t : nat) (R : list bytes) (s : sync) : Prop :=
  (forall y, dget (sy_map s) y = Some t -> y = x) /\
  held x R (sy_data s t) /\
  match sy_reader s with
  | RHit m => xid_of m = x -> In m (mine x R) /\ (8 <= length m)%nat
  | RGot m t' => t' = t -> In m (mine x R) /\ (8 <= length m)%nat
  | _ => True
  end.

Lemma in_mine_app x R R' m : In m (mine x R) -> In m (mine x (R ++ R')).
Proof. rewrite mine_app. intros H. apply in_or_app. auto. Qed.

Lemma held_app x R R' d : held x R d -> held x (R ++ R') d.
Proof.
  intros [H|[H|(bm & rest & H1 & H2 & H3)]]; [left; exact H|right; left; exact H|].
  right; right. exists bm, rest. split; [exact H1|]. split; [apply in_mine_app; exact H2|exact H3].
Qed.

Lemma held_add x R d m : held x R d -> In m (mine x R) -> (8 <= length m)%nat -> held x R (add d m).
Proof.
  intros Hd Hm Hl. right; right. unfold add. destruct (multipart m).
  - destruct Hd as [->|[->|(bm & rest & -> & H2 & H3)]].
    + exists m, []. rewrite app_nil_r. auto.
    + exists m, []. rewrite app_nil_r. auto.
    + exists bm, (rest ++ m). rewrite app_assoc. auto.
  - exists m, []. rewrite app_nil_r. auto.
Qed.

Lemma winv_step x t R s e s' :
  winv x t R s -> estep s e = Some s' -> rely_close1 x t e -> winv x t (R ++ received [e]) s'.
Proof.
  intros (Hinj & Hd & Hr) He Hrely.
  destruct e as [m| | | |y t'|y| ]; cbn [estep] in He.
  - destruct (sy_reader s) eqn:Er; try discriminate. injection He as <-.
    unfold winv. cbn [sy_map sy_data sy_ev sy_reader received].
    split; [exact Hinj|]. split; [apply held_app; exact Hd|].
    destruct (Nat.lt_ge_cases (length m) 8) as [Hs|Hl]; [rewrite parse_header_short by exact Hs; exact I|].
    rewrite parse_header_spec by exact Hl. cbn [h_xid].
    destruct (dget (sy_map s) (u32_at m 4)); [|exact I].
    intros Hx. split; [|exact Hl]. rewrite mine_snoc_in by exact Hx. apply in_or_app. right. left. reflexivity.
  - rewrite app_nil_r. destruct (sy_reader s) as [|m|m t0|t0|e0] eqn:Er; try discriminate.
    injection He as <-. unfold winv. cbn [sy_map sy_data sy_ev sy_reader].
    split; [exact Hinj|]. split; [exact Hd|].
    destruct (Nat.lt_ge_cases (length m) 8) as [Hs|Hl]; [rewrite parse_header_short by exact Hs; exact I|].
    rewrite parse_header_spec by exact Hl. cbn [h_xid]. fold (xid_of m).
    destruct (dget (sy_map s) (xid_of m)) as [t'|] eqn:Eg; [|exact I].
    intros ->. apply Hr. apply Hinj. exact Eg.
  - rewrite app_nil_r. destruct (sy_reader s) as [|m|m t0|t0|e0] eqn:Er; try discriminate.
    destruct (Nat.eq_dec t0 t) as [->|Hne].
    + destruct (Hr eq_refl) as [Hin Hl]. rewrite store_spec in He by exact Hl.
      set (st := if multipart m then _ else _) in He. clearbody st. injection He as <-.
      unfold winv. cbn [sy_map sy_data sy_ev sy_reader].
      split; [exact Hinj|]. unfold upd. rewrite Nat.eqb_refl. split; [apply held_add; auto|].
      destruct st as [[|]|]; exact I.
    + destruct (store m (sy_data s t0)) as [d0 r0]. injection He as <-.
      unfold winv. cbn [sy_map sy_data sy_ev sy_reader].
      split; [exact Hinj|]. unfold upd. destruct (t =? t0)%nat eqn:E; [apply Nat.eqb_eq in E; congruence|].
      split; [exact Hd|]. destruct r0 as [[|]|]; exact I.
  - rewrite app_nil_r. destruct (sy_reader s) as [|m|m t0|t0|e0] eqn:Er; try discriminate.
    injection He as <-. unfold winv. cbn [sy_map sy_data sy_ev sy_reader]. auto.
  - rewrite app_nil_r. injection He as <-. destruct Hrely as [Hy Ht'].
    unfold winv. cbn [sy_map sy_data sy_ev sy_reader]. split; [|auto].
    intros z. rewrite dget_dput. destruct (y =? z) eqn:E; [congruence|apply Hinj].
  - rewrite app_nil_r. injection He as <-. unfold winv. cbn [sy_map sy_data sy_ev sy_reader]. split; [|auto].
    intros z. rewrite dget_dpop. destruct (y =? z) eqn:E; [discriminate|apply Hinj].
  - rewrite app_nil_r. injection He as <-. unfold winv. cbn [sy_map sy_data sy_ev sy_reader].
    split; [exact Hinj|]. split; [|exact Hr].
    destruct (existsb (Nat.eqb t) (map snd (sy_map s))); [right; left; reflexivity|exact Hd].
Qed.

Lemma winv_steps x t es : forall R s s',
  winv x t R s -> esteps s es = Some s' -> rely_close x t es -> winv x t (R ++ received es) s'.
Proof.
  induction es as [|e es IH]; intros R s s' Hi He Hr; cbn [esteps] in He.
  - injection He as <-. cbn [received]. rewrite app_nil_r. exact Hi.
  - destruct (estep s e) as [s1|] eqn:E; [|discriminate]. inversion Hr as [|? ? Hr1 Hr2]; subst.
    pose proof (winv_step _ _ _ _ _ _ Hi E Hr1) as H1. pose proof (IH _ _ _ H1 He Hr2) as H2.
    rewrite <- app_assoc in H2.
    replace (received (e :: es)) with (received [e] ++ received es); [exact H2|].
    change (e :: es) with ([e] ++ es). rewrite received_app. reflexivity.
Qed.

Lemma winv_register s x t : fresh s x t -> winv x t [] (register s x t).
Proof.
  intros (H1 & H2 & H3 & H4 & H5). unfold winv, register. cbn [sy_map sy_data sy_ev sy_reader].
  split.
  { intros y. rewrite dget_dput. destruct (x =? y) eqn:E; [lia|]. intros Hy. exfalso. eapply H2; eauto. }
  split; [left; exact H3|]. destruct (sy_reader s) as [|m|m t0|t0|e]; try exact I; congruence.
Qed.

(** *** Simple calls *)

Lemma prefix_bytes bm rest i : (i < length bm)%nat -> byte_at (bm ++ rest) i = byte_at bm i.
Proof. intros H. unfold byte_at. apply app_nth1. exact H. Qed.

Lemma prefix_xid bm rest : (8 <= length bm)%nat -> xid_of (bm ++ rest) = xid_of bm.
Proof. intros H. unfold xid_of, u32_at. rewrite !prefix_bytes by lia. reflexivity. Qed.

Lemma check_simple_spec ty d :
  (forall m, d = Some m -> m = [] \/ (8 <= length m)%nat) ->
  check_simple ty d =
  match d with
  | None => Err ChannelClose
  | Some m => if (length m =? 0)%nat then Err ChannelClose
              else if byte_at m 1 =? ty then Ok m else Err NameError
  end.
Proof.
  intros H. destruct d as [m|]; [|reflexivity]. destruct (H m eq_refl) as [->|Hl]; [reflexivity|].
  unfold check_simple. pose proof (parse_header_spec m Hl) as P. destruct m as [|b m]; [cbn in Hl; lia|].
  rewrite P. cbn [h_type Datatypes.length Nat.eqb]. reflexivity.
Qed.

Lemma simple_request k v x : 0 <= v < 256 -> 0 <= x < 2 ^ 32 ->
  (let '(rq, rs) := simple_types k (Some v) in
   ofp_header_only rq (VInt v) x = Ok (request k v x) /\ rs = reply_type k v) /\
  xid_of (request k v x) = x /\ length (request k v x) = 8%nat.
Proof.
  intros Hv Hx. change (2 ^ 32) with 4294967296 in Hx. split; [|split; [|reflexivity]].
  - destruct k; cbn [simple_types]; unfold request, request_type; cbn [reply_type];
      try (rewrite pack_barrier by lia; split; [|reflexivity];
           destruct ((0 <=? v) && (v <? 256) && (0 <=? x) && (x <? 4294967296)) eqn:E; [reflexivity|lia]).
    destruct (v =? 1) eqn:E1.
    + apply Z.eqb_eq in E1. subst v. rewrite pack_barrier by lia. split; [|reflexivity].
      destruct ((0 <=? 1) && (1 <? 256) && (0 <=? x) && (x <? 4294967296)) eqn:E; [reflexivity|lia].
    + replace (match v with 1 => (18, 19) | _ => (20, 21) end) with (20, 21)
        by (destruct v as [|[p|p|]|p]; try reflexivity; discriminate).
      rewrite pack_barrier by lia. split; [|reflexivity].
      destruct ((0 <=? v) && (v <? 256) && (0 <=? x) && (x <? 4294967296)) eqn:E; [reflexivity|lia].
  - unfold request, xid_of, u32_at, byte_at. cbn [be Datatypes.app nth Nat.add].
    lia.
Qed.

Lemma reg_steps x t es : forall s s', dget (sy_map s) x = Some t ->
  esteps s es = Some s' -> rely_close x t es -> dget (sy_map s') x = Some t.
Proof.
  induction es as [|e es IH]; intros s s' Hg He Hr; cbn [esteps] in He; [injection He as <-; exact Hg|].
  destruct (estep s e) as [s1|] eqn:E; [|discriminate]. inversion Hr as [|? ? Hr1 Hr2]; subst.
  refine (IH _ _ _ He Hr2). clear IH He Hr Hr2.
  destruct e as [m| | | |y t'|y| ]; cbn [estep] in E.
  1-4: destruct (sy_reader s); try discriminate.
  1,2,4: injection E as <-; exact Hg.
  - destruct (store m (sy_data s t0)). injection E as <-. exact Hg.
  - injection E as <-. cbn [sy_map]. destruct Hr1 as [Hy _]. rewrite dget_dput.
    apply Z.eqb_neq in Hy. rewrite Hy. exact Hg.
  - injection E as <-. cbn [sy_map]. cbn in Hr1. rewrite dget_dpop. apply Z.eqb_neq in Hr1. rewrite Hr1. exact Hg.
  - injection E as <-. exact Hg.
Qed.

Lemma rely_close_app x t a b : rely_close x t (a ++ b) <-> rely_close x t a /\ rely_close x t b.
Proof. apply Forall_app. Qed.

Lemma rely_rely_close x t es : rely x t es -> rely_close x t es.
Proof. apply Forall_impl. intros e H. destruct e; exact H || exact I. Qed.

Theorem simple_result k v x s t e1 e2 e3 s' r :
  0 <= v < 256 -> 0 <= x < 2 ^ 32 -> fresh s x t -> rely_close x t (e1 ++ e2 ++ e3) ->
  simple_call k (Some v) x s t e1 None e2 e3 = Some (s', r) ->
  r = Err ChannelClose \/
  exists bm rest, In bm (mine x (received (e1 ++ e2 ++ e3))) /\ (8 <= length bm)%nat /\
    r = (if byte_at bm 1 =? reply_type k v then Ok (bm ++ rest) else Err NameError).
Proof.
  intros Hv Hx Hf Hrely. destruct (simple_request k v x Hv Hx) as (Hreq & Hxid & Hlen).
  unfold simple_call. destruct (simple_types k (Some v)) as [rq rs]. destruct Hreq as [Hreq ->].
  unfold sync_simple. cbn [vint]. rewrite Hreq. unfold send_sync. rewrite parse_header_spec by lia. cbn [h_xid].
  fold (xid_of (request k v x)). rewrite Hxid.
  apply rely_close_app in Hrely. destruct Hrely as [Hr1 Hr23]. apply rely_close_app in Hr23. destruct Hr23 as [Hr2 Hr3].
  pose proof (winv_register s x t Hf) as H0.
  destruct (esteps (register s x t) e1) as [s1|] eqn:E1; [|discriminate].
  pose proof (winv_steps _ _ _ _ _ _ H0 E1 Hr1) as H1. cbn [Datatypes.app] in H1.
  destruct (esteps s1 e2) as [s2|] eqn:E2; [|discriminate].
  pose proof (winv_steps _ _ _ _ _ _ H1 E2 Hr2) as H2.
  assert (Hg : dget (sy_map s2) x = Some t).
  { eapply reg_steps; [|exact E2|exact Hr2]. eapply reg_steps; [|exact E1|exact Hr1].
    cbn [register sy_map]. rewrite dget_dput, Z.eqb_refl. reflexivity. }
  unfold pop. rewrite Hg.
  set (s3 := mkSync (dpop (sy_map s2) x) (sy_data s2) (sy_ev s2) (sy_reader s2)).
  destruct (esteps s3 e3) as [s4|] eqn:E3; [|discriminate].
  assert (H3 : winv x t (received e1 ++ received e2) s3).
  { destruct H2 as (Ha & Hb & Hc). unfold winv, s3. cbn [sy_map sy_data sy_reader]. split; [|auto].
    intros y. rewrite dget_dpop. destruct (x =? y); [discriminate|apply Ha]. }
  pose proof (winv_steps _ _ _ _ _ _ H3 E3 Hr3) as (_ & H4 & _). intros Hres. injection Hres as <- <-.
  rewrite !received_app, app_assoc. rewrite check_simple_spec.
  - destruct H4 as [->|[->|(bm & rest & -> & Hin & Hl)]]; [left; reflexivity|left; reflexivity|].
    right. exists bm, rest. split; [exact Hin|]. split; [exact Hl|].
    destruct (length (bm ++ rest) =? 0)%nat eqn:E; [apply Nat.eqb_eq in E; rewrite app_length in E; lia|].
    rewrite prefix_bytes by lia. reflexivity.
  - intros m Hm. destruct H4 as [H4|[H4|(bm & rest & H4 & _ & Hl)]]; [congruence| |].
    + left. congruence.
    + right. rewrite H4 in Hm. injection Hm as <-. rewrite app_length. lia.
Qed.

(** *** close() *)

Lemma close_releases s x t s' : dget (sy_map s) x = Some t -> estep s OClose = Some s' ->
  sy_data s' t = Some [] /\ sy_ev s' t = true.
Proof.
  intros Hg He. cbn in He. injection He as <-. cbn [sy_data sy_ev].
  assert (E : existsb (Nat.eqb t) (map snd (sy_map s)) = true).
  { apply existsb_exists. exists t. split; [|apply Nat.eqb_refl].
    apply dget_In in Hg. apply (in_map snd) in Hg. exact Hg. }
  rewrite E. auto.
Qed.

Lemma event_stays t es : forall sa sb, esteps sa es = Some sb -> sy_ev sa t = true -> sy_ev sb t = true.
Proof.
  induction es as [|e es IH]; intros sa sb H Ht; cbn in H; [injection H as <-; exact Ht|].
  destruct (estep sa e) as [sc|] eqn:E; [|discriminate]. apply (IH _ _ H). clear IH H.
  destruct e as [m| | | |y t'|y| ]; cbn [estep] in E.
  1-4: destruct (sy_reader sa); try discriminate.
  1,2: injection E as <-; exact Ht.
  - destruct (store m (sy_data sa t0)). injection E as <-. exact Ht.
  - injection E as <-. cbn [sy_ev]. unfold upd. destruct (t =? t0)%nat; [reflexivity|exact Ht].
  - injection E as <-. exact Ht.
  - injection E as <-. exact Ht.
  - injection E as <-. cbn [sy_ev]. rewrite Ht. destruct (existsb (Nat.eqb t) (map snd (sy_map sa))); reflexivity.
Qed.

(** Nothing is stored for [t] when no message of its transaction comes in. *)
Definition emptied (x : Z) (t : nat) (s : sync) : Prop :=
  (forall y, dget (sy_map s) y = Some t -> y = x) /\ sy_data s t = Some [] /\
  match sy_reader s with
  | RHit m => xid_of m <> x
  | RGot _ t' => t' <> t
  | _ => True
  end.

Lemma emptied_step x t s e s' : emptied x t s -> estep s e = Some s' -> rely_close1 x t e ->
  (forall m, e = RTest m -> xid_of m <> x) -> emptied x t s'.
Proof.
  intros (Hinj & Hd & Hr) He Hrely Hno.
  destruct e as [m| | | |y t'|y| ]; cbn [estep] in He.
  - destruct (sy_reader s) eqn:Er; try discriminate. injection He as <-. unfold emptied. cbn [sy_map sy_data sy_reader].
    split; [exact Hinj|]. split; [exact Hd|].
    destruct (parse_ofp_header m) as [h|]; [|exact I]. destruct (dget (sy_map s) (h_xid h)); [|exact I].
    apply Hno. reflexivity.
  - destruct (sy_reader s) as [|m|m t0|t0|e0] eqn:Er; try discriminate. injection He as <-.
    unfold emptied. cbn [sy_map sy_data sy_reader]. split; [exact Hinj|]. split; [exact Hd|].
    destruct (Nat.lt_ge_cases (length m) 8) as [Hs|Hl]; [rewrite parse_header_short by exact Hs; exact I|].
    rewrite parse_header_spec by exact Hl. cbn [h_xid]. fold (xid_of m).
    destruct (dget (sy_map s) (xid_of m)) as [t'|] eqn:Eg; [|exact I]. intros ->. apply Hr. apply Hinj. exact Eg.
  - destruct (sy_reader s) as [|m|m t0|t0|e0] eqn:Er; try discriminate.
    destruct (store m (sy_data s t0)) as [d0 r0]. injection He as <-.
    unfold emptied. cbn [sy_map sy_data sy_reader]. split; [exact Hinj|].
    unfold upd. destruct (t =? t0)%nat eqn:E; [apply Nat.eqb_eq in E; congruence|].
    split; [exact Hd|]. destruct r0 as [[|]|]; exact I.
  - destruct (sy_reader s) as [|m|m t0|t0|e0] eqn:Er; try discriminate. injection He as <-.
    unfold emptied. cbn [sy_map sy_data sy_reader]. auto.
  - injection He as <-. destruct Hrely as [Hy Ht']. unfold emptied. cbn [sy_map sy_data sy_reader]. split; [|auto].
    intros z. rewrite dget_dput. destruct (y =? z) eqn:E; [congruence|apply Hinj].
  - injection He as <-. unfold emptied. cbn [sy_map sy_data sy_reader]. split; [|auto].
    intros z. rewrite dget_dpop. destruct (y =? z) eqn:E; [discriminate|apply Hinj].
  - injection He as <-. unfold emptied. cbn [sy_map sy_data sy_reader]. split; [exact Hinj|].
    split; [|exact Hr]. rewrite Hd. destruct (existsb (Nat.eqb t) (map snd (sy_map s))); reflexivity.
Qed.

Lemma emptied_steps x t es : forall s s', emptied x t s -> esteps s es = Some s' -> rely_close x t es ->
  mine x (received es) = [] -> emptied x t s'.
Proof.
  induction es as [|e es IH]; intros s s' H He Hr Hm; cbn [esteps] in He; [injection He as <-; exact H|].
  destruct (estep s e) as [s1|] eqn:E; [|discriminate]. inversion Hr as [|? ? Hr1 Hr2]; subst.
  change (e :: es) with ([e] ++ es) in Hm. rewrite received_app, mine_app in Hm. apply app_eq_nil in Hm. destruct Hm as [Hm1 Hm2].
  refine (IH _ _ _ He Hr2 Hm2). eapply emptied_step; eauto.
  intros m ->. intros Hx. cbn in Hm1. rewrite Hx, Z.eqb_refl in Hm1. discriminate.
Qed.

(** A close while the call is outstanding and the reader is not at work for
    it, and no message of the transaction afterwards. *)
Theorem close_result s m t e1 e2a e2b e3 s1 s' r :
  (8 <= length m)%nat -> fresh s (xid_of m) t ->
  rely_close (xid_of m) t (e1 ++ e2a ++ e2b ++ e3) ->
  esteps (register s (xid_of m) t) (e1 ++ e2a) = Some s1 ->
  match sy_reader s1 with RHit h => xid_of h <> xid_of m | RGot _ t' => t' <> t | _ => True end ->
  mine (xid_of m) (received (e2b ++ e3)) = [] ->
  send_sync s m t e1 None (e2a ++ OClose :: e2b) e3 = Some (s', r) ->
  r = Ok (Some []).
Proof.
  intros Hl Hf Hrely Hes Hid Hno. set (x := xid_of m) in *. unfold send_sync. rewrite parse_header_spec by exact Hl.
  cbn [h_xid]. fold (xid_of m). fold x. rewrite esteps_app in Hes.
  apply rely_close_app in Hrely. destruct Hrely as [Hr1 Hr]. apply rely_close_app in Hr. destruct Hr as [Hr2 Hr].
  apply rely_close_app in Hr. destruct Hr as [Hr3 Hr4].
  destruct (esteps (register s x t) e1) as [sa|] eqn:E1; [|discriminate].
  rewrite esteps_app, Hes. cbn [esteps].
  assert (Hg0 : dget (sy_map (register s x t)) x = Some t).
  { cbn [register sy_map]. rewrite dget_dput, Z.eqb_refl. reflexivity. }
  assert (Hg1 : dget (sy_map s1) x = Some t).
  { eapply reg_steps; [|exact Hes|exact Hr2]. eapply reg_steps; [exact Hg0|exact E1|exact Hr1]. }
  destruct (estep s1 OClose) as [sc|] eqn:Ec; [|discriminate].
  destruct (close_releases _ _ _ _ Hg1 Ec) as [Hdc _].
  assert (Hem : emptied x t sc).
  { pose proof (winv_register s x t Hf) as W. pose proof (winv_steps _ _ _ _ _ _ W E1 Hr1) as W1.
    pose proof (winv_steps _ _ _ _ _ _ W1 Hes Hr2) as (Hinj & _).
    assert (Hmap : sy_map sc = sy_map s1 /\ sy_reader sc = sy_reader s1).
    { cbn in Ec. injection Ec as <-. auto. }
    destruct Hmap as [Hmap Hrd]. unfold emptied. rewrite Hmap, Hrd, Hdc. split; [exact Hinj|]. split; [reflexivity|].
    destruct (sy_reader s1); auto. }
  destruct (esteps sc e2b) as [s2|] eqn:E2; [|discriminate].
  rewrite received_app, mine_app in Hno. apply app_eq_nil in Hno. destruct Hno as [Hn1 Hn2].
  pose proof (emptied_steps _ _ _ _ _ Hem E2 Hr3 Hn1) as Hem2.
  assert (Hg2 : dget (sy_map s2) x = Some t).
  { eapply reg_steps; [|exact E2|exact Hr3]. cbn in Ec. injection Ec as <-. exact Hg1. }
  unfold pop. rewrite Hg2.
  destruct (esteps (mkSync (dpop (sy_map s2) x) (sy_data s2) (sy_ev s2) (sy_reader s2)) e3) as [s4|] eqn:E3; [|discriminate].
  assert (Hem3 : emptied x t (mkSync (dpop (sy_map s2) x) (sy_data s2) (sy_ev s2) (sy_reader s2))).
  { destruct Hem2 as (Ha & Hb & Hc). unfold emptied. cbn [sy_map sy_data sy_reader]. split; [|auto].
    intros y. rewrite dget_dpop. destruct (x =? y); [discriminate|apply Ha]. }
  pose proof (emptied_steps _ _ _ _ _ Hem3 E3 Hr4 Hn2) as (_ & Hd & _).
  intros H. injection H as <- <-. rewrite Hd. reflexivity.
Qed.

(** *** multi() *)

Lemma fresh_step s x t e s' : fresh s x t -> estep s e = Some s' -> rely1 x t e -> fresh s' x t.
Proof.
  intros (H1 & H2 & H3 & H4 & H5) He Hrely.
  destruct e as [m| | | |y t'|y| ]; cbn [estep] in He.
  - destruct (sy_reader s) eqn:Er; try discriminate. injection He as <-.
    unfold fresh. cbn [sy_map sy_data sy_ev sy_reader]. repeat (split; [assumption|]).
    destruct (Nat.lt_ge_cases (length m) 8) as [Hs|Hl]; [rewrite parse_header_short by exact Hs; exact I|].
    rewrite parse_header_spec by exact Hl. cbn [h_xid]. fold (xid_of m).
    destruct (dget (sy_map s) (xid_of m)) eqn:Eg; [|exact I]. congruence.
  - destruct (sy_reader s) as [|m|m t0|t0|e0] eqn:Er; try discriminate. injection He as <-.
    unfold fresh. cbn [sy_map sy_data sy_ev sy_reader]. repeat (split; [assumption|]).
    destruct (parse_ofp_header m) as [h|]; [|exact I].
    destruct (dget (sy_map s) (h_xid h)) as [t'|] eqn:Eg; [|exact I]. intros ->. exact (H2 _ Eg).
  - destruct (sy_reader s) as [|m|m t0|t0|e0] eqn:Er; try discriminate.
    destruct (store m (sy_data s t0)) as [d0 r0]. injection He as <-.
    unfold fresh. cbn [sy_map sy_data sy_ev sy_reader]. split; [assumption|]. split; [assumption|].
    unfold upd. destruct (t =? t0)%nat eqn:E; [apply Nat.eqb_eq in E; congruence|].
    split; [assumption|]. split; [assumption|]. destruct r0 as [[|]|]; [exact H5|exact I|exact I].
  - destruct (sy_reader s) as [|m|m t0|t0|e0] eqn:Er; try discriminate. injection He as <-.
    unfold fresh. cbn [sy_map sy_data sy_ev sy_reader]. split; [assumption|]. split; [assumption|].
    unfold upd. destruct (t =? t0)%nat eqn:E; [apply Nat.eqb_eq in E; congruence|]. auto.
  - injection He as <-. destruct Hrely as [Hy Ht']. unfold fresh. cbn [sy_map sy_data sy_ev sy_reader].
    split; [rewrite dget_dput; apply Z.eqb_neq in Hy; rewrite Hy; exact H1|]. split; [|auto].
    intros z. rewrite dget_dput. destruct (y =? z); [congruence|apply H2].
  - injection He as <-. unfold fresh. cbn [sy_map sy_data sy_ev sy_reader].
    split; [rewrite dget_dpop; destruct (y =? x); [reflexivity|exact H1]|]. split; [|auto].
    intros z. rewrite dget_dpop. destruct (y =? z); [discriminate|apply H2].
  - destruct Hrely.
Qed.

Lemma fresh_steps x t es : forall s s', fresh s x t -> esteps s es = Some s' -> rely x t es -> fresh s' x t.
Proof.
  induction es as [|e es IH]; intros s s' H He Hr; cbn [esteps] in He; [injection He as <-; exact H|].
  destruct (estep s e) as [s1|] eqn:E; [|discriminate]. inversion Hr; subst.
  eapply IH; [|eassumption|assumption]. eapply fresh_step; eauto.
Qed.

Lemma dpop_id {A} (d : list (Z * A)) x : dget d x = None -> dpop d x = d.
Proof.
  induction d as [|[y a] d IH]; cbn; [reflexivity|]. destruct (y =? x); [discriminate|].
  intros H. cbn. unfold dpop in IH. rewrite IH by exact H. reflexivity.
Qed.

Definition flat_send (ms : list reqt) : list ev :=
  concat (map (fun q => OPut (xid_of (req_msg q)) (req_trk q) :: req_evs q) ms).

Lemma multi_send_flat ms : forall s s1 xs,
  Forall (fun q => (8 <= length (req_msg q))%nat) ms ->
  multi_send s ms = Some (s1, Ok xs) ->
  xs = map (fun q => xid_of (req_msg q)) ms /\ esteps s (flat_send ms) = Some s1.
Proof.
  induction ms as [|[[[m t] es] o] ms IH]; intros s s1 xs Hl H; cbn [multi_send] in H.
  - injection H as <- <-. auto.
  - inversion Hl as [|? ? Hm Hms]; subst. cbn [req_msg fst] in Hm. rewrite parse_header_spec in H by exact Hm.
    cbn [h_xid] in H. fold (xid_of m) in H.
    destruct (esteps (register s (xid_of m) t) es) as [sa|] eqn:E; [|discriminate].
    destruct o; [discriminate|]. destruct (multi_send sa ms) as [[sb [ys|e]]|] eqn:E2; try discriminate.
    injection H as <- <-. destruct (IH _ _ _ Hms E2) as [-> Hf]. split; [reflexivity|].
    unfold flat_send. cbn [map concat req_msg req_trk req_evs fst snd].
    cbn [Datatypes.app esteps estep]. change (mkSync _ _ _ _) with (register s (xid_of m) t).
    rewrite esteps_app, E. exact Hf.
Qed.

Lemma simple_call_flat k v x s t e1 e2 e3 s' m :
  0 <= v < 256 -> 0 <= x < 2 ^ 32 ->
  simple_call k (Some v) x s t e1 None e2 e3 = Some (s', Ok m) ->
  esteps s (OPut x t :: e1 ++ e2 ++ OPop x :: e3) = Some s'.
Proof.
  intros Hv Hx. destruct (simple_request k v x Hv Hx) as (Hreq & Hxid & Hlen).
  unfold simple_call. destruct (simple_types k (Some v)) as [rq rs]. destruct Hreq as [Hreq ->].
  unfold sync_simple. cbn [vint]. rewrite Hreq. unfold send_sync. rewrite parse_header_spec by lia. cbn [h_xid].
  fold (xid_of (request k v x)). rewrite Hxid. cbn [esteps estep]. change (mkSync (dput (sy_map s) x t) (sy_data s) (sy_ev s) (sy_reader s)) with (register s x t).
  rewrite !esteps_app. destruct (esteps (register s x t) e1) as [s1|]; [|discriminate].
  rewrite esteps_app. destruct (esteps s1 e2) as [s2|]; [|discriminate]. cbn [esteps estep].
  unfold pop. destruct (dget (sy_map s2) x); [|discriminate].
  destruct (esteps _ e3) as [s4|]; [|discriminate]. intros H. injection H as <- _. reflexivity.
Qed.

Fixpoint col (xs : list Z) (ess : list (list ev)) (i : nat) : list ev :=
  match i, xs, ess with
  | O, _, es :: _ => es
  | S i', x :: xs', es :: ess' => es ++ OPop x :: col xs' ess' i'
  | _, _, _ => []
  end.

Lemma multi_collect_spec xs : forall s ess s' rs,
  multi_collect s xs ess = Some (s', rs) ->
  length rs = length xs /\
  forall i x, nth_error xs i = Some x -> exists si,
    esteps s (col xs ess i) = Some si /\ (i < length ess)%nat /\
    nth_error rs i = Some (match dget (sy_map si) x with Some t => sy_data si t | None => None end).
Proof.
  induction xs as [|x xs IH]; intros s ess s' rs H; cbn [multi_collect] in H.
  - injection H as <- <-. split; [reflexivity|]. intros [|i] y Hy; discriminate.
  - destruct ess as [|es ess]; [discriminate|]. destruct (esteps s es) as [s1|] eqn:E; [|discriminate].
    destruct (multi_collect (fst (pop s1 x)) xs ess) as [[s2 rs2]|] eqn:E2.
    2:{ unfold pop in E2. destruct (dget (sy_map s1) x) eqn:Eg; [discriminate|]. cbn [fst] in E2.
        rewrite E2 in H. discriminate. }
    assert (Hrs : rs = match dget (sy_map s1) x with Some t => sy_data s1 t | None => None end :: rs2 /\ s' = s2).
    { unfold pop in E2. destruct (dget (sy_map s1) x) eqn:Eg; cbn [fst] in E2; rewrite ?E2 in H.
      - injection H as <- <-. auto.
      - injection H as <- <-. auto. }
    destruct Hrs as [-> ->]. destruct (IH _ _ _ _ E2) as [Hlen Hn].
    split; [cbn; congruence|]. intros [|i] y Hy; cbn [nth_error] in *.
    + injection Hy as <-. exists s1. cbn [col]. split; [exact E|]. split; [cbn; lia|]. reflexivity.
    + destruct (Hn i y Hy) as (si & Hsi & Hi & Hr). exists si. split; [|split; [cbn; lia|exact Hr]].
      cbn [col]. rewrite esteps_app, E. cbn [esteps estep].
      replace (mkSync (dpop (sy_map s1) x) (sy_data s1) (sy_ev s1) (sy_reader s1)) with (fst (pop s1 x)); [exact Hsi|].
      unfold pop. destruct (dget (sy_map s1) x) eqn:Eg; [reflexivity|]. cbn [fst]. rewrite dpop_id by exact Eg.
      destruct s1; reflexivity.
Qed.

Lemma received_col xs : forall ess i, (i < length xs)%nat ->
  received (col xs ess i) = received (concat (firstn (S i) ess)).
Proof.
  induction xs as [|x xs IH]; intros ess i Hi; [cbn in Hi; lia|].
  destruct i as [|i], ess as [|es ess]; try reflexivity.
  - cbn [col firstn concat]. rewrite app_nil_r. reflexivity.
  - cbn [col]. rewrite received_app. cbn [received]. rewrite IH by (cbn in Hi; lia).
    cbn [firstn concat]. rewrite received_app. reflexivity.
Qed.

Lemma received_flat_send ms : received (flat_send ms) = received (concat (map req_evs ms)).
Proof.
  unfold flat_send. induction ms as [|q ms IH]; cbn [map concat]; [reflexivity|].
  rewrite !received_app. cbn [received]. rewrite IH. reflexivity.
Qed.

Lemma nth_split_skipn {A} (l : list A) i q : nth_error l i = Some q -> l = firstn i l ++ q :: skipn (S i) l.
Proof.
  revert l. induction i as [|i IH]; intros [|a l] H; try discriminate; cbn in *.
  - congruence.
  - f_equal. apply IH. exact H.
Qed.

Lemma nth_skipn {A} (l : list A) i q : nth_error l i = Some q -> skipn i l = q :: skipn (S i) l.
Proof.
  revert l. induction i as [|i IH]; intros [|a l] H; try discriminate; cbn in *.
  - congruence.
  - apply IH. exact H.
Qed.

Lemma nth_error_firstn' {A} (l : list A) : forall i j, (j < i)%nat -> nth_error (firstn i l) j = nth_error l j.
Proof.
  induction l as [|a l IH]; intros i j H; [rewrite firstn_nil; reflexivity|].
  destruct i as [|i]; [lia|]. destruct j as [|j]; [reflexivity|]. cbn. apply IH. lia.
Qed.

Lemma rely_app x t a b : rely x t (a ++ b) <-> rely x t a /\ rely x t b.
Proof. apply Forall_app. Qed.

Lemma rely_flat_send x t ms :
  rely x t (concat (map req_evs ms)) ->
  (forall q, In q ms -> xid_of (req_msg q) <> x /\ req_trk q <> t) ->
  rely x t (flat_send ms).
Proof.
  unfold flat_send. induction ms as [|q ms IH]; cbn [map concat]; intros Hr Hq; [constructor|].
  apply rely_app in Hr. destruct Hr as [Hr1 Hr2].
  apply rely_app. split; [|apply IH; [exact Hr2|]].
  - constructor; [|exact Hr1]. apply Hq. left. reflexivity.
  - intros q' Hin. apply Hq. right. exact Hin.
Qed.

Lemma rely_col x t xs : forall ess i, rely x t (concat ess) ->
  (forall j y, (j < i)%nat -> nth_error xs j = Some y -> y <> x) -> rely x t (col xs ess i).
Proof.
  induction xs as [|y xs IH]; intros ess i Hr Hy.
  - destruct i, ess as [|es ess]; cbn [col]; try constructor. cbn [concat] in Hr. apply rely_app in Hr. tauto.
  - destruct i as [|i], ess as [|es ess]; cbn [col]; try constructor.
    + cbn [concat] in Hr. apply rely_app in Hr. tauto.
    + cbn [concat] in Hr. apply rely_app in Hr. destruct Hr as [Hr1 Hr2]. apply rely_app. split; [exact Hr1|].
      constructor.
      * cbn. apply (Hy O); [lia|reflexivity].
      * apply IH; [exact Hr2|]. intros j z Hj Hz. apply (Hy (S j)); [lia|exact Hz].
Qed.

Theorem multi_results v s ms bxid bt b1 b2 b3 ess s' rs :
  0 <= v < 256 -> 0 <= bxid < 2 ^ 32 ->
  Forall (fun q => (8 <= length (req_msg q))%nat) ms ->
  multi_env s ms bxid bt b1 b2 b3 ess ->
  multi (Some v) s ms bxid bt b1 b2 b3 ess = Some (s', Ok rs) ->
  length rs = length ms /\
  forall i q, nth_error ms i = Some q ->
  exists A bm B l,
    received (since i ms b1 b2 b3 ess) = A ++ bm :: B /\
    xid_of bm = bxid /\ byte_at bm 1 = reply_type SBarrierCall v /\
    nth_error rs i = Some (collect (mine (xid_of (req_msg q)) A ++ l)) /\
    prefix l (mine (xid_of (req_msg q)) B).
Proof.
  intros Hv Hx Hl (Hnx & Hnt & Henv). unfold multi.
  destruct (multi_send s ms) as [[s1 [xs|e]]|] eqn:E1; try discriminate.
  destruct (multi_send_flat _ _ _ _ Hl E1) as [-> F1].
  destruct (simple_call SBarrierCall (Some v) bxid s1 bt b1 None b2 b3) as [[s2 [bmsg|e]]|] eqn:E2; try discriminate.
  pose proof (simple_call_flat _ _ _ _ _ _ _ _ _ _ Hv Hx E2) as F2.
  destruct (multi_collect s2 _ ess) as [[s3 rs0]|] eqn:E3; [|discriminate].
  intros H. injection H as <- <-.
  destruct (multi_collect_spec _ _ _ _ _ E3) as [Hlen Hn]. rewrite map_length in Hlen.
  split; [exact Hlen|]. intros i q Hq.
  assert (Hqi : nth_error (map (fun q => xid_of (req_msg q)) ms) i = Some (xid_of (req_msg q))).
  { apply (map_nth_error (fun q => xid_of (req_msg q))). exact Hq. }
  destruct (Hn i _ Hqi) as (si & Hsi & Hie & Hr).
  set (x := xid_of (req_msg q)) in *. set (t := req_trk q).
  pose proof (nth_split_skipn _ _ _ Hq) as Hsplit.
  set (ms1 := firstn i ms) in *. set (ms2 := skipn (S i) ms) in *.
  assert (Hin : In q ms) by (eapply nth_error_In; exact Hq).
  (* the barrier *)
  assert (Hb : exists bm, In bm (received (b1 ++ b2 ++ b3)) /\ xid_of bm = bxid /\
                byte_at bm 1 = reply_type SBarrierCall v).
  { destruct (Henv bxid bt (or_intror (conj eq_refl eq_refl))) as [Hfb Hrb].
    apply rely_app in Hrb. destruct Hrb as [Hrb1 Hrb2].
    assert (Hrb3 : rely_close bxid bt (b1 ++ b2 ++ b3)).
    { apply rely_rely_close. rewrite !app_assoc in Hrb2. apply rely_app in Hrb2. rewrite <- app_assoc in Hrb2. tauto. }
    assert (Hfb1 : fresh s1 bxid bt).
    { eapply fresh_steps; [exact Hfb|exact F1|]. apply rely_flat_send; [exact Hrb1|].
      intros q' Hq'. split.
      - intros Hc. apply NoDup_remove_2 in Hnx. rewrite app_nil_r in Hnx. apply Hnx. rewrite <- Hc.
        apply (in_map (fun q => xid_of (req_msg q))). exact Hq'.
      - intros Hc. apply NoDup_remove_2 in Hnt. rewrite app_nil_r in Hnt. apply Hnt. rewrite <- Hc.
        apply in_map. exact Hq'. }
    destruct (simple_result _ _ _ _ _ _ _ _ _ _ Hv Hx Hfb1 Hrb3 E2) as [Hc|(bm & rest & Hbin & Hbl & Hbr)]; [discriminate|].
    unfold mine in Hbin. apply filter_In in Hbin. destruct Hbin as [Hbin Hbx]. exists bm. split; [exact Hbin|].
    split; [lia|]. destruct (byte_at bm 1 =? reply_type SBarrierCall v) eqn:E; [lia|discriminate]. }
  (* the request *)
  destruct (Henv x t (or_introl (ex_intro _ q (conj Hin (conj eq_refl eq_refl))))) as [Hf Hrq].
  assert (Hdx : forall q', In q' ms1 \/ In q' ms2 -> xid_of (req_msg q') <> x /\ req_trk q' <> t).
  { intros q' Hq'. rewrite Hsplit in Hnx, Hnt. rewrite map_app in Hnx, Hnt. cbn [map] in Hnx, Hnt.
    rewrite <- app_assoc in Hnx, Hnt. cbn [Datatypes.app] in Hnx, Hnt.
    apply NoDup_remove_2 in Hnx. apply NoDup_remove_2 in Hnt.
    split; intros Hc.
    - apply Hnx. fold x. rewrite <- Hc. apply in_or_app. destruct Hq' as [Hq'|Hq'].
      + left. apply (in_map (fun q => xid_of (req_msg q))). exact Hq'.
      + right. apply in_or_app. left. apply (in_map (fun q => xid_of (req_msg q))). exact Hq'.
    - apply Hnt. fold t. rewrite <- Hc. apply in_or_app. destruct Hq' as [Hq'|Hq'].
      + left. apply in_map. exact Hq'.
      + right. apply in_or_app. left. apply in_map. exact Hq'. }
  assert (Hbx : bxid <> x /\ bt <> t).
  { rewrite Hsplit in Hnx, Hnt. rewrite map_app in Hnx, Hnt. cbn [map] in Hnx, Hnt.
    rewrite <- app_assoc in Hnx, Hnt. cbn [Datatypes.app] in Hnx, Hnt.
    apply NoDup_remove_2 in Hnx. apply NoDup_remove_2 in Hnt. split; intros Hc.
    - apply Hnx. fold x. rewrite <- Hc. apply in_or_app. right. apply in_or_app. right. left. reflexivity.
    - apply Hnt. fold t. rewrite <- Hc. apply in_or_app. right. apply in_or_app. right. left. reflexivity. }
  apply rely_app in Hrq. destruct Hrq as [Hrq1 Hrq]. rewrite Hsplit, map_app, concat_app in Hrq1.
  apply rely_app in Hrq1. destruct Hrq1 as [HrA HrB]. cbn [map concat] in HrB. apply rely_app in HrB. destruct HrB as [Hrq0 HrB].
  apply rely_app in Hrq. destruct Hrq as [Hrb1 Hrq]. apply rely_app in Hrq. destruct Hrq as [Hrb2 Hrq].
  apply rely_app in Hrq. destruct Hrq as [Hrb3 Hre].
  assert (F1' := F1). rewrite Hsplit in F1'. unfold flat_send in F1'. rewrite map_app, concat_app in F1'.
  cbn [map concat] in F1'. fold (flat_send ms1) in F1'. fold (flat_send ms2) in F1'. rewrite esteps_app in F1'.
  destruct (esteps s (flat_send ms1)) as [sa|] eqn:Fa; [|discriminate].
  assert (Hfa : fresh sa x t).
  { eapply fresh_steps; [exact Hf|exact Fa|]. apply rely_flat_send; [exact HrA|]. auto. }
  fold x in F1'. fold t in F1'. cbn [Datatypes.app esteps estep] in F1'.
  change (mkSync (dput (sy_map sa) x t) (sy_data sa) (sy_ev sa) (sy_reader sa)) with (register sa x t) in F1'.
  set (sched := (req_evs q ++ flat_send ms2) ++ (OPut bxid bt :: b1 ++ b2 ++ OPop bxid :: b3)
                 ++ col (map (fun q => xid_of (req_msg q)) ms) ess i).
  assert (Hsched : esteps (register sa x t) sched = Some si).
  { unfold sched. rewrite esteps_app, F1', esteps_app, F2. exact Hsi. }
  assert (Hrel : rely x t sched).
  { unfold sched. apply rely_app. split; [apply rely_app; split; [exact Hrq0|apply rely_flat_send; [exact HrB|auto]]|].
    apply rely_app. split.
    - constructor; [exact Hbx|]. apply rely_app. split; [exact Hrb1|]. apply rely_app. split; [exact Hrb2|].
      constructor; [exact (proj1 Hbx)|exact Hrb3].
    - apply rely_col; [exact Hre|]. intros j y Hj Hy.
      rewrite nth_error_map in Hy. destruct (nth_error ms j) as [q'|] eqn:Ej; [|discriminate].
      cbn in Hy. injection Hy as <-. apply Hdx. left. unfold ms1.
      apply (nth_error_In _ j). rewrite nth_error_firstn' by exact Hj. exact Ej. }
  pose proof (tinv_steps true _ _ _ _ _ _ (tinv_register _ _ _ Hfa) Hsched Hrel) as Hti.
  cbv iota in Hti. cbn [Datatypes.app] in Hti.
  assert (Hrec : received sched = received (since i ms b1 b2 b3 ess)).
  { unfold sched, since. cbn [Datatypes.app]. rewrite !received_app. cbn [received]. rewrite !received_app. cbn [received].
    rewrite received_flat_send, received_col.
    2:{ rewrite map_length. apply nth_error_Some. congruence. }
    rewrite (nth_skipn (map req_evs ms) i (req_evs q)) by (apply map_nth_error; exact Hq).
    cbn [concat]. rewrite received_app. unfold ms2. rewrite skipn_map. rewrite <- !app_assoc. reflexivity. }
  rewrite Hrec in Hti.
  destruct Hti as (_ & Hg & l & tail & HL & Hd & _ & _ & Htl & _). cbv iota in Hg. rewrite Hg, Hd in Hr.
  destruct Hb as (bm & Hbin & Hbmx & Hbty).
  assert (Hbin' : In bm (received (since i ms b1 b2 b3 ess))).
  { unfold since. rewrite !received_app in *. apply in_or_app. right.
    apply in_app_or in Hbin. destruct Hbin as [Hb|Hb]; [apply in_or_app; left; exact Hb|].
    apply in_or_app. right. apply in_app_or in Hb. destruct Hb as [Hb|Hb]; [apply in_or_app; left; exact Hb|].
    apply in_or_app. right. apply in_or_app. left. exact Hb. }
  apply in_split in Hbin'. destruct Hbin' as (A & B & HAB).
  assert (Hmine : mine x (A ++ bm :: B) = mine x A ++ mine x B).
  { rewrite mine_app. cbn [mine filter]. unfold mine. cbn [filter].
    destruct (xid_of bm =? x) eqn:E; [lia|reflexivity]. }
  exists A, bm, B.
  rewrite HAB in HL, Htl. rewrite Hmine in HL.
  destruct Htl as [->|(m & R0 & -> & HR0)].
  - exists (mine x B). rewrite app_nil_r in HL. rewrite HL. repeat split; auto. exists []. rewrite app_nil_r. reflexivity.
  - destruct B as [|b B] using rev_ind.
    + exfalso. change (A ++ [bm] = R0 ++ [m]) in HR0. apply app_inj_tail in HR0. destruct HR0 as [_ <-].
      cbn [mine filter] in HL. change (mine x []) with (@nil bytes) in HL. rewrite app_nil_r in HL.
      assert (Hbmin : In bm (mine x A)) by (rewrite HL; apply in_or_app; right; left; reflexivity).
      unfold mine in Hbmin. apply filter_In in Hbmin. lia.
    + clear IHB. change (bm :: B ++ [b]) with ((bm :: B) ++ [b]) in HR0. rewrite app_assoc in HR0.
      apply app_inj_tail in HR0. destruct HR0 as [_ ->].
      assert (Hmx : xid_of m = x).
      { assert (Hmin : In m (mine x A ++ mine x (B ++ [m]))) by (rewrite HL; apply in_or_app; right; left; reflexivity).
        apply in_app_or in Hmin. unfold mine in Hmin. destruct Hmin as [Hm|Hm]; apply filter_In in Hm; lia. }
      rewrite mine_snoc_in in * by exact Hmx. rewrite app_assoc in HL. apply app_inj_tail in HL. destruct HL as [HL _].
      exists (mine x B). rewrite HL. repeat split; auto. exists [m]. reflexivity.
Qed.

Theorem single_result v s q bxid bt b1 b2 b3 ess s' r :
  0 <= v < 256 -> 0 <= bxid < 2 ^ 32 -> (8 <= length (req_msg q))%nat ->
  multi_env s [q] bxid bt b1 b2 b3 ess ->
  single (Some v) s q bxid bt b1 b2 b3 ess = Some (s', Ok r) ->
  exists A bm B l,
    received (req_evs q ++ b1 ++ b2 ++ b3 ++ concat (firstn 1 ess)) = A ++ bm :: B /\
    xid_of bm = bxid /\ byte_at bm 1 = reply_type SBarrierCall v /\
    r = collect (mine (xid_of (req_msg q)) A ++ l) /\ prefix l (mine (xid_of (req_msg q)) B).
Proof.
  intros Hv Hx Hl Henv H. unfold single in H.
  destruct (multi (Some v) s [q] bxid bt b1 b2 b3 ess) as [[s2 [rs|e]]|] eqn:E; try discriminate.
  destruct (multi_results v s [q] bxid bt b1 b2 b3 ess s2 rs) as [Hlen Hn]; auto.
  destruct rs as [|r0 [|r1 rs]]; try discriminate. cbn in H. injection H as <- <-.
  destruct (Hn O q eq_refl) as (A & bm & B & l & H1 & H2 & H3 & H4 & H5).
  exists A, bm, B, l. unfold since in H1. cbn [skipn map concat] in H1. rewrite app_nil_r in H1.
  cbn in H4. repeat split; auto. congruence.
Qed.

Theorem simple_complete k v x s t e1 e2 e3 s' r s2 bm :
  0 <= v < 256 -> 0 <= x < 2 ^ 32 -> fresh s x t -> rely x t (e1 ++ e2 ++ e3) ->
  esteps (register s x t) (e1 ++ e2) = Some s2 -> sy_ev s2 t = true ->
  mine x (received (e1 ++ e2)) = [bm] ->
  simple_call k (Some v) x s t e1 None e2 e3 = Some (s', r) ->
  r = if byte_at bm 1 =? reply_type k v then Ok bm else Err NameError.
Proof.
  intros Hv Hx Hf Hrely Hes Hev HL. destruct (simple_request k v x Hv Hx) as (Hreq & Hxid & Hlen).
  unfold simple_call. destruct (simple_types k (Some v)) as [rq rs]. destruct Hreq as [Hreq ->].
  unfold sync_simple. cbn [vint]. rewrite Hreq.
  destruct (send_sync s (request k v x) t e1 None e2 e3) as [[sd d]|] eqn:E; [|discriminate].
  rewrite <- Hxid in Hf, Hrely, Hes, HL.
  destruct (send_sync_result s (request k v x) t e1 e2 e3 sd d) as (l & tail & -> & HL' & Htl & H8 & Hfin); [lia|exact Hf|exact Hrely|exact E|].
  specialize (Hfin _ Hes Hev). rewrite HL in HL'.
  destruct l as [|b l]; [discriminate|]. cbn [Datatypes.app] in HL'. injection HL' as <- HL'.
  symmetry in HL'. apply app_eq_nil in HL'. destruct HL' as [-> ->].
  assert (Hb : (8 <= length bm)%nat) by (inversion H8; assumption).
  assert (Hc : collect [bm] = Some bm).
  { unfold collect. cbn [fold_left]. unfold add. destruct (multipart bm); reflexivity. }
  rewrite Hc. intros H. assert (Hr : r = check_simple (reply_type k v) (Some bm)) by congruence. rewrite Hr.
  rewrite check_simple_spec by (intros m Hm; injection Hm as <-; auto).
  destruct (length bm =? 0)%nat eqn:E0; [lia|]. reflexivity.
Qed.
