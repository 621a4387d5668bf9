(** Proofs about synchronous calls. *)

From Verif Require Import Py Struct P_Struct M_Hello M_Loop M_Controller M_Sync S_Hello S_Controller S_Sync P_Hello P_Controller.
Local Open Scope Z_scope.

(** *** Dictionaries *)

Lemma dget_dput {A} (d : list (Z * A)) x a y :
  dget (dput d x a) y = if x =? y then Some a else dget d y.
Proof.
  induction d as [|[z b] d IH]; cbn; [destruct (x =? y); reflexivity|].
  destruct (z =? x) eqn:E; cbn.
  - apply Z.eqb_eq in E. subst. destruct (x =? y); reflexivity.
  - rewrite IH. destruct (z =? y) eqn:E2; [|reflexivity].
    apply Z.eqb_eq in E2. subst. rewrite Z.eqb_sym, E. reflexivity.
Qed.

Lemma dget_dpop {A} (d : list (Z * A)) x y :
  dget (dpop d x) y = if x =? y then None else dget d y.
Proof.
  unfold dpop. induction d as [|[z b] d IH]; cbn; [destruct (x =? y); reflexivity|].
  destruct (z =? x) eqn:E; cbn; rewrite IH.
  - apply Z.eqb_eq in E. subst. destruct (x =? y); reflexivity.
  - destruct (z =? y) eqn:E2; [|reflexivity].
    apply Z.eqb_eq in E2. subst. rewrite Z.eqb_sym, E. reflexivity.
Qed.

Lemma dget_In {A} (d : list (Z * A)) x a : dget d x = Some a -> In (x, a) d.
Proof.
  induction d as [|[z b] d IH]; cbn; [discriminate|].
  destruct (z =? x) eqn:E; [|auto]. intros H; inversion H; subst. apply Z.eqb_eq in E. subst. auto.
Qed.

(** *** Messages *)

Lemma is_multipart_spec m l x :
  is_multipart (mkHeader (byte_at m 0) (byte_at m 1) l x) = multipart m.
Proof. unfold is_multipart, multipart. cbn. destruct (byte_at m 0 =? 1); lia. Qed.

Lemma odd_u16 a b : Z.odd (a * 256 + b) = Z.odd b.
Proof. rewrite Z.odd_add, Z.odd_mul. cbn. rewrite andb_false_r. apply xorb_false_l. Qed.

Lemma store_spec m d : (8 <= length m)%nat ->
  store m d = (add d m, if multipart m then if (12 <=? length m)%nat then Ok (negb (more m)) else Err StructError
                        else Ok true).
Proof.
  intros H. unfold store, add. rewrite parse_header_spec by exact H. rewrite is_multipart_spec.
  destruct (multipart m); [|reflexivity]. f_equal.
  unfold unpacks. eval_fmt. cbn [bind]. unfold unpack_from. cbn [calcsize item_size].
  change (10 + (2 + 0))%nat with 12%nat. destruct (12 <=? length m)%nat eqn:E; [|reflexivity].
  cbn [decode]. rewrite of_be_2 by lia. unfold more, u16_at. cbn [Nat.add]. rewrite odd_u16. reflexivity.
Qed.

Lemma collect_snoc l m : collect (l ++ [m]) = add (collect l) m.
Proof. unfold collect. rewrite fold_left_app. reflexivity. Qed.

Lemma mine_app x a b : mine x (a ++ b) = mine x a ++ mine x b.
Proof. apply filter_app. Qed.

Lemma received_app a b : received (a ++ b) = received a ++ received b.
Proof. induction a as [|e a IH]; [reflexivity|]. destruct e; cbn; rewrite ?IH; reflexivity. Qed.

Lemma esteps_app a : forall s b, esteps s (a ++ b) = match esteps s a with Some s' => esteps s' b | None => None end.
Proof. induction a as [|e a IH]; intros s b; cbn; [reflexivity|]. destruct (estep s e); auto. Qed.

(** *** One call *)

(** [R]: messages received since registration; [l]: those stored in the
    tracker.  The reader may hold the last received message. *)
Definition tinv (reg : bool) (x : Z) (t : nat) (R : list bytes) (s : sync) : Prop :=
  (forall y, dget (sy_map s) y = Some t -> y = x) /\
  (dget (sy_map s) x = if reg then Some t else None) /\
  exists l tail,
    mine x R = l ++ tail /\
    sy_data s t = collect l /\
    (sy_ev s t = true -> existsb final l = true) /\
    Forall (fun m => (8 <= length m)%nat) l /\
    (tail = [] \/ exists m R0, tail = [m] /\ R = R0 ++ [m]) /\
    match sy_reader s with
    | RIdle => tail = [] /\ (existsb final l = true -> sy_ev s t = true)
    | RHit m =>
        (existsb final l = true -> sy_ev s t = true) /\
        (tail = [] /\ xid_of m <> x \/ tail = [m] /\ xid_of m = x /\ (8 <= length m)%nat)
    | RGot m t' =>
        (existsb final l = true -> sy_ev s t = true) /\
        (t' = t -> tail = [m] /\ (8 <= length m)%nat) /\ (t' <> t -> tail = [])
    | RSet t' => tail = [] /\ (t' <> t -> existsb final l = true -> sy_ev s t = true) /\
                 (t' = t -> existsb final l = true)
    | RCrashed _ => True
    end.

Lemma mine_snoc_in x R m : xid_of m = x -> mine x (R ++ [m]) = mine x R ++ [m].
Proof. intros H. rewrite mine_app. cbn. rewrite H, Z.eqb_refl. reflexivity. Qed.

Lemma mine_snoc_out x R m : xid_of m <> x -> mine x (R ++ [m]) = mine x R.
Proof. intros H. rewrite mine_app. cbn. apply Z.eqb_neq in H. rewrite H, app_nil_r. reflexivity. Qed.

Lemma tinv_step reg x t R s e s' :
  tinv reg x t R s -> estep s e = Some s' -> rely1 x t e ->
  tinv reg x t (if reg then R ++ received [e] else R) s'.
Proof.
  intros (Hinj & Hget & l & tail & HL & Hd & Hev & H8 & Htl & Hr) He Hrely.
  assert (HR : forall e, received [e] = [] -> (if reg then R ++ received [e] else R) = R)
    by (intros e0 ->; destruct reg; [apply app_nil_r|reflexivity]).
  destruct e as [m| | | |y t'|y| ]; cbn [estep] in He.
  - destruct (sy_reader s) eqn:Er; try discriminate. injection He as <-. destruct Hr as [Htail Hfin]. subst tail.
    unfold tinv. cbn [sy_map sy_data sy_ev sy_reader received].
    split; [exact Hinj|]. split; [exact Hget|].
    destruct (Nat.lt_ge_cases (length m) 8) as [Hs|Hl].
    { rewrite parse_header_short by exact Hs. destruct reg.
      - destruct (Z.eq_dec (xid_of m) x) as [Ex|Ex].
        + exists l, [m]. rewrite mine_snoc_in by exact Ex. rewrite HL, app_nil_r.
          repeat split; auto. right. eauto.
        + exists l, []. rewrite mine_snoc_out by exact Ex. repeat split; auto.
      - exists l, []. repeat split; auto. }
    rewrite parse_header_spec by exact Hl. cbn [h_xid]. fold (xid_of m).
    destruct reg.
    + destruct (Z.eq_dec (xid_of m) x) as [Ex|Ex].
      * rewrite Ex, Hget. exists l, [m]. rewrite mine_snoc_in by exact Ex. rewrite HL, app_nil_r.
        repeat split; auto. right. eauto.
      * exists l, []. rewrite mine_snoc_out by exact Ex.
        destruct (dget (sy_map s) (xid_of m)); repeat split; auto.
    + exists l, []. destruct (dget (sy_map s) (xid_of m)) as [t'|] eqn:Eg; repeat split; auto.
      left. split; [reflexivity|]. intros Ex. rewrite Ex, Hget in Eg. discriminate.
  - rewrite HR by reflexivity. destruct (sy_reader s) as [|m|m t0|t0|e0] eqn:Er; try discriminate.
    injection He as <-. destruct Hr as (Hfin & Hc).
    unfold tinv. cbn [sy_map sy_data sy_ev sy_reader].
    split; [exact Hinj|]. split; [exact Hget|]. exists l, tail. repeat split; auto.
    destruct (Nat.lt_ge_cases (length m) 8) as [Hs|Hl]; [rewrite parse_header_short by exact Hs; exact I|].
    rewrite parse_header_spec by exact Hl. cbn [h_xid]. fold (xid_of m).
    destruct (dget (sy_map s) (xid_of m)) as [t'|] eqn:Eg; [|exact I].
    split; [exact Hfin|]. split.
    + intros ->. destruct Hc as [[Ht Hx]|[Ht Hx]]; [|auto]. exfalso. apply Hx. apply Hinj. exact Eg.
    + intros Hne. destruct Hc as [[Ht Hx]|(Ht & Hx & _)]; [exact Ht|]. exfalso. apply Hne.
      rewrite Hx, Hget in Eg. destruct reg; [congruence|discriminate].
  - rewrite HR by reflexivity. destruct (sy_reader s) as [|m|m t0|t0|e0] eqn:Er; try discriminate.
    destruct Hr as (Hfin & Hy & Hn).
    destruct (Nat.eq_dec t0 t) as [->|Hne].
    + destruct (Hy eq_refl) as [Ht Hl]. subst tail. rewrite store_spec in He by exact Hl.
      assert (Hst : match (if multipart m then if (12 <=? length m)%nat then Ok (negb (more m)) else Err StructError
                           else Ok true) with
                    | Ok true => final m = true | Ok false => final m = false | Err _ => True end).
      { unfold final. destruct (multipart m); cbn [negb orb]; [|reflexivity].
        destruct (12 <=? length m)%nat; [|exact I]. destruct (more m); reflexivity. }
      set (st := if multipart m then if (12 <=? length m)%nat then Ok (negb (more m)) else Err StructError
                 else Ok true) in He, Hst. clearbody st. injection He as <-.
      unfold tinv. cbn [sy_map sy_data sy_ev sy_reader].
      split; [exact Hinj|]. split; [exact Hget|]. exists (l ++ [m]), [].
      rewrite app_nil_r. unfold upd at 1. rewrite Nat.eqb_refl.
      assert (Hex : existsb final (l ++ [m]) = existsb final l || final m).
      { rewrite existsb_app. cbn. rewrite orb_false_r. reflexivity. }
      split; [exact HL|]. split; [rewrite collect_snoc, Hd; reflexivity|].
      split; [intros He; rewrite Hex, (Hev He); reflexivity|].
      split; [apply Forall_app; split; [exact H8|repeat constructor; exact Hl]|].
      split; [left; reflexivity|].
      destruct st as [[|]|e].
      * split; [reflexivity|]. split; [congruence|]. intros _. rewrite Hex, Hst. apply orb_true_r.
      * split; [reflexivity|]. rewrite Hex, Hst, orb_false_r. exact Hfin.
      * exact I.
    + specialize (Hn Hne). subst tail. destruct (store m (sy_data s t0)) as [d0 r0]. injection He as <-.
      unfold tinv. cbn [sy_map sy_data sy_ev sy_reader].
      split; [exact Hinj|]. split; [exact Hget|]. exists l, [].
      assert (Hup : upd (sy_data s) t0 d0 t = sy_data s t).
      { unfold upd. destruct (t =? t0)%nat eqn:E; [apply Nat.eqb_eq in E; congruence|reflexivity]. }
      rewrite Hup. repeat split; auto.
      destruct r0 as [[|]|e]; repeat split; auto; intros; congruence.
  - rewrite HR by reflexivity. destruct (sy_reader s) as [|m|m t0|t0|e0] eqn:Er; try discriminate.
    injection He as <-. destruct Hr as (Ht & Hn & Hy). subst tail.
    unfold tinv. cbn [sy_map sy_data sy_ev sy_reader].
    split; [exact Hinj|]. split; [exact Hget|]. exists l, []. split; [exact HL|]. split; [exact Hd|].
    unfold upd. destruct (t =? t0)%nat eqn:E.
    + apply Nat.eqb_eq in E. symmetry in E. repeat split; auto.
    + apply Nat.eqb_neq in E. repeat split; auto.
  - rewrite HR by reflexivity. injection He as <-. destruct Hrely as [Hy Ht'].
    unfold tinv. cbn [sy_map sy_data sy_ev sy_reader].
    split.
    { intros z. rewrite dget_dput. destruct (y =? z) eqn:E; [|apply Hinj]. congruence. }
    split; [rewrite dget_dput; apply Z.eqb_neq in Hy; rewrite Hy; exact Hget|].
    exists l, tail. auto 10.
  - rewrite HR by reflexivity. injection He as <-. cbn in Hrely.
    unfold tinv. cbn [sy_map sy_data sy_ev sy_reader].
    split.
    { intros z. rewrite dget_dpop. destruct (y =? z) eqn:E; [discriminate|apply Hinj]. }
    split; [rewrite dget_dpop; apply Z.eqb_neq in Hrely; rewrite Hrely; exact Hget|].
    exists l, tail. auto 10.
  - destruct Hrely.
Qed.

Lemma tinv_steps reg x t es : forall R s s',
  tinv reg x t R s -> esteps s es = Some s' -> rely x t es ->
  tinv reg x t (if reg then R ++ received es else R) s'.
Proof.
  induction es as [|e es IH]; intros R s s' Hi He Hr; cbn [esteps] in He.
  - injection He as <-. destruct reg; [cbn; rewrite app_nil_r|]; exact Hi.
  - destruct (estep s e) as [s1|] eqn:E; [|discriminate]. inversion Hr as [|? ? Hr1 Hr2]; subst.
    pose proof (tinv_step _ _ _ _ _ _ _ Hi E Hr1) as H1. pose proof (IH _ _ _ H1 He Hr2) as H2.
    destruct reg; [|exact H2]. rewrite <- app_assoc in H2.
    replace (received (e :: es)) with (received [e] ++ received es); [exact H2|].
    change (e :: es) with ([e] ++ es). rewrite received_app. reflexivity.
Qed.

Lemma tinv_register s x t : fresh s x t -> tinv true x t [] (register s x t).
Proof.
  intros (H1 & H2 & H3 & H4 & H5). unfold tinv, register. cbn [sy_map sy_data sy_ev sy_reader].
  split.
  { intros y. rewrite dget_dput. destruct (x =? y) eqn:E; [lia|]. intros Hy. exfalso. eapply H2; eauto. }
  split; [rewrite dget_dput, Z.eqb_refl; reflexivity|].
  exists [], []. split; [reflexivity|]. split; [exact H3|]. split; [congruence|]. split; [constructor|].
  split; [auto|].
  destruct (sy_reader s) as [|m|m t0|t0|e]; cbn.
  - split; [reflexivity|discriminate].
  - split; [discriminate|]. auto.
  - split; [discriminate|]. split; [congruence|reflexivity].
  - split; [reflexivity|]. split; [discriminate|congruence].
  - exact I.
Qed.

Lemma tinv_pop x t R s : tinv true x t R s ->
  exists s', pop s x = (s', Ok tt) /\ tinv false x t R s' /\
    sy_ev s' = sy_ev s /\ sy_reader s' = sy_reader s /\ sy_data s' = sy_data s /\ sy_map s' = dpop (sy_map s) x.
Proof.
  intros (Hinj & Hget & H). unfold pop. rewrite Hget. eexists. split; [reflexivity|].
  split; [|auto]. unfold tinv. cbn [sy_map sy_data sy_ev sy_reader]. split.
  { intros y. rewrite dget_dpop. destruct (x =? y); [discriminate|apply Hinj]. }
  split; [rewrite dget_dpop, Z.eqb_refl; reflexivity|exact H].
Qed.

(** A call in an environment that respects it. *)
Theorem send_sync_result s m t e1 e2 e3 s' r :
  (8 <= length m)%nat -> fresh s (xid_of m) t ->
  rely (xid_of m) t (e1 ++ e2 ++ e3) ->
  send_sync s m t e1 None e2 e3 = Some (s', r) ->
  exists l tail, r = Ok (collect l) /\ mine (xid_of m) (received (e1 ++ e2)) = l ++ tail /\ (length tail <= 1)%nat /\
    Forall (fun m => (8 <= length m)%nat) l /\
    (forall s2, esteps (register s (xid_of m) t) (e1 ++ e2) = Some s2 -> sy_ev s2 t = true -> existsb final l = true).
Proof.
  intros Hl Hf Hrely. set (x := xid_of m) in *. unfold send_sync. rewrite parse_header_spec by exact Hl. cbn [h_xid].
  fold (xid_of m). fold x.
  apply Forall_app in Hrely. destruct Hrely as [Hr1 Hr23]. apply Forall_app in Hr23. destruct Hr23 as [Hr2 Hr3].
  pose proof (tinv_register s x t Hf) as H0.
  destruct (esteps (register s x t) e1) as [s1|] eqn:E1; [|discriminate].
  pose proof (tinv_steps _ _ _ _ _ _ _ H0 E1 Hr1) as H1. cbn [Datatypes.app] in H1.
  destruct (esteps s1 e2) as [s2|] eqn:E2; [|discriminate].
  pose proof (tinv_steps _ _ _ _ _ _ _ H1 E2 Hr2) as H2. cbv iota in H2. rewrite <- received_app in H2.
  assert (E12 : esteps (register s x t) (e1 ++ e2) = Some s2) by (rewrite esteps_app, E1; exact E2).
  destruct (tinv_pop _ _ _ _ H2) as (s3 & Ep & H3 & Hev3 & Hrd3 & _). rewrite Ep.
  destruct (esteps s3 e3) as [s4|] eqn:E3; [|discriminate].
  pose proof (tinv_steps _ _ _ _ _ _ _ H3 E3 Hr3) as H4. cbv iota in H4.
  intros Hres. injection Hres as <- <-.
  destruct H4 as (_ & _ & l & tail & HL & Hd & Hev & H8 & Htl & _).
  exists l, tail. split; [rewrite Hd; reflexivity|]. split; [exact HL|].
  split; [destruct Htl as [->|(? & ? & -> & _)]; cbn; lia|]. split; [exact H8|].
  intros s2' Es2 He2. rewrite E12 in Es2. injection Es2 as <-.
  (* the event stays set *)
  assert (Hmono : forall es sa sb, esteps sa es = Some sb -> sy_ev sa t = true -> sy_ev sb t = true).
  { clear. induction es as [|e es IH]; intros sa sb H Ht; cbn in H; [injection H as <-; exact Ht|].
    destruct (estep sa e) as [sc|] eqn:E; [|discriminate]. apply (IH _ _ H).
    destruct e; cbn in E; [destruct (sy_reader sa); try discriminate..| | |];
      try (injection E as <-; cbn; exact Ht).
    - destruct (store m (sy_data sa t0)). injection E as <-. exact Ht.
    - injection E as <-. cbn. unfold upd. destruct (t =? t0)%nat; [reflexivity|exact Ht].
    - injection E as <-. cbn. rewrite Ht. destruct (existsb (Nat.eqb t) (map snd (sy_map sa))); reflexivity. }
  apply Hev. apply (Hmono _ _ _ E3). rewrite Hev3. exact He2.
Qed.

(** It always gets that far when the environment can move and the send works. *)
Theorem send_sync_total s m t e1 e2 e3 s2 :
  (8 <= length m)%nat -> fresh s (xid_of m) t -> rely (xid_of m) t (e1 ++ e2 ++ e3) ->
  esteps (register s (xid_of m) t) (e1 ++ e2) = Some s2 ->
  (exists s4, esteps (fst (pop s2 (xid_of m))) e3 = Some s4) ->
  exists s' d, send_sync s m t e1 None e2 e3 = Some (s', Ok d).
Proof.
  intros Hl Hf Hrely Hes (s4 & H4). unfold send_sync. rewrite parse_header_spec by exact Hl. cbn [h_xid].
  fold (xid_of m). apply Forall_app in Hrely. destruct Hrely as [Hr1 Hr23]. apply Forall_app in Hr23. destruct Hr23 as [Hr2 Hr3].
  pose proof (tinv_register s _ t Hf) as H0. rewrite esteps_app in Hes.
  destruct (esteps (register s (xid_of m) t) e1) as [s1|] eqn:E1; [|discriminate]. rewrite Hes.
  pose proof (tinv_steps _ _ _ _ _ _ _ H0 E1 Hr1) as H1. cbn [Datatypes.app] in H1.
  pose proof (tinv_steps _ _ _ _ _ _ _ H1 Hes Hr2) as H2. cbv iota in H2.
  destruct (tinv_pop _ _ _ _ H2) as (s3 & Ep & _). rewrite Ep in *. cbn in H4. rewrite H4. eauto.
Qed.

(** Multipart reassembly. *)
Lemma collect_parts ps : Forall (fun p => multipart p = true) ps -> ps <> [] ->
  collect ps = Some (concat ps).
Proof.
  unfold collect. assert (G : forall ps d, Forall (fun p => multipart p = true) ps ->
    fold_left add ps (Some d) = Some (d ++ concat ps)).
  { clear. induction ps as [|p ps IH]; intros d H; cbn; [rewrite app_nil_r; reflexivity|].
    inversion H as [|? ? Hp Hps]; subst. unfold add at 2. rewrite Hp, IH by exact Hps. rewrite <- app_assoc. reflexivity. }
  intros H Hn. destruct ps as [|p ps]; [congruence|]. inversion H as [|? ? Hp Hps]; subst.
  cbn [fold_left concat]. unfold add at 2. rewrite Hp. apply G. exact Hps.
Qed.

Theorem multipart_result s m t e1 e2 e3 s' r s2 parts last :
  (8 <= length m)%nat -> fresh s (xid_of m) t -> rely (xid_of m) t (e1 ++ e2 ++ e3) ->
  esteps (register s (xid_of m) t) (e1 ++ e2) = Some s2 -> sy_ev s2 t = true ->
  mine (xid_of m) (received (e1 ++ e2)) = parts ++ [last] ->
  Forall (fun p => multipart p = true /\ more p = true) parts -> multipart last = true ->
  send_sync s m t e1 None e2 e3 = Some (s', r) ->
  r = Ok (Some (concat parts ++ last)).
Proof.
  intros Hl Hf Hrely Hes Hev HL Hparts Hlast Hres.
  destruct (send_sync_result _ _ _ _ _ _ _ _ Hl Hf Hrely Hres) as (l & tail & -> & HL' & Htl & _ & Hfin).
  specialize (Hfin s2 Hes Hev). rewrite HL in HL'.
  assert (Hnf : forall l0, Forall (fun p => multipart p = true /\ more p = true) l0 -> existsb final l0 = false).
  { clear. induction 1 as [|p l0 [H1 H2] _ IH]; cbn; [reflexivity|]. unfold final. rewrite H1, H2. exact IH. }
  assert (Htail : tail = []).
  { destruct tail as [|y tail] using rev_ind; [reflexivity|]. clear IHtail.
    destruct tail as [|z tail]; [|rewrite app_length in Htl; cbn in Htl; lia].
    cbn in HL'. apply app_inj_tail in HL'. destruct HL' as [-> ->]. rewrite Hnf in Hfin by exact Hparts. discriminate. }
  subst tail. rewrite app_nil_r in HL'. subst l. f_equal.
  rewrite collect_parts.
  - rewrite concat_app. cbn. rewrite app_nil_r. reflexivity.
  - apply Forall_app. split; [|repeat constructor; exact Hlast]. eapply Forall_impl; [|exact Hparts]. intros a [Ha _]. exact Ha.
  - destruct parts; discriminate.
Qed.

(** The event is not set before a final message has been stored. *)
Theorem not_woken_early s m t es s2 :
  (8 <= length m)%nat -> fresh s (xid_of m) t -> rely (xid_of m) t es ->
  esteps (register s (xid_of m) t) es = Some s2 ->
  existsb final (mine (xid_of m) (received es)) = false -> sy_ev s2 t = false.
Proof.
  intros Hl Hf Hrely Hes Hnf. pose proof (tinv_register s _ t Hf) as H0.
  pose proof (tinv_steps _ _ _ _ _ _ _ H0 Hes Hrely) as (_ & _ & l & tail & HL & _ & Hev & _).
  destruct (sy_ev s2 t); [|reflexivity]. specialize (Hev eq_refl). cbv iota in HL. cbn [Datatypes.app] in HL. rewrite HL, existsb_app, Hev in Hnf.
  discriminate.
Qed.

(** ... and is set once the reader is done with one. *)
Theorem woken s m t es s2 :
  (8 <= length m)%nat -> fresh s (xid_of m) t -> rely (xid_of m) t es ->
  esteps (register s (xid_of m) t) es = Some s2 -> sy_reader s2 = RIdle ->
  existsb final (mine (xid_of m) (received es)) = true -> sy_ev s2 t = true.
Proof.
  intros Hl Hf Hrely Hes Hid Hnf. pose proof (tinv_register s _ t Hf) as H0.
  pose proof (tinv_steps _ _ _ _ _ _ _ H0 Hes Hrely) as (_ & _ & l & tail & HL & _ & _ & _ & _ & Hr).
  rewrite Hid in Hr. destruct Hr as [-> Hr]. apply Hr. cbv iota in HL. cbn [Datatypes.app] in HL. rewrite HL, app_nil_r in Hnf. exact Hnf.
Qed.
