(** Proofs about the controller channel. *)

From Verif Require Import Py Struct P_Struct M_Hello M_Loop M_Controller S_Hello S_Loop S_Controller P_Hello P_Loop.
Local Open Scope Z_scope.

(** *** Basic facts *)

Lemma is_barrier_req_spec m l x :
  is_barrier_req (mkHeader (byte_at m 0) (byte_at m 1) l x) = barrier_request m.
Proof. unfold is_barrier_req, barrier_request. cbn. destruct (byte_at m 0 =? 1); lia. Qed.

Lemma is_barrier_rep_spec m l x :
  is_barrier_rep (mkHeader (byte_at m 0) (byte_at m 1) l x) = barrier_reply m.
Proof. unfold is_barrier_rep, barrier_reply. cbn. destruct (byte_at m 0 =? 1); lia. Qed.

Lemma live_owner dead c : live dead c = owner dead c.
Proof.
  destruct c as [f|]; cbn; [|reflexivity].
  destruct (in_dec Nat.eq_dec f dead) as [H|H].
  - assert (E : existsb (Nat.eqb f) dead = true) by (apply existsb_exists; exists f; rewrite Nat.eqb_refl; auto).
    rewrite E. reflexivity.
  - assert (E : existsb (Nat.eqb f) dead = false).
    { apply not_true_is_false. intros Ht. apply existsb_exists in Ht. destruct Ht as (y & Hy & Ey).
      apply Nat.eqb_eq in Ey. subst. contradiction. }
    rewrite E. reflexivity.
Qed.

Lemma cb_eqb_same a b : cb_eqb a b = same a b.
Proof. destruct a, b; reflexivity. Qed.

Lemma same_eq a b : same a b = true <-> a = b.
Proof.
  destruct a as [x|], b as [y|]; cbn; split; intros H; try discriminate; try reflexivity.
  - apply Nat.eqb_eq in H. congruence.
  - inversion H. apply Nat.eqb_refl.
Qed.

Lemma pack_barrier v ty bxid :
  0 <= ty < 256 ->
  ofp_header_only ty (VInt v) bxid =
  if (0 <=? v) && (v <? 256) && (0 <=? bxid) && (bxid <? 4294967296)
  then Ok ([v; ty; 0; 8] ++ be 4 bxid) else Err StructError.
Proof.
  intros Ht. unfold ofp_header_only, packs. eval_fmt. cbn [bind pack pack_item].
  unfold in_u. change (256 ^ Z.of_nat 1) with 256. change (256 ^ Z.of_nat 2) with 65536.
  change (256 ^ Z.of_nat 4) with 4294967296.
  destruct ((0 <=? v) && (v <? 256)) eqn:Ev; cbn [bind andb]; [|reflexivity].
  assert (E1 : ((0 <=? ty) && (ty <? 256)) = true) by lia. rewrite E1. cbn [bind].
  change ((0 <=? 8) && (8 <? 65536)) with true. cbn [bind].
  destruct ((0 <=? bxid) && (bxid <? 4294967296)) eqn:Ex; cbn [bind].
  - rewrite app_nil_r. cbn [be Datatypes.app].
    replace (v mod 256) with v by lia. replace (ty mod 256) with ty by lia. reflexivity.
  - reflexivity.
Qed.

Lemma barrier_msg_spec v bxid :
  barrier_msg v bxid = match separator v bxid with Some b => Ok b | None => Err StructError end.
Proof.
  destruct v as [v|].
  - assert (E : barrier_msg (Some v) bxid = ofp_header_only (if v =? 1 then 18 else 20) (VInt v) bxid).
    { destruct (v =? 1) eqn:E1.
      - apply Z.eqb_eq in E1. subst. reflexivity.
      - destruct v as [|p|p]; try reflexivity. destruct p; try reflexivity. discriminate. }
    rewrite E, pack_barrier by (destruct (v =? 1); lia). unfold separator.
    destruct ((0 <=? v) && (v <? 256) && (0 <=? bxid) && (bxid <? 4294967296)); reflexivity.
  - reflexivity.
Qed.

Lemma separator_facts v bxid b : separator v bxid = Some b ->
  (8 <= length b)%nat /\ barrier_request b = true /\ xid_of b = bxid /\ bytes_ok b.
Proof.
  unfold separator. destruct v as [v|]; [|discriminate].
  destruct ((0 <=? v) && (v <? 256) && (0 <=? bxid) && (bxid <? 4294967296)) eqn:E; [|discriminate].
  intros H. apply (f_equal (fun o => match o with Some x => x | None => [] end)) in H. subst b.
  repeat split.
  - rewrite app_length, be_length. cbn. lia.
  - unfold barrier_request, byte_at. cbn. destruct (v =? 1); reflexivity.
  - unfold xid_of, u32_at, byte_at. cbn [be Datatypes.app nth Nat.add]. lia.
  - apply Forall_app. split; [|apply be_ok].
    repeat constructor; unfold byte_ok; try lia; destruct (v =? 1); lia.
Qed.

(** locked_send, restated on bytes. *)
Definition do_send (s : cch) (h : option nat) (m : bytes) (bxid : Z) : cch * res unit :=
  if (length m <? 8)%nat then (s, Err StructError)
  else if barrier_request m then
    k_put (with_seq s (k_seq s ++ [SBarrier (xid_of m) h])) m None
  else match last_of (k_seq s) with
       | Some (SChunk cb) =>
           if same (owner (k_dead s) cb) h then k_put s m None
           else match separator (k_version s) bxid with
                | None => (s, Err StructError)
                | Some b => k_put (fst (k_put (with_seq s (k_seq s ++ [SBarrier bxid None; SChunk h])) b None)) m None
                end
       | Some (SBarrier _ _) => k_put (with_seq s (k_seq s ++ [SChunk h])) m None
       | None => match h with None => k_put s m None | Some _ => k_put (with_seq s [SChunk h]) m None end
       end.

Lemma locked_send_spec s h m bxid : locked_send s h m bxid None None = do_send s h m bxid.
Proof.
  unfold locked_send, do_send. destruct (length m <? 8)%nat eqn:E.
  - rewrite parse_header_short by lia. reflexivity.
  - rewrite parse_header_spec by lia. rewrite is_barrier_req_spec. cbn [h_xid].
    destruct (barrier_request m); [reflexivity|].
    destruct (last_of (k_seq s)) as [[cb|x cb]|].
    + rewrite cb_eqb_same, live_owner. destruct (same (owner (k_dead s) cb) h); cbn [negb]; [reflexivity|].
      rewrite barrier_msg_spec. destruct (separator (k_version s) bxid); reflexivity.
    + reflexivity.
    + destruct h; reflexivity.
Qed.

Lemma last_of_app q e : last_of (q ++ [e]) = Some e.
Proof.
  induction q as [|a q IH]; [reflexivity|]. cbn [Datatypes.app last_of].
  destruct (q ++ [e]) eqn:E; [destruct q; discriminate|]. exact IH.
Qed.

Lemma last_of_none q : last_of q = None -> q = [].
Proof.
  destruct q as [|a q] using rev_ind; [reflexivity|]. rewrite last_of_app. discriminate.
Qed.

Lemma last_of_some q e : last_of q = Some e -> exists q0, q = q0 ++ [e].
Proof.
  destruct q as [|a q] using rev_ind; [discriminate|]. rewrite last_of_app. intros H; inversion H. eauto.
Qed.

(** *** C16 *)

Fixpoint no_adj (q : list sel) : Prop :=
  match q with
  | [] => True
  | a :: q' => match a, q' with SChunk _, SChunk _ :: _ => False | _, _ => True end /\ no_adj q'
  end.

Lemma no_adj_app q1 q2 :
  no_adj q1 -> no_adj q2 ->
  (match last_of q1, q2 with Some (SChunk _), SChunk _ :: _ => False | _, _ => True end) ->
  no_adj (q1 ++ q2).
Proof.
  induction q1 as [|a q1 IH]; cbn [Datatypes.app]; [auto|].
  intros [H1 H2] H3 H4. cbn [no_adj]. split.
  - destruct q1 as [|b q1]; cbn [Datatypes.app]; [|exact H1]. cbn in H4. destruct a; [|exact I].
    destruct q2 as [|[|] q2]; auto.
  - apply IH; auto. destruct q1 as [|b q1]; [cbn; auto|exact H4].
Qed.

Lemma no_adj_suffix q1 q2 : no_adj (q1 ++ q2) -> no_adj q2.
Proof. induction q1; cbn; tauto. Qed.

Lemma walk_suffix dead xid q : forall drop q' r,
  walk dead xid drop q = (Some q', r) -> exists q0, q = q0 ++ q'.
Proof.
  induction q as [|[cb|x cb] q IH]; intros drop q' r H; cbn in H; [discriminate| |].
  - destruct drop; [discriminate|]. apply IH in H. destruct H as [q0 ->]. exists (SChunk cb :: q0). reflexivity.
  - destruct (x =? xid); inversion H; subst. exists [SBarrier x cb]. reflexivity.
Qed.

Lemma walk_no_multiple dead xid q drop :
  no_adj q -> (drop = true -> match q with SChunk _ :: _ => False | _ => True end) ->
  snd (walk dead xid drop q) <> FailAssert AMultiple.
Proof.
  revert drop. induction q as [|[cb|x cb] q IH]; intros drop Hn Hd; cbn [walk]; [discriminate| |].
  - destruct drop; [exfalso; apply (Hd eq_refl)|]. destruct Hn as [Ha Hn]. apply IH; [exact Hn|].
    intros _. destruct q as [|[|] q]; auto.
  - destruct (x =? xid); cbn; [|discriminate]. destruct (live dead cb); discriminate.
Qed.

Lemma k_put_seq s m o : k_seq (fst (k_put s m o)) = k_seq s.
Proof. destruct o; reflexivity. Qed.

Lemma send_no_adj s h m bxid o1 o2 :
  no_adj (k_seq s) -> no_adj (k_seq (fst (locked_send s h m bxid o1 o2))).
Proof.
  intros H. unfold locked_send. destruct (parse_ofp_header m) as [hd|e]; [|exact H].
  destruct (is_barrier_req hd).
  - rewrite k_put_seq. apply no_adj_app; [exact H|cbn; auto|]. destruct (last_of (k_seq s)) as [[|]|]; exact I.
  - destruct (last_of (k_seq s)) as [[cb|x cb]|] eqn:El.
    + destruct (negb _); [|rewrite k_put_seq; exact H].
      destruct (barrier_msg (k_version s) bxid) as [b|e]; [|exact H].
      assert (Hq : no_adj (k_seq s ++ [SBarrier bxid None; SChunk h])).
      { apply no_adj_app; [exact H|cbn; auto|]. rewrite El. exact I. }
      destruct o1 as [e|]; cbn [k_put]; [exact Hq|]. rewrite k_put_seq. exact Hq.
    + rewrite k_put_seq. apply no_adj_app; [exact H|cbn; auto|]. rewrite El. exact I.
    + destruct (negb _); rewrite k_put_seq; [cbn; auto|exact H].
Qed.

Lemma ctl_recv_seq s m : k_seq (fst (ctl_recv s m)) = k_seq s /\ k_dead (fst (ctl_recv s m)) = k_dead s /\
  k_version (fst (ctl_recv s m)) = k_version s /\ k_wire (fst (ctl_recv s m)) = k_wire s.
Proof.
  unfold ctl_recv. destruct m as [|b m]; [auto|].
  destruct (parse_ofp_header (b :: m)) as [h|e]; [|auto].
  destruct (h_type h =? 6); [|auto].
  destruct (match k_version s with None => true | Some v => v <? 4 end).
  - destruct (unpacks "!Q" (b :: m) 8) as [[|[] [|]]|e]; auto.
  - destruct (unpacks "!QIBB" (b :: m) 8) as [[|[] [|[] [|[] [|[] [|]]]]]|e]; auto.
Qed.

Lemma intercept_no_adj a s m : no_adj (k_seq s) -> no_adj (k_seq (fst (intercept a s m))).
Proof.
  intros H. unfold intercept. destruct (parse_ofp_header m) as [h|e]; [|exact H].
  destruct (a && _); [exact H|]. destruct (k_seq s) as [|e q] eqn:E; [rewrite <- E in H; exact H|].
  destruct (is_barrier_rep h).
  - destruct (walk (k_dead s) (h_xid h) false (e :: q)) as [[q'|] r] eqn:Ew.
    + apply walk_suffix in Ew. destruct Ew as [q0 Eq]. cbn. rewrite Eq in H. eapply no_adj_suffix; eauto.
    + cbn. rewrite E. exact H.
  - destruct e as [cb|x cb]; [destruct (live (k_dead s) cb)|]; cbn; rewrite E; exact H.
Qed.

Lemma step_no_adj a s o : no_adj (k_seq s) -> no_adj (k_seq (fst (cstep a s o))).
Proof.
  intros H. destruct o as [h m bxid o1 o2|m|f|v]; cbn [cstep].
  - pose proof (send_no_adj s h m bxid o1 o2 H) as H'. destruct (locked_send s h m bxid o1 o2); exact H'.
  - pose proof (ctl_recv_seq s m) as (E & _). destruct (ctl_recv s m) as [s1 [u|e]]; cbn [fst] in *.
    + assert (H1 : no_adj (k_seq s1)) by (rewrite E; exact H).
      pose proof (intercept_no_adj a s1 m H1) as H2. destruct (intercept a s1 m); exact H2.
    + rewrite E. exact H.
  - exact H.
  - exact H.
Qed.

Lemma step_no_multiple a s o : no_adj (k_seq s) -> snd (cstep a s o) <> CGot (FailAssert AMultiple).
Proof.
  intros H. destruct o as [h m bxid o1 o2|m|f|v]; cbn [cstep]; try discriminate.
  - destruct (locked_send s h m bxid o1 o2); discriminate.
  - pose proof (ctl_recv_seq s m) as (E & _). destruct (ctl_recv s m) as [s1 [u|e]]; cbn [fst] in *; [|discriminate].
    rewrite <- E in H. unfold intercept. destruct (parse_ofp_header m) as [hd|e]; [|discriminate].
    destruct (a && _); [discriminate|]. destruct (k_seq s1) as [|e q] eqn:Eq; [discriminate|].
    destruct (is_barrier_rep hd).
    + pose proof (walk_no_multiple (k_dead s1) (h_xid hd) (e :: q) false H ltac:(discriminate)) as Hw.
      destruct (walk (k_dead s1) (h_xid hd) false (e :: q)) as [[q'|] r]; cbn in *; congruence.
    + destruct e as [cb|x cb]; [destruct (live (k_dead s1) cb)|]; discriminate.
Qed.

Theorem never_multiple a os : ~ In (CGot (FailAssert AMultiple)) (snd (crun a k_new os)).
Proof.
  assert (G : forall os s, no_adj (k_seq s) -> ~ In (CGot (FailAssert AMultiple)) (snd (crun a s os))).
  { clear. induction os as [|o os IH]; intros s H; cbn [crun]; [cbn; auto|].
    pose proof (step_no_adj a s o H) as H1. pose proof (step_no_multiple a s o H) as H2.
    destruct (cstep a s o) as [s1 r]. specialize (IH s1 H1). destruct (crun a s1 os) as [s2 rs].
    cbn in *. intros [E|E]; auto. }
  apply G. exact I.
Qed.

(** *** C19 *)

Definition barrier_xids (q : list sel) : list Z :=
  flat_map (fun e => match e with SBarrier x _ => [x] | SChunk _ => [] end) q.

Definition open_batch (q : list sel) : option (option nat) :=
  match last_of q with Some (SChunk c) => Some c | _ => None end.

Definition sep_inv (s : cch) (p : sep) : Prop :=
  no_adj (k_seq s) /\ p_out p = barrier_xids (k_seq s) /\ p_batch p = open_batch (k_seq s) /\
  p_dead p = k_dead s /\ p_version p = k_version s /\ map snd (p_wire p) = k_wire s.

Lemma open_batch_app q e : open_batch (q ++ [e]) = match e with SChunk c => Some c | _ => None end.
Proof. unfold open_batch. rewrite last_of_app. reflexivity. Qed.

Lemma barrier_xids_app q1 q2 : barrier_xids (q1 ++ q2) = barrier_xids q1 ++ barrier_xids q2.
Proof. apply flat_map_app. Qed.

Lemma no_adj_no_barrier q : no_adj q -> barrier_xids q = [] -> q = [] \/ exists c, q = [SChunk c].
Proof.
  destruct q as [|[c|x c] q]; intros Hn Hb; [auto| |discriminate].
  right. destruct q as [|[c'|x c'] q]; [eauto| |discriminate]. cbn in Hn. tauto.
Qed.

Lemma open_batch_none_nonempty q : open_batch q = None -> q <> [] -> exists q0 x c, q = q0 ++ [SBarrier x c].
Proof.
  unfold open_batch. intros H Hn. destruct (last_of q) as [[c|x c]|] eqn:E; [discriminate| |].
  - apply last_of_some in E. destruct E as [q0 ->]. eauto.
  - apply last_of_none in E. contradiction.
Qed.

Lemma sep_send s p h m bxid :
  sep_inv s p ->
  let '(s', r) := locked_send s h m bxid None None in
  let p' := sep_step p (CSend h m bxid None None) in
  sep_inv s' p' /\
  map snd (filter fst (p_wire p')) = map snd (filter fst (p_wire p)) ++ (if is_ok r then [m] else []).
Proof.
  intros Hi. pose proof Hi as (H1 & H2 & H3 & H4 & H5 & H6). rewrite locked_send_spec.
  pose proof (send_no_adj s h m bxid None None H1) as Hadj. rewrite locked_send_spec in Hadj.
  cbn [sep_step]. unfold do_send in *.
  destruct (length m <? 8)%nat; [cbn; rewrite app_nil_r; auto|].
  destruct (barrier_request m) eqn:Eb.
  - cbn in *. split; [|rewrite filter_app, map_app; reflexivity].
    unfold sep_inv; cbn. rewrite open_batch_app, barrier_xids_app, map_app, H2, H6. auto 10.
  - rewrite H3, H4, H5. unfold open_batch in *.
    destruct (last_of (k_seq s)) as [[cb|x cb]|] eqn:El.
    + destruct (same (owner (k_dead s) cb) h) eqn:Es.
      * cbn in *. split; [|rewrite filter_app, map_app; reflexivity].
        unfold sep_inv; cbn. unfold open_batch. rewrite El, map_app, H6. auto 10.
      * destruct (separator (k_version s) bxid) as [b|].
        -- cbn in *. split; [|rewrite filter_app, map_app; reflexivity].
           unfold sep_inv; cbn.
           change [SBarrier bxid None; SChunk h] with ([SBarrier bxid None] ++ [SChunk h]) in *.
           rewrite app_assoc in *. rewrite open_batch_app, !barrier_xids_app, map_app, H2, H6.
           cbn. rewrite app_nil_r, <- app_assoc. cbn. repeat split; auto; rewrite <- app_assoc in *; auto.
        -- cbn. rewrite app_nil_r. auto.
    + apply last_of_some in El. destruct El as [q0 Eq].
      assert (Ho : exists a l, p_out p = a :: l).
      { rewrite H2, Eq, barrier_xids_app. cbn. destruct (barrier_xids q0); cbn; eauto. }
      cbn in *. split; [|rewrite filter_app, map_app; reflexivity].
      unfold sep_inv; cbn. rewrite open_batch_app, barrier_xids_app, map_app, H2, H6. cbn.
      rewrite app_nil_r. destruct Ho as (y & l & Ho). rewrite H2 in Ho. rewrite Ho. auto 10.
    + apply last_of_none in El.
      destruct h as [f|]; cbn in *; (split; [|rewrite filter_app, map_app; reflexivity]);
        unfold sep_inv; cbn; rewrite H2, El, map_app, H6; cbn; rewrite ?El; auto 10.
Qed.

Lemma walk_barrier dead xid q :
  no_adj q ->
  walk dead xid false q =
  match barrier_xids q with
  | [] => (None, FailAssert AUnknown)
  | x :: _ =>
      if x =? xid then
        match q with
        | SChunk _ :: SBarrier _ cb :: q' | SBarrier _ cb :: q' =>
            (Some q', match owner dead cb with Some f => ToCallback f | None => Swallowed end)
        | _ => (None, FailAssert AUnknown)
        end
      else (None, FailAssert AMissing)
  end.
Proof.
  intros H. destruct q as [|[c|x c] q]; cbn [walk barrier_xids flat_map Datatypes.app]; [reflexivity| |].
  - destruct q as [|[c'|x c'] q]; cbn [walk flat_map Datatypes.app]; [reflexivity|cbn in H; tauto|].
    rewrite live_owner. reflexivity.
  - rewrite live_owner. reflexivity.
Qed.

Lemma open_batch_tail e q : q <> [] -> open_batch (e :: q) = open_batch q.
Proof. destruct q; [congruence|reflexivity]. Qed.

Lemma sep_intercept a s p m : sep_inv s p -> (8 <= length m)%nat ->
  sep_inv (fst (intercept a s m)) (sep_step p (CRecv m)).
Proof.
  intros Hi Hl. pose proof Hi as (H1 & H2 & H3 & H4 & H5 & H6).
  pose proof (intercept_no_adj a s m H1) as Hadj. revert Hadj.
  unfold intercept. rewrite parse_header_spec by exact Hl. cbn [h_type h_xid].
  rewrite is_barrier_rep_spec. cbn [sep_step].
  assert (E8 : (8 <=? length m)%nat = true) by lia. rewrite E8. cbn [andb].
  destruct (a && ((byte_at m 1 =? 10) || (byte_at m 1 =? 11) || (byte_at m 1 =? 12))) eqn:Ea.
  { assert (Er : barrier_reply m = false) by (unfold barrier_reply; destruct (byte_at m 0 =? 1), a; cbn in Ea; lia).
    rewrite Er. cbn. auto. }
  destruct (k_seq s) as [|e q] eqn:Eq.
  - cbn. intros _. rewrite H2. cbn. destruct (barrier_reply m); exact Hi.
  - destruct (barrier_reply m) eqn:Er.
    + rewrite walk_barrier by exact H1. rewrite H2.
      destruct (barrier_xids (e :: q)) as [|x out] eqn:Ex.
      { cbn. auto. }
      unfold xid_of. destruct (x =? u32_at m 4) eqn:Ey; [|cbn; auto].
      destruct e as [c|x0 c].
      * destruct q as [|[c'|x' c'] q]; [discriminate|cbn in H1; tauto|].
        cbn [fst]. intros Hadj. unfold sep_inv in *; cbn in *.
        inversion Ex; subst. repeat split; auto.
        rewrite H3. unfold open_batch. destruct q as [|z q]; reflexivity.
      * cbn [fst]. intros Hadj. unfold sep_inv in *; cbn in *.
        inversion Ex; subst. repeat split; auto.
        rewrite H3. unfold open_batch. destruct q as [|z q]; reflexivity.
    + destruct e as [c|x c]; [destruct (live (k_dead s) c)|]; cbn; auto.
Qed.

Lemma sep_cstep a s p o : sep_inv s p -> transport_ok o ->
  sep_inv (fst (cstep a s o)) (sep_step p o).
Proof.
  intros Hi Ht. destruct o as [h m bxid o1 o2|m|f|v].
  - destruct Ht as [-> ->]. pose proof (sep_send s p h m bxid Hi) as H. cbn [cstep].
    destruct (locked_send s h m bxid None None) as [s' r]. exact (proj1 H).
  - cbn [cstep]. pose proof (ctl_recv_seq s m) as (E1 & E2 & E3 & E4).
    assert (Hi1 : sep_inv (fst (ctl_recv s m)) p).
    { unfold sep_inv in *. rewrite E1, E2, E3, E4. exact Hi. }
    destruct (ctl_recv s m) as [s1 [u|e]] eqn:Er; cbn [fst] in *.
    + destruct (Nat.lt_ge_cases (length m) 8) as [Hs|Hl].
      * unfold intercept. rewrite parse_header_short by exact Hs. cbn [fst sep_step].
        assert (E8 : (8 <=? length m)%nat = false) by lia. rewrite E8. exact Hi1.
      * pose proof (sep_intercept a s1 p m Hi1 Hl) as H. destruct (intercept a s1 m); exact H.
    + cbn [sep_step]. revert Er. unfold ctl_recv. destruct m as [|b m]; [discriminate|].
      destruct (Nat.lt_ge_cases (length (b :: m)) 8) as [Hs|Hl].
      * intros _. assert (E8 : (8 <=? length (b :: m))%nat = false) by lia. rewrite E8. exact Hi1.
      * set (mm := b :: m) in *. rewrite parse_header_spec by exact Hl. cbn [h_type].
        destruct (byte_at mm 1 =? 6) eqn:E6; [|discriminate]. intros _.
        assert (Er : barrier_reply mm = false) by (unfold barrier_reply; destruct (byte_at mm 0 =? 1); lia).
        rewrite Er, andb_false_r. exact Hi1.
  - cbn. unfold sep_inv in *; cbn. intuition congruence.
  - cbn. unfold sep_inv in *; cbn. intuition congruence.
Qed.

Theorem separated a os : Forall transport_ok os ->
  k_wire (fst (crun a k_new os)) = map snd (p_wire (sep_run os)).
Proof.
  unfold sep_run.
  assert (G : forall os s p, sep_inv s p -> Forall transport_ok os ->
    sep_inv (fst (crun a s os)) (fold_left sep_step os p)).
  { clear. induction os as [|o os IH]; intros s p Hi Ht; cbn [crun fold_left]; [exact Hi|].
    inversion Ht as [|? ? Ho Hos]; subst. pose proof (sep_cstep a s p o Hi Ho) as H.
    destruct (cstep a s o) as [s1 r]. specialize (IH s1 (sep_step p o) H Hos).
    destruct (crun a s1 os). exact IH. }
  intros Ht. assert (H : sep_inv k_new sep_new) by (unfold sep_inv; cbn; auto 10).
  destruct (G os _ _ H Ht) as (_ & _ & _ & _ & _ & E). symmetry. exact E.
Qed.

Theorem transparent a os : Forall transport_ok os ->
  map snd (filter fst (p_wire (sep_run os))) = accepted os (snd (crun a k_new os)).
Proof.
  unfold sep_run.
  assert (G : forall os s p, sep_inv s p -> Forall transport_ok os ->
    map snd (filter fst (p_wire (fold_left sep_step os p))) =
    map snd (filter fst (p_wire p)) ++ accepted os (snd (crun a s os))).
  { clear. induction os as [|o os IH]; intros s p Hi Ht; cbn [crun fold_left].
    - cbn. rewrite app_nil_r. reflexivity.
    - inversion Ht as [|? ? Ho Hos]; subst. pose proof (sep_cstep a s p o Hi Ho) as H.
      pose proof (fun h m b => sep_send s p h m b Hi) as Hsend.
      destruct (cstep a s o) as [s1 r] eqn:Ec. specialize (IH s1 (sep_step p o) H Hos).
      destruct (crun a s1 os) as [s2 rs]. rewrite IH. cbn [snd accepted].
      destruct o as [h m bxid o1 o2|m|f|v].
      + destruct Ho as [-> ->]. specialize (Hsend h m bxid). cbn [cstep] in Ec.
        destruct (locked_send s h m bxid None None) as [s' r']. inversion Ec; subst.
        destruct Hsend as [_ Hsend]. rewrite Hsend, <- app_assoc. destruct r' as [[]|e]; reflexivity.
      + f_equal. cbn [sep_step]. destruct ((8 <=? length m)%nat && barrier_reply m); [|reflexivity].
        destruct (p_out p) as [|x l]; [reflexivity|]. destruct (x =? xid_of m); reflexivity.
      + reflexivity.
      + reflexivity. }
  intros Ht. assert (H : sep_inv k_new sep_new) by (unfold sep_inv; cbn; auto 10).
  rewrite (G os _ _ H Ht). reflexivity.
Qed.

(** *** C22 *)

Lemma u64_be m off : (off + 8 <= length m)%nat -> of_be (firstn 8 (skipn off m)) = u64_at m off.
Proof.
  intros H. rewrite !firstn_S_skipn by lia. rewrite firstn_O.
  unfold u64_at, u32_at, byte_at.
  replace (off + 4 + 1)%nat with (S (S (S (S (S off))))) by lia.
  replace (off + 4 + 2)%nat with (S (S (S (S (S (S off)))))) by lia.
  replace (off + 4 + 3)%nat with (S (S (S (S (S (S (S off))))))) by lia.
  replace (off + 4)%nat with (S (S (S (S off)))) by lia.
  replace (off + 1)%nat with (S off) by lia. replace (off + 2)%nat with (S (S off)) by lia.
  replace (off + 3)%nat with (S (S (S off))) by lia.
  unfold of_be. cbn [fold_left]. lia.
Qed.

Theorem features s m : (8 <= length m)%nat ->
  ctl_recv s m =
  if byte_at m 1 =? 6 then
    if match k_version s with Some v => 4 <=? v | None => false end then
      if (22 <=? length m)%nat then
        (mkCch (k_seq s) (k_dead s) (k_version s) (k_wire s) (Some (u64_at m 8)) (Some (byte_at m 21)), Ok tt)
      else (s, Err StructError)
    else
      if (16 <=? length m)%nat then
        (mkCch (k_seq s) (k_dead s) (k_version s) (k_wire s) (Some (u64_at m 8)) (k_aux s), Ok tt)
      else (s, Err StructError)
  else (s, Ok tt).
Proof.
  intros Hl. destruct m as [|b m]; [cbn in Hl; lia|]. unfold ctl_recv. set (mm := b :: m) in *.
  rewrite parse_header_spec by exact Hl. cbn [h_type].
  destruct (byte_at mm 1 =? 6); [|reflexivity].
  assert (Ev : match k_version s with None => true | Some v => v <? 4 end =
               negb (match k_version s with Some v => 4 <=? v | None => false end)).
  { destruct (k_version s) as [v|]; cbn; [|reflexivity]. lia. }
  rewrite Ev. destruct (match k_version s with Some v => 4 <=? v | None => false end); cbn [negb].
  - unfold unpacks. eval_fmt. cbn [bind]. unfold unpack_from. cbn [calcsize item_size].
    change (8 + (8 + (4 + (1 + (1 + 0)))))%nat with 22%nat.
    destruct (22 <=? length mm)%nat eqn:E; [|reflexivity].
    cbn [decode]. rewrite u64_be by lia. rewrite !skipn_skipn'. cbn [Nat.add].
    rewrite of_be_1 by lia. reflexivity.
  - unfold unpacks. eval_fmt. cbn [bind]. unfold unpack_from. cbn [calcsize item_size].
    change (8 + (8 + 0))%nat with 16%nat.
    destruct (16 <=? length mm)%nat eqn:E; [|reflexivity].
    cbn [decode]. rewrite u64_be by lia. reflexivity.
Qed.

(** Nothing else touches the identity. *)
Theorem identity_frame a s o :
  (forall m, o = CRecv m -> (8 <= length m)%nat -> byte_at m 1 <> 6) ->
  k_datapath (fst (cstep a s o)) = k_datapath s /\ k_aux (fst (cstep a s o)) = k_aux s.
Proof.
  intros Hno.
  assert (Hp : forall s m o, k_datapath (fst (k_put s m o)) = k_datapath s /\ k_aux (fst (k_put s m o)) = k_aux s)
    by (intros ? ? []; cbn; auto).
  assert (Hs : forall s h m b o1 o2, k_datapath (fst (locked_send s h m b o1 o2)) = k_datapath s /\
                k_aux (fst (locked_send s h m b o1 o2)) = k_aux s).
  { intros s0 h m b o1 o2. unfold locked_send. destruct (parse_ofp_header m) as [hd|e]; [|auto].
    destruct (is_barrier_req hd); [destruct o2; split; reflexivity|].
    destruct (last_of (k_seq s0)) as [[cb|x cb]|].
    - destruct (negb _); [|destruct o2; split; reflexivity]. destruct (barrier_msg (k_version s0) b) as [bm|e]; [|auto].
      destruct o1 as [e|]; cbn [k_put]; [auto|]. destruct o2; split; reflexivity.
    - destruct o2; split; reflexivity.
    - destruct (negb _); destruct o2; split; reflexivity. }
  assert (Hic : forall s m, k_datapath (fst (intercept a s m)) = k_datapath s /\ k_aux (fst (intercept a s m)) = k_aux s).
  { intros s0 m. unfold intercept. destruct (parse_ofp_header m) as [hd|e]; [|auto].
    destruct (a && _); [auto|]. destruct (k_seq s0) as [|e q]; [auto|].
    destruct (is_barrier_rep hd).
    - destruct (walk (k_dead s0) (h_xid hd) false (e :: q)) as [[q'|] r]; auto.
    - destruct e as [cb|x cb]; [destruct (live (k_dead s0) cb)|]; auto. }
  destruct o as [h m bxid o1 o2|m|f|v]; cbn [cstep].
  - specialize (Hs s h m bxid o1 o2). destruct (locked_send s h m bxid o1 o2); exact Hs.
  - assert (Hc : fst (ctl_recv s m) = s).
    { destruct (Nat.lt_ge_cases (length m) 8) as [Hl|Hl].
      - unfold ctl_recv. destruct m as [|b m]; [reflexivity|]. rewrite parse_header_short by exact Hl. reflexivity.
      - rewrite features by exact Hl. specialize (Hno m eq_refl Hl). apply Z.eqb_neq in Hno. rewrite Hno. reflexivity. }
    destruct (ctl_recv s m) as [s1 [u|e]]; cbn [fst] in Hc; subst; [|auto].
    specialize (Hic s m). destruct (intercept a s m); exact Hic.
  - auto.
  - auto.
Qed.

(** *** C14 *)

Lemma echo_layer_msg bxid next s m : (8 <= length m)%nat ->
  echo_layer bxid next s m =
  if is_echo m then
    match packs "!BBHI" [vint (k_version s); VInt 3; VInt (u16_at m 2); VInt (u32_at m 4)] with
    | Ok p => match locked_send s None (p ++ skipn 8 m) bxid None None with
              | (s', Ok _) => (s', Swallowed)
              | (s', Err e) => (s', FailExn e)
              end
    | Err e => (s, FailExn e)
    end
  else next s m.
Proof.
  intros Hl. pose proof (parse_header_spec m Hl) as Hp. unfold echo_layer.
  destruct m as [|b m]; [cbn in Hl; lia|]. rewrite Hp. reflexivity.
Qed.

Theorem echo_first a bxid s m v :
  (8 <= length m)%nat -> bytes_ok m -> is_echo m = true ->
  k_version s = Some v -> 0 <= v < 256 -> 0 <= bxid < 2 ^ 32 ->
  let '(s', r) := echo_then_controller a bxid s m in
  r = Swallowed /\ exists sepa, k_wire s' = k_wire s ++ sepa ++ [echo_reply v m] /\
    (sepa = [] \/ exists b, sepa = [b] /\ separator (Some v) bxid = Some b).
Proof.
  intros Hl Hb He Hv Hr Hx. unfold echo_then_controller. rewrite echo_layer_msg by exact Hl.
  rewrite He, Hv. cbn [vint].
  destruct (echo_pack v m Hl Hb Hr) as (p & Hp & Hrep). rewrite Hp, Hrep, locked_send_spec.
  assert (L : (length (echo_reply v m) <? 8)%nat = false).
  { unfold echo_reply. cbn [length]. rewrite skipn_length. lia. }
  assert (Q : barrier_request (echo_reply v m) = false).
  { unfold barrier_request, echo_reply, byte_at. cbn [nth]. destruct (v =? 1); reflexivity. }
  unfold do_send. rewrite L, Q.
  assert (K : exists b, separator (Some v) bxid = Some b).
  { unfold separator. change (2 ^ 32) with 4294967296 in Hx.
    assert (E : ((0 <=? v) && (v <? 256) && (0 <=? bxid) && (bxid <? 4294967296)) = true) by lia.
    rewrite E. eauto. }
  destruct K as (b & K).
  destruct (last_of (k_seq s)) as [[cb|x cb]|]; [|cbn|cbn].
  - destruct (same (owner (k_dead s) cb) None).
    + cbn. split; [reflexivity|]. exists []. auto.
    + rewrite Hv, K. cbn. split; [reflexivity|]. exists [b]. rewrite <- app_assoc. split; [reflexivity|]. right. eauto.
  - split; [reflexivity|]. exists []. auto.
  - split; [reflexivity|]. exists []. auto.
Qed.

(** With the controller first the echo request is answered exactly when the
    controller passes it on. *)
Lemma echo_swallowed_by_callback a bxid s f q m :
  (8 <= length m)%nat -> is_echo m = true -> k_seq s = SChunk (Some f) :: q -> ~ In f (k_dead s) ->
  controller_then_echo a bxid s m = (s, ToCallback f).
Proof.
  intros Hl He Hq Hf. unfold controller_then_echo, intercept. rewrite parse_header_spec by exact Hl.
  cbn [h_type]. unfold is_echo in He.
  assert (Ea : a && ((byte_at m 1 =? 10) || (byte_at m 1 =? 11) || (byte_at m 1 =? 12)) = false).
  { destruct a; cbn; lia. }
  rewrite Ea, Hq, is_barrier_rep_spec.
  assert (Er : barrier_reply m = false) by (unfold barrier_reply; destruct (byte_at m 0 =? 1); lia).
  rewrite Er, live_owner. cbn. destruct (in_dec Nat.eq_dec f (k_dead s)); [contradiction|reflexivity].
Qed.

(** ... and answered like with the other order when it has nobody to give it
    to. *)
Lemma echo_any_next bxid n1 n2 s m : (8 <= length m)%nat -> is_echo m = true ->
  echo_layer bxid n1 s m = echo_layer bxid n2 s m.
Proof. intros Hl He. rewrite !echo_layer_msg, He by exact Hl. reflexivity. Qed.

Lemma echo_passed_on a bxid s m :
  (8 <= length m)%nat -> is_echo m = true ->
  (forall f q, k_seq s = SChunk (Some f) :: q -> In f (k_dead s)) ->
  controller_then_echo a bxid s m = echo_then_controller a bxid s m.
Proof.
  intros Hl He Hq. unfold echo_then_controller. rewrite (echo_any_next bxid (intercept a) (fun s m => (s, ToDefault))) by assumption.
  unfold controller_then_echo.
  assert (E : intercept a s m = (s, ToDefault)); [|rewrite E; reflexivity].
  unfold intercept. rewrite parse_header_spec by exact Hl. cbn [h_type]. unfold is_echo in He.
  assert (Ea : a && ((byte_at m 1 =? 10) || (byte_at m 1 =? 11) || (byte_at m 1 =? 12)) = false).
  { destruct a; cbn; lia. }
  rewrite Ea. destruct (k_seq s) as [|[cb|x cb] q] eqn:Eq; [reflexivity| |].
  - rewrite is_barrier_rep_spec.
    assert (Er : barrier_reply m = false) by (unfold barrier_reply; destruct (byte_at m 0 =? 1); lia).
    rewrite Er, live_owner. destruct cb as [f|]; [|reflexivity]. cbn.
    destruct (in_dec Nat.eq_dec f (k_dead s)) as [_|N]; [reflexivity|]. destruct N. apply (Hq f q eq_refl).
  - rewrite is_barrier_rep_spec.
    assert (Er : barrier_reply m = false) by (unfold barrier_reply; destruct (byte_at m 0 =? 1); lia).
    rewrite Er. reflexivity.
Qed.

(** *** C21 *)

Theorem early_failure s h m bxid :
  is_ok (snd (locked_send s h m bxid None None)) = false ->
  fst (locked_send s h m bxid None None) = s.
Proof.
  rewrite locked_send_spec. unfold do_send. destruct (length m <? 8)%nat; [reflexivity|].
  destruct (barrier_request m); [discriminate|].
  destruct (last_of (k_seq s)) as [[cb|x cb]|]; [|discriminate|destruct h; discriminate].
  destruct (same (owner (k_dead s) cb) h); [discriminate|].
  destruct (separator (k_version s) bxid); [discriminate|reflexivity].
Qed.

Theorem same_batch_failure s h m bxid e q cb :
  (8 <= length m)%nat -> barrier_request m = false ->
  k_seq s = q ++ [SChunk cb] -> owner (k_dead s) cb = h ->
  locked_send s h m bxid None (Some e) = (s, Err e).
Proof.
  intros Hl Hb Hq Ho. unfold locked_send. rewrite parse_header_spec by exact Hl.
  rewrite is_barrier_req_spec, Hb, Hq, last_of_app, live_owner, Ho.
  assert (E : cb_eqb h h = true) by (rewrite cb_eqb_same; apply same_eq; reflexivity).
  rewrite E. reflexivity.
Qed.

(** *** A barrier that was queued but never sent *)

Definition blocked (x : Z) (q : list sel) : Prop :=
  exists cb q', q = SBarrier x cb :: q' \/ exists c, q = SChunk c :: SBarrier x cb :: q'.

Lemma blocked_app x q r : blocked x q -> blocked x (q ++ r).
Proof. intros (cb & q' & [->|[c ->]]); exists cb, (q' ++ r); cbn [Datatypes.app]; [left|right; exists c]; reflexivity. Qed.

Lemma put_seq s m o : k_seq (fst (k_put s m o)) = k_seq s.
Proof. destruct o; reflexivity. Qed.

Lemma send_extends s h m bxid o1 o2 : k_seq s <> [] ->
  exists r, k_seq (fst (locked_send s h m bxid o1 o2)) = k_seq s ++ r.
Proof.
  intros Hn. unfold locked_send. destruct (parse_ofp_header m) as [hd|e]; [|exists []; cbn; now rewrite app_nil_r].
  destruct (is_barrier_req hd); [eexists; rewrite put_seq; reflexivity|].
  destruct (last_of (k_seq s)) as [[cb|x cb]|] eqn:El.
  - destruct (negb (cb_eqb (live (k_dead s) cb) h)); [|exists []; rewrite put_seq; now rewrite app_nil_r].
    destruct (barrier_msg (k_version s) bxid) as [msg|e]; [|exists []; cbn; now rewrite app_nil_r].
    cbv zeta. eexists.
    pose proof (put_seq (with_seq s (k_seq s ++ [SBarrier bxid None; SChunk h])) msg o1) as P1.
    destruct (k_put (with_seq s (k_seq s ++ [SBarrier bxid None; SChunk h])) msg o1) as [s2 [[]|e]]; cbn [fst] in *;
      [rewrite put_seq|]; rewrite P1; reflexivity.
  - eexists. rewrite put_seq. reflexivity.
  - exfalso. apply Hn. destruct (k_seq s) as [|a q]; [reflexivity|]. clear - El. exfalso. revert a El.
    induction q as [|b q IH]; intros a El; [discriminate|]. exact (IH b El).
Qed.

Lemma walk_blocked dead x q y : blocked x q -> y <> x -> walk dead y false q = (None, FailAssert AMissing).
Proof.
  intros (cb & q' & [->|[c ->]]) Hn; cbn [walk]; (assert (E : (x =? y) = false) by lia); rewrite E; reflexivity.
Qed.

Lemma blocked_step a x s o : blocked x (k_seq s) ->
  (forall r, o = CRecv r -> barrier_reply r = true -> xid_of r <> x) ->
  blocked x (k_seq (fst (cstep a s o))) /\
  (forall r, o = CRecv r -> (8 <= length r)%nat -> barrier_reply r = true -> snd (cstep a s o) = CGot (FailAssert AMissing)).
Proof.
  intros Hb Ho. destruct o as [h m bxid o1 o2|m|f|v]; cbn [cstep].
  - destruct (send_extends s h m bxid o1 o2) as [r E]; [destruct Hb as (cb & q' & [->|[c ->]]); discriminate|].
    destruct (locked_send s h m bxid o1 o2) as [s' r']. cbn [fst] in *. rewrite E. split; [apply blocked_app; exact Hb|discriminate].
  - pose proof (proj1 (ctl_recv_seq s m)) as Es.
    assert (Hc : (8 <= length m)%nat -> barrier_reply m = true -> ctl_recv s m = (s, Ok tt)).
    { intros Hl Hr. unfold ctl_recv. destruct m as [|b m]; [reflexivity|]. rewrite parse_header_spec by exact Hl. cbn [h_type].
      assert (E6 : (byte_at (b :: m) 1 =? 6) = false) by (unfold barrier_reply in Hr; destruct (byte_at (b :: m) 0 =? 1); lia).
      rewrite E6. reflexivity. }
    destruct (ctl_recv s m) as [s1 r1] eqn:Ec. cbn [fst] in Es.
    assert (Hi : blocked x (k_seq (fst (intercept a s1 m))) /\
      ((8 <= length m)%nat -> barrier_reply m = true -> snd (intercept a s1 m) = FailAssert AMissing)).
    { unfold intercept. destruct (Nat.le_gt_cases 8 (length m)) as [Hl|Hl].
      - rewrite parse_header_spec by exact Hl. cbn [h_type h_xid]. rewrite is_barrier_rep_spec.
        destruct (a && ((byte_at m 1 =? 10) || (byte_at m 1 =? 11) || (byte_at m 1 =? 12))) eqn:Ea.
        + cbn [fst]. rewrite Es. split; [exact Hb|]. intros _ Hr. exfalso. unfold barrier_reply in Hr.
          destruct (byte_at m 0 =? 1), a; cbn in Ea; try discriminate; lia.
        + rewrite Es. destruct (k_seq s) as [|e q] eqn:Eq; [destruct Hb as (cb & q' & [H|[c H]]); discriminate|].
          destruct (barrier_reply m) eqn:Hr.
          * rewrite (walk_blocked (k_dead s1) x (e :: q) (u32_at m 4) Hb (Ho m eq_refl Hr)). cbn [fst snd]. rewrite Es. auto.
          * assert (G : forall r, blocked x (k_seq (fst (s1, r : outcome)))) by (intros r; cbn [fst]; rewrite Es; exact Hb).
            split; [|discriminate].
            destruct e as [cb|y cb]; [destruct (live (k_dead s1) cb)|]; apply G.
      - split; [|lia]. destruct (parse_ofp_header m) as [h|e] eqn:Ep; [|cbn [fst]; rewrite Es; exact Hb].
        exfalso. unfold parse_ofp_header in Ep. revert Ep. unfold unpacks. change (fmt "!BBHI") with (Ok [FU 1; FU 1; FU 2; FU 4]).
        cbn [bind]. unfold unpack_from. cbn [calcsize item_size Nat.add].
        assert (El : (8 <=? length m)%nat = false) by lia. rewrite El. discriminate. }
    destruct r1 as [[]|e].
    + destruct (intercept a s1 m) as [s2 r2]. cbn [fst snd] in *. split; [apply Hi|].
      intros r Er Hl Hr. injection Er as <-. f_equal. apply Hi; assumption.
    + cbn [fst snd]. rewrite Es. split; [exact Hb|]. intros r Er Hl Hr. injection Er as <-.
      specialize (Hc Hl Hr). discriminate.
  - cbn [fst k_seq]. split; [exact Hb|discriminate].
  - cbn [fst k_seq]. split; [exact Hb|discriminate].
Qed.

Theorem blocked_forever a x : forall ops s, blocked x (k_seq s) ->
  (forall r, In (CRecv r) ops -> barrier_reply r = true -> xid_of r <> x) ->
  forall i r, nth_error ops i = Some (CRecv r) -> (8 <= length r)%nat -> barrier_reply r = true ->
    nth_error (snd (crun a s ops)) i = Some (CGot (FailAssert AMissing)).
Proof.
  induction ops as [|o ops IH]; intros s Hb Ho i r Hi Hl Hr; [destruct i; discriminate|].
  destruct (blocked_step a x s o Hb) as [Hb1 Hs].
  { intros r0 -> . apply Ho. left. reflexivity. }
  cbn [crun]. destruct (cstep a s o) as [s1 r1]. cbn [fst snd] in *.
  destruct i as [|i]; cbn [nth_error] in Hi.
  - injection Hi as ->. destruct (crun a s1 ops) as [s2 rs]. cbn [snd nth_error]. rewrite (Hs r eq_refl Hl Hr). reflexivity.
  - specialize (IH s1 Hb1 (fun r0 H => Ho r0 (or_intror H)) i r Hi Hl Hr).
    destruct (crun a s1 ops) as [s2 rs]. exact IH.
Qed.

Lemma failed_barrier_blocks s h m bxid o1 e :
  (k_seq s = [] \/ exists c, k_seq s = [SChunk c]) -> (8 <= length m)%nat -> barrier_request m = true ->
  blocked (xid_of m) (k_seq (fst (locked_send s h m bxid o1 (Some e)))) /\ snd (locked_send s h m bxid o1 (Some e)) = Err e.
Proof.
  intros Hq Hl Hb. unfold locked_send. rewrite parse_header_spec by exact Hl. rewrite is_barrier_req_spec, Hb. cbn [k_put fst snd h_xid with_seq k_seq].
  split; [|reflexivity]. destruct Hq as [->|[c ->]]; exists h, []; cbn [Datatypes.app]; [left|right; exists c]; reflexivity.
Qed.

Lemma failed_separator_blocks s h m bxid e o2 cb msg :
  k_seq s = [SChunk cb] -> owner (k_dead s) cb <> h -> (8 <= length m)%nat -> barrier_request m = false ->
  separator (k_version s) bxid = Some msg ->
  blocked bxid (k_seq (fst (locked_send s h m bxid (Some e) o2))) /\ snd (locked_send s h m bxid (Some e) o2) = Err e.
Proof.
  intros Hq Ho Hl Hb Hm. unfold locked_send. rewrite parse_header_spec by exact Hl. rewrite is_barrier_req_spec, Hb, Hq.
  cbn [last_of]. rewrite cb_eqb_same, live_owner.
  assert (E : same (owner (k_dead s) cb) h = false) by (destruct (same (owner (k_dead s) cb) h) eqn:E; [exfalso; apply Ho; apply same_eq; exact E|reflexivity]).
  rewrite E. cbn [negb]. rewrite barrier_msg_spec, Hm. cbn. split; [|reflexivity].
  exists None, [SChunk h]. right. exists cb. reflexivity.
Qed.
