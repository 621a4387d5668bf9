(** Proofs about monitors and jack-in clients. *)

From Verif Require Import Py Struct M_Hello M_Loop M_Controller M_Parent S_Hello S_Loop S_Controller S_Parent
  P_Hello P_Controller P_Switch.
From Coq Require Import Permutation.
Local Open Scope Z_scope.

(** *** Monitors *)

Lemma to_monitors_ok fail m cs : (forall c, fail c = None) -> forall s,
  to_monitors fail m s cs =
  (mkParent (n_jackin s) (n_monitor s) (n_ctl s) (n_fs s) (n_cur s) (n_next s) (n_members s)
     (n_out s ++ map (fun c => (c, m)) cs) (n_got s), Ok tt).
Proof.
  intros Hf. induction cs as [|c cs IH]; intros s; cbn [to_monitors map].
  - rewrite app_nil_r. destruct s; reflexivity.
  - rewrite Hf, IH. cbn [n_jackin n_monitor n_ctl n_fs n_cur n_next n_members n_out n_got].
    rewrite <- app_assoc. reflexivity.
Qed.

(** recv() of a message that is no HELLO, all sends succeeding. *)
Lemma parent_recv_plain order fail s m :
  (forall c, fail c = None) -> frame_ok m = true -> is_hello m = false ->
  exists c fs, parent_recv order fail s m =
    (mkParent (n_jackin s) (n_monitor s) c fs (n_cur s) (n_next s) (n_members s)
       (n_out s ++ map (fun c => (c, m)) (order (monitors s))) (n_got s ++ [m]), Ok tt).
Proof.
  intros Hf Hok Hh. destruct (frame_recv (n_ctl s) m Hok) as (c & Hc & _).
  assert (Hl : (8 <= length m)%nat) by (unfold frame_ok in Hok; lia).
  pose proof (parse_header_spec m Hl) as Hp. unfold parent_recv. rewrite Hc.
  destruct m as [|b m]; [cbn in Hl; lia|]. rewrite Hp. cbn [h_type]. unfold is_hello in Hh. rewrite Hh.
  set (s2 := if byte_at (b :: m) 1 =? 6 then rename_helpers (with_ctl s c) else with_ctl s c).
  assert (E : exists fs, s2 = with_fs (with_ctl s c) fs).
  { unfold s2. destruct (byte_at (b :: m) 1 =? 6); [|eexists; destruct s; reflexivity].
    unfold rename_helpers. destruct s as [[] [] ? ? ? ? ? ? ?]; cbn; eexists; reflexivity. }
  destruct E as (fs & E). rewrite E, (to_monitors_ok fail _ _ Hf). exists c, fs. reflexivity.
Qed.

Lemma filter_in_iff c (l : list (nat * nat)) k :
  In c (map snd (filter (fun x => (fst x =? k)%nat) l)) <-> In (k, c) l.
Proof.
  rewrite in_map_iff. split.
  - intros ([k' c'] & E & H). apply filter_In in H. destruct H as [H E']. cbn in *. apply Nat.eqb_eq in E'. subst. exact H.
  - intros H. exists (k, c). split; [reflexivity|]. apply filter_In. split; [exact H|]. cbn. apply Nat.eqb_refl.
Qed.

Lemma nodup_filter_map (l : list (nat * nat)) k : NoDup l -> NoDup (map snd (filter (fun x => (fst x =? k)%nat) l)).
Proof.
  induction l as [|[k' c] l IH]; intros H; [constructor|]. inversion H; subst. cbn.
  destruct (k' =? k)%nat eqn:E; [|auto]. apply Nat.eqb_eq in E. subst. cbn. constructor; [|auto].
  rewrite filter_in_iff. assumption.
Qed.

Lemma inbox_app a b c : inbox (a ++ b) c = inbox a c ++ inbox b c.
Proof. unfold inbox. rewrite filter_app, map_app. reflexivity. Qed.

Lemma inbox_copies m cs c : NoDup cs ->
  inbox (map (fun c => (c, m)) cs) c = if in_dec Nat.eq_dec c cs then [m] else [].
Proof.
  intros H. induction cs as [|d cs IH]; [reflexivity|]. inversion H; subst. specialize (IH H3).
  unfold inbox in *. cbn [map filter fst]. destruct (d =? c)%nat eqn:E.
  - apply Nat.eqb_eq in E. subst. cbn [map snd]. rewrite IH.
    destruct (in_dec Nat.eq_dec c cs); [contradiction|]. destruct (in_dec Nat.eq_dec c (c :: cs)) as [|n']; [reflexivity|].
    destruct n'; left; reflexivity.
  - apply Nat.eqb_neq in E. rewrite IH.
    destruct (in_dec Nat.eq_dec c cs) as [i0|n0], (in_dec Nat.eq_dec c (d :: cs)) as [i|n]; try reflexivity.
    + destruct n; right; assumption.
    + destruct i; [congruence|contradiction].
Qed.

Definition nop_ok (o : nop) : Prop :=
  match o with
  | NRecv m fail => frame_ok m = true /\ is_hello m = false /\ forall c, fail c = None
  | _ => True
  end.

Lemma members_step (k : nat) l c d :
  In (k, c) (filter (fun x => negb (snd x =? d)%nat) l) <-> In (k, c) l /\ c <> d.
Proof.
  rewrite filter_In. cbn. split; intros [H E]; (split; [exact H|]).
  - intros ->. rewrite Nat.eqb_refl in E. discriminate.
  - apply negb_true_iff, Nat.eqb_neq. exact E.
Qed.

Lemma monitors_run order os c : (forall l, Permutation (order l) l) -> Forall nop_ok os ->
  forall s k joined, n_cur s = Some k -> NoDup (n_members s) -> (joined = true <-> In (k, c) (n_members s)) ->
  exists s', nrun order s os = (s', Ok tt) /\
    inbox (n_out s') c = inbox (n_out s) c ++ seen_by c joined os /\
    n_got s' = n_got s ++ received os.
Proof.
  intros Hord. induction os as [|o os IH]; intros Hok s k joined Hc Hn Hj.
  - exists s. cbn. rewrite !app_nil_r. auto.
  - inversion Hok as [|? ? Ho Hos]; subst. destruct o as [m fail|d|d]; cbn [nrun nstep].
    + destruct Ho as (Hf & Hh & Hs). destruct (parent_recv_plain order fail s m Hs Hf Hh) as (c1 & fs & ->).
      destruct (IH Hos (mkParent (n_jackin s) (n_monitor s) c1 fs (n_cur s) (n_next s) (n_members s)
         (n_out s ++ map (fun c => (c, m)) (order (monitors s))) (n_got s ++ [m])) k joined Hc Hn Hj)
        as (s' & Hr & Hi & Hg).
      exists s'. split; [exact Hr|]. cbn [n_out n_got] in Hi, Hg. split.
      * rewrite Hi, inbox_app, <- app_assoc. f_equal. cbn [seen_by]. rewrite Hh. f_equal.
        assert (Hm : monitors s = map snd (filter (fun x => (fst x =? k)%nat) (n_members s)))
          by (unfold monitors; rewrite Hc; reflexivity).
        assert (Hnd : NoDup (order (monitors s))).
        { eapply Permutation_NoDup; [apply Permutation_sym, Hord|]. rewrite Hm. apply nodup_filter_map. exact Hn. }
        rewrite inbox_copies by exact Hnd.
        assert (Hin : In c (order (monitors s)) <-> joined = true).
        { rewrite Hj. rewrite <- filter_in_iff, <- Hm. split; intros H; (eapply Permutation_in; [|exact H]);
            [|apply Permutation_sym]; apply Hord. }
        destruct (in_dec Nat.eq_dec c (order (monitors s))) as [i|n], joined; try reflexivity; exfalso.
        -- apply Hin in i. discriminate.
        -- apply n, Hin. reflexivity.
      * rewrite Hg, <- app_assoc. reflexivity.
    + rewrite Hc. cbn [seen_by received flat_map Datatypes.app].
      destruct (existsb (fun x => (fst x =? k)%nat && (snd x =? d)%nat) (n_members s)) eqn:E.
      * apply (IH Hos s k (if (d =? c)%nat then true else joined) Hc Hn).
        destruct (d =? c)%nat eqn:E2; [|exact Hj]. apply Nat.eqb_eq in E2. subst d. split; [|reflexivity]. intros _.
        apply existsb_exists in E. destruct E as ([k' c'] & Hin & E). cbn in E. apply andb_true_iff in E.
        destruct E as [E1 E2]. apply Nat.eqb_eq in E1, E2. subst. exact Hin.
      * assert (Hnin : ~ In (k, d) (n_members s)).
        { intros Hin. assert (E' : existsb (fun x => (fst x =? k)%nat && (snd x =? d)%nat) (n_members s) = true).
          { apply existsb_exists. exists (k, d). cbn. rewrite !Nat.eqb_refl. auto. }
          congruence. }
        rewrite <- Hc. apply (IH Hos (mkParent (n_jackin s) (n_monitor s) (n_ctl s) (n_fs s) (n_cur s) (n_next s)
                  (n_members s ++ [(k, d)]) (n_out s) (n_got s)) k (if (d =? c)%nat then true else joined) Hc).
        -- cbn [n_members]. apply (Permutation_NoDup (l := (k, d) :: n_members s)); [apply Permutation_cons_append|].
           constructor; assumption.
        -- cbn [n_members]. rewrite in_app_iff. destruct (d =? c)%nat eqn:E2.
           ++ apply Nat.eqb_eq in E2. subst. split; [|reflexivity]. intros _. right. left. reflexivity.
           ++ apply Nat.eqb_neq in E2. rewrite Hj. split; [auto|]. intros [H|[H|[]]]; [exact H|congruence].
    + cbn [seen_by received flat_map Datatypes.app].
      apply (IH Hos (mkParent (n_jackin s) (n_monitor s) (n_ctl s) (n_fs s) (n_cur s) (n_next s)
         (filter (fun x => negb (snd x =? d)%nat) (n_members s)) (n_out s) (n_got s)) k
         (if (d =? c)%nat then false else joined) Hc).
      * cbn [n_members]. apply NoDup_filter. exact Hn.
      * cbn [n_members]. rewrite members_step. destruct (d =? c)%nat eqn:E2.
        -- apply Nat.eqb_eq in E2. subst. split; [discriminate|]. intros [_ H]. congruence.
        -- apply Nat.eqb_neq in E2. rewrite Hj. split; [intros H; split; auto|intros [H _]; exact H].
Qed.

Theorem monitors_see order jackin hi fail os c : (forall l, Permutation (order l) l) ->
  (8 <= length hi)%nat -> is_hello hi = true -> Forall nop_ok os ->
  exists s, nrun order (parent_new jackin true) (NRecv hi fail :: os) = (s, Ok tt) /\
    inbox (n_out s) c = seen_by c false os /\ n_got s = hi :: received os.
Proof.
  intros Hord Hl Hh Hok. cbn [nrun nstep].
  assert (H1 : exists s1, parent_recv order fail (parent_new jackin true) hi = (s1, Ok tt) /\
     n_cur s1 = Some 0%nat /\ n_members s1 = [] /\ n_out s1 = [] /\ n_got s1 = [hi]).
  { unfold parent_recv. assert (F : frame_ok hi = true).
    { unfold frame_ok, is_hello in *. apply Z.eqb_eq in Hh. rewrite Hh. cbn [Z.eqb negb orb]. rewrite andb_true_r. lia. }
    cbn [parent_new n_ctl].
    assert (Hc : ctl_recv k_new hi = (k_new, Ok tt)).
    { rewrite features by exact Hl. unfold is_hello in Hh. apply Z.eqb_eq in Hh. rewrite Hh. reflexivity. }
    rewrite Hc. pose proof (parse_header_spec hi Hl) as Hp. destruct hi as [|b hi]; [cbn in Hl; lia|].
    rewrite Hp. cbn [h_type]. unfold is_hello in Hh. rewrite Hh.
    destruct jackin; eexists; (split; [cbn; reflexivity|]); repeat split. }
  destruct H1 as (s1 & -> & Hc & Hm & Ho & Hg).
  destruct (monitors_run order os c Hord Hok s1 0%nat false Hc) as (s' & Hr & Hi & Hg').
  - rewrite Hm. constructor.
  - rewrite Hm. split; [discriminate|intros []].
  - exists s'. split; [exact Hr|]. rewrite Hi, Hg', Ho, Hg. split; reflexivity.
Qed.

(** One failing monitor. *)
Theorem monitor_failure order fail s m c cs e :
  frame_ok m = true -> is_hello m = false -> order (monitors s) = c :: cs -> fail c = Some e ->
  let '(s', r) := parent_recv order fail s m in
  r = Err e /\ n_out s' = n_out s /\ n_got s' = n_got s.
Proof.
  intros Hok Hh Hm Hf. destruct (frame_recv (n_ctl s) m Hok) as (c1 & Hc & _).
  assert (Hl : (8 <= length m)%nat) by (unfold frame_ok in Hok; lia).
  pose proof (parse_header_spec m Hl) as Hp. unfold parent_recv. rewrite Hc.
  destruct m as [|b m]; [cbn in Hl; lia|]. rewrite Hp. cbn [h_type]. unfold is_hello in Hh. rewrite Hh.
  set (s2 := if byte_at (b :: m) 1 =? 6 then rename_helpers (with_ctl s c1) else with_ctl s c1).
  assert (E : exists fs, s2 = with_fs (with_ctl s c1) fs).
  { unfold s2. destruct (byte_at (b :: m) 1 =? 6); [|eexists; destruct s; reflexivity].
    unfold rename_helpers. destruct s as [[] [] ? ? ? ? ? ? ?]; cbn; eexists; reflexivity. }
  destruct E as (fs & E). rewrite E.
  assert (Em : monitors (with_fs (with_ctl s c1) fs) = monitors s) by reflexivity.
  rewrite Em, Hm. cbn [to_monitors]. rewrite Hf. repeat split.
Qed.

(** *** Jack-in *)

Lemma tag_one h m : tag_new h [m] = [to_item h m].
Proof. reflexivity. Qed.

(** What a send writes. *)
Lemma send_shape s h m bxid :
  exists new, k_wire (fst (locked_send s h m bxid None None)) = k_wire s ++ new /\
    k_version (fst (locked_send s h m bxid None None)) = k_version s /\
    k_dead (fst (locked_send s h m bxid None None)) = k_dead s /\
    ((new = [] /\ ((length m < 8)%nat \/ separator (k_version s) bxid = None)) \/ new = [m] \/
     exists b, new = [b; m] /\ separator (k_version s) bxid = Some b).
Proof.
  rewrite locked_send_spec. unfold do_send. destruct (length m <? 8)%nat eqn:El.
  { exists []. rewrite app_nil_r. repeat split; auto. left. split; [reflexivity|]. left. lia. }
  destruct (barrier_request m); [exists [m]; cbn; auto 10|].
  destruct (last_of (k_seq s)) as [[cb|x cb]|].
  - destruct (same (owner (k_dead s) cb) h); [exists [m]; cbn; auto 10|].
    destruct (separator (k_version s) bxid) as [b|] eqn:E.
    + exists [b; m]. cbn. rewrite <- app_assoc. repeat split; auto. right. right. eauto.
    + exists []. rewrite app_nil_r. auto 10.
  - exists [m]; cbn; auto 10.
  - destruct h; exists [m]; cbn; auto 10.
Qed.

Lemma skipn_app_exact {A} (a b : list A) : skipn (length a) (a ++ b) = b.
Proof. rewrite skipn_app, skipn_all2, Nat.sub_diag by lia. reflexivity. Qed.

Lemma wired_app a b f : wired (a ++ b) f = wired a f ++ wired b f.
Proof. apply flat_map_app. Qed.

Lemma wired_item h m f : wired [to_item h m] f = match h with Some g => if (g =? f)%nat then [m] else [] | None => [] end.
Proof. unfold to_item. destruct (barrier_request m), h as [g|]; cbn; try reflexivity; destruct (g =? f)%nat; reflexivity. Qed.

Lemma wired_tag h new m b f :
  new = [m] \/ new = [b; m] ->
  wired (tag_new h new) f = match h with Some g => if (g =? f)%nat then [m] else [] | None => [] end.
Proof.
  intros [->| ->]; cbn [tag_new]; [apply wired_item|].
  change (to_item None b :: [to_item h m]) with ([to_item None b] ++ [to_item h m]).
  rewrite wired_app, !wired_item. reflexivity.
Qed.

Lemma wired_other h new f : (forall g, h = Some g -> g <> f) -> wired (tag_new h new) f = [].
Proof.
  intros Hh. induction new as [|m new IH]; [reflexivity|]. cbn [tag_new]. destruct new as [|m' new].
  - rewrite wired_item. destruct h as [g|]; [|reflexivity]. specialize (Hh g eq_refl).
    apply Nat.eqb_neq in Hh. rewrite Hh. reflexivity.
  - change (to_item None m :: tag_new h (m' :: new)) with ([to_item None m] ++ tag_new h (m' :: new)).
    rewrite wired_app, wired_item, IH. reflexivity.
Qed.

Definition forwarded (m : bytes) : bool := negb (byte_at m 1 =? 0) && negb (byte_at m 1 =? 2).

(** What jackin_handle does to the parent. *)
Lemma jackin_cases v c cb m bxid : (8 <= length m)%nat ->
  (byte_at m 1 = 2 /\ exists r, jackin_handle v c cb m bxid None None = inr r) \/
  (byte_at m 1 = 0 /\ jackin_handle v c cb m bxid None None = inl (c, Ok tt)) \/
  (forwarded m = true /\ jackin_handle v c cb m bxid None None = inl (locked_send c cb m bxid None None)).
Proof.
  intros Hl. pose proof (parse_header_spec m Hl) as Hp. unfold jackin_handle, forwarded.
  destruct m as [|b m]; [cbn in Hl; lia|]. rewrite Hp. cbn [h_type].
  destruct (byte_at (b :: m) 1 =? 2) eqn:E2; [left; split; [lia|eauto]|].
  destruct (byte_at (b :: m) 1 =? 0) eqn:E0; cbn [negb]; [right; left; split; [lia|reflexivity]|].
  right. right. split; reflexivity.
Qed.

Lemma sys_sent_same s h : sys_sent s h (y_ctl s) = s.
Proof. unfold sys_sent. rewrite skipn_all. cbn [tag_new]. rewrite app_nil_r. destruct s; reflexivity. Qed.

(** A step of the whole is some steps of the parent and the switch. *)
Lemma jackin_inl v c cb m bxid c' r : jackin_handle v c cb m bxid None None = inl (c', r) ->
  c' = c \/ c' = fst (locked_send c cb m bxid None None).
Proof.
  unfold jackin_handle. destruct m as [|b m]; [intros H; inversion H; auto|].
  destruct (parse_ofp_header (b :: m)) as [h|e]; [|intros H; inversion H; auto].
  destruct (h_type h =? 2); [discriminate|]. destruct (negb (h_type h =? 0)); intros H; injection H as H; [|auto].
  right. rewrite H. reflexivity.
Qed.

Lemma jstep_srun clients a s o s' : jstep clients a s o = Some s' ->
  exists os, srun a (j_sys s) os = Some (j_sys s').
Proof.
  intros H. destruct o as [f m bxid|o|fail]; cbn [jstep] in H.
  - destruct (clients f) eqn:Hcl; [|discriminate].
    destruct (existsb (Nat.eqb f) (k_dead (y_ctl (j_sys s)))) eqn:Hd; [discriminate|]. cbn [andb negb] in H.
    destruct (jackin_handle (k_version (y_ctl (j_sys s))) (y_ctl (j_sys s)) (Some f) m bxid None None) as [[c' r]|[r|e]] eqn:E;
      inversion H; subst; clear H; cbn [j_sys]; [|exists []; reflexivity|exists []; reflexivity].
    destruct (jackin_inl _ _ _ _ _ _ _ E) as [-> | ->].
    + rewrite sys_sent_same. exists []. reflexivity.
    + exists [YSend (Some f) m bxid]. cbn [srun sstep]. rewrite Hd. reflexivity.
  - destruct (match o with YDeliver => true | YSend (Some f) _ _ => clients f | _ => false end); [discriminate|].
    destruct (sstep a (j_sys s) o) as [y|] eqn:E; inversion H; subst. exists [o]. cbn [srun]. rewrite E. reflexivity.
  - destruct (j_end s); [discriminate|]. destruct (y_fifo (j_sys s)) as [|f fs] eqn:Ef; [discriminate|].
    destruct (sstep a (j_sys s) YDeliver) as [y|] eqn:E; [|discriminate]. exists [YDeliver]. cbn [srun]. rewrite E.
    destruct (snd (cstep a (y_ctl (j_sys s)) (CRecv (frame_bytes f)))) as [r0|[g| | | | |]|];
      try (inversion H; subst; reflexivity).
    destruct (clients g); [|inversion H; subst; reflexivity].
    destruct (weak_callback g (frame_bytes f) fail) as [w [r|e]]; inversion H; subst; reflexivity.
Qed.

Lemma srun_app a os1 : forall os2 s s1 s2, srun a s os1 = Some s1 -> srun a s1 os2 = Some s2 -> srun a s (os1 ++ os2) = Some s2.
Proof.
  induction os1 as [|o os1 IH]; intros os2 s s1 s2 H1 H2; cbn in *; [inversion H1; subst; exact H2|].
  destruct (sstep a s o); [eapply IH; eauto|discriminate].
Qed.

Lemma jrun_srun clients a os : forall s s', jrun clients a s os = Some s' ->
  exists os', srun a (j_sys s) os' = Some (j_sys s').
Proof.
  induction os as [|o os IH]; intros s s' H; cbn in H; [inversion H; subst; exists []; reflexivity|].
  destruct (jstep clients a s o) as [s1|] eqn:E; [|discriminate].
  destruct (jstep_srun _ _ _ _ _ E) as (os1 & H1). destruct (IH _ _ H) as (os2 & H2).
  exists (os1 ++ os2). eapply srun_app; eauto.
Qed.

(** The log of the parent and what was sent back. *)
Definition back_ok (clients : nat -> bool) (ended : bool) (e : frame * outcome) (b : frame * list (nat * bytes)) : Prop :=
  fst b = fst e /\
  match snd e with
  | ToCallback g =>
      if clients g then snd b = [(g, frame_bytes (fst e))] \/ (snd b = [] /\ ended = true) else snd b = []
  | _ => snd b = []
  end.

Definition ended (s : jsys) : bool := match j_end s with Some _ => true | None => false end.

Lemma back_ok_ended clients e b x : back_ok clients false e b -> back_ok clients x e b.
Proof.
  intros [H1 H2]. split; [exact H1|]. destruct (snd e); auto. destruct (clients f); auto.
  destruct H2 as [H2|[_ H2]]; [auto|discriminate].
Qed.

Lemma sstep_log a s o s' : sstep a s o = Some s' -> o <> YDeliver -> y_log s' = y_log s.
Proof.
  intros H Hn. destruct o; cbn [sstep] in H; try congruence.
  - destruct (match h with Some f => _ | None => _ end); inversion H; reflexivity.
  - destruct (nth_error (y_wire s) i) as [[]|]; try discriminate.
    destruct (_ && _ && _ && _); inversion H; reflexivity.
  - destruct (nth_error (bars (y_wire s)) (y_ans s)) as [[]|]; try discriminate.
    destruct (answers_barrier r m); inversion H; reflexivity.
  - destruct (_ && _); inversion H; reflexivity.
  - inversion H; reflexivity.
  - inversion H; reflexivity.
Qed.

Lemma back_step clients a s o s' :
  Forall2 (back_ok clients (ended s)) (y_log (j_sys s)) (j_back s) ->
  jstep clients a s o = Some s' ->
  Forall2 (back_ok clients (ended s')) (y_log (j_sys s')) (j_back s').
Proof.
  intros Hi H. destruct o as [f m bxid|o|fail]; cbn [jstep] in H.
  - destruct (clients f && negb (existsb (Nat.eqb f) (k_dead (y_ctl (j_sys s))))); [|discriminate].
    destruct (jackin_handle _ _ _ _ _ _ _) as [[c' r]|[r|e]]; inversion H; subst; exact Hi.
  - destruct o as [h m b|i r|r|r| |f|v]; try discriminate;
      match goal with H : context[sstep a (j_sys s) ?o] |- _ =>
        assert (Hn : o <> YDeliver) by discriminate;
        destruct (sstep a (j_sys s) o) as [y|] eqn:E; [apply sstep_log in E; [|exact Hn]|]
      end;
      repeat match type of H with context[match ?x with _ => _ end] => destruct x end;
      try discriminate; inversion H; subst; cbn [j_sys j_back ended j_end]; rewrite E; exact Hi.
  - destruct (j_end s) eqn:Ee; [discriminate|]. destruct (y_fifo (j_sys s)) as [|f fs] eqn:Ef; [discriminate|].
    assert (Hs : ended s = false) by (unfold ended; rewrite Ee; reflexivity). rewrite Hs in Hi.
    cbn [sstep] in H. rewrite Ef in H. destruct (cstep a (y_ctl (j_sys s)) (CRecv (frame_bytes f))) as [c r0].
    cbn [snd] in H. destruct r0 as [r0|out|]; [discriminate| |discriminate].
    assert (Hx : forall y, Forall2 (back_ok clients y) (y_log (j_sys s)) (j_back s)).
    { intros y. clear - Hi. induction Hi; constructor; [apply back_ok_ended; assumption|assumption]. }
    assert (Hg : forall w (e : option exn), back_ok clients (match e with Some _ => true | None => false end) (f, out) (f, w) ->
      Forall2 (back_ok clients (match e with Some _ => true | None => false end)) (y_log (j_sys s) ++ [(f, out)]) (j_back s ++ [(f, w)])).
    { intros w e Hw. apply Forall2_app; [apply Hx|]. constructor; [exact Hw|constructor]. }
    destruct out as [g| | | |w0|e0];
      try (inversion H; subst; apply (Hg [] None); split; reflexivity).
    destruct (clients g) eqn:Hcl.
    + unfold weak_callback in H. destruct fail as [e|]; inversion H; subst.
      * apply (Hg [] (Some e)). split; [reflexivity|]. cbn. rewrite Hcl. auto.
      * apply (Hg [(g, frame_bytes f)] None). split; [reflexivity|]. cbn. rewrite Hcl. auto.
    + inversion H; subst. apply (Hg [] None). split; [reflexivity|]. cbn. rewrite Hcl. reflexivity.
Qed.

Lemma back_run clients a os : forall s s',
  Forall2 (back_ok clients (ended s)) (y_log (j_sys s)) (j_back s) ->
  jrun clients a s os = Some s' ->
  Forall2 (back_ok clients (ended s')) (y_log (j_sys s')) (j_back s').
Proof.
  induction os as [|o os IH]; intros s s' Hi H; cbn in H; [inversion H; subst; exact Hi|].
  destruct (jstep clients a s o) as [s1|] eqn:E; [|discriminate]. eapply IH; [eapply back_step; eauto|exact H].
Qed.

Lemma Forall2_in_r {A B} (R : A -> B -> Prop) la lb b : Forall2 R la lb -> In b lb -> exists a, In a la /\ R a b.
Proof.
  intros H. induction H as [|x y la lb Hr H IH]; intros Hin; [destruct Hin|].
  destruct Hin as [->|Hin]; [exists x; split; [left; reflexivity|exact Hr]|].
  destruct (IH Hin) as (z & Hz & Hrz). exists z. split; [right; exact Hz|exact Hrz].
Qed.

Lemma back_fst clients x la lb : Forall2 (back_ok clients x) la lb -> map fst lb = map fst la.
Proof. intros H. induction H as [|e b la lb [H1 _] H IH]; [reflexivity|]. cbn. rewrite H1, IH. reflexivity. Qed.

(** Everything the parent received, in order, once. *)
Theorem back_all clients a os s : jrun clients a j_new os = Some s ->
  map fst (j_back s) ++ y_fifo (j_sys s) = y_emit (j_sys s).
Proof.
  intros H. assert (Hb := back_run clients a os j_new s ltac:(constructor) H).
  destruct (jrun_srun _ _ _ _ _ H) as (os' & H'). cbn [j_new j_sys] in H'.
  rewrite (back_fst _ _ _ _ Hb). apply (routed a os' _ H').
Qed.

Theorem back_reply clients a os s i r w cb m :
  jrun clients a j_new os = Some s -> In (FReply i r, w) (j_back s) ->
  nth_error (y_wire (j_sys s)) i = Some (WReq (Some cb) m) ->
  if clients cb then w = [(cb, r)] \/ (w = [] /\ (In cb (k_dead (y_ctl (j_sys s))) \/ ended s = true)) else w = [].
Proof.
  intros H Hin Hn. assert (Hb := back_run clients a os j_new s ltac:(constructor) H).
  destruct (Forall2_in_r _ _ _ _ Hb Hin) as ([f out] & Hl & Hf & Hw). cbn [fst snd] in *. subst f.
  destruct (jrun_srun _ _ _ _ _ H) as (os' & H'). cbn [j_new j_sys] in H'. destruct (routed a os' _ H') as [Hr _].
  pose proof (proj1 (Forall_forall _ _) Hr _ Hl) as (cb' & m' & Hn' & Hc). rewrite Hn in Hn'. inversion Hn'; subst.
  cbn [frame_bytes] in Hw.
  destruct Hc as [->|[-> Hd]].
  - destruct (clients cb); [|exact Hw]. destruct Hw as [Hw|[Hw1 Hw2]]; auto.
  - destruct (clients cb); auto.
Qed.

Theorem back_barrier clients a os s n r w cb m :
  jrun clients a j_new os = Some s -> In (FBar n r, w) (j_back s) ->
  nth_error (bars (y_wire (j_sys s))) n = Some (WBar cb m) ->
  match cb with
  | Some f => if clients f then w = [(f, r)] \/ (w = [] /\ (In f (k_dead (y_ctl (j_sys s))) \/ ended s = true)) else w = []
  | None => w = []
  end.
Proof.
  intros H Hin Hn. assert (Hb := back_run clients a os j_new s ltac:(constructor) H).
  destruct (Forall2_in_r _ _ _ _ Hb Hin) as ([f out] & Hl & Hf & Hw). cbn [fst snd] in *. subst f.
  destruct (jrun_srun _ _ _ _ _ H) as (os' & H'). cbn [j_new j_sys] in H'. destruct (routed a os' _ H') as [Hr _].
  pose proof (proj1 (Forall_forall _ _) Hr _ Hl) as (cb' & m' & Hn' & Hc). rewrite Hn in Hn'. inversion Hn'; subst.
  cbn [frame_bytes] in Hw. destruct cb' as [f|].
  - destruct Hc as [->|[-> Hd]].
    + destruct (clients f); [|exact Hw]. destruct Hw as [Hw|[Hw1 Hw2]]; auto.
    + destruct (clients f); auto.
  - subst out. exact Hw.
Qed.

(** *** Forwarding *)

Definition ver_ok (s : jsys) : Prop := exists v, k_version (y_ctl (j_sys s)) = Some v /\ 0 <= v < 256.

Definition fwd_inv (f : nat) (s : jsys) : Prop :=
  ver_ok s /\ wired (y_wire (j_sys s)) f = filter forwarded (inbox (j_in s) f).

Lemma sep_some v bxid : 0 <= v < 256 -> 0 <= bxid < 2 ^ 32 -> separator (Some v) bxid <> None.
Proof.
  intros Hv Hx. unfold separator. change (2 ^ 32) with 4294967296 in Hx.
  assert (E : ((0 <=? v) && (v <? 256) && (0 <=? bxid) && (bxid <? 4294967296)) = true) by lia.
  rewrite E. discriminate.
Qed.

Lemma cstep_version a c m : k_version (fst (cstep a c (CRecv m))) = k_version c.
Proof.
  cbn [cstep]. pose proof (ctl_recv_seq c m) as (_ & _ & Hv & _). destruct (ctl_recv c m) as [c1 [u|e]]; [|exact Hv].
  cbn [fst] in Hv. assert (Hw : k_version (fst (intercept a c1 m)) = k_version c1).
  { unfold intercept. destruct (parse_ofp_header m); [|reflexivity].
    destruct (a && _); [reflexivity|]. destruct (k_seq c1) as [|e q] eqn:Eq; [reflexivity|].
    destruct (is_barrier_rep a0).
    - destruct (walk (k_dead c1) (h_xid a0) false (e :: q)) as [[q'|] r]; reflexivity.
    - destruct e as [cb|x cb]; [|reflexivity]. destruct (live (k_dead c1) cb); reflexivity. }
  destruct (intercept a c1 m) as [c2 r]. cbn [fst] in *. congruence.
Qed.

Lemma fwd_step clients a f s o s' : clients f = true -> fwd_inv f s -> jop_ok o ->
  jstep clients a s o = Some s' -> fwd_inv f s'.
Proof.
  intros Hf [(v & Hv & Hr) Hi] Hok H. destruct o as [g m bxid|o|fail]; cbn [jstep] in H.
  - destruct (clients g && negb (existsb (Nat.eqb g) (k_dead (y_ctl (j_sys s))))); [|discriminate].
    destruct Hok as [Hl Hx].
    assert (Hin : filter forwarded (inbox (j_in s ++ [(g, m)]) f) =
      filter forwarded (inbox (j_in s) f) ++ (if (g =? f)%nat && forwarded m then [m] else [])).
    { rewrite inbox_app, filter_app. f_equal. unfold inbox. cbn [filter fst]. destruct (g =? f)%nat; [|reflexivity].
      cbn. destruct (forwarded m); reflexivity. }
    destruct (jackin_cases (k_version (y_ctl (j_sys s))) (y_ctl (j_sys s)) (Some g) m bxid Hl)
      as [[E2 (r & E)]|[[E0 E]|[Ef E]]]; rewrite E in H.
    + assert (Hfw : forwarded m = false) by (unfold forwarded; rewrite E2; reflexivity).
      rewrite Hfw, andb_false_r, app_nil_r in Hin.
      destruct r as [r|e]; inversion H; subst; (split; [exists v; auto|]); cbn [j_sys j_in]; rewrite Hin; exact Hi.
    + assert (Hfw : forwarded m = false) by (unfold forwarded; rewrite E0; reflexivity).
      rewrite Hfw, andb_false_r, app_nil_r in Hin. inversion H; subst. cbn [j_sys j_in]. rewrite sys_sent_same.
      split; [exists v; auto|]. cbn [j_sys j_in]. rewrite Hin. exact Hi.
    + destruct (locked_send (y_ctl (j_sys s)) (Some g) m bxid None None) as [c' r] eqn:Es.
      destruct (send_shape (y_ctl (j_sys s)) (Some g) m bxid) as (new & Hw & Hv' & Hd & Hn). rewrite Es in *.
      cbn [fst] in *. inversion H; subst. split.
      { exists v. cbn [j_sys sys_sent y_ctl]. rewrite Hv'. auto. }
      cbn [j_sys j_in sys_sent y_wire]. rewrite wired_app, Hi, Hin, Hw, skipn_app_exact. f_equal. rewrite Ef, andb_true_r.
      destruct Hn as [[_ [Hn|Hn]]|Hn].
      * lia.
      * rewrite Hv in Hn. exfalso. eapply sep_some; eauto.
      * rewrite (wired_tag (Some g) new m (match new with [b; _] => b | _ => [] end) f); [reflexivity|].
        destruct Hn as [->|(b & -> & _)]; auto.
  - destruct (match o with YDeliver => true | YSend (Some f) _ _ => clients f | _ => false end) eqn:Ho; [discriminate|].
    destruct (sstep a (j_sys s) o) as [y|] eqn:E; inversion H; subst; clear H.
    assert (Hg : (exists v', k_version (y_ctl y) = Some v' /\ 0 <= v' < 256) /\
                 wired (y_wire y) f = wired (y_wire (j_sys s)) f).
    { destruct o as [h m b|i r|r|r| |d|v']; cbn [sstep] in E.
      - match type of E with (if ?x then _ else _) = _ => destruct x; [discriminate|] end.
        destruct (send_shape (y_ctl (j_sys s)) h m b) as (new & Hw & Hv' & Hd & Hn).
        cbv zeta in E; match type of E with Some ?x = _ => assert (Ey : y = x) by congruence end. rewrite Ey. clear E Ey.
        cbn [y_ctl y_wire]. rewrite Hv'. split; [exists v; auto|].
        rewrite wired_app, wired_other, app_nil_r; [reflexivity|].
        intros g ->. intros ->. congruence.
      - destruct (nth_error (y_wire (j_sys s)) i) as [[]|]; try discriminate.
        destruct (_ && _ && _ && _); inversion E; subst; split; [exists v; auto|reflexivity].
      - destruct (nth_error (bars (y_wire (j_sys s))) (y_ans (j_sys s))) as [[]|]; try discriminate.
        destruct (answers_barrier r m); inversion E; subst; split; [exists v; auto|reflexivity].
      - destruct (_ && _); inversion E; subst; split; [exists v; auto|reflexivity].
      - discriminate.
      - inversion E; subst; split; [exists v; auto|reflexivity].
      - inversion E; subst; split; [exists v'; cbn; auto|reflexivity]. }
    destruct Hg as [Hg1 Hg2]. split; [exact Hg1|]. cbn [j_sys j_in]. rewrite Hg2. exact Hi.
  - destruct (j_end s); [discriminate|]. destruct (y_fifo (j_sys s)) as [|fr fs] eqn:Ef; [discriminate|].
    cbn [sstep] in H. rewrite Ef in H. pose proof (cstep_version a (y_ctl (j_sys s)) (frame_bytes fr)) as Hcv.
    destruct (cstep a (y_ctl (j_sys s)) (CRecv (frame_bytes fr))) as [c r0].
    cbn [snd fst] in *. destruct r0 as [r0|out|]; [discriminate| |discriminate].
    assert (Hg : forall w e, fwd_inv f (mkJ (mkSys c (y_wire (j_sys s)) (y_ans (j_sys s)) fs (y_log (j_sys s) ++ [(fr, out)])
        (y_emit (j_sys s))) (j_in s) (j_echo s) w e)).
    { intros w e. split; [|exact Hi]. exists v. cbn. rewrite Hcv. auto. }
    destruct out as [g| | | |w0|e0]; try (inversion H; subst; apply Hg).
    destruct (clients g); [|inversion H; subst; apply Hg].
    destruct (weak_callback g (frame_bytes fr) fail) as [w [r|e]]; inversion H; subst; apply Hg.
Qed.

Theorem forwarded_once clients a f v os s : clients f = true -> 0 <= v < 256 -> Forall jop_ok os ->
  jrun clients a j_new (JSys (YVersion v) :: os) = Some s ->
  wired (y_wire (j_sys s)) f = filter forwarded (inbox (j_in s) f).
Proof.
  intros Hf Hv Hok H. cbn [jrun jstep sstep] in H.
  match type of H with jrun _ _ ?s0 _ = _ => assert (Hi : fwd_inv f s0) end.
  { split; [exists v; cbn; auto|reflexivity]. }
  match type of H with jrun _ _ ?s0 _ = _ => generalize dependent s0 end.
  clear Hv. revert s. induction Hok as [|o os Ho Hok IH]; intros s s0 H Hi; cbn [jrun] in H.
  - inversion H; subst. apply Hi.
  - destruct (jstep clients a s0 o) as [s1|] eqn:E; [|discriminate]. eapply IH; [exact H|].
    eapply fwd_step; eauto.
Qed.

(** What the clients sent is what the history says. *)
Lemma in_is clients a os : forall s s', jrun clients a s os = Some s' ->
  j_in s' = j_in s ++ flat_map (fun o => match o with JClient f m _ => [(f, m)] | _ => [] end) os.
Proof.
  induction os as [|o os IH]; intros s s' H; cbn [jrun] in H; [inversion H; cbn; rewrite app_nil_r; reflexivity|].
  destruct (jstep clients a s o) as [s1|] eqn:E; [|discriminate]. rewrite (IH _ _ H). clear IH H. cbn [flat_map].
  rewrite app_assoc. f_equal. destruct o as [f m bxid|o|fail]; cbn [jstep] in E.
  - destruct (clients f && negb (existsb (Nat.eqb f) (k_dead (y_ctl (j_sys s))))); [|discriminate].
    destruct (jackin_handle _ _ _ _ _ _ _) as [[c' r]|[r|e]]; inversion E; reflexivity.
  - rewrite app_nil_r. destruct (match o with YDeliver => true | YSend (Some f) _ _ => clients f | _ => false end); [discriminate|].
    destruct (sstep a (j_sys s) o); inversion E; reflexivity.
  - rewrite app_nil_r. destruct (j_end s); [discriminate|]. destruct (y_fifo (j_sys s)); [discriminate|].
    destruct (sstep a (j_sys s) YDeliver); [|discriminate].
    destruct (snd _) as [|[]|]; try (inversion E; reflexivity). destruct (clients f0); [|inversion E; reflexivity].
    destruct (weak_callback _ _ _) as [? [|]]; inversion E; reflexivity.
Qed.
