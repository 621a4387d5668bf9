(** Proofs about StreamServer. *)

From Verif Require Import Py M_Channel M_Server.
Local Open Scope nat_scope.

Lemma upd_nth l i c j : i < length l ->
  nth_error (upd l i c) j = if j =? i then Some c else nth_error l j.
Proof.
  unfold upd. revert i j. induction l as [|x l IH]; intros [|i] [|j] Hi; cbn in *; try lia; try reflexivity.
  apply IH. lia.
Qed.

Lemma upd_length l i c : i < length l -> length (upd l i c) = length l.
Proof. intros H. unfold upd. rewrite app_length, firstn_length. cbn [length]. rewrite skipn_length. lia. Qed.

Lemma nth_lt {A} (l : list A) i c : nth_error l i = Some c -> i < length l.
Proof. intros H. apply nth_error_Some. congruence. Qed.

(** *** Shape of a step, as seen from the connections *)

Lemma vstep_cases s e s' : vstep s e = Some s' ->
  (* the list of connections: unchanged, one more, or one changed *)
  (v_conns s' = v_conns s) \/
  (v_conns s' = v_conns s ++ [mkConn NNew [] false 0] /\ v_run s = RAccept /\ v_run s' = RStart) \/
  (exists i c c', nth_error (v_conns s) i = Some c /\ v_conns s' = upd (v_conns s) i c').
Proof.
  destruct e as [|a hl|i r h|i| | |]; cbn [vstep]; intros H.
  - unfold v_start in H. destruct (v_run s); inversion H; auto.
  - unfold v_run_step in H. destruct (v_run s) eqn:R; try discriminate.
    + destruct (v_accepting s); inversion H; auto.
    + destruct a; inversion H; subst; cbn; auto.
    + destruct hl; inversion H; auto.
    + destruct (nth_error (v_conns s) (length (v_conns s) - 1)) as [c|] eqn:E; [|discriminate].
      inversion H; subst; cbn. right; right. do 3 eexists. split; [exact E|reflexivity].
  - destruct (nth_error (v_conns s) i) as [c|] eqn:E; [|discriminate].
    destruct (conn_step (v_accepting s) c r h) as [c'|] eqn:C; [|discriminate]. inversion H; subst; cbn.
    right; right. do 3 eexists. split; [exact E|reflexivity].
  - destruct (nth_error (v_conns s) i) as [c|] eqn:E; [|discriminate]. inversion H; subst; cbn.
    right; right. do 3 eexists. split; [exact E|reflexivity].
  - inversion H; auto.
  - destruct (v_stop s); inversion H; auto.
  - destruct (v_stop s) as [[|i l]|]; try discriminate.
    destruct (nth_error (v_conns s) i) as [c|] eqn:E; [|discriminate]. inversion H; subst; cbn.
    right; right. do 3 eexists. split; [exact E|reflexivity].
Qed.

(** Stopped for good: the flag is down and start() was called before. *)
Definition down (s : server) : Prop := v_accepting s = false /\ v_run s <> RIdle.

Lemma down_step s e s' : down s -> vstep s e = Some s' -> down s'.
Proof.
  intros [Ha Hr] H. destruct e as [|a hl|i r h|i| | |]; cbn [vstep] in H.
  - unfold v_start in H. destruct (v_run s); congruence.
  - unfold v_run_step in H. destruct (v_run s) eqn:R; try discriminate.
    + rewrite Ha in H. inversion H; subst; split; cbn; [auto|discriminate].
    + destruct a; inversion H; subst; (split; cbn; [auto|discriminate]).
    + destruct hl; inversion H; subst; (split; cbn; [auto|discriminate]).
    + destruct (nth_error (v_conns s) _); inversion H; subst; (split; cbn; [auto|discriminate]).
  - destruct (nth_error (v_conns s) i) as [c|]; [|discriminate].
    destruct (conn_step (v_accepting s) c r h); inversion H; subst; split; auto.
  - destruct (nth_error (v_conns s) i) as [c|]; inversion H; subst; split; auto.
  - inversion H; subst; split; auto.
  - destruct (v_stop s); inversion H; subst; split; auto.
  - destruct (v_stop s) as [[|i l]|]; try discriminate.
    destruct (nth_error (v_conns s) i) as [c|]; inversion H; subst; split; auto.
Qed.

(** *** No new connections *)

Definition pending (r : rpc) : nat := match r with RAccept => 1 | _ => 0 end.

Lemma down_conns_step s e s' : down s -> vstep s e = Some s' ->
  length (v_conns s') + pending (v_run s') <= length (v_conns s) + pending (v_run s).
Proof.
  intros Hd H. pose proof Hd as [Ha Hr].
  destruct e as [|a hl|i r h|i| | |]; cbn [vstep] in H.
  - unfold v_start in H. destruct (v_run s); congruence.
  - unfold v_run_step in H. destruct (v_run s) eqn:R; try discriminate.
    + rewrite Ha in H. inversion H; subst; cbn; lia.
    + destruct a; inversion H; subst; cbn; rewrite ?app_length; cbn; lia.
    + destruct hl; inversion H; subst; cbn; lia.
    + destruct (nth_error (v_conns s) _) eqn:E; inversion H; subst; cbn. apply nth_lt in E. rewrite upd_length by lia. lia.
  - destruct (nth_error (v_conns s) i) as [c|] eqn:E; [|discriminate]. apply nth_lt in E.
    destruct (conn_step (v_accepting s) c r h); inversion H; subst; cbn. rewrite upd_length by lia. lia.
  - destruct (nth_error (v_conns s) i) as [c|] eqn:E; inversion H; subst; cbn. apply nth_lt in E. rewrite upd_length by lia. lia.
  - inversion H; subst; cbn; lia.
  - destruct (v_stop s); inversion H; subst; cbn; lia.
  - destruct (v_stop s) as [[|i l]|]; try discriminate.
    destruct (nth_error (v_conns s) i) as [c|] eqn:E; inversion H; subst; cbn. apply nth_lt in E. rewrite upd_length by lia. lia.
Qed.

Theorem down_conns es : forall s s', down s -> vsteps s es = Some s' ->
  length (v_conns s') <= length (v_conns s) + pending (v_run s).
Proof.
  induction es as [|e es IH]; intros s s' Hd H; cbn [vsteps] in H; [injection H as <-; lia|].
  destruct (vstep s e) as [s1|] eqn:E; [|discriminate].
  pose proof (down_conns_step _ _ _ Hd E). pose proof (IH s1 s' (down_step _ _ _ Hd E) H). lia.
Qed.

(** *** No new reads *)

Definition reads (s : server) (i : nat) : nat :=
  match nth_error (v_conns s) i with Some c => n_reads c | None => 0 end.

Lemma conn_step_reads c r h c' : conn_step false c r h = Some c' -> n_reads c' = n_reads c /\ (n_phase c' = NBlocked -> False).
Proof.
  unfold conn_step. intros H. destruct (n_phase c); try discriminate.
  - inversion H; subst; cbn; split; [auto|discriminate].
  - destruct (whole (n_buf c)); [destruct (want (n_buf c) =? 0)|rewrite orb_true_r in H];
      inversion H; subst; cbn; split; auto; discriminate.
  - destruct (default_wrapper r) as [[[|x d]|]|]; inversion H; subst; cbn; split; auto; discriminate.
  - destruct h as [u|[]]; inversion H; subst; cbn; split; auto; discriminate.
  - inversion H; subst; cbn; split; [auto|discriminate].
  - inversion H; subst; cbn; split; [auto|discriminate].
Qed.

Definition is_step (i : nat) (e : vev) : bool := match e with VConn j _ _ => j =? i | _ => false end.

(** What a step does to connection [i]. *)
Lemma conn_at s e s' i : vstep s e = Some s' ->
  (exists r h c c', e = VConn i r h /\ nth_error (v_conns s) i = Some c /\
     nth_error (v_conns s') i = Some c' /\ conn_step (v_accepting s) c r h = Some c') \/
  (is_step i e = false /\
   match nth_error (v_conns s) i with
   | None => nth_error (v_conns s') i = None \/ nth_error (v_conns s') i = Some (mkConn NNew [] false 0)
   | Some c => nth_error (v_conns s') i = Some c \/ nth_error (v_conns s') i = Some (close_conn c) \/
          (v_run s = RSpawn /\ i = length (v_conns s) - 1 /\
           nth_error (v_conns s') i = Some (mkConn NRun (n_buf c) (n_closed c) (n_reads c)))
   end).
Proof.
  assert (Hsame : forall l, match nth_error l i with
      | None => nth_error l i = None \/ nth_error l i = Some (mkConn NNew [] false 0)
      | Some c => nth_error l i = Some c \/ nth_error l i = Some (close_conn c) \/
          (v_run s = RSpawn /\ i = length (v_conns s) - 1 /\
           nth_error l i = Some (mkConn NRun (n_buf c) (n_closed c) (n_reads c))) end).
  { intros l. destruct (nth_error l i); auto. }
  intros H. destruct e as [|a hl|k r h|k| | |]; cbn [vstep] in H.
  3: { destruct (nth_error (v_conns s) k) as [c|] eqn:E; [|discriminate].
    destruct (conn_step (v_accepting s) c r h) as [c'|] eqn:C; [|discriminate]. inversion H; subst; cbn [v_conns is_step].
    destruct (Nat.eqb_spec k i) as [->|Hn].
    - left. exists r, h, c, c'. rewrite upd_nth by (eapply nth_lt; exact E). rewrite Nat.eqb_refl. auto.
    - right. split; [reflexivity|]. rewrite upd_nth by (eapply nth_lt; exact E).
      destruct (Nat.eqb_spec i k); [congruence|]. apply Hsame. }
  all: right; split; [reflexivity|].
  - unfold v_start in H. destruct (v_run s); inversion H; subst; cbn [v_conns]; apply Hsame.
  - unfold v_run_step in H. destruct (v_run s) eqn:R; try discriminate.
    + destruct (v_accepting s); inversion H; subst; cbn [v_conns]; apply Hsame.
    + destruct a; inversion H; subst; cbn [v_conns]; try apply Hsame.
      destruct (Nat.lt_ge_cases i (length (v_conns s))) as [Hl|Hl].
      * rewrite nth_error_app1 by lia. apply Hsame.
      * rewrite nth_error_app2 by lia.
        replace (nth_error (v_conns s) i) with (@None conn) by (symmetry; apply nth_error_None; lia).
        destruct (i - length (v_conns s)) as [|j]; cbn; [auto|]. destruct j; auto.
    + destruct hl; inversion H; subst; cbn [v_conns]; apply Hsame.
    + destruct (nth_error (v_conns s) (length (v_conns s) - 1)) as [c|] eqn:E; [|discriminate]. inversion H; subst; cbn [v_conns].
      rewrite upd_nth by (eapply nth_lt; exact E). destruct (Nat.eqb_spec i (length (v_conns s) - 1)) as [->|Hn]; [|apply Hsame].
      rewrite E. auto 6.
  - destruct (nth_error (v_conns s) k) as [c|] eqn:E; [|discriminate]. inversion H; subst; cbn [v_conns].
    rewrite upd_nth by (eapply nth_lt; exact E). destruct (Nat.eqb_spec i k) as [->|Hn]; [|apply Hsame].
    rewrite E. auto.
  - inversion H; subst; cbn [v_conns]; apply Hsame.
  - destruct (v_stop s); inversion H; subst; cbn [v_conns]; apply Hsame.
  - destruct (v_stop s) as [[|k l]|]; try discriminate.
    destruct (nth_error (v_conns s) k) as [c|] eqn:E; [|discriminate]. inversion H; subst; cbn [v_conns].
    rewrite upd_nth by (eapply nth_lt; exact E). destruct (Nat.eqb_spec i k) as [->|Hn]; [|apply Hsame].
    rewrite E. auto.
Qed.

Theorem down_reads es : forall s s' i, down s -> vsteps s es = Some s' -> reads s' i = reads s i.
Proof.
  induction es as [|e es IH]; intros s s' i Hd H; cbn [vsteps] in H; [injection H as <-; reflexivity|].
  destruct (vstep s e) as [s1|] eqn:E; [|discriminate].
  rewrite (IH s1 s' i (down_step _ _ _ Hd E) H). pose proof (conn_at _ _ _ i E) as C. unfold reads.
  destruct Hd as [Ha _]. destruct C as [(r & h & c & c' & -> & E0 & E1 & C)|[_ C]].
  - rewrite E0, E1. rewrite Ha in C. apply conn_step_reads in C. apply C.
  - destruct (nth_error (v_conns s) i) as [c|].
    + destruct C as [->|[->|(_ & _ & ->)]]; reflexivity.
    + destruct C as [->| ->]; reflexivity.
Qed.

(** *** Every loop ends *)

Definition weight (p : nphase) : nat :=
  match p with
  | NNew => 6 | NRun => 5 | NHandle => 4 | NTop => 3 | NBlocked => 3 | NEnded => 2 | NClosed => 1
  | NGone | NFailed _ => 0
  end.

Definition mu (s : server) (i : nat) : nat :=
  match nth_error (v_conns s) i with Some c => weight (n_phase c) + 2 * length (n_buf c) | None => 6 end.

Definition blocked (s : server) (i : nat) : Prop := exists c, nth_error (v_conns s) i = Some c /\ n_phase c = NBlocked.

Lemma conn_step_mu c r h c' : conn_step false c r h = Some c' -> n_phase c <> NBlocked ->
  weight (n_phase c') + 2 * length (n_buf c') < weight (n_phase c) + 2 * length (n_buf c).
Proof.
  unfold conn_step. intros H Hb. destruct (n_phase c); try discriminate; try congruence.
  - inversion H; subst; cbn; lia.
  - destruct (whole (n_buf c)) eqn:W; [destruct (want (n_buf c) =? 0) eqn:Z|rewrite orb_true_r in H];
      inversion H; subst; cbn [n_phase n_buf weight]; try lia.
    unfold whole in W. apply andb_true_iff in W. destruct W as [_ W]. apply Nat.leb_le in W. apply Nat.eqb_neq in Z.
    rewrite skipn_length. lia.
  - destruct h as [u|[]]; inversion H; subst; cbn [n_phase n_buf weight]; lia.
  - inversion H; subst; cbn; lia.
  - inversion H; subst; cbn; lia.
Qed.

(** Only a connection that is still [NNew] gets spawned. *)
Definition spawn_inv (s : server) : Prop :=
  (v_run s = RStart \/ v_run s = RSpawn -> exists c, nth_error (v_conns s) (length (v_conns s) - 1) = Some c /\ n_phase c = NNew).

Lemma spawn_inv_step s e s' : spawn_inv s -> vstep s e = Some s' -> spawn_inv s'.
Proof.
  intros Hi H.
  assert (Hupd : forall i c c' cs ru, nth_error (v_conns s) i = Some c -> (n_phase c = NNew -> n_phase c' = NNew) ->
     v_conns s' = upd (v_conns s) i c' -> ru = v_run s -> v_run s' = ru -> cs = v_conns s -> spawn_inv s').
  { intros i c c' cs ru E Hp Hc -> Hr _ Hx. rewrite Hr in Hx. destruct (Hi Hx) as (c0 & E0 & P0).
    rewrite Hc, upd_length by (eapply nth_lt; exact E). rewrite upd_nth by (eapply nth_lt; exact E).
    destruct (Nat.eqb_spec (length (v_conns s) - 1) i) as [<-|Hn]; [|eauto].
    rewrite E in E0. injection E0 as ->. exists c'. auto. }
  destruct e as [|a hl|i r h|i| | |]; cbn [vstep] in H.
  - unfold v_start in H. destruct (v_run s); inversion H; subst. intros [Hx|Hx]; discriminate.
  - unfold v_run_step in H. destruct (v_run s) eqn:R; try discriminate.
    + destruct (v_accepting s); inversion H; subst; intros [Hx|Hx]; discriminate.
    + destruct a; inversion H; subst; try (intros [Hx|Hx]; discriminate). intros _. cbn.
      rewrite app_length. cbn. replace (length (v_conns s) + 1 - 1) with (length (v_conns s)) by lia.
      rewrite nth_error_app2, Nat.sub_diag by lia. cbn. eauto.
    + destruct hl; inversion H; subst; [|intros [Hx|Hx]; discriminate]. intros _. cbn. apply Hi. auto.
    + destruct (nth_error (v_conns s) _); inversion H; subst; intros [Hx|Hx]; discriminate.
  - destruct (nth_error (v_conns s) i) as [c|] eqn:E; [|discriminate].
    destruct (conn_step (v_accepting s) c r h) as [c'|] eqn:C; [|discriminate].
    eapply (Hupd i c c' _ _ E); [|inversion H; reflexivity|reflexivity|inversion H; reflexivity|reflexivity].
    intros Hp. unfold conn_step in C. rewrite Hp in C. discriminate.
  - destruct (nth_error (v_conns s) i) as [c|] eqn:E; [|discriminate].
    eapply (Hupd i c (close_conn c) _ _ E); [auto|inversion H; reflexivity|reflexivity|inversion H; reflexivity|reflexivity].
  - inversion H; subst. exact Hi.
  - destruct (v_stop s); inversion H; subst. exact Hi.
  - destruct (v_stop s) as [[|i l]|]; try discriminate.
    destruct (nth_error (v_conns s) i) as [c|] eqn:E; [|discriminate].
    eapply (Hupd i c (close_conn c) _ _ E); [auto|inversion H; reflexivity|reflexivity|inversion H; reflexivity|reflexivity].
Qed.

Lemma spawn_inv_steps es : forall s s', spawn_inv s -> vsteps s es = Some s' -> spawn_inv s'.
Proof.
  induction es as [|e es IH]; intros s s' Hi H; cbn [vsteps] in H; [injection H as <-; auto|].
  destruct (vstep s e) as [s1|] eqn:E; [|discriminate]. eapply IH; [|exact H]. eapply spawn_inv_step; eauto.
Qed.

Lemma spawn_inv_new : spawn_inv server_new.
Proof. intros [H|H]; discriminate. Qed.

Theorem down_ends es : forall s s' i, spawn_inv s -> down s -> ~ blocked s i -> vsteps s es = Some s' ->
  length (filter (is_step i) es) + mu s' i <= mu s i.
Proof.
  induction es as [|e es IH]; intros s s' i Hsp Hd Hb H; cbn [vsteps] in H; [injection H as <-; cbn; lia|].
  destruct (vstep s e) as [s1|] eqn:E; [|discriminate].
  pose proof (conn_at _ _ _ i E) as C. pose proof (down_step _ _ _ Hd E) as Hd1.
  pose proof (spawn_inv_step _ _ _ Hsp E) as Hsp1. destruct Hd as [Ha _].
  assert (Hmain : ~ blocked s1 i /\ (if is_step i e then 1 else 0) + mu s1 i <= mu s i).
  { unfold blocked, mu. unfold blocked in Hb.
    destruct C as [(r & h & c & c' & -> & E0 & E1 & C)|[-> C]].
    - rewrite E0, E1. rewrite Ha in C. cbn [is_step]. rewrite Nat.eqb_refl.
      assert (Hc : n_phase c <> NBlocked) by (intros Hx; apply Hb; eauto).
      pose proof (conn_step_mu _ _ _ _ C Hc). apply conn_step_reads in C. destruct C as [_ C].
      split; [intros (c0 & Hc0 & Hp); injection Hc0 as <-; auto|lia].
    - destruct (nth_error (v_conns s) i) as [c|] eqn:E0.
      + assert (Hc : n_phase c <> NBlocked) by (intros Hx; apply Hb; eauto).
        destruct C as [->|[->|(Hr & Hi & ->)]].
        * split; [intros (c0 & Hc0 & Hp); injection Hc0 as <-; auto|lia].
        * split; [intros (c0 & Hc0 & Hp); injection Hc0 as <-; auto|cbn; lia].
        * split; [intros (c0 & Hc0 & Hp); injection Hc0 as <-; discriminate|].
          destruct (Hsp (or_intror Hr)) as (c0 & E2 & P0). rewrite <- Hi, E0 in E2. injection E2 as <-.
          rewrite P0. cbn. lia.
      + destruct C as [->| ->]; (split; [intros (c0 & Hc0 & Hp)|cbn; lia]); [discriminate|].
        injection Hc0 as <-. discriminate. }
  destruct Hmain as [Hb1 Hm]. pose proof (IH s1 s' i Hsp1 Hd1 Hb1 H). cbn [filter].
  destruct (is_step i e); cbn [length]; lia.
Qed.

(** *** What is registered *)

Definition active (p : nphase) : bool :=
  match p with NTop | NBlocked | NHandle | NEnded | NClosed | NFailed _ => true | _ => false end.

Definition reg_inv (s : server) : Prop :=
  (forall i, In i (v_channels s) <-> exists c, nth_error (v_conns s) i = Some c /\ active (n_phase c) = true) /\
  (forall i c, nth_error (v_conns s) i = Some c -> n_phase c = NClosed \/ n_phase c = NGone -> n_closed c = true).

Lemma conn_step_closed acc0 c r h c' : conn_step acc0 c r h = Some c' ->
  (n_phase c = NClosed \/ n_phase c = NGone -> n_closed c = true) ->
  (n_phase c' = NClosed \/ n_phase c' = NGone -> n_closed c' = true).
Proof.
  unfold conn_step. intros H Hc Hx. destruct (n_phase c) eqn:P; try discriminate.
  - inversion H; subst; cbn in *. destruct Hx; discriminate.
  - destruct (whole (n_buf c)); [destruct (want (n_buf c) =? 0)|destruct (n_closed c || negb acc0)];
      inversion H; subst; cbn in *; destruct Hx; discriminate.
  - destruct (default_wrapper r) as [[[|x d]|]|]; inversion H; subst; cbn in *; destruct Hx; discriminate.
  - destruct h as [u|[]]; inversion H; subst; cbn in *; destruct Hx; discriminate.
  - inversion H; subst; reflexivity.
  - inversion H; subst; cbn in *. auto.
Qed.

Lemma conn_step_active acc0 c r h c' : conn_step acc0 c r h = Some c' ->
  active (n_phase c') = match n_phase c with NRun => true | NClosed => false | p => active p end.
Proof.
  unfold conn_step. intros H. destruct (n_phase c) eqn:P; try discriminate.
  - inversion H; subst; reflexivity.
  - destruct (whole (n_buf c)); [destruct (want (n_buf c) =? 0)|destruct (n_closed c || negb acc0)];
      inversion H; subst; reflexivity.
  - destruct (default_wrapper r) as [[[|x d]|]|]; inversion H; subst; reflexivity.
  - destruct h as [u|[]]; inversion H; subst; reflexivity.
  - inversion H; subst; reflexivity.
  - inversion H; subst; reflexivity.
Qed.

Lemma channels_step s e s' : vstep s e = Some s' ->
  v_channels s' = match e with
    | VConn i _ _ => match nth_error (v_conns s) i with
       | Some c => match n_phase c with NRun => i :: v_channels s
                   | NClosed => filter (fun j => negb (j =? i)) (v_channels s) | _ => v_channels s end
       | None => v_channels s end
    | _ => v_channels s end.
Proof.
  destruct e as [|a hl|i r h|i| | |]; cbn [vstep]; intros H.
  - unfold v_start in H. destruct (v_run s); inversion H; reflexivity.
  - unfold v_run_step in H. destruct (v_run s); try discriminate.
    + destruct (v_accepting s); inversion H; reflexivity.
    + destruct a; inversion H; reflexivity.
    + destruct hl; inversion H; reflexivity.
    + destruct (nth_error (v_conns s) _); inversion H; reflexivity.
  - destruct (nth_error (v_conns s) i) as [c|]; [|discriminate].
    destruct (conn_step (v_accepting s) c r h); [|discriminate]. inversion H; reflexivity.
  - destruct (nth_error (v_conns s) i); inversion H; reflexivity.
  - inversion H; reflexivity.
  - destruct (v_stop s); inversion H; reflexivity.
  - destruct (v_stop s) as [[|i l]|]; try discriminate. destruct (nth_error (v_conns s) i); inversion H; reflexivity.
Qed.

Lemma reg_inv_step s e s' : spawn_inv s -> reg_inv s -> vstep s e = Some s' -> reg_inv s'.
Proof.
  intros Hsp [Hr Hc] E. pose proof (channels_step _ _ _ E) as Hch. split.
  - intros i. pose proof (conn_at _ _ _ i E) as C.
    destruct C as [(r & h & c & c' & -> & E0 & E1 & C)|[Hno C]].
    + rewrite E0 in Hch. rewrite Hch, E1. pose proof (conn_step_active _ _ _ _ _ C) as Ha.
      specialize (Hr i). rewrite E0 in Hr.
      assert (Hex : (exists c0, Some c' = Some c0 /\ active (n_phase c0) = true) <-> active (n_phase c') = true).
      { split; [intros (c0 & Hx & Hy); injection Hx as <-; exact Hy|eauto]. }
      assert (Hex0 : (exists c0, Some c = Some c0 /\ active (n_phase c0) = true) <-> active (n_phase c) = true).
      { split; [intros (c0 & Hx & Hy); injection Hx as <-; exact Hy|eauto]. }
      rewrite Hex. rewrite Hex0 in Hr. rewrite Ha.
      destruct (n_phase c) eqn:P; try exact Hr.
      * split; [reflexivity|]. left. reflexivity.
      * split; [|discriminate]. intros Hin. apply filter_In in Hin. rewrite Nat.eqb_refl in Hin. destruct Hin; discriminate.
    + assert (Hin : In i (v_channels s') <-> In i (v_channels s)).
      { rewrite Hch. destruct e; try tauto. cbn [is_step] in Hno. apply Nat.eqb_neq in Hno.
        destruct (nth_error (v_conns s) i0) as [c|]; [|tauto]. destruct (n_phase c); try tauto.
        - cbn. split; [intros [Hx|Hx]; [congruence|auto]|auto].
        - rewrite filter_In. split; [tauto|]. intros Hx. split; [exact Hx|].
          destruct (Nat.eqb_spec i i0); [congruence|reflexivity]. }
      rewrite Hin, Hr. destruct (nth_error (v_conns s) i) as [c|] eqn:E0.
      * destruct C as [->|[->|(Hrun & Hi & ->)]].
        -- tauto.
        -- split; intros (c0 & Hx & Hy); injection Hx as <-; eexists; (split; [reflexivity|exact Hy]).
        -- destruct (Hsp (or_intror Hrun)) as (c0 & E2 & P0). rewrite <- Hi, E0 in E2. injection E2 as <-.
           split; intros (c1 & Hx & Hy); injection Hx as <-; [rewrite P0 in Hy|]; discriminate.
      * destruct C as [->| ->].
        -- tauto.
        -- split; intros (c0 & Hx & Hy); [discriminate|injection Hx as <-; discriminate].
  - intros i c1 E1. pose proof (conn_at _ _ _ i E) as C.
    destruct C as [(r & h & c & c' & -> & E0 & E2 & C)|[Hno C]].
    + rewrite E2 in E1. injection E1 as <-. eapply conn_step_closed; [exact C|]. apply Hc with i. exact E0.
    + destruct (nth_error (v_conns s) i) as [c|] eqn:E0.
      * destruct C as [C|[C|(Hrun & Hi & C)]]; rewrite C in E1; injection E1 as <-.
        -- apply Hc with i. exact E0.
        -- reflexivity.
        -- intros [Hx|Hx]; discriminate.
      * destruct C as [C|C]; rewrite C in E1; [discriminate|]. injection E1 as <-. intros [Hx|Hx]; discriminate.
Qed.

Lemma reg_inv_steps es : forall s s', spawn_inv s -> reg_inv s -> vsteps s es = Some s' -> reg_inv s'.
Proof.
  induction es as [|e es IH]; intros s s' Hsp Hi H; cbn [vsteps] in H; [injection H as <-; auto|].
  destruct (vstep s e) as [s1|] eqn:E; [|discriminate].
  eapply IH; [eapply spawn_inv_step; eauto|eapply reg_inv_step; eauto|exact H].
Qed.

Lemma reg_inv_new : reg_inv server_new.
Proof.
  split; cbn.
  - intros i. split; [intros []|]. intros (c & H & _). destruct i; discriminate.
  - intros i c H. destruct i; discriminate.
Qed.

Theorem reachable_reg es s : vsteps server_new es = Some s -> reg_inv s.
Proof. apply reg_inv_steps; [apply spawn_inv_new|apply reg_inv_new]. Qed.

Theorem gone_closed es s i c : vsteps server_new es = Some s ->
  nth_error (v_conns s) i = Some c -> n_phase c = NGone -> n_closed c = true /\ ~ In i (v_channels s).
Proof.
  intros H E P. destruct (reachable_reg es s H) as [Hr Hc]. split; [eapply Hc; eauto|].
  rewrite Hr. intros (c0 & E0 & A0). rewrite E in E0. injection E0 as <-. rewrite P in A0. discriminate.
Qed.

Theorem all_gone es s : vsteps server_new es = Some s ->
  Forall (fun c => n_phase c = NGone) (v_conns s) ->
  v_channels s = [] /\ Forall (fun c => n_closed c = true) (v_conns s).
Proof.
  intros H Hg. rewrite Forall_forall in Hg. destruct (reachable_reg es s H) as [Hr Hc]. split.
  - destruct (v_channels s) as [|i l] eqn:E; [reflexivity|]. exfalso.
    assert (Hi : In i (i :: l)) by (left; reflexivity). apply Hr in Hi. destruct Hi as (c & E0 & A0).
    rewrite (Hg c) in A0 by (eapply nth_error_In; exact E0). discriminate.
  - apply Forall_forall. intros c Hin. apply In_nth_error in Hin. destruct Hin as [i E]. eapply Hc; [exact E|].
    right. apply Hg. eapply nth_error_In; exact E.
Qed.

(** A connection that is neither over nor failed can always go on once the
    server is down, so that with [down_ends] its thread comes to an end. *)
Theorem down_progress s i c : nth_error (v_conns s) i = Some c ->
  match n_phase c with NNew | NGone | NFailed _ => False | _ => True end ->
  forall r h, exists s', vstep s (VConn i r h) = Some s'.
Proof.
  intros E Hp r h. cbn [vstep]. rewrite E. unfold conn_step.
  destruct (n_phase c); try contradiction; cbv zeta.
  - eauto.
  - destruct (whole (n_buf c)); [destruct (want (n_buf c) =? 0)|destruct (n_closed c || negb (v_accepting s))]; eauto.
  - destruct (default_wrapper r) as [[[|x d]|]|]; eauto.
  - destruct h as [u|[]]; eauto.
  - eauto.
  - eauto.
Qed.

(** A failed connection stays registered for ever. *)
Definition failed_at (s : server) (i : nat) : Prop :=
  exists c e, nth_error (v_conns s) i = Some c /\ n_phase c = NFailed e.

Lemma failed_step s e s' i : spawn_inv s -> failed_at s i -> vstep s e = Some s' -> failed_at s' i.
Proof.
  intros Hsp (c & x & E0 & P) E. pose proof (conn_at _ _ _ i E) as C.
  destruct C as [(r & h & c1 & c' & -> & E1 & E2 & C)|[Hno C]].
  - rewrite E0 in E1. injection E1 as <-. unfold conn_step in C. rewrite P in C. discriminate.
  - rewrite E0 in C. destruct C as [C|[C|(Hrun & Hi & C)]].
    + exists c, x. auto.
    + exists (close_conn c), x. auto.
    + destruct (Hsp (or_intror Hrun)) as (c0 & E2 & P0). rewrite <- Hi, E0 in E2. injection E2 as <-. congruence.
Qed.

Theorem failed_forever es0 s i : vsteps server_new es0 = Some s -> failed_at s i ->
  forall es s', vsteps s es = Some s' -> In i (v_channels s').
Proof.
  intros H0 Hf es s' H.
  assert (Hr : reg_inv s'). { eapply reg_inv_steps; [| |exact H]; [eapply spawn_inv_steps; [apply spawn_inv_new|exact H0]|apply (reachable_reg _ _ H0)]. }
  apply Hr. assert (Hf' : failed_at s' i).
  { assert (Hsp : spawn_inv s) by (eapply spawn_inv_steps; [apply spawn_inv_new|exact H0]). clear -Hf Hsp H.
    revert s Hf Hsp H. induction es as [|e es IH]; intros s Hf Hsp H; cbn [vsteps] in H; [injection H as <-; auto|].
    destruct (vstep s e) as [s1|] eqn:E; [|discriminate].
    apply (IH s1); [eapply failed_step; eauto|eapply spawn_inv_step; eauto|exact H]. }
  destruct Hf' as (c & x & E & P). exists c. rewrite P. auto.
Qed.

(** *** The accepting thread *)

Lemma run_end_step s e s' x : v_run s = REnd x -> vstep s e = Some s' ->
  v_run s' = REnd x /\ length (v_conns s') = length (v_conns s).
Proof.
  intros R H. destruct e as [|a hl|i r h|i| | |]; cbn [vstep] in H.
  - unfold v_start in H. rewrite R in H. discriminate.
  - unfold v_run_step in H. rewrite R in H. discriminate.
  - destruct (nth_error (v_conns s) i) as [c|] eqn:E; [|discriminate]. apply nth_lt in E.
    destruct (conn_step (v_accepting s) c r h); inversion H; subst; cbn. rewrite upd_length by lia. auto.
  - destruct (nth_error (v_conns s) i) as [c|] eqn:E; inversion H; subst; cbn. apply nth_lt in E. rewrite upd_length by lia. auto.
  - inversion H; subst; auto.
  - destruct (v_stop s); inversion H; subst; auto.
  - destruct (v_stop s) as [[|i l]|]; try discriminate.
    destruct (nth_error (v_conns s) i) as [c|] eqn:E; inversion H; subst; cbn. apply nth_lt in E. rewrite upd_length by lia. auto.
Qed.

Theorem run_end_forever es : forall s s' x, v_run s = REnd x -> vsteps s es = Some s' ->
  length (v_conns s') = length (v_conns s).
Proof.
  induction es as [|e es IH]; intros s s' x R H; cbn [vsteps] in H; [injection H as <-; auto|].
  destruct (vstep s e) as [s1|] eqn:E; [|discriminate]. destruct (run_end_step _ _ _ _ R E) as [R1 L1].
  rewrite (IH s1 s' x R1 H). exact L1.
Qed.

(** As long as accept() and HELLO do not fail and nobody stops the server, the
    accepting thread goes on. *)
Definition benign (e : vev) : Prop :=
  match e with
  | VRun (AErr _) _ => False
  | VRun _ (Err _) => False
  | VStopFlag => False
  | _ => True
  end.

Theorem keeps_accepting es : Forall benign es -> forall s s', vsteps s es = Some s' ->
  (v_run s = RIdle \/ (v_accepting s = true /\ forall x, v_run s <> REnd x)) ->
  (v_run s' = RIdle \/ (v_accepting s' = true /\ forall x, v_run s' <> REnd x)).
Proof.
  induction 1 as [|e es Hb _ IH]; intros s s' H Hi; cbn [vsteps] in H; [injection H as <-; auto|].
  destruct (vstep s e) as [s1|] eqn:E; [|discriminate]. apply (IH s1 s' H). clear IH H.
  destruct e as [|a hl|i r h|i| | |]; cbn [vstep] in E; cbn in Hb; try contradiction.
  - unfold v_start in E. destruct (v_run s); inversion E; subst. right. split; [reflexivity|discriminate].
  - unfold v_run_step in E. destruct (v_run s) eqn:R; try discriminate;
      (destruct Hi as [Hi|[Ha Hi]]; [discriminate|]).
    + rewrite Ha in E. inversion E; subst. right. cbn. split; [auto|discriminate].
    + destruct a; try contradiction; inversion E; subst; right; (split; [exact Ha|discriminate]).
    + destruct hl; [|destruct a; contradiction]. inversion E; subst. right. split; [exact Ha|discriminate].
    + destruct (nth_error (v_conns s) _); inversion E; subst. right. split; [exact Ha|discriminate].
  - destruct (nth_error (v_conns s) i) as [c|]; [|discriminate].
    destruct (conn_step (v_accepting s) c r h); inversion E; subst; exact Hi.
  - destruct (nth_error (v_conns s) i); inversion E; subst; exact Hi.
  - destruct (v_stop s); inversion E; subst; exact Hi.
  - destruct (v_stop s) as [[|i l]|]; try discriminate. destruct (nth_error (v_conns s) i); inversion E; subst; exact Hi.
Qed.
