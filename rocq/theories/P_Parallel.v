(** Proofs about ParallelChannel. *)

From Verif Require Import Py Struct M_Channel M_Hello M_Loop M_Parallel S_Framing P_Channel P_Hello P_Loop.
From Coq Require Import Permutation.
Local Open Scope Z_scope.

Section Parallel.
  Context (accept : versions) (order : list Z -> list Z) (xid rate : Z) (hd : handler).
  Notation qrun := (qrun accept order xid rate hd).
  Notation qstep := (qstep accept order xid rate hd).
  Notation of_recv := (of_recv accept order xid).

  Lemma of_recv_closed v v' r : of_recv v = (v', r) ->
    closed (s_chan v) = true -> closed (s_chan v') = true.
  Proof.
    unfold M_Loop.of_recv. destruct (recv (s_chan v)) as [c r0] eqn:R. intros H Hc.
    destruct (recv_closed _ _ _ Hc R) as (_ & _ & C & _).
    destruct r0; [destruct (negotiate accept order xid (a_och (s_app v)) b) as [o [m'|e]]| |];
      inversion H; subst; exact C.
  Qed.

  Lemma of_recv_opens v v' r : of_recv v = (v', r) -> ~ In EClose (envs (s_chan v)) ->
    closed (s_chan v) = false -> closed (s_chan v') = false /\ ~ In EClose (envs (s_chan v')).
  Proof.
    intros H Hn Hc. assert (Hr : forall c r0, recv (s_chan v) = (c, r0) -> closed c = false /\ ~ In EClose (envs c)).
    { intros c r0 R. pose proof R as R0. apply recv_conserve in R0. destruct R0 as (u & E & _).
      split; [|intros Hi; apply Hn; rewrite E; apply in_or_app; auto].
      assert (Hf : forall need es b n k c' o, ~ In EClose es -> fill need b false es n k = (c', o) ->
                   closed c' = false /\ (forall x, In x (envs c') -> In x es)).
      { intros need es. induction es as [|e es IH]; intros b n k c' o Hni F; cbn [fill] in F;
          (destruct (need <=? length b)%nat; [inversion F; cbn; auto|]).
        - inversion F; subst; cbn; auto.
        - destruct e as [rr|]; [|exfalso; apply Hni; left; reflexivity].
          assert (Hni' : ~ In EClose es) by (intros Hx; apply Hni; right; exact Hx).
          destruct (default_wrapper rr) as [[[|x d]|]|]; try (inversion F; subst; cbn; auto; fail);
            apply (IH _ _ _ _ _ Hni') in F; destruct F as [F1 F2]; split; auto; intros y Hy; right; auto. }
      apply recv_cases in R. destruct R as [F1|(c1 & F1 & _ & [F2|(c2 & F2 & _ & ->)])]; unfold fill_chan in *.
      - rewrite Hc in F1. eapply Hf; eauto.
      - rewrite Hc in F1. apply Hf in F1; [|exact Hn]. destruct F1 as [C1 I1]. rewrite C1 in F2.
        eapply Hf; [|exact F2]. auto.
      - rewrite Hc in F1. apply Hf in F1; [|exact Hn]. destruct F1 as [C1 I1]. rewrite C1 in F2.
        cbn [closed]. eapply Hf in F2; [apply F2|auto]. }
    unfold M_Loop.of_recv in H. destruct (recv (s_chan v)) as [c r0] eqn:R. specialize (Hr c r0 eq_refl).
    destruct r0; [destruct (negotiate accept order xid (a_och (s_app v)) b) as [o [m'|e]]| |];
      inversion H; subst; exact Hr.
  Qed.

  Lemma of_recv_header v v' b m : of_recv v = (v', Got (b :: m)) -> exists h, parse_ofp_header (b :: m) = Ok h.
  Proof.
    unfold M_Loop.of_recv. destruct (recv (s_chan v)) as [c r0] eqn:R.
    destruct r0 as [b0| |]; try discriminate.
    destruct (negotiate accept order xid (a_och (s_app v)) b0) as [o [m'|e]] eqn:En; [|discriminate].
    intros H. inversion H; subst.
    pose proof (negotiate_ok_msg accept order xid (a_och (s_app v)) b0 (b :: m)) as Hm.
    rewrite En in Hm. specialize (Hm eq_refl). subst b0. cbn [negotiate] in En. unfold negotiate_msg in En.
    destruct (parse_ofp_header (b :: m)) as [h|e]; [eauto|discriminate].
  Qed.

  Lemma par_intercept_ok s m : (exists h, parse_ofp_header m = Ok h) ->
    q_srv (par_intercept rate s m) = q_srv s /\ q_end (par_intercept rate s m) = q_end s /\
    exists t, q_tasks (par_intercept rate s m) = q_tasks s ++ t /\ Forall (fun x => snd x = TWait) t /\
      (rate = 0 -> t = [(m, TWait)]).
  Proof.
    intros [h Hh]. unfold par_intercept. rewrite Hh.
    destruct (Z.eqb_spec rate 0) as [E|E]; cbn.
    - repeat split. eexists. split; [reflexivity|]. split; [repeat constructor|auto].
    - destruct (_ || _); cbn; repeat split.
      + exists []. rewrite app_nil_r. repeat split; [constructor|contradiction].
      + eexists. split; [reflexivity|]. split; [repeat constructor|contradiction].
  Qed.

  (** One turn of the loop. *)
  Lemma turn_cases s : let s' := par_turn accept order xid rate s in
    exists v r, of_recv (q_srv s) = (v, r) /\ exists t, q_tasks s' = q_tasks s ++ t /\ Forall (fun x => snd x = TWait) t /\
      (r = Got [] /\ q_end s' = Some LReturned /\ t = [] /\ q_srv s' = v
      \/ (exists m, r = Got m /\ q_end s' = q_end s /\ q_srv s' = v /\ (rate = 0 -> t = [(m, TWait)]))
      \/ r = Raised ChannelClose /\ q_end s' = Some LReturned /\ t = [] /\ q_srv s' = srv_close v
      \/ (exists e, r = Raised e /\ q_end s' = Some (LRaised e) /\ t = [] /\ q_srv s' = v)
      \/ r = Waiting /\ q_end s' = q_end s /\ t = [] /\ q_srv s' = v).
  Proof.
    cbv zeta. unfold par_turn. destruct (of_recv (q_srv s)) as [v r] eqn:R. exists v, r. split; [reflexivity|].
    destruct r as [[|b m]|e|].
    - exists []. cbn. rewrite app_nil_r. split; [reflexivity|]. split; [constructor|]. auto 6.
    - destruct (par_intercept_ok (mkPar v (q_tasks s) (q_rated s) (q_end s)) (b :: m)) as (H1 & H2 & t & H3 & H4 & H5).
      { eapply of_recv_header; exact R. }
      exists t. split; [exact H3|]. split; [exact H4|]. right; left. exists (b :: m). auto.
    - assert (H : forall e0, (e0 = ChannelClose \/ e0 <> ChannelClose)) by (intros []; auto; right; discriminate).
      destruct (H e) as [->|Hn].
      + exists []. cbn. rewrite app_nil_r. split; [reflexivity|]. split; [constructor|]. auto 8.
      + exists []. rewrite app_nil_r.
        destruct e; try congruence; cbn; (split; [reflexivity|]; split; [constructor|]; do 3 right; left; eexists; auto).
    - exists []. cbn. rewrite app_nil_r. split; [reflexivity|]. split; [constructor|]. auto 10.
  Qed.

  Lemma nth_set {A} (l : list A) i a j : (i < length l)%nat ->
    nth_error (firstn i l ++ a :: skipn (S i) l) j = if (j =? i)%nat then Some a else nth_error l j.
  Proof.
    intros Hi. destruct (Nat.eqb_spec j i) as [->|Hn].
    - rewrite nth_error_app2 by (rewrite firstn_length; lia). rewrite firstn_length.
      replace (i - Nat.min i (length l))%nat with 0%nat by lia. reflexivity.
    - destruct (Nat.lt_ge_cases j i).
      + rewrite nth_error_app1 by (rewrite firstn_length; lia).
        revert l j Hi Hn H. induction i as [|i IH]; intros [|x l] j Hi Hn H; cbn in *; try lia.
        destruct j; [reflexivity|]. cbn. apply IH; lia.
      + rewrite nth_error_app2 by (rewrite firstn_length; lia). rewrite firstn_length.
        replace (j - Nat.min i (length l))%nat with (S (j - S i)) by lia. cbn [nth_error].
        rewrite <- (firstn_skipn (S i) l) at 2. rewrite nth_error_app2; rewrite firstn_length;
          [f_equal; lia|lia].
  Qed.

  Definition failed (s : par) : Prop := exists m e, In (m, TDone (Err e)) (q_tasks s).

  Lemma qstep_closed s o s' : qstep s o = Some s' ->
    closed (s_chan (q_srv s)) = true -> closed (s_chan (q_srv s')) = true.
  Proof.
    destruct o as [r| |i]; cbn [M_Parallel.qstep]; intros H Hc.
    - inversion H; subst; exact Hc.
    - destruct (q_end s); [discriminate|]. injection H as <-.
      destruct (turn_cases s) as (v & r & R & t & _ & _ & C). apply of_recv_closed in R; [|exact Hc].
      destruct C as [(_ & _ & _ & ->)|[(m & _ & _ & -> & _)|[(_ & _ & _ & ->)|[(e & _ & _ & _ & ->)|(_ & _ & _ & ->)]]]];
        auto.
    - destruct (nth_error (q_tasks s) i) as [[m [|r]]|]; try discriminate. injection H as <-.
      unfold par_proxy. destruct (hd (s_app (q_srv s)) m) as [a [u|e]]; cbn; auto.
  Qed.

  Lemma failed_closed os : forall s s', qrun s os = Some s' ->
    (failed s -> closed (s_chan (q_srv s)) = true) -> (failed s' -> closed (s_chan (q_srv s')) = true).
  Proof.
    induction os as [|o os IH]; intros s s' H Hi; cbn [M_Parallel.qrun] in H.
    - injection H as <-. exact Hi.
    - destruct (qstep s o) as [s1|] eqn:E; [|discriminate]. apply (IH s1 s' H). clear H IH s'.
      intros (m & e & Hin). pose proof (qstep_closed s o s1 E) as Hmono.
      destruct o as [r| |i]; cbn [M_Parallel.qstep] in E.
      + injection E as <-. cbn in *. apply Hmono, Hi. exists m, e. exact Hin.
      + destruct (q_end s); [discriminate|]. injection E as <-.
        destruct (turn_cases s) as (v & r & R & t & Ht & Hw & _). rewrite Ht in Hin. apply in_app_or in Hin.
        destruct Hin as [Hin|Hin].
        * apply Hmono, Hi. exists m, e. exact Hin.
        * rewrite Forall_forall in Hw. apply Hw in Hin. discriminate.
      + destruct (nth_error (q_tasks s) i) as [[m0 [|r]]|] eqn:En; try discriminate. injection E as <-.
        unfold par_proxy in *. destruct (hd (s_app (q_srv s)) m0) as [a [u|e0]] eqn:Eh; cbn [q_tasks q_srv s_chan srv_close chan_close closed s_app] in *; auto.
        apply Hi. exists m, e.
        assert (Hl : (i < length (q_tasks s))%nat) by (apply nth_error_Some; congruence).
        apply In_nth_error in Hin. destruct Hin as [j Hj]. rewrite nth_set in Hj by exact Hl.
        destruct (j =? i)%nat; [discriminate|]. eapply nth_error_In; exact Hj.
  Qed.

  (** Why a channel is closed, and why the loop ended. *)
  Definition cause (s : par) : Prop := failed s \/ exists v, snd (of_recv v) = Raised ChannelClose.

  Lemma qrun_cause os : forall s s', qrun s os = Some s' ->
    ~ In EClose (envs (s_chan (q_srv s))) ->
    (closed (s_chan (q_srv s)) = true -> cause s) ->
    (forall e, q_end s = Some (LRaised e) -> exists v, snd (of_recv v) = Raised e) ->
    (closed (s_chan (q_srv s')) = true -> cause s') /\
    (forall e, q_end s' = Some (LRaised e) -> exists v, snd (of_recv v) = Raised e).
  Proof.
    induction os as [|o os IH]; intros s s' H Hn Hc He; cbn [M_Parallel.qrun] in H.
    - injection H as <-. auto.
    - destruct (qstep s o) as [s1|] eqn:E; [|discriminate].
      assert (H1 : ~ In EClose (envs (s_chan (q_srv s1))) /\ (closed (s_chan (q_srv s1)) = true -> cause s1) /\
        (forall e, q_end s1 = Some (LRaised e) -> exists v, snd (of_recv v) = Raised e)).
      2: { destruct H1 as (A & B & C). apply (IH s1 s' H A B C). }
      clear H IH. destruct o as [r| |i]; cbn [M_Parallel.qstep] in E.
      + injection E as <-. cbn. split; [|split; [|exact He]].
        * intros Hi. apply in_app_or in Hi. destruct Hi as [Hi|[Hi|[]]]; [auto|discriminate].
        * exact Hc.
      + destruct (q_end s) eqn:Eq; [discriminate|]. injection E as <-.
        destruct (turn_cases s) as (v & r & R & t & Ht & Hw & C).
        assert (Hfail : failed s -> failed (par_turn accept order xid rate s)).
        { intros (m & e & Hin). exists m, e. rewrite Ht. apply in_or_app. auto. }
        assert (Hv : ~ In EClose (envs (s_chan v))).
        { destruct (closed (s_chan (q_srv s))) eqn:Ec.
          - unfold M_Loop.of_recv in R. destruct (recv (s_chan (q_srv s))) as [c r0] eqn:R0.
            destruct (recv_closed _ _ _ Ec R0) as (_ & Hen & _). rewrite <- Hen in Hn.
            destruct r0; [destruct (negotiate accept order xid (a_och (s_app (q_srv s))) b) as [o0 [m'|e]]| |];
              inversion R; subst; exact Hn.
          - apply (of_recv_opens _ _ _ R Hn Ec). }
        assert (Hcl : closed (s_chan v) = true -> cause (par_turn accept order xid rate s)).
        { destruct (closed (s_chan (q_srv s))) eqn:Ec.
          - intros _. destruct (Hc eq_refl) as [Hf|Hf]; [left; auto|right; exact Hf].
          - intros Hv'. destruct (of_recv_opens _ _ _ R Hn Ec). congruence. }
        destruct C as [(_ & -> & _ & ->)|[(m & _ & -> & -> & _)|[(-> & -> & _ & ->)|[(e & -> & -> & _ & ->)|(_ & -> & _ & ->)]]]];
          (split; [exact Hv|split; [try exact Hcl|]]); try (intros e' He'; congruence).
        * intros _. right. exists (q_srv s). rewrite R. reflexivity.
        * intros e' He'. injection He' as <-. exists (q_srv s). rewrite R. reflexivity.
      + destruct (nth_error (q_tasks s) i) as [[m0 [|r]]|] eqn:En; try discriminate. injection E as <-.
        assert (Hl : (i < length (q_tasks s))%nat) by (apply nth_error_Some; congruence).
        unfold par_proxy. destruct (hd (s_app (q_srv s)) m0) as [a [u|e0]] eqn:Eh; cbn [q_tasks q_srv s_chan srv_close chan_close closed envs s_app q_end].
        * split; [exact Hn|split; [|exact He]]. intros Hx. destruct (Hc Hx) as [(m & e & Hin)|Hf]; [left|right; exact Hf].
          exists m, e. cbn [q_tasks]. apply In_nth_error in Hin. destruct Hin as [j Hj].
          apply (nth_error_In _ j). rewrite nth_set by exact Hl. destruct (Nat.eqb_spec j i); [congruence|exact Hj].
        * split; [exact Hn|split; [|exact He]]. intros _. left. exists m0, e0. cbn. apply in_or_app. right. left. reflexivity.
  Qed.

End Parallel.

(** The handler is called once for each finished call. *)
Definition done_msgs (s : par) : list bytes :=
  concat (map (fun x => match snd x with TDone _ => [fst x] | TWait => [] end) (q_tasks s)).

Lemma done_set l i m r : nth_error l i = Some (m, TWait) ->
  Permutation (concat (map (fun x : bytes * tst => match snd x with TDone _ => [fst x] | TWait => [] end)
    (firstn i l ++ (m, TDone r) :: skipn (S i) l)))
   (concat (map (fun x : bytes * tst => match snd x with TDone _ => [fst x] | TWait => [] end) l) ++ [m]).
Proof.
  revert i. induction l as [|[x t] l IH]; intros [|i] H; try discriminate.
  - cbn in H. injection H as -> ->. cbn. apply Permutation_cons_append.
  - cbn in H. cbn [firstn skipn Datatypes.app map concat]. rewrite <- app_assoc. apply Permutation_app_head. apply (IH i H).
Qed.

Lemma seen_user h a m : a_seen (fst (user_handle h a m)) = a_seen a ++ [m].
Proof. unfold user_handle. destruct (h (a_seen a) m) as [out r]. cbn. rewrite app_sends_och. reflexivity. Qed.

Section Calls.
  Context (accept : versions) (order : list Z -> list Z) (xid rate : Z)
    (h : list bytes -> bytes -> list bytes * res unit).
  Notation qrun := (qrun accept order xid rate (user_handle h)).

  Lemma of_recv_seen v : a_seen (s_app (fst (of_recv accept order xid v))) = a_seen (s_app v).
  Proof.
    unfold of_recv. destruct (recv (s_chan v)) as [c [b|e|]]; [|reflexivity..].
    destruct (negotiate accept order xid (a_och (s_app v)) b) as [o [m'|e]]; reflexivity.
  Qed.

  Theorem called_once os : forall s s', qrun s os = Some s' ->
    Permutation (a_seen (s_app (q_srv s))) (done_msgs s) ->
    Permutation (a_seen (s_app (q_srv s'))) (done_msgs s').
  Proof.
    induction os as [|o os IH]; intros s s' H Hp; cbn [M_Parallel.qrun] in H.
    - injection H as <-. exact Hp.
    - destruct (qstep accept order xid rate (user_handle h) s o) as [s1|] eqn:E; [|discriminate].
      apply (IH s1 s' H). clear H IH. destruct o as [r| |i]; cbn [qstep] in E.
      + injection E as <-. exact Hp.
      + destruct (q_end s); [discriminate|]. injection E as <-.
        destruct (turn_cases accept order xid rate s) as (v & r & R & t & Ht & Hw & C).
        assert (Hd : done_msgs (par_turn accept order xid rate s) = done_msgs s).
        { unfold done_msgs. rewrite Ht, map_app, concat_app.
          replace (concat (map _ t)) with (@nil bytes); [apply app_nil_r|].
          clear -Hw. induction Hw as [|[x y] t Hx _ IH]; [reflexivity|]. cbn in Hx. subst. cbn. exact IH. }
        rewrite Hd. pose proof (of_recv_seen (q_srv s)) as Hs. rewrite R in Hs. cbn in Hs.
        destruct C as [(_ & _ & _ & ->)|[(m & _ & _ & -> & _)|[(_ & _ & _ & ->)|[(e & _ & _ & _ & ->)|(_ & _ & _ & ->)]]]];
          cbn; rewrite Hs; exact Hp.
      + destruct (nth_error (q_tasks s) i) as [[m0 [|r]]|] eqn:En; try discriminate. injection E as <-.
        unfold par_proxy. pose proof (seen_user h (s_app (q_srv s)) m0) as Hs.
        destruct (user_handle h (s_app (q_srv s)) m0) as [a r]. cbn in Hs.
        assert (Hq : Permutation (a_seen a) (concat (map (fun x : bytes * tst => match snd x with TDone _ => [fst x] | TWait => [] end)
           (firstn i (q_tasks s) ++ (m0, TDone r) :: skipn (S i) (q_tasks s))))).
        { rewrite Hs. symmetry. eapply Permutation_trans; [apply done_set; exact En|]. apply Permutation_app_tail.
          symmetry. exact Hp. }
        destruct r; exact Hq.
  Qed.

  (** Nothing is dropped between the transport and the handlers while the loop
      runs (rate limit off). *)
  Definition fed (os : list qop) : list env :=
    concat (map (fun o => match o with QEnv r => [ERead r] | _ => [] end) os).

  Lemma of_recv_conserve v v' r : of_recv accept order xid v = (v', r) -> (forall e, r <> Raised e) ->
    exists used, envs (s_chan v) = used ++ envs (s_chan v') /\
      buf (s_chan v) ++ delivered used = out_bytes r ++ buf (s_chan v').
  Proof.
    unfold of_recv. destruct (recv (s_chan v)) as [c r0] eqn:R. intros H Hr. apply recv_conserve in R.
    destruct R as (u & E & B & _). destruct r0 as [b| |]; try (inversion H; subst; exists u; auto; fail).
    destruct (negotiate accept order xid (a_och (s_app v)) b) as [o [m'|e]] eqn:En; inversion H; subst.
    - pose proof (negotiate_ok_msg accept order xid (a_och (s_app v)) b m') as Hm. rewrite En in Hm.
      rewrite (Hm eq_refl). exists u. auto.
    - exfalso. apply (Hr e). reflexivity.
  Qed.

  Theorem nothing_dropped os : rate = 0 -> forall s s', qrun s os = Some s' -> q_end s' = None ->
    exists used, envs (s_chan (q_srv s)) ++ fed os = used ++ envs (s_chan (q_srv s')) /\
      concat (map fst (q_tasks s)) ++ buf (s_chan (q_srv s)) ++ delivered used =
      concat (map fst (q_tasks s')) ++ buf (s_chan (q_srv s')).
  Proof.
    intros Hrate. induction os as [|o os IH]; intros s s' H Hend; cbn [M_Parallel.qrun] in H.
    - injection H as <-. exists []. cbn. rewrite !app_nil_r. auto.
    - destruct (qstep accept order xid rate (user_handle h) s o) as [s1|] eqn:E; [|discriminate].
      destruct (IH s1 s' H Hend) as (u2 & E2 & B2). destruct o as [r| |i]; cbn [qstep] in E.
      + injection E as <-. cbn in E2, B2. exists u2. cbn [fed map concat]. rewrite <- app_assoc in E2. auto.
      + assert (Hend1 : q_end s1 = None).
        { clear -H Hend. destruct (q_end s1) eqn:Q; [|reflexivity]. exfalso.
          revert s1 H l Q. induction os as [|o os IH]; intros s1 H l Q; cbn [M_Parallel.qrun] in H; [congruence|].
          destruct (qstep accept order xid rate (user_handle h) s1 o) as [s2|] eqn:E; [|discriminate].
          assert (Q2 : q_end s2 = Some l).
          { destruct o; cbn [qstep] in E.
            - injection E as <-. exact Q.
            - rewrite Q in E. discriminate.
            - destruct (nth_error (q_tasks s1) i) as [[m0 [|r]]|]; try discriminate. injection E as <-.
              unfold par_proxy. destruct (user_handle h (s_app (q_srv s1)) m0) as [a [|]]; exact Q. }
          eapply IH; eauto. }
        destruct (q_end s) eqn:Qs; [discriminate|]. injection E as <-.
        destruct (turn_cases accept order xid rate s) as (v & r & R & t & Ht & Hw & C).
        assert (Hne : forall e, r <> Raised e).
        { intros e He. subst r. destruct C as [(C & _)|[(m & C & _)|[(_ & C & _)|[(e' & _ & C & _)|(C & _)]]]]; congruence. }
        destruct (of_recv_conserve _ _ _ R Hne) as (u1 & E1 & B1).
        assert (Hsrv : q_srv (par_turn accept order xid rate s) = v).
        { destruct C as [(_ & _ & _ & C)|[(m & _ & _ & C & _)|[(_ & C & _)|[(e' & C & _)|(_ & _ & _ & C)]]]]; congruence. }
        assert (Hout : concat (map fst t) = out_bytes r).
        { destruct C as [(-> & C & _)|[(m & -> & _ & _ & C)|[(_ & C & _)|[(e' & C & _)|(-> & _ & -> & _)]]]]; try congruence; try reflexivity.
          rewrite (C Hrate). cbn. apply app_nil_r. }
        rewrite Hsrv in *. rewrite Ht in B2. exists (u1 ++ u2).
        change (fed (QTurn :: os)) with (fed os). rewrite E1, <- !app_assoc, E2. split; [reflexivity|].
        rewrite <- B2, delivered_app, map_app, concat_app, <- !app_assoc, Hout.
        f_equal. rewrite app_assoc, B1, <- app_assoc. reflexivity.
      + destruct (nth_error (q_tasks s) i) as [[m0 [|r]]|] eqn:En; try discriminate. injection E as <-.
        exists u2. cbn [fed map concat Datatypes.app]. unfold par_proxy in E2, B2.
        assert (Hmap : forall r, map fst (firstn i (q_tasks s) ++ (m0, TDone r) :: skipn (S i) (q_tasks s)) = map fst (q_tasks s)).
        { intros r. clear -En. revert i En. generalize (q_tasks s). induction l as [|x l IH]; intros [|i] En; try discriminate.
          - cbn in En. injection En as ->. reflexivity.
          - cbn in *. f_equal. apply IH. exact En. }
        destruct (user_handle h (s_app (q_srv s)) m0) as [a [|]]; cbn [q_tasks q_srv srv_close s_chan chan_close buf envs] in E2, B2;
          rewrite Hmap in B2; auto.
  Qed.

  (** The same with the rate limit: every message received goes to the pool or
      to a thread, by its type. *)
  Definition limited (m : bytes) : bool := negb (rate =? 0) && existsb (Z.eqb (nth 1 m 0)) [10; 11; 12].

  Lemma end_stays os : forall s s' l, qrun s os = Some s' -> q_end s = Some l -> q_end s' = Some l.
  Proof.
    induction os as [|o os IH]; intros s1 s' l H Q; cbn [M_Parallel.qrun] in H; [congruence|].
    destruct (qstep accept order xid rate (user_handle h) s1 o) as [s2|] eqn:E; [|discriminate].
    apply (IH s2); [exact H|]. destruct o; cbn [qstep] in E.
    - injection E as <-. exact Q.
    - rewrite Q in E. discriminate.
    - destruct (nth_error (q_tasks s1) i) as [[m0 [|r]]|]; try discriminate. injection E as <-.
      unfold par_proxy. destruct (user_handle h (s_app (q_srv s1)) m0) as [a [|]]; exact Q.
  Qed.

  Lemma header_type m hh : parse_ofp_header m = Ok hh -> h_type hh = nth 1 m 0.
  Proof.
    intros H. destruct (Nat.ltb_spec (length m) 8) as [L|L]; [rewrite parse_header_short in H by exact L; discriminate|].
    do 8 (destruct m as [|? m]; [cbn in L; lia|]). vm_compute in H. injection H as <-. reflexivity.
  Qed.

  Theorem all_routed os : forall s s' ms, qrun s os = Some s' -> q_end s' = None ->
    map fst (q_tasks s) = filter (fun m => negb (limited m)) ms -> q_rated s = filter limited ms ->
    exists used ms', envs (s_chan (q_srv s)) ++ fed os = used ++ envs (s_chan (q_srv s')) /\
      buf (s_chan (q_srv s)) ++ delivered used = concat ms' ++ buf (s_chan (q_srv s')) /\
      map fst (q_tasks s') = filter (fun m => negb (limited m)) (ms ++ ms') /\ q_rated s' = filter limited (ms ++ ms').
  Proof.
    induction os as [|o os IH]; intros s s' ms H Hend Ht Hr; cbn [M_Parallel.qrun] in H.
    - injection H as <-. exists [], []. cbn. rewrite !app_nil_r. auto.
    - destruct (qstep accept order xid rate (user_handle h) s o) as [s1|] eqn:E; [|discriminate].
      assert (Hend1 : q_end s1 = None).
      { destruct (q_end s1) eqn:Q; [|reflexivity]. rewrite (end_stays _ _ _ _ H Q) in Hend. discriminate. }
      destruct o as [r| |i]; cbn [qstep] in E.
      + injection E as <-. destruct (IH _ s' ms H Hend Ht Hr) as (u & ms' & E2 & B & R). exists u, ms'. cbn in E2, B. cbn [fed map concat].
        rewrite <- app_assoc in E2. auto.
      + destruct (q_end s) eqn:Qs; [discriminate|]. injection E as <-. change (fed (QTurn :: os)) with (fed os).
        unfold par_turn in *. destruct (of_recv accept order xid (q_srv s)) as [v [m|e|]] eqn:R.
        * destruct m as [|b m0]; [discriminate|]. set (m := b :: m0) in *.
          destruct (of_recv_conserve _ _ _ R ltac:(discriminate)) as (u1 & E1 & B1). cbn [out_bytes] in B1.
          assert (K : exists s1, par_intercept rate (mkPar v (q_tasks s) (q_rated s) (q_end s)) m = s1 /\ q_srv s1 = v /\
                   map fst (q_tasks s1) = filter (fun m => negb (limited m)) (ms ++ [m]) /\ q_rated s1 = filter limited (ms ++ [m])).
          { eexists. split; [reflexivity|]. unfold par_intercept in *. rewrite !filter_app. cbn [filter]. unfold limited.
            destruct (rate =? 0) eqn:E0; cbn [negb andb].
            - cbn. rewrite map_app, app_nil_r. cbn [map fst]. unfold limited in Ht, Hr. rewrite E0 in Ht, Hr. cbn [negb andb] in Ht, Hr. rewrite Ht, Hr. auto.
            - destruct (parse_ofp_header m) as [hh|] eqn:Eh; [|discriminate]. rewrite (header_type _ _ Eh) in *. unfold limited in Ht, Hr. rewrite E0 in Ht, Hr. cbn [negb andb] in Ht, Hr.
              cbn [existsb]. rewrite orb_false_r, orb_assoc.
              destruct ((nth 1 m 0 =? 10) || (nth 1 m 0 =? 11) || (nth 1 m 0 =? 12)); cbn [negb q_srv q_tasks q_rated].
              + rewrite app_nil_r, Ht, Hr. auto.
              + rewrite app_nil_r, map_app, Ht, Hr. auto. }
          destruct K as (s1 & K1 & K2 & K3 & K4). fold m in H. rewrite K1 in *.
          destruct (IH _ s' _ H Hend K3 K4) as (u & ms' & E2 & B & T1 & T2). rewrite K2 in E2, B.
          exists (u1 ++ u), (m :: ms'). rewrite E1, <- !app_assoc, E2. split; [reflexivity|].
          rewrite delivered_app, app_assoc, B1, <- app_assoc, B. cbn [concat]. rewrite <- app_assoc.
          rewrite <- app_assoc in T1, T2. auto.
        * destruct e; discriminate.
        * destruct (of_recv_conserve _ _ _ R ltac:(discriminate)) as (u1 & E1 & B1). cbn [out_bytes Datatypes.app] in B1.
          destruct (IH _ s' ms H Hend Ht Hr) as (u & ms' & E2 & B & T1 & T2). cbn [q_srv] in E2, B.
          exists (u1 ++ u), ms'. rewrite E1, <- !app_assoc, E2. split; [reflexivity|].
          rewrite delivered_app, app_assoc, B1, B. auto.
      + destruct (nth_error (q_tasks s) i) as [[m0 [|r]]|] eqn:En; try discriminate. injection E as <-.
        change (fed (QTask i :: os)) with (fed os).
        assert (Hmap : forall r, map fst (firstn i (q_tasks s) ++ (m0, TDone r) :: skipn (S i) (q_tasks s)) = map fst (q_tasks s)).
        { intros r. clear -En. revert i En. generalize (q_tasks s). induction l as [|x l IH]; intros [|i] En; try discriminate.
          - cbn in En. injection En as ->. reflexivity.
          - cbn in *. f_equal. apply IH. exact En. }
        assert (K : q_rated (par_proxy (user_handle h) s i m0) = q_rated s /\ map fst (q_tasks (par_proxy (user_handle h) s i m0)) = map fst (q_tasks s) /\
                    buf (s_chan (q_srv (par_proxy (user_handle h) s i m0))) = buf (s_chan (q_srv s)) /\ envs (s_chan (q_srv (par_proxy (user_handle h) s i m0))) = envs (s_chan (q_srv s))).
        { unfold par_proxy. destruct (user_handle h (s_app (q_srv s)) m0) as [a [|]]; cbn; rewrite Hmap; auto. }
        destruct K as (K1 & K2 & K3 & K4).
        destruct (IH _ s' ms H Hend ltac:(congruence) ltac:(congruence)) as (u & ms' & E2 & B & T). rewrite K3 in B. rewrite K4 in E2. exists u, ms'. auto.
  Qed.
End Calls.
