(** Proofs about sending in classes that combine several of the channel classes. *)

From Coq Require Import String Bool List Lia ZArith.
From Verif Require Import Py M_Hello M_Controller M_Class M_Dispatch S_Class P_Class P_Class2 P_Dispatch.
Import ListNotations.
Local Open Scope string_scope.
Local Open Scope list_scope.

Definition sender (c : string) : Prop := c = "LoggingChannel" \/ c = "ControllerChannel" \/ c = "ChildChannel".

Lemma sender_def : forall n, In n (names repo_tab) -> defines repo_tab n "send" = true -> sender n \/ n = "Channel".
Proof.
  intros n Hn Hd.
  assert (E : forallb (fun n => negb (defines repo_tab n "send") || String.eqb n "LoggingChannel" ||
    String.eqb n "ControllerChannel" || String.eqb n "ChildChannel" || String.eqb n "Channel") (names repo_tab) = true)
    by (vm_compute; reflexivity).
  rewrite forallb_forall in E. specialize (E _ Hn). rewrite Hd in E. cbn [negb orb] in E. rewrite !orb_true_iff in E.
  unfold sender. destruct E as [[[E|E]|E]|E]; apply String.eqb_eq in E; auto.
Qed.

Lemma send_chain : forall l t d, accepted l t -> no_override "send" l ->
  In "Channel" (mro t d) -> no_element t d ->
  exists cs, chain t d "send" = cs ++ ["Channel"] /\ Forall sender cs /\ NoDup cs /\
    (forall c, sender c -> (In c cs <-> In c (mro t d))) /\
    (forall a b, sender a -> sender b -> before (mro t d) a b <-> before cs a b).
Proof.
  intros l t d H Hno Hin Hne. assert (W := wft_accepted _ _ H). assert (N := wft_nodup_mro t d W).
  assert (Hr : root_of "send" = Some "Channel") by reflexivity.
  rewrite (chain_is _ _ _ _ _ H Hr Hin Hne (no_override_coop _ _ Hno)).
  destruct (upto_root_split _ _ Hin) as [p [Ep Hp]]. rewrite Ep, filter_app.
  assert (Hrn : In "Channel" (names repo_tab)) by (apply memb_in; vm_compute; reflexivity).
  assert (Hd : filter (fun n => defines t n "send") ["Channel"] = ["Channel"]).
  { cbn [filter]. rewrite (keeps_defines _ _ _ _ H Hrn). reflexivity. }
  rewrite Hd. exists (filter (fun n => defines t n "send") p). split; [reflexivity|].
  assert (Hsub : Sub (upto "Channel" (mro t d)) (mro t d)) by apply Sub_upto.
  assert (Np : NoDup p).
  { apply (Sub_nodup _ _ Hsub) in N. rewrite Ep in N. apply NoDup_remove_1 in N. rewrite app_nil_r in N. exact N. }
  assert (Hmix : forall c, sender c -> In c (names repo_tab) /\ defines repo_tab c "send" = true /\
                 In "Channel" (tl (mro repo_tab c)) /\ c <> "Channel").
  { intros c [->|[->| ->]]; (split; [apply memb_in; vm_compute; reflexivity|]); (split; [vm_compute; reflexivity|]);
      (split; [apply memb_in; vm_compute; reflexivity|discriminate]). }
  assert (Hbef : forall c, sender c -> In c (mro t d) -> before (mro t d) c "Channel").
  { intros c Hc Hcd. destruct (Hmix _ Hc) as [M1 [M2 [M3 M4]]].
    assert (S := wft_sub _ _ _ W Hcd). rewrite (keeps_mro _ _ _ H M1) in S. apply (Sub_before _ _ _ _ S).
    destruct (wft_mro _ wft_repo _ M1) as [cr [Hcr Ecr]]. destruct (w_class _ wft_repo _ _ Hcr) as [[rr Err] _].
    rewrite Err in *. rewrite Ecr. cbn [tl] in M3. apply in_split in M3 as [q1 [q2 ->]]. exists [], q1, q2. reflexivity. }
  assert (Sp : Sub p (mro t d)).
  { apply (Sub_trans _ _ Hsub). rewrite Ep. clear. induction p as [|x p IH]; cbn; [constructor|apply Sub_take; exact IH]. }
  split; [|split; [|split]].
  - rewrite Forall_forall. intros n Hn. apply filter_In in Hn as [Hn1 Hn2].
    assert (Hnd : In n (mro t d)) by exact (Sub_in _ _ Sp _ Hn1).
    destruct (repo_defines _ _ _ _ H Hno (wft_in_names _ _ _ W Hnd) Hn2) as [R1 R2].
    destruct (sender_def _ R1 R2) as [M| ->]; [exact M|]. contradiction.
  - apply NoDup_filter. exact Np.
  - intros c Hc. destruct (Hmix _ Hc) as [M1 [M2 [M3 M4]]]. split; intros Hx.
    + apply filter_In in Hx as [Hx _]. exact (Sub_in _ _ Sp _ Hx).
    + apply filter_In. split; [|rewrite (keeps_defines _ _ _ _ H M1); exact M2].
      assert (Hu := before_in_upto _ _ _ N (Hbef _ Hc Hx)). rewrite Ep in Hu. apply in_app_or in Hu as [Hu|[Hu|[]]]; [exact Hu|congruence].
  - intros a b Ha Hb. split; intros Hab.
    + destruct (Hmix _ Ha) as [A1 [A2 [A3 A4]]]. destruct (Hmix _ Hb) as [B1 [B2 [B3 B4]]].
      assert (Hbd : In b (mro t d)).
      { destruct Hab as [q1 [q2 [q3 ->]]]. apply in_or_app. right. right. apply in_or_app. right. left. reflexivity. }
      assert (U := upto_before _ _ _ _ N Hab (Hbef _ Hb Hbd)). rewrite Ep in U.
      apply filter_before; [|rewrite (keeps_defines _ _ _ _ H A1); exact A2|rewrite (keeps_defines _ _ _ _ H B1); exact B2].
      destruct U as [q1 [q2 [q3 E]]]. destruct (exists_last (l := b :: q3)) as [q4 [z Ez]]; [discriminate|].
      assert (E2 : p ++ ["Channel"] = (q1 ++ a :: q2 ++ q4) ++ [z]).
      { rewrite E, Ez. rewrite <- app_assoc. cbn. rewrite <- app_assoc. reflexivity. }
      apply app_inj_tail in E2 as [E2 E3]. destruct q4 as [|w q4]; cbn in Ez.
      * injection Ez as Eb _. congruence.
      * injection Ez as -> _. exists q1, q2, q4. exact E2.
    + apply (Sub_before _ _ _ _ Sp). exact (Sub_before _ _ _ _ (Sub_filter (fun n => defines t n "send") p) Hab).
Qed.

(** *** What is logged and what is sent *)

Lemma send_log : forall r s cb m b, send_through ("LoggingChannel" :: r) s cb m b =
  send_through r (mkSnd (n_cch s) (n_log s ++ [m]) (n_out s)) cb m b.
Proof. reflexivity. Qed.
Lemma send_child : forall r s cb m b, send_through ("ChildChannel" :: r) s cb m b = send_through r s cb m b.
Proof. reflexivity. Qed.
Lemma send_ctl : forall r s cb m b, send_through ("ControllerChannel" :: r) s cb m b =
  let '(k, ms) := ctl_passes (n_cch s) cb m b in
  fold_left (fun s x => send_through r s None x b) ms (mkSnd k (n_log s) (n_out s)).
Proof. reflexivity. Qed.
Lemma send_last : forall s cb m b, send_through ["Channel"] s cb m b = mkSnd (n_cch s) (n_log s) (n_out s ++ [m]).
Proof. reflexivity. Qed.

(** Behind both: the message itself. *)
Lemma send_plain : forall cs, Forall sender cs -> ~ In "LoggingChannel" cs -> ~ In "ControllerChannel" cs ->
  forall s cb m b, send_through (cs ++ ["Channel"]) s cb m b = mkSnd (n_cch s) (n_log s) (n_out s ++ [m]).
Proof.
  induction cs as [|c cs IH]; intros F N1 N2 s cb m b; [apply send_last|]. inversion F as [|c0 cs0 Hc Fcs]; subst. cbn [Datatypes.app].
  assert (N1' : ~ In "LoggingChannel" cs) by (intro; apply N1; right; assumption).
  assert (N2' : ~ In "ControllerChannel" cs) by (intro; apply N2; right; assumption).
  destruct Hc as [->|[->| ->]]; [exfalso; apply N1; left; reflexivity|exfalso; apply N2; left; reflexivity|].
  rewrite send_child. apply IH; assumption.
Qed.

(** A class without LoggingChannel in the rest does not log. *)
Lemma send_silent : forall cs, Forall sender cs -> ~ In "LoggingChannel" cs ->
  forall s cb m b, n_log (send_through (cs ++ ["Channel"]) s cb m b) = n_log s.
Proof.
  induction cs as [|c cs IH]; intros F N s cb m b; [reflexivity|]. inversion F as [|c0 cs0 Hc Fcs]; subst. cbn [Datatypes.app].
  assert (N' : ~ In "LoggingChannel" cs) by (intro; apply N; right; assumption).
  destruct Hc as [->|[->| ->]]; [exfalso; apply N; left; reflexivity| |rewrite send_child; apply IH; assumption].
  rewrite send_ctl. destruct (ctl_passes (n_cch s) cb m b) as [k ms].
  assert (G : forall ms s1, n_log (fold_left (fun s x => send_through (cs ++ ["Channel"]) s None x b) ms s1) = n_log s1).
  { clear -IH Fcs N'. induction ms as [|x ms IHm]; intros s1; [reflexivity|]. cbn [fold_left]. rewrite IHm. apply IH; assumption. }
  rewrite G. reflexivity.
Qed.

Lemma send_same : forall cs, Forall sender cs -> NoDup cs -> In "LoggingChannel" cs ->
  ~ before cs "LoggingChannel" "ControllerChannel" ->
  forall s cb m b, exists x, n_log (send_through (cs ++ ["Channel"]) s cb m b) = n_log s ++ x /\
    n_out (send_through (cs ++ ["Channel"]) s cb m b) = n_out s ++ x.
Proof.
  induction cs as [|c cs IH]; intros F N Hin B s cb m b; [destruct Hin|]. inversion F as [|c0 cs0 Hc Fcs]; subst. cbn [Datatypes.app].
  inversion N as [|c0 cs0 Nc Ncs]; subst.
  assert (B' : ~ before cs "LoggingChannel" "ControllerChannel").
  { intros [p1 [p2 [p3 ->]]]. apply B. exists (c :: p1), p2, p3. reflexivity. }
  destruct Hc as [->|[->| ->]].
  - rewrite send_log. assert (Hn : ~ In "ControllerChannel" cs).
    { intros Hp. apply B. apply in_split in Hp as [p2 [p3 ->]]. exists [], p2, p3. reflexivity. }
    rewrite send_plain by assumption. exists [m]. split; reflexivity.
  - destruct Hin as [K|Hin]; [discriminate K|]. rewrite send_ctl. destruct (ctl_passes (n_cch s) cb m b) as [k ms].
    assert (G : forall ms s1, exists x,
      n_log (fold_left (fun s x => send_through (cs ++ ["Channel"]) s None x b) ms s1) = n_log s1 ++ x /\
      n_out (fold_left (fun s x => send_through (cs ++ ["Channel"]) s None x b) ms s1) = n_out s1 ++ x).
    { clear -IH Fcs Ncs Hin B'. induction ms as [|y ms IHm]; intros s1.
      - exists []. rewrite !app_nil_r. split; reflexivity.
      - cbn [fold_left]. destruct (IHm (send_through (cs ++ ["Channel"]) s1 None y b)) as [x [X1 X2]].
        destruct (IH Fcs Ncs Hin B' s1 None y b) as [z [Z1 Z2]]. exists (z ++ x). rewrite X1, X2, Z1, Z2, <- !app_assoc. split; reflexivity. }
    apply (G ms (mkSnd k (n_log s) (n_out s))).
  - destruct Hin as [K|Hin]; [discriminate K|]. rewrite send_child. apply IH; assumption.
Qed.

(** LoggingChannel in front of ControllerChannel: the log is what the application sent. *)
Lemma send_app_log : forall cs, Forall sender cs -> NoDup cs -> before cs "LoggingChannel" "ControllerChannel" ->
  forall s cb m b, n_log (send_through (cs ++ ["Channel"]) s cb m b) = n_log s ++ [m].
Proof.
  induction cs as [|c cs IH]; intros F N B s cb m b; [destruct B as [[|? ?] [? [? K]]]; discriminate K|].
  inversion F as [|c0 cs0 Hc Fcs]; subst. inversion N as [|c0 cs0 Nc Ncs]; subst. cbn [Datatypes.app].
  destruct B as [p1 [p2 [p3 E]]]. destruct p1 as [|x p1]; cbn in E; injection E as Ec E.
  - subst c. rewrite send_log. rewrite send_silent by assumption. reflexivity.
  - subst x. assert (B : before cs "LoggingChannel" "ControllerChannel") by (exists p1, p2, p3; exact E).
    destruct Hc as [->|[->| ->]].
    + exfalso. apply Nc. rewrite E. apply in_or_app. right. left. reflexivity.
    + exfalso. apply Nc. rewrite E. apply in_or_app. right. right. apply in_or_app. right. left. reflexivity.
    + rewrite send_child. apply IH; assumption.
Qed.

Lemma sends_same : forall t d cs, chain t d "send" = cs ++ ["Channel"] -> Forall sender cs -> NoDup cs ->
  In "LoggingChannel" cs -> ~ before cs "LoggingChannel" "ControllerChannel" ->
  forall xs s, exists x, n_log (fold_left (send_on t d) xs s) = n_log s ++ x /\ n_out (fold_left (send_on t d) xs s) = n_out s ++ x.
Proof.
  intros t d cs E F N Hin B. induction xs as [|[[cb m] b] xs IH]; intros s.
  - exists []. rewrite !app_nil_r. split; reflexivity.
  - cbn [fold_left]. destruct (IH (send_on t d s (cb, m, b))) as [x [X1 X2]]. unfold send_on in *. rewrite E in *.
    destruct (send_same cs F N Hin B s cb m b) as [z [Z1 Z2]]. exists (z ++ x). rewrite X1, X2, Z1, Z2, <- !app_assoc. split; reflexivity.
Qed.
Lemma sends_app : forall t d cs, chain t d "send" = cs ++ ["Channel"] -> Forall sender cs -> NoDup cs ->
  before cs "LoggingChannel" "ControllerChannel" ->
  forall xs s, n_log (fold_left (send_on t d) xs s) = n_log s ++ map (fun x => snd (fst x)) xs.
Proof.
  intros t d cs E F N B. induction xs as [|[[cb m] b] xs IH]; intros s.
  - rewrite app_nil_r. reflexivity.
  - cbn [fold_left map fst snd]. rewrite IH. unfold send_on. rewrite E, (send_app_log cs F N B), <- app_assoc. reflexivity.
Qed.
