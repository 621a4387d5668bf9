(** Proofs about the example programs, continued: where the hub's frames go. *)

From Coq Require Import Lia.
From Verif Require Import Py M_Example S_Hello S_Oxm S_Wire4 S_Msg4 S_Bess S_Hub P_Hub P_Hub2 P_Hub3.
Local Open Scope Z_scope.
Local Open Scope list_scope.

Lemma out_in x p q : In q (out x p) <-> q = p /\ q <> fr_port x.
Proof.
  unfold out. destruct (Z.eqb_spec p (fr_port x)); cbn [In]; split; intros H; [destruct H|destruct H; subst; contradiction|destruct H as [<-|[]]; auto|].
  destruct H as [-> _]. auto.
Qed.
Lemma all_but_in ports p q : In q (all_but ports p) <-> In q ports /\ q <> p.
Proof. unfold all_but. rewrite filter_In, Bool.negb_true_iff, Z.eqb_neq. tauto. Qed.

Section Deliver.
Context (ports : list Z) (Hp : Forall (fun p => 0 <= p) ports).

Lemma step_frame s x outs s' : step s (LFrame x outs) s' ->
  exists told, frame_ok x /\ switched (o_sw s) x = (outs, told) /\ s' = mkWorld (o_sw s) (o_wait s ++ if told then [x] else []).
Proof. intros H. inversion H; subst. eauto. Qed.

Lemma delivery ls s x outs s' : runs ports ls s -> step s (LFrame x outs) s' ->
  ~ In (fr_port x) outs /\
  (group_address (fr_dst x) -> outs = all_but ports (fr_port x)) /\
  (outs = all_but ports (fr_port x) \/ exists p, In p (seen (fr_dst x) ls) /\ outs = out x p).
Proof.
  intros R St. destruct (step_frame _ _ _ _ St) as (told & Hx & E & _). destruct (runs_inv ports ls s Hp R) as (It & Ik & _).
  destruct (switched_spec _ ports _ _ _ It Hx E) as [G _].
  assert (N : forall l, l = all_but ports (fr_port x) -> ~ In (fr_port x) l) by (intros l -> K; apply all_but_in in K; destruct K; contradiction).
  destruct G as [[G ->]|[(G & p & I1 & ->)|(G & _ & ->)]].
  - split; [apply N; reflexivity|]. auto.
  - split; [intros K; apply out_in in K; destruct K; contradiction|]. split; [contradiction|]. right. exists p. split; [|reflexivity].
    rewrite Forall_forall in Ik. apply (Ik _ I1). right. reflexivity.
  - split; [apply N; reflexivity|]. split; [contradiction|]. auto.
Qed.

Lemma stays ls s x outs s' p : runs ports ls s -> step s (LFrame x outs) s' ->
  (forall q, In q (seen (fr_dst x) ls) -> q = p) -> In p ports -> p <> fr_port x -> In p outs.
Proof.
  intros R St Q Ip Np. destruct (delivery ls s x outs s' R St) as (_ & _ & [->|(q & Iq & ->)]).
  - apply all_but_in. auto.
  - apply out_in. rewrite (Q q Iq). auto.
Qed.

(** *** Prompt runs *)

Lemma last_new_snoc l p : forall old r, last_new old r (l ++ [p]) = if existsb (Z.eqb p) (old ++ l) then last_new old r l else Some p.
Proof.
  induction l as [|q l IH]; intros old r; cbn [Datatypes.app last_new].
  - rewrite app_nil_r. destruct (existsb (Z.eqb p) old); reflexivity.
  - destruct (existsb (Z.eqb q) old) eqn:E.
    + rewrite IH. replace (existsb (Z.eqb p) (old ++ q :: l)) with (existsb (Z.eqb p) (old ++ l)); [reflexivity|].
      rewrite !existsb_app. cbn [existsb]. destruct (Z.eqb_spec p q) as [->|N]; [rewrite E|]; reflexivity.
    + rewrite IH. replace (existsb (Z.eqb p) (old ++ q :: l)) with (existsb (Z.eqb p) ((q :: old) ++ l)); [reflexivity|].
      cbn [Datatypes.app existsb]. rewrite !existsb_app. cbn [existsb]. destruct (p =? q), (existsb (Z.eqb p) old); reflexivity.
Qed.
Lemma mem_spec p l : existsb (Z.eqb p) l = true <-> In p l.
Proof.
  rewrite existsb_exists. split; [intros (q & H & E); apply Z.eqb_eq in E; subst; exact H|intros H; exists p; split; [exact H|apply Z.eqb_refl]].
Qed.

Definition pinv (ls : list label) (s : world) : Prop :=
  o_wait s = [] /\ table_ok (o_sw s) ports /\
  (forall a p, mac a -> In (L0 a p) (w_flows (o_sw s)) <-> In p (seen a ls)) /\
  (forall a p, mac a -> In (L1 a p) (w_flows (o_sw s)) <-> last_new [] None (seen a ls) = Some p).

Lemma seen_one a x outs : seen a [LFrame x outs] = if beq (fr_src x) a then [fr_port x] else [].
Proof. cbn [seen flat_map]. destruct (beq (fr_src x) a); reflexivity. Qed.

Lemma prompt_inv ls s : prompt ports ls s -> pinv ls s.
Proof.
  induction 1 as [s H|ls s x outs s' H IH St W|ls s x outs s1 y s2 H IH St St'].
  - rewrite (starts_sw ports s Hp H). split; [reflexivity|]. split; [apply start_table|]. cbn [o_sw w_flows seen flat_map In last_new].
    split; intros a p _; (split; [intros [E|[E|[E|[]]]]; discriminate E|]); [tauto|discriminate].
  - destruct IH as (Iw & It & I0 & I1). destruct (step_frame _ _ _ _ St) as (told & Hx & E & ->). cbn [o_wait o_sw] in *.
    destruct (switched_spec _ ports _ _ _ It Hx E) as [_ T]. rewrite Iw in W. destruct told; [discriminate W|].
    assert (K : In (fr_port x) (seen (fr_src x) ls)).
    { apply I0; [apply Hx|]. destruct (in_dec Z.eq_dec (fr_port x) (seen (fr_src x) ls)) as [D|D]; [apply I0; [apply Hx|exact D]|].
      exfalso. assert (false = true) by (apply T; intros K; apply D; apply I0; [apply Hx|exact K]). discriminate. }
    unfold pinv. cbn [o_wait o_sw]. rewrite Iw. split; [reflexivity|]. split; [exact It|].
    split; intros a p Ha; rewrite seen_app, seen_one; destruct (beq (fr_src x) a) eqn:B.
    + apply beq_eq in B. subst a. rewrite I0 by exact Ha. rewrite in_app_iff. cbn [In]. split; [auto|intros [D|[<-|[]]]; auto].
    + rewrite app_nil_r. apply I0. exact Ha.
    + apply beq_eq in B. subst a. rewrite last_new_snoc. cbn [Datatypes.app]. rewrite (proj2 (mem_spec _ _) K). apply I1. exact Ha.
    + rewrite app_nil_r. apply I1. exact Ha.
  - destruct IH as (Iw & It & I0 & I1). destruct (step_frame _ _ _ _ St) as (told & Hx & E & ->). cbn [o_wait o_sw] in *.
    destruct (switched_spec _ ports _ _ _ It Hx E) as [_ T].
    inversion St' as [|? ? a' b' m dx cs w Ew Hc Hd Ea D|]; subst. cbn [o_wait o_sw] in *. rewrite Iw in Ew.
    destruct told; [|destruct a'; discriminate Ew]. cbn [Datatypes.app] in Ew.
    destruct a' as [|z a']; [|destruct a'; discriminate Ew]. injection Ew as -> <-. cbn [Datatypes.app].
    rewrite (learned _ _ _ _ _ _ Hc Hx Hd Ea D). change (add_flow _ _) with (learned_sw (o_sw s) (fr_src y) (fr_port y)).
    assert (Hm : mac (fr_src y)) by apply Hx.
    assert (K : ~ In (fr_port y) (seen (fr_src y) ls)) by (rewrite <- I0 by exact Hm; apply T; reflexivity).
    assert (Sn : forall a, seen a [LFrame y outs; LHandle y] = if beq (fr_src y) a then [fr_port y] else []) by (intros a; cbn [seen flat_map]; destruct (beq (fr_src y) a); reflexivity).
    unfold pinv. cbn [o_wait o_sw]. split; [reflexivity|]. split; [apply learned_ok; assumption|].
    split; intros a p Ha; rewrite in_learned by (exact Hm || apply It); rewrite seen_app, Sn; destruct (beq (fr_src y) a) eqn:B.
    + apply beq_eq in B. subst a. rewrite in_app_iff. cbn [In]. rewrite <- I0 by exact Ha. split.
      * intros [X|[X|[X _]]]; [injection X as ->; auto|discriminate X|auto].
      * intros [X|[<-|[]]]; auto. right. right. split; [exact X|discriminate].
    + rewrite app_nil_r, <- I0 by exact Ha. split.
      * intros [X|[X|[X _]]]; [injection X as _ ->; rewrite beq_refl in B; discriminate|discriminate X|exact X].
      * intros X. right. right. split; [exact X|discriminate].
    + apply beq_eq in B. subst a. rewrite last_new_snoc. cbn [Datatypes.app].
      destruct (existsb (Z.eqb (fr_port y)) (seen (fr_src y) ls)) eqn:M; [apply mem_spec in M; contradiction|]. split.
      * intros [X|[X|[_ X]]]; [discriminate X|injection X as ->; reflexivity|exfalso; exact (X p eq_refl)].
      * intros [= <-]. auto.
    + rewrite app_nil_r, <- I1 by exact Ha. split.
      * intros [X|[X|[X _]]]; [discriminate X|injection X as -> _; rewrite beq_refl in B; discriminate|exact X].
      * intros X. right. right. split; [exact X|]. intros q Eq. apply L1_inj in Eq. destruct Eq as [-> _]. rewrite beq_refl in B. discriminate.
Qed.

Lemma prompt_exact ls s x outs s' : prompt ports ls s -> step s (LFrame x outs) s' ->
  outs = if Z.odd (nth 0 (fr_dst x) 0) then all_but ports (fr_port x)
         else match last_new [] None (seen (fr_dst x) ls) with Some p => out x p | None => all_but ports (fr_port x) end.
Proof.
  intros P St. destruct (prompt_inv ls s P) as (_ & It & _ & I1). destruct (step_frame _ _ _ _ St) as (told & Hx & E & _).
  destruct (switched_spec _ ports _ _ _ It Hx E) as [G _]. assert (Hd : mac (fr_dst x)) by apply Hx.
  unfold goes, group_address in G. destruct (Z.odd (nth 0 (fr_dst x) 0)).
  - destruct G as [[_ ->]|[(G & _)|(G & _)]]; [reflexivity|exfalso; apply G; reflexivity|exfalso; apply G; reflexivity].
  - destruct G as [[G _]|[(_ & p & I2 & ->)|(_ & N & ->)]]; [discriminate G| |].
    + apply I1 in I2; [|exact Hd]. rewrite I2. reflexivity.
    + destruct (last_new [] None (seen (fr_dst x) ls)) as [p|] eqn:L; [|reflexivity]. exfalso. apply (N p). apply I1; assumption.
Qed.

(** A station whose first flow is there and whose second is gone stays unlearned while it stays. *)
Lemma unlearned s x outs s' : table_ok (o_sw s) ports -> In (L0 (fr_src x) (fr_port x)) (w_flows (o_sw s)) ->
  step s (LFrame x outs) s' -> s' = s.
Proof.
  intros It I0 St. destruct (step_frame _ _ _ _ St) as (told & Hx & E & ->). destruct (switched_spec _ ports _ _ _ It Hx E) as [_ T].
  destruct told; [exfalso; apply T; [reflexivity|exact I0]|]. rewrite app_nil_r. destruct s; reflexivity.
Qed.
End Deliver.

(** *** Every frame can be handled *)

Definition pin (x : frame) : omsg :=
  MPacketIn 0 0 0 0 0 (Match 1 (concat (map tlv ([] ++ MF 0 (VInt (fr_port x)) None :: [])))) (fr_dst x ++ fr_src x ++ []).
Lemma pin_good x : frame_ok x -> good (7, pin x).
Proof.
  intros ((Ls & Hs) & (Ld & Hd) & Hp). split; [unfold u32; cbn; lia|]. split; [|exact Logic.I].
  assert (L : length (concat (map tlv [MF 0 (VInt (fr_port x)) None])) = 8%nat) by reflexivity.
  split; [|split].
  - unfold pin. cbn [body_fields]. unfold fits. repeat (apply Forall_cons; [first [exact Logic.I|vm_compute; split; [discriminate|reflexivity]]|]). apply Forall_nil.
  - unfold body, pin. cbn [body_fields]. rewrite app_nil_r.
    destruct (fr_src x) as [|s1 [|s2 [|s3 [|s4 [|s5 [|s6 [|]]]]]]]; try discriminate Ls.
    destruct (fr_dst x) as [|d1 [|d2 [|d3 [|d4 [|d5 [|d6 [|]]]]]]]; try discriminate Ld. vm_compute. discriminate.
  - unfold pin. unfold fits. cbn [match_fields Datatypes.app].
    repeat (apply Forall_cons; [first [exact Logic.I|vm_compute; split; [discriminate|reflexivity]]|]). apply Forall_nil.
Qed.
Lemma pin_carries x : frame_ok x -> carries (mwire 7 (pin x)) x.
Proof.
  intros Hx. exists 7, 0, 0, 0, 0, 0, 1, [], [], []. split; [reflexivity|]. split; [exact (pin_good x Hx)|]. repeat constructor.
Qed.
Lemma can_handle s x a b : o_wait s = a ++ x :: b -> frame_ok x ->
  step s (LHandle x) (mkWorld (learned_sw (o_sw s) (fr_src x) (fr_port x)) (a ++ b)).
Proof.
  intros Ew Hx. destruct (hub_carried _ x 0 (pin_carries x Hx) Hx ltac:(lia)) as [bu E].
  eapply st_handle; [exact Ew|apply pin_carries; exact Hx| |exact E|]; [lia|].
  destruct Hx as (Hs & _ & Hp). unfold learn. cbn [Datatypes.app do_cmds do_cmd].
  change (("add-flow" =? "add-flow")%string) with true. change (("dump-flows" =? "dump-flows")%string) with true. cbv iota.
  rewrite read_rule0, read_rule1 by (assumption || lia). reflexivity.
Qed.
Lemma can_frame s x : frame_ok x -> step s (LFrame x (fst (switched (o_sw s) x)))
  (mkWorld (o_sw s) (o_wait s ++ if snd (switched (o_sw s) x) then [x] else [])).
Proof. intros Hx. apply st_frame; [exact Hx|]. destruct (switched (o_sw s) x); reflexivity. Qed.
Lemma hello_good : good (1, MHello []).
Proof. split; [unfold u32; cbn; lia|]. split; [|exact Logic.I]. split; [|split]; [constructor; [exact Logic.I|constructor]|vm_compute; discriminate|constructor]. Qed.
Lemma can_start ports : Forall (fun p => 0 <= p) ports -> starts ports (mkWorld (mkSw [B0; B1; B2] [(1, ports)]) []).
Proof.
  intros Hp. exists 1, [], (mkSw [B0; B1; B2] [(1, ports)]). split; [exact hello_good|]. rewrite hub_hello by exact hello_good. cbn [fst].
  split; [|reflexivity]. unfold base_cmds. cbn [do_cmds do_cmd].
  change (("add-flow" =? "add-flow")%string) with true. change (("add-group" =? "add-flow")%string) with false. change (("add-group" =? "add-group")%string) with true. cbv iota.
  rewrite read_group_eq by exact Hp. destruct read_base as (-> & -> & ->). cbn [option_map]. vm_compute. reflexivity.
Qed.
