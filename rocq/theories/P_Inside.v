(** Proofs about synchronous calls without a reader (C117). *)

From Coq Require Import Lia.
From Verif Require Import Py Struct P_Struct M_Hello M_Loop M_Controller M_Sync S_Hello S_Controller S_Sync S_Inside P_Hello P_Controller P_Sync P_Multi.
Local Open Scope Z_scope.

Lemma leave_step x s e s' : leaves1 x e -> estep s e = Some s' -> dget (sy_map s') x = dget (sy_map s) x.
Proof.
  intros L E. destruct e as [m| | | |y t|y|]; cbn [estep leaves1] in *.
  - destruct (sy_reader s); try discriminate. injection E as <-. reflexivity.
  - destruct (sy_reader s); try discriminate. injection E as <-. reflexivity.
  - destruct (sy_reader s); try discriminate. destruct (store m (sy_data s t)). injection E as <-. reflexivity.
  - destruct (sy_reader s); try discriminate. injection E as <-. reflexivity.
  - injection E as <-. cbn [sy_map]. rewrite dget_dput. destruct (y =? x) eqn:Q; [lia|reflexivity].
  - injection E as <-. cbn [sy_map]. rewrite dget_dpop. destruct (y =? x) eqn:Q; [lia|reflexivity].
  - injection E as <-. reflexivity.
Qed.

Lemma leave_steps x es : forall s s', leaves x es -> esteps s es = Some s' -> dget (sy_map s') x = dget (sy_map s) x.
Proof.
  induction es as [|e es IH]; intros s s' L E; cbn [esteps] in E; [injection E as <-; reflexivity|].
  inversion L as [|? ? L1 L2]; subst. destruct (estep s e) as [s1|] eqn:Q; [|discriminate].
  rewrite (IH _ _ L2 E). exact (leave_step _ _ _ _ L1 Q).
Qed.

Lemma meanwhile_leaves x t es : meanwhile x t es -> leaves x es.
Proof. apply Forall_impl. intros e. destruct e; cbn; tauto. Qed.

(** Nothing is received, so the data of the caller can only be emptied. *)
Lemma meanwhile_step x t s e : meanwhile1 x t e -> exists s', estep s e = Some s' /\ sy_reader s' = sy_reader s /\
  (sy_data s' t = sy_data s t \/ sy_data s' t = Some []) /\
  (e <> OClose -> sy_data s' t = sy_data s t /\ sy_ev s' t = sy_ev s t).
Proof.
  intros M. destruct e as [m| | | |y u|y|]; cbn [meanwhile1] in M; try contradiction; cbn [estep]; eexists; (split; [reflexivity|]); cbn [sy_reader sy_data sy_ev].
  - auto.
  - auto.
  - split; [reflexivity|]. split; [|intros H; contradiction].
    destruct (existsb (Nat.eqb t) (map snd (sy_map s))); auto.
Qed.

Lemma meanwhile_steps x t es : forall s, meanwhile x t es -> exists s', esteps s es = Some s' /\ sy_reader s' = sy_reader s /\
  (sy_data s' t = sy_data s t \/ sy_data s' t = Some []) /\
  (~ In OClose es -> sy_data s' t = sy_data s t /\ sy_ev s' t = sy_ev s t).
Proof.
  induction es as [|e es IH]; intros s M; cbn [esteps].
  - exists s. auto.
  - inversion M as [|? ? M1 M2]; subst. destruct (meanwhile_step x t s e M1) as (s1 & E1 & R1 & D1 & N1). rewrite E1.
    destruct (IH s1 M2) as (s2 & E2 & R2 & D2 & N2). exists s2. split; [exact E2|]. split; [congruence|]. split.
    + destruct D2 as [D2|D2]; [|auto]. rewrite D2. exact D1.
    + intros N. cbn [In] in N. destruct N1 as [Na Nb]; [intros ->; auto|]. destruct N2 as [Nc Nd]; [auto|]. split; congruence.
Qed.

Definition nothing (d : option bytes) : Prop := d = None \/ d = Some [].

Lemma inside_call s m t e1 e2 e3 : (8 <= length m)%nat -> nothing (sy_data s t) -> meanwhile (xid_of m) t (e1 ++ e2 ++ e3) ->
  exists s' r, send_sync s m t e1 None e2 e3 = Some (s', Ok r) /\ nothing r /\ (~ In OClose (e1 ++ e2 ++ e3) -> r = sy_data s t) /\
    exists s2, esteps (register s (xid_of m) t) (e1 ++ e2) = Some s2 /\ (~ In OClose (e1 ++ e2) -> sy_ev s2 t = sy_ev s t).
Proof.
  intros Hl Hn M. apply Forall_app in M. destruct M as [M1 M]. apply Forall_app in M. destruct M as [M2 M3].
  unfold send_sync. rewrite parse_header_spec by exact Hl. cbn [h_xid]. fold (xid_of m). set (x := xid_of m) in *.
  destruct (meanwhile_steps x t e1 (register s x t) M1) as (s1 & E1 & _ & D1 & N1). rewrite E1.
  destruct (meanwhile_steps x t e2 s1 M2) as (s2 & E2 & _ & D2 & N2). rewrite E2.
  assert (G : dget (sy_map s2) x = Some t).
  { rewrite (leave_steps x e2 _ _ (meanwhile_leaves _ _ _ M2) E2), (leave_steps x e1 _ _ (meanwhile_leaves _ _ _ M1) E1).
    cbn [register sy_map]. rewrite dget_dput, Z.eqb_refl. reflexivity. }
  unfold pop. rewrite G.
  destruct (meanwhile_steps x t e3 (mkSync (dpop (sy_map s2) x) (sy_data s2) (sy_ev s2) (sy_reader s2)) M3) as (s4 & E4 & _ & D4 & N4). rewrite E4.
  cbn [sy_data sy_ev register] in *. exists s4, (sy_data s4 t). split; [reflexivity|]. split; [|split].
  - unfold nothing in *. destruct D4 as [->| ->]; [|auto]. destruct D2 as [->| ->]; [|auto]. destruct D1 as [->| ->]; auto.
  - intros N. rewrite !in_app_iff in N. destruct N4 as [-> _]; [tauto|]. destruct N2 as [-> _]; [tauto|]. destruct N1 as [-> _]; [tauto|reflexivity].
  - exists s2. split; [rewrite esteps_app, E1; exact E2|]. intros N. rewrite in_app_iff in N.
    destruct N2 as [_ ->]; [tauto|]. destruct N1 as [_ ->]; [tauto|reflexivity].
Qed.

Lemma inside_simple k v x s t e1 e2 e3 : 0 <= v < 256 -> 0 <= x < 2 ^ 32 -> nothing (sy_data s t) -> meanwhile x t (e1 ++ e2 ++ e3) ->
  exists s', simple_call k (Some v) x s t e1 None e2 e3 = Some (s', Err ChannelClose).
Proof.
  intros Hv Hx Hn M. destruct (simple_request k v x Hv Hx) as (R & Rx & Rl).
  unfold simple_call. destruct (simple_types k (Some v)) as [rq rs]. destruct R as [R _].
  unfold sync_simple. cbn [vint]. rewrite R. 
  destruct (inside_call s (request k v x) t e1 e2 e3) as (s' & r & E & N & _); [rewrite Rl; lia|exact Hn|rewrite Rx; exact M|].
  rewrite E. exists s'. destruct N as [->| ->]; reflexivity.
Qed.

(** *** What is left behind *)

Lemma call_released s m t e1 e2 e3 s' r : (8 <= length m)%nat -> leaves (xid_of m) e3 ->
  send_sync s m t e1 None e2 e3 = Some (s', Ok r) -> dget (sy_map s') (xid_of m) = None.
Proof.
  intros Hl L. unfold send_sync. rewrite parse_header_spec by exact Hl. cbn [h_xid]. fold (xid_of m). set (x := xid_of m) in *.
  destruct (esteps (register s x t) e1) as [s1|]; [|discriminate]. destruct (esteps s1 e2) as [s2|]; [|discriminate].
  unfold pop. destruct (dget (sy_map s2) x); [|discriminate].
  destruct (esteps _ e3) as [s4|] eqn:E4; [|discriminate]. intros H. injection H as <- _.
  rewrite (leave_steps x e3 _ _ L E4). cbn [sy_map]. rewrite dget_dpop, Z.eqb_refl. reflexivity.
Qed.

Lemma call_failed s m t e1 e e2 e3 s' r : (8 <= length m)%nat -> leaves (xid_of m) e1 ->
  send_sync s m t e1 (Some e) e2 e3 = Some (s', r) ->
  r = Err e /\ forall es s'', leaves (xid_of m) es -> esteps s' es = Some s'' -> dget (sy_map s'') (xid_of m) = Some t.
Proof.
  intros Hl L. unfold send_sync. rewrite parse_header_spec by exact Hl. cbn [h_xid]. fold (xid_of m). set (x := xid_of m) in *.
  destruct (esteps (register s x t) e1) as [s1|] eqn:E1; [|discriminate]. intros H. injection H as <- <-. split; [reflexivity|].
  intros es s'' L' E'. rewrite (leave_steps x es _ _ L' E'), (leave_steps x e1 _ _ L E1).
  cbn [register sy_map]. rewrite dget_dput, Z.eqb_refl. reflexivity.
Qed.

(** Sending of the messages of multi(). *)
Lemma sent_entries ms : forall s s1 xs, Forall (fun q => (8 <= length (req_msg q))%nat) ms ->
  multi_send s ms = Some (s1, Ok xs) -> xs = map (fun q => xid_of (req_msg q)) ms.
Proof.
  induction ms as [|[[[m t] es] o] ms IH]; intros s s1 xs F E; cbn [multi_send] in E; [injection E as _ <-; reflexivity|].
  inversion F as [|? ? F1 F2]; subst. cbn [req_msg fst] in F1. rewrite parse_header_spec in E by exact F1. cbn [h_xid] in E. fold (xid_of m) in E.
  destruct (esteps (register s (xid_of m) t) es) as [s2|]; [|discriminate]. destruct o; [discriminate|].
  destruct (multi_send s2 ms) as [[s3 [xs'|?]]|] eqn:E3; try discriminate. injection E as _ <-.
  cbn [map req_msg fst]. f_equal. exact (IH _ _ _ F2 E3).
Qed.

Lemma sent_kept x ms : forall s s1 r, Forall (fun q => (8 <= length (req_msg q))%nat) ms ->
  Forall (fun q => leaves x (req_evs q)) ms -> multi_send s ms = Some (s1, r) -> dget (sy_map s) x <> None -> dget (sy_map s1) x <> None.
Proof.
  induction ms as [|[[[m t] es] o] ms IH]; intros s s1 r F L E G; cbn [multi_send] in E; [injection E as <- _; exact G|].
  inversion F as [|? ? F1 F2]; subst. inversion L as [|? ? L1 L2]; subst. cbn [req_msg req_evs fst snd] in *.
  rewrite parse_header_spec in E by exact F1. cbn [h_xid] in E. fold (xid_of m) in E.
  destruct (esteps (register s (xid_of m) t) es) as [s2|] eqn:E2; [|discriminate].
  assert (G2 : dget (sy_map s2) x <> None).
  { rewrite (leave_steps x es _ _ L1 E2). cbn [register sy_map]. rewrite dget_dput. destruct (xid_of m =? x); [discriminate|exact G]. }
  destruct o; [injection E as <- _; exact G2|].
  destruct (multi_send s2 ms) as [[s3 [xs'|?]]|] eqn:E3; try discriminate; injection E as <- _; exact (IH _ _ _ F2 L2 E3 G2).
Qed.

Lemma sent_there x ms : forall s s1 xs, Forall (fun q => (8 <= length (req_msg q))%nat) ms ->
  Forall (fun q => leaves x (req_evs q)) ms -> multi_send s ms = Some (s1, Ok xs) -> In x xs -> dget (sy_map s1) x <> None.
Proof.
  induction ms as [|[[[m t] es] o] ms IH]; intros s s1 xs F L E Hi; cbn [multi_send] in E; [injection E as _ <-; destruct Hi|].
  inversion F as [|? ? F1 F2]; subst. inversion L as [|? ? L1 L2]; subst. cbn [req_msg req_evs fst snd] in *.
  rewrite parse_header_spec in E by exact F1. cbn [h_xid] in E. fold (xid_of m) in E.
  destruct (esteps (register s (xid_of m) t) es) as [s2|] eqn:E2; [|discriminate]. destruct o; [discriminate|].
  destruct (multi_send s2 ms) as [[s3 [xs'|?]]|] eqn:E3; try discriminate. injection E as <- <-.
  destruct Hi as [<-|Hi]; [|exact (IH _ _ _ F2 L2 E3 Hi)].
  apply (sent_kept _ ms s2 s3 _ F2 L2 E3). rewrite (leave_steps _ es _ _ L1 E2). cbn [register sy_map]. rewrite dget_dput, Z.eqb_refl. discriminate.
Qed.

(** A call for another transaction leaves the entry. *)
Lemma call_kept x s m t e1 o e2 e3 s' r : (8 <= length m)%nat -> xid_of m <> x -> leaves x (e1 ++ e2 ++ e3) ->
  send_sync s m t e1 o e2 e3 = Some (s', r) -> dget (sy_map s') x = dget (sy_map s) x.
Proof.
  intros Hl Hx L. apply Forall_app in L. destruct L as [L1 L]. apply Forall_app in L. destruct L as [L2 L3].
  unfold send_sync. rewrite parse_header_spec by exact Hl. cbn [h_xid]. fold (xid_of m). set (y := xid_of m) in *.
  destruct (esteps (register s y t) e1) as [s1|] eqn:E1; [|discriminate].
  assert (G1 : dget (sy_map s1) x = dget (sy_map s) x).
  { rewrite (leave_steps x e1 _ _ L1 E1). cbn [register sy_map]. rewrite dget_dput. destruct (y =? x) eqn:Q; [lia|reflexivity]. }
  destruct o; [intros H; injection H as <- _; exact G1|].
  destruct (esteps s1 e2) as [s2|] eqn:E2; [|discriminate].
  pose proof (leave_steps x e2 _ _ L2 E2) as G2.
  unfold pop. destruct (dget (sy_map s2) y); [|intros H; injection H as <- _; congruence].
  destruct (esteps _ e3) as [s4|] eqn:E4; [|discriminate]. intros H. injection H as <- _.
  rewrite (leave_steps x e3 _ _ L3 E4). cbn [sy_map]. rewrite dget_dpop. destruct (y =? x) eqn:Q; [lia|congruence].
Qed.

Lemma simple_kept x k v bx s t e1 o e2 e3 s' r : 0 <= v < 256 -> 0 <= bx < 2 ^ 32 -> bx <> x -> leaves x (e1 ++ e2 ++ e3) ->
  simple_call k (Some v) bx s t e1 o e2 e3 = Some (s', r) -> dget (sy_map s') x = dget (sy_map s) x.
Proof.
  intros Hv Hx Hne L. destruct (simple_request k v bx Hv Hx) as (R & Rx & Rl).
  unfold simple_call. destruct (simple_types k (Some v)) as [rq rs]. destruct R as [R _].
  unfold sync_simple. cbn [vint]. rewrite R.
  destruct (send_sync s (request k v bx) t e1 o e2 e3) as [[s1 q]|] eqn:E; [|discriminate].
  assert (G : dget (sy_map s1) x = dget (sy_map s) x) by (eapply call_kept; [| |exact L|exact E]; [rewrite Rl; lia|rewrite Rx; exact Hne]).
  destruct q; intros H; injection H as <- _; exact G.
Qed.

Lemma multi_failed v s ms bxid bt b1 b2 b3 ess s1 xs s' e :
  0 <= v < 256 -> 0 <= bxid < 2 ^ 32 -> Forall (fun q => (8 <= length (req_msg q))%nat) ms ->
  multi_send s ms = Some (s1, Ok xs) ->
  multi (Some v) s ms bxid bt b1 b2 b3 ess = Some (s', Err e) ->
  forall q, In q ms -> xid_of (req_msg q) <> bxid ->
    Forall (fun q' => leaves (xid_of (req_msg q)) (req_evs q')) ms -> leaves (xid_of (req_msg q)) (b1 ++ b2 ++ b3) ->
    entry s' (xid_of (req_msg q)).
Proof.
  intros Hv Hx F E0 E q Hq Hne L1 L2. unfold multi in E. rewrite E0 in E.
  destruct (simple_call SBarrierCall (Some v) bxid s1 bt b1 None b2 b3) as [[s2 [ok|e']]|] eqn:E2; try discriminate.
  { destruct (multi_collect s2 xs ess) as [[s3 rs]|]; discriminate. }
  injection E as <- _. unfold entry.
  rewrite (simple_kept (xid_of (req_msg q)) _ _ _ _ _ _ _ _ _ _ _ Hv Hx (not_eq_sym Hne) L2 E2).
  apply (sent_there _ ms s s1 xs F L1 E0). rewrite (sent_entries _ _ _ _ F E0). apply in_map_iff. exists q. auto.
Qed.

Lemma collected x xs : forall s ess s' rs, Forall (leaves x) ess -> multi_collect s xs ess = Some (s', rs) ->
  (dget (sy_map s) x = None -> dget (sy_map s') x = None) /\ (In x xs -> dget (sy_map s') x = None).
Proof.
  induction xs as [|y xs IH]; intros s ess s' rs L E; cbn [multi_collect] in E.
  - injection E as <- _. split; [auto|intros []].
  - destruct ess as [|es ess]; [discriminate|]. inversion L as [|? ? L1 L2]; subst.
    destruct (esteps s es) as [s1|] eqn:E1; [|discriminate]. pose proof (leave_steps x es _ _ L1 E1) as G.
    destruct (dget (sy_map s1) y) as [t|] eqn:Y.
    + destruct (multi_collect (fst (pop s1 y)) xs ess) as [[s2 rs']|] eqn:E2; [|discriminate]. injection E as <- _.
      destruct (IH _ _ _ _ L2 E2) as [A B]. unfold pop in A, E2. rewrite Y in A, E2. cbn [fst sy_map] in A. rewrite dget_dpop in A.
      split.
      * intros H. apply A. destruct (y =? x); [reflexivity|congruence].
      * intros [<-|Hi]; [|exact (B Hi)]. apply A. rewrite Z.eqb_refl. reflexivity.
    + destruct (multi_collect s1 xs ess) as [[s2 rs']|] eqn:E2; [|discriminate]. injection E as <- _.
      destruct (IH _ _ _ _ L2 E2) as [A B]. split.
      * intros H. apply A. congruence.
      * intros [<-|Hi]; [|exact (B Hi)]. apply A. exact Y.
Qed.

Lemma multi_released v s ms bxid bt b1 b2 b3 ess s' rs : Forall (fun q => (8 <= length (req_msg q))%nat) ms ->
  multi (Some v) s ms bxid bt b1 b2 b3 ess = Some (s', Ok rs) ->
  forall q, In q ms -> Forall (leaves (xid_of (req_msg q))) ess -> ~ entry s' (xid_of (req_msg q)).
Proof.
  intros F E q Hq L H. apply H. unfold multi in E.
  destruct (multi_send s ms) as [[s1 [xs|?]]|] eqn:E0; try discriminate.
  destruct (simple_call SBarrierCall (Some v) bxid s1 bt b1 None b2 b3) as [[s2 [ok|e']]|] eqn:E2; try discriminate.
  destruct (multi_collect s2 xs ess) as [[s3 rs']|] eqn:E3; [|discriminate]. injection E as <- _.
  apply (proj2 (collected _ xs s2 ess s3 rs' L E3)). rewrite (sent_entries _ _ _ _ F E0). apply in_map_iff. exists q. auto.
Qed.

(** multi() itself. *)
Lemma sent_nothing ms bt bx : forall s, Forall (fun q => (8 <= length (req_msg q))%nat /\ req_err q = None /\ meanwhile bx bt (req_evs q)) ms ->
  nothing (sy_data s bt) -> exists s1 xs, multi_send s ms = Some (s1, Ok xs) /\ nothing (sy_data s1 bt).
Proof.
  induction ms as [|[[[m t] es] o] ms IH]; intros s F N; cbn [multi_send]; [exists s, []; auto|].
  inversion F as [|? ? (F1 & F2 & F3) F4]; subst. cbn [req_msg req_evs req_err fst snd] in *. subst o.
  rewrite parse_header_spec by exact F1. cbn [h_xid]. fold (xid_of m).
  destruct (meanwhile_steps bx bt es (register s (xid_of m) t) F3) as (s1 & E1 & _ & D1 & _). rewrite E1.
  destruct (IH s1 F4) as (s2 & xs & E2 & N2).
  { cbn [register sy_data] in D1. unfold nothing in *. destruct D1 as [->| ->]; auto. }
  rewrite E2. exists s2, (xid_of m :: xs). auto.
Qed.

Lemma inside_multi v s ms bxid bt b1 b2 b3 ess : 0 <= v < 256 -> 0 <= bxid < 2 ^ 32 -> nothing (sy_data s bt) ->
  Forall (fun q => (8 <= length (req_msg q))%nat /\ req_err q = None /\ meanwhile bxid bt (req_evs q)) ms ->
  meanwhile bxid bt (b1 ++ b2 ++ b3) ->
  exists s1 xs s', multi_send s ms = Some (s1, Ok xs) /\ multi (Some v) s ms bxid bt b1 b2 b3 ess = Some (s', Err ChannelClose).
Proof.
  intros Hv Hx N F M. destruct (sent_nothing ms bt bxid s F N) as (s1 & xs & E & N1).
  destruct (inside_simple SBarrierCall v bxid s1 bt b1 b2 b3 Hv Hx N1 M) as (s' & E').
  exists s1, xs, s'. split; [exact E|]. unfold multi. rewrite E, E'. reflexivity.
Qed.
