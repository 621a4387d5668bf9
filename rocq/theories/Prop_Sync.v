(** Properties C23 - C27: synchronous calls. *)

From Verif Require Import Py Struct M_Hello M_Loop M_Controller M_Sync S_Hello S_Loop S_Controller S_Sync P_Controller P_Sync P_Multi.
Local Open Scope Z_scope.

(** C23. For every state, every schedule of the reader and of other callers
    that use other transaction ids: the call returns (no KeyError), and its
    result is what the messages of its own transaction received during the
    call amount to, in order; at most the last of them (still in the reader's
    hands) is missing.  [collect []] is None.  Partial: the distinctness of
    the transaction ids of concurrent calls is assumed ([fresh], [rely]). *)
Theorem C23_own_replies_only_partial : forall s m t e1 e2 e3 s' r,
  (8 <= length m)%nat -> fresh s (xid_of m) t ->
  rely (xid_of m) t (e1 ++ e2 ++ e3) ->
  send_sync s m t e1 None e2 e3 = Some (s', r) ->
  exists l tail, r = Ok (collect l) /\
    mine (xid_of m) (received (e1 ++ e2)) = l ++ tail /\ (length tail <= 1)%nat.
Proof.
  intros s m t e1 e2 e3 s' r Hl Hf Hr H.
  destruct (send_sync_result _ _ _ _ _ _ _ _ Hl Hf Hr H) as (l & tail & H1 & H2 & H3 & _). eauto.
Qed.
Print Assumptions C23_own_replies_only_partial.

Theorem C23_none_without_reply : forall s m t e1 e2 e3 s' r,
  (8 <= length m)%nat -> fresh s (xid_of m) t ->
  rely (xid_of m) t (e1 ++ e2 ++ e3) ->
  mine (xid_of m) (received (e1 ++ e2)) = [] ->
  send_sync s m t e1 None e2 e3 = Some (s', r) -> r = Ok None.
Proof.
  intros s m t e1 e2 e3 s' r Hl Hf Hr Hn H.
  destruct (send_sync_result _ _ _ _ _ _ _ _ Hl Hf Hr H) as (l & tail & -> & H2 & _).
  rewrite Hn in H2. symmetry in H2. apply app_eq_nil in H2. destruct H2 as [-> ->]. reflexivity.
Qed.
Print Assumptions C23_none_without_reply.

(** The call does return in every schedule that gets to its end. *)
Theorem C23_returns : forall s m t e1 e2 e3 s2,
  (8 <= length m)%nat -> fresh s (xid_of m) t -> rely (xid_of m) t (e1 ++ e2 ++ e3) ->
  esteps (register s (xid_of m) t) (e1 ++ e2) = Some s2 ->
  (exists s4, esteps (fst (pop s2 (xid_of m))) e3 = Some s4) ->
  exists s' d, send_sync s m t e1 None e2 e3 = Some (s', Ok d).
Proof. exact send_sync_total. Qed.
Print Assumptions C23_returns.

(** Refuted without distinct transaction ids: two callers using the same one,
    the second registering and finishing while the first waits.  The reply
    goes to the second; the first fails with KeyError. *)
Theorem C23_duplicate_xid_refuted :
  let m := [4; 5; 0; 8; 0; 0; 0; 7] in
  let reply := [4; 6; 0; 8; 0; 0; 0; 7] in
  exists s', send_sync sync_new m 0 [] None
    [OPut 7 1%nat; RTest reply; RLookup; RStore; RSignal; OPop 7] [] = Some (s', Err KeyError) /\
    sy_data s' 1%nat = Some reply /\ sy_data s' 0%nat = None.
Proof. vm_compute. eexists. repeat split. Qed.
Print Assumptions C23_duplicate_xid_refuted.

(** A second defect: a call giving up (time-out) between the reader's test
    and its lookup makes the reader, and with it the receive loop of the whole
    channel, fail with KeyError - for every transaction and reply. *)
Theorem C23_reader_killed_by_timeout_refuted : forall s m,
  (8 <= length m)%nat -> sy_reader s = RIdle -> dget (sy_map s) (xid_of m) <> None ->
  exists s', esteps s [RTest m; OPop (xid_of m); RLookup] = Some s' /\ sy_reader s' = RCrashed KeyError.
Proof.
  intros s m Hl Hr Hg. cbn [esteps estep]. rewrite Hr, P_Hello.parse_header_spec by exact Hl. cbn [h_xid].
  fold (xid_of m). destruct (dget (sy_map s) (xid_of m)); [|congruence]. cbn [sy_reader sy_map].
  rewrite P_Hello.parse_header_spec by exact Hl. cbn [h_xid]. fold (xid_of m). rewrite dget_dpop, Z.eqb_refl.
  eexists. split; reflexivity.
Qed.
Print Assumptions C23_reader_killed_by_timeout_refuted.

(** A schedule with foreign traffic before and after the reply. *)
Example C23_example :
  let m := [4; 5; 0; 8; 0; 0; 0; 7] in
  let e1 := [OPut 8 1%nat; RTest [4; 6; 0; 8; 0; 0; 0; 8]; RLookup; RStore] in
  let e2 := [RSignal; RTest [4; 10; 0; 8; 0; 0; 0; 0]; RTest [4; 6; 0; 9; 0; 0; 0; 7; 1]; RLookup; OPop 8; RStore; RSignal] in
  fresh sync_new 7 0%nat /\ rely 7 0%nat (e1 ++ e2 ++ []) /\
  option_map snd (send_sync sync_new m 0 e1 None e2 []) = Some (Ok (Some [4; 6; 0; 9; 0; 0; 0; 7; 1])).
Proof.
  split; [|split].
  - unfold fresh. cbn. repeat split; discriminate || reflexivity.
  - cbv beta zeta. cbn [Datatypes.app]. unfold rely. repeat (apply Forall_cons; [cbn; auto; lia|]). constructor.
  - vm_compute. reflexivity.
Qed.

(** C24. Parts of a multipart reply, interleaved with anything: once the
    caller has been woken, the result is the concatenation of all parts. *)
Theorem C24_multipart_complete : forall s m t e1 e2 e3 s' r s2 parts last,
  (8 <= length m)%nat -> fresh s (xid_of m) t -> rely (xid_of m) t (e1 ++ e2 ++ e3) ->
  esteps (register s (xid_of m) t) (e1 ++ e2) = Some s2 -> sy_ev s2 t = true ->
  mine (xid_of m) (received (e1 ++ e2)) = parts ++ [last] ->
  Forall (fun p => multipart p = true /\ more p = true) parts -> multipart last = true ->
  send_sync s m t e1 None e2 e3 = Some (s', r) ->
  r = Ok (Some (concat parts ++ last)).
Proof. exact multipart_result. Qed.
Print Assumptions C24_multipart_complete.

(** The caller is not woken before the part without the MORE flag ... *)
Theorem C24_not_woken_early : forall s m t es s2,
  (8 <= length m)%nat -> fresh s (xid_of m) t -> rely (xid_of m) t es ->
  esteps (register s (xid_of m) t) es = Some s2 ->
  existsb final (mine (xid_of m) (received es)) = false -> sy_ev s2 t = false.
Proof. exact not_woken_early. Qed.
Print Assumptions C24_not_woken_early.

(** ... and it is as soon as the reader is done with that part. *)
Theorem C24_woken : forall s m t es s2,
  (8 <= length m)%nat -> fresh s (xid_of m) t -> rely (xid_of m) t es ->
  esteps (register s (xid_of m) t) es = Some s2 -> sy_reader s2 = RIdle ->
  existsb final (mine (xid_of m) (received es)) = true -> sy_ev s2 t = true.
Proof. exact woken. Qed.
Print Assumptions C24_woken.

Example C24_example :
  let m := [4; 18; 0; 8; 0; 0; 0; 7] in
  let p1 := [4; 19; 0; 13; 0; 0; 0; 7; 0; 1; 0; 1; 65] in
  let p2 := [4; 19; 0; 13; 0; 0; 0; 7; 0; 1; 0; 0; 66] in
  let e2 := [RTest p1; RLookup; RStore; RTest [4; 2; 0; 8; 0; 0; 0; 1]; RTest p2; RLookup; RStore; RSignal] in
  mine 7 (received e2) = [p1] ++ [p2] /\ multipart p1 = true /\ more p1 = true /\ multipart p2 = true /\ more p2 = false /\
  option_map (fun s => sy_ev s 0%nat) (esteps (register sync_new 7 0) (firstn 7 e2)) = Some false /\
  option_map (fun s => sy_ev s 0%nat) (esteps (register sync_new 7 0) e2) = Some true /\
  option_map snd (send_sync sync_new m 0 [] None e2 []) = Some (Ok (Some (p1 ++ p2))).
Proof. vm_compute. repeat split. Qed.

(** C25. multi() with distinct new transaction ids: one result per message;
    entry i is what the messages of the i-th transaction received before the
    barrier's reply (and possibly some received after it, before the entry is
    read) amount to. *)
Theorem C25_multi_partial : forall v s ms bxid bt b1 b2 b3 ess s' rs,
  0 <= v < 256 -> 0 <= bxid < 2 ^ 32 ->
  Forall (fun q => (8 <= length (req_msg q))%nat) ms ->
  multi_env s ms bxid bt b1 b2 b3 ess ->
  multi (Some v) s ms bxid bt b1 b2 b3 ess = Some (s', Ok rs) ->
  length rs = length ms /\
  forall i q, nth_error ms i = Some q ->
  exists A bm B l,
    received (since i ms b1 b2 b3 ess) = A ++ bm :: B /\
    xid_of bm = bxid /\ byte_at bm 1 = reply_type SBarrierCall v /\
    nth_error rs i = Some (collect (mine (xid_of (req_msg q)) A ++ l)) /\
    prefix l (mine (xid_of (req_msg q)) B).
Proof. exact multi_results. Qed.
Print Assumptions C25_multi_partial.

Theorem C25_single : forall v s q bxid bt b1 b2 b3 ess s' r,
  0 <= v < 256 -> 0 <= bxid < 2 ^ 32 -> (8 <= length (req_msg q))%nat ->
  multi_env s [q] bxid bt b1 b2 b3 ess ->
  single (Some v) s q bxid bt b1 b2 b3 ess = Some (s', Ok r) ->
  exists A bm B l,
    received (req_evs q ++ b1 ++ b2 ++ b3 ++ concat (firstn 1 ess)) = A ++ bm :: B /\
    xid_of bm = bxid /\ byte_at bm 1 = reply_type SBarrierCall v /\
    r = collect (mine (xid_of (req_msg q)) A ++ l) /\ prefix l (mine (xid_of (req_msg q)) B).
Proof. exact single_result. Qed.
Print Assumptions C25_single.

(** Refuted when two messages carry the same transaction id: the first entry
    takes the data of the second message, the second is None. *)
Theorem C25_duplicate_xid_refuted :
  let m := [4; 18; 0; 8; 0; 0; 0; 7] in
  let r1 := [4; 6; 0; 9; 0; 0; 0; 7; 1] in
  let r2 := [4; 6; 0; 9; 0; 0; 0; 7; 2] in
  let bar := [4; 21; 0; 8; 0; 0; 0; 9] in
  option_map snd (multi (Some 4) sync_new [(m, 0%nat, [], None); (m, 1%nat, [], None)] 9 2%nat
    [] [RTest r1; RLookup; RStore; RSignal; RTest r2; RLookup; RStore; RSignal; RTest bar; RLookup; RStore; RSignal] []
    [[]; []]) = Some (Ok [Some r2; None]).
Proof. vm_compute. reflexivity. Qed.
Print Assumptions C25_duplicate_xid_refuted.

Example C25_example :
  let m1 := [4; 5; 0; 8; 0; 0; 0; 7] in let m2 := [4; 14; 0; 8; 0; 0; 0; 8] in let m3 := [4; 7; 0; 8; 0; 0; 0; 10] in
  let r1 := [4; 6; 0; 9; 0; 0; 0; 7; 1] in let r3 := [4; 8; 0; 9; 0; 0; 0; 10; 2] in
  let bar := [4; 21; 0; 8; 0; 0; 0; 9] in
  let ms := [(m1, 0%nat, [RTest [4; 2; 0; 8; 0; 0; 0; 0]], None); (m2, 1%nat, [RTest r1; RLookup; RStore], None); (m3, 3%nat, [RSignal], None)] in
  let b2 := [RTest r3; RLookup; RStore; RSignal; RTest bar; RLookup; RStore; RSignal] in
  multi_env sync_new ms 9 2%nat [] b2 [] [[]; []; []] /\
  option_map snd (multi (Some 4) sync_new ms 9 2%nat [] b2 [] [[]; []; []]) = Some (Ok [Some r1; None; Some r3]).
Proof.
  split; [|vm_compute; reflexivity]. unfold multi_env. split; [|split].
  - vm_compute. repeat (constructor; [intros H; repeat (destruct H as [H|H]; [discriminate|]); exact H|]). constructor.
  - vm_compute. repeat (constructor; [intros H; repeat (destruct H as [H|H]; [discriminate|]); exact H|]). constructor.
  - intros x t _. split.
    + unfold fresh. cbn. repeat split; discriminate || reflexivity.
    + cbn [map req_evs fst snd concat Datatypes.app]. unfold rely. repeat (apply Forall_cons; [exact I|]). constructor.
Qed.

(** C26. close() sets the event of every registered call and empties its
    result; the event stays set whatever happens next. *)
Theorem C26_close_releases : forall s x t s' es s2,
  dget (sy_map s) x = Some t -> estep s OClose = Some s' ->
  sy_data s' t = Some [] /\ sy_ev s' t = true /\ (esteps s' es = Some s2 -> sy_ev s2 t = true).
Proof.
  intros s x t s' es s2 Hg Hc. destruct (close_releases _ _ _ _ Hg Hc) as [H1 H2].
  split; [exact H1|]. split; [exact H2|]. intros H. exact (event_stays _ _ _ _ H H2).
Qed.
Print Assumptions C26_close_releases.

(** The call then returns the empty string, and a simple call raises
    ChannelClose, unless the reader was just storing its reply or one arrives
    after the close. *)
Theorem C26_close_result_partial : forall s m t e1 e2a e2b e3 s1 s' r,
  (8 <= length m)%nat -> fresh s (xid_of m) t ->
  rely_close (xid_of m) t (e1 ++ e2a ++ e2b ++ e3) ->
  esteps (register s (xid_of m) t) (e1 ++ e2a) = Some s1 ->
  match sy_reader s1 with RHit h => xid_of h <> xid_of m | RGot _ t' => t' <> t | _ => True end ->
  mine (xid_of m) (received (e2b ++ e3)) = [] ->
  send_sync s m t e1 None (e2a ++ OClose :: e2b) e3 = Some (s', r) ->
  r = Ok (Some []) /\ forall ty, check_simple ty (Some []) = Err ChannelClose.
Proof. intros. split; [eapply close_result; eauto|reflexivity]. Qed.
Print Assumptions C26_close_result_partial.

(** Refuted: a call whose registration comes after the loop of close() is not
    released by it: without a reply its event is never set. *)
Theorem C26_late_registration_refuted : forall s m t es s0 s2,
  (8 <= length m)%nat -> estep s OClose = Some s0 -> fresh s0 (xid_of m) t -> rely (xid_of m) t es ->
  existsb final (mine (xid_of m) (received es)) = false ->
  esteps (register s0 (xid_of m) t) es = Some s2 -> sy_ev s2 t = false.
Proof. intros s m t es s0 s2 Hl _ Hf Hr Hn H. exact (not_woken_early _ _ _ _ _ Hl Hf Hr H Hn). Qed.
Print Assumptions C26_late_registration_refuted.

Example C26_example :
  let m := [4; 5; 0; 8; 0; 0; 0; 7] in
  option_map snd (send_sync sync_new m 0 [OPut 8 1%nat] None [RTest [4; 6; 0; 8; 0; 0; 0; 8]; RLookup; OClose; RStore] []) =
    Some (Ok (Some [])) /\
  option_map snd (simple_call SFeature (Some 4) 7 sync_new 0 [] None [OClose] []) = Some (Err ChannelClose) /\
  (* the race with a reader that already has the reply *)
  option_map snd (simple_call SFeature (Some 4) 7 sync_new 0 []
     None [RTest [4; 6; 0; 8; 0; 0; 0; 7]; RLookup; OClose; RStore] []) = Some (Ok [4; 6; 0; 8; 0; 0; 0; 7]).
Proof. vm_compute. auto. Qed.

(** C27. For every schedule, closes included: a simple call returns data
    beginning with a received message of its own transaction that has the
    expected type, or raises ChannelClose, or (reply of another type)
    NameError. *)
Theorem C27_simple_call_partial : forall k v x s t e1 e2 e3 s' r,
  0 <= v < 256 -> 0 <= x < 2 ^ 32 -> fresh s x t -> rely_close x t (e1 ++ e2 ++ e3) ->
  simple_call k (Some v) x s t e1 None e2 e3 = Some (s', r) ->
  r = Err ChannelClose \/
  exists bm rest, In bm (mine x (received (e1 ++ e2 ++ e3))) /\ (8 <= length bm)%nat /\
    r = (if byte_at bm 1 =? reply_type k v then Ok (bm ++ rest) else Err NameError).
Proof. exact simple_result. Qed.
Print Assumptions C27_simple_call_partial.

(** Conversely, when the caller was woken by the only message of its
    transaction, the result is that message if it has the expected type. *)
Theorem C27_reply_returned : forall k v x s t e1 e2 e3 s' r s2 bm,
  0 <= v < 256 -> 0 <= x < 2 ^ 32 -> fresh s x t -> rely x t (e1 ++ e2 ++ e3) ->
  esteps (register s x t) (e1 ++ e2) = Some s2 -> sy_ev s2 t = true ->
  mine x (received (e1 ++ e2)) = [bm] ->
  simple_call k (Some v) x s t e1 None e2 e3 = Some (s', r) ->
  r = if byte_at bm 1 =? reply_type k v then Ok bm else Err NameError.
Proof. exact simple_complete. Qed.
Print Assumptions C27_reply_returned.

(** What is put on the wire for it. *)
Theorem C27_request : forall k v x, 0 <= v < 256 -> 0 <= x < 2 ^ 32 ->
  let '(rq, rs) := simple_types k (Some v) in
  ofp_header_only rq (VInt v) x = Ok (request k v x) /\ rs = reply_type k v.
Proof. intros k v x Hv Hx. exact (proj1 (simple_request k v x Hv Hx)). Qed.
Print Assumptions C27_request.

(** Refuted clause: an error message of the switch gives NameError, not
    OpenflowError. *)
Theorem C27_error_reply_refuted :
  let err := [4; 1; 0; 12; 0; 0; 0; 7; 0; 1; 0; 0] in
  option_map snd (simple_call SGetConfig (Some 4) 7 sync_new 0 [] None [RTest err; RLookup; RStore; RSignal] []) =
    Some (Err NameError).
Proof. vm_compute. reflexivity. Qed.
Print Assumptions C27_error_reply_refuted.

Example C27_example :
  fresh sync_new 7 0%nat /\
  option_map snd (simple_call SBarrierCall (Some 1) 7 sync_new 0 [] None
    [RTest [1; 19; 0; 8; 0; 0; 0; 7]; RLookup; RStore; RSignal] []) = Some (Ok [1; 19; 0; 8; 0; 0; 0; 7]) /\
  option_map snd (simple_call SBarrierCall (Some 4) 7 sync_new 0 [] None [RTest [4; 21; 0; 8; 0; 0; 0; 8]] []) =
    Some (Err ChannelClose).
Proof. split; [unfold fresh; cbn; repeat split; discriminate || reflexivity|vm_compute; auto]. Qed.
