(** Properties C28 - C30: the port table. *)

From Verif Require Import Py Struct P_Struct M_Hello M_Sync M_Ports S_Hello S_Ports P_Ports.
Local Open Scope Z_scope.

(** C28. One event: accepted and applied, or rejected without effect. *)
Theorem C28_port_status : forall s v xid reason p l,
  pm_version s = Some v -> 1 <= v <= 4 -> 0 <= xid < 4294967296 -> 0 <= reason < 256 -> sport_ok v p ->
  pm_ports s = map view l -> NoDup (map sp_no l) -> pm_init s = true -> no_waiters s ->
  pm_recv s (port_status v xid reason p) =
  match apply_event l reason p with
  | Some l' => (set_ports s (map view l'), Ok tt)
  | None => (s, Err AssertionError)
  end.
Proof.
  intros s v xid reason p l Hv Hv4 Hx Hr Hok Hp Hn Hi Hw.
  rewrite (status_recv s v) by assumption. apply update_spec; auto. lia.
Qed.
Print Assumptions C28_port_status.

(** Every history of events: the table is the one the switch has, with one
    entry per number.  (Versions 1.0 - 1.3, nobody waiting in wait_attach or
    wait_detach: C29 and C30 show what happens otherwise.) *)
Theorem C28_history_partial : forall v es s l,
  pm_version s = Some v -> 1 <= v <= 4 -> pm_ports s = map view l -> NoDup (map sp_no l) ->
  pm_init s = true -> no_waiters s ->
  Forall (fun e => 0 <= fst (fst e) < 4294967296 /\ 0 <= snd (fst e) < 256 /\ sport_ok v (snd e)) es ->
  let s' := pm_run s (map (fun e => port_status v (fst (fst e)) (snd (fst e)) (snd e)) es) in
  pm_ports s' = map view (table_run l es) /\ NoDup (map sp_no (table_run l es)).
Proof. exact status_history. Qed.
Print Assumptions C28_history_partial.

(** Refuted for events that arrive between the parts of the initial list: the
    deletion of a port listed in the first part is forgotten. *)
Theorem C28_event_between_parts_refuted :
  let p1 := mkSport 1 [0; 0; 0; 0; 0; 1] [101; 49] [0; 0; 0; 0; 0; 0; 0; 0] in
  let p2 := mkSport 2 [0; 0; 0; 0; 0; 2] [101; 50] [0; 0; 0; 0; 0; 0; 0; 0] in
  let s0 := mkPmon (Some 4) [] false [] [] [] in
  let s := pm_run (fst (ports_request s0 7)) [port_desc 4 7 1 [p1]; port_status 4 0 1 p1; port_desc 4 7 0 [p2]] in
  pm_init s = true /\ pm_ports s = map view [p1; p2].
Proof. vm_compute. auto. Qed.
Print Assumptions C28_event_between_parts_refuted.

Example C28_example :
  let p n := mkSport n [0; 0; 0; 0; 0; n] [101; 48 + n] [n; 0; 0; 0; 0; 0; 0; 0] in
  let p2' := mkSport 2 [0; 0; 0; 0; 0; 9] [101; 57] [7; 0; 0; 0; 0; 0; 0; 0] in
  let s := mkPmon (Some 4) (map view [p 1; p 2]) true [] [] [] in
  sport_ok 4 (p 3) /\ NoDup (map sp_no [p 1; p 2]) /\
  pm_ports (pm_run s [port_status 4 0 0 (p 3); port_status 4 0 2 p2'; port_status 4 0 1 (p 1);
                      port_status 4 0 0 (p 3); port_status 4 0 1 (p 8)]) = map view [p2'; p 3].
Proof.
  split; [|split].
  - unfold sport_ok. cbn [sp_no sp_hw sp_name sp_words length]. change (4 =? 1) with false. cbv iota.
    repeat split; try lia.
    + cbn. intros [H|[H|[]]]; lia.
    + repeat constructor; lia.
  - cbn. constructor; [cbn; lia|]. constructor; [cbn; lia|constructor].
  - vm_compute. reflexivity.
Qed.

(** C29. OpenFlow 1.0 - 1.2: the list of a FEATURES_REPLY. *)
Theorem C29_features : forall s v xid fixed l,
  pm_version s = Some v -> 1 <= v <= 3 -> 0 <= xid < 4294967296 -> length fixed = 24%nat ->
  Forall (sport_ok v) l -> 32 + zlen (concat (map (enc_port v) l)) < 65536 -> no_waiters s ->
  pm_recv s (features_reply v xid fixed l) = (set_init (set_ports s (map view l)) true, Ok tt).
Proof. exact features_recv. Qed.
Print Assumptions C29_features.

(** OpenFlow 1.3: a PORT_DESC reply in any number of parts, with other
    messages in between. *)
Theorem C29_port_desc_partial : forall xid ps ms s acc lastf lastl,
  parts xid ps ms ->
  pm_version s = Some 4 -> 0 <= xid < 4294967296 -> dget (pm_multi s) xid = Some acc -> no_waiters s ->
  Forall (fun q => 0 <= fst q < 65536 /\ Z.odd (fst q) = true /\ Forall (sport_ok 4) (snd q) /\
                   16 + zlen (concat (map (enc_port 4) (snd q))) < 65536) ps ->
  0 <= lastf < 65536 -> Z.odd lastf = false -> Forall (sport_ok 4) lastl ->
  16 + zlen (concat (map (enc_port 4) lastl)) < 65536 ->
  let s' := pm_run s (ms ++ [port_desc 4 xid lastf lastl]) in
  pm_ports s' = acc ++ map view (concat (map snd ps) ++ lastl) /\ pm_init s' = true.
Proof. intros xid ps ms s acc lastf lastl H. exact (desc_parts xid ps ms H s acc lastf lastl). Qed.
Print Assumptions C29_port_desc_partial.

(** The request that asks for them (and, from 1.3, the empty list it starts
    from). *)
Theorem C29_request : forall s xid v,
  pm_version s = Some v -> 0 <= v < 256 -> pm_init s = false -> 0 <= xid < 4294967296 ->
  snd (ports_request s xid) =
  Some (Ok (if (v =? 4) || (v =? 5) then [v; 18; 0; 16] ++ be 4 xid ++ [0; 13; 0; 0; 0; 0; 0; 0]
            else [v; 5; 0; 8] ++ be 4 xid)) /\
  ((v =? 4) || (v =? 5) = true -> dget (pm_multi (fst (ports_request s xid))) xid = Some []).
Proof. exact request_spec. Qed.
Print Assumptions C29_request.

(** Refuted for OpenFlow 1.4: whatever ports the switch describes (at least
    40 bytes each), recv() raises or the table has more entries than there
    are ports. *)
Theorem C29_openflow14_refuted : forall s xid flags encs s' r,
  pm_version s = Some 5 -> 0 <= xid < 4294967296 -> 0 <= flags < 65536 -> Z.odd flags = false ->
  dget (pm_multi s) xid = Some [] ->
  encs <> [] -> Forall (fun e => (40 <= length e)%nat) encs -> 16 + zlen (concat encs) < 65536 ->
  pm_recv s (msg 5 19 xid (be 2 13 ++ be 2 flags ++ zeros 4 ++ concat encs)) = (s', r) ->
  r <> Ok tt \/ (length (pm_ports s') > length encs)%nat.
Proof. exact desc14_wrong. Qed.
Print Assumptions C29_openflow14_refuted.

(** ... and a FEATURES_REPLY empties the table. *)
Theorem C29_openflow14_features_refuted : forall s xid fixed,
  pm_version s = Some 5 -> 0 <= xid < 4294967296 -> length fixed = 24%nat -> no_waiters s ->
  pm_recv s (msg 5 6 xid fixed) = (set_init (set_ports s []) true, Ok tt).
Proof. exact features14_wipes. Qed.
Print Assumptions C29_openflow14_features_refuted.

(** ... and a PORT_STATUS announcing a new port adds an entry with a MAC
    address cut at its first zero byte, six bytes of the name (with zero bytes
    if it is shorter), and the rest of the name as config and state. *)
Theorem C29_openflow14_status_refuted : forall s xid no hw name config state props,
  pm_version s = Some 5 -> 0 <= xid < 4294967296 -> 0 <= no < 4294967296 -> length hw = 6%nat ->
  (length name <= 16)%nat -> bytes_ok name -> 56 + zlen props < 65536 ->
  no_waiters s -> Forall (fun q => p_no q <> VInt no) (pm_ports s) ->
  exists c st,
    firstn 8 (skipn 6 (name16 name)) = be 4 c ++ be 4 st /\
    pm_recv s (msg 5 12 xid ([0] ++ zeros 7 ++ enc_port14 no hw name config state props)) =
    (set_ports s (pm_ports s ++
       [mkPort [VInt no; VInt (40 + zlen props); VBytes (before_nul hw);
                VBytes (firstn 6 (name16 name)); VInt c; VInt st] 3]), Ok tt).
Proof. exact status14. Qed.
Print Assumptions C29_openflow14_status_refuted.

(** Asked for by its name, the port is there only if the name has six bytes. *)
Theorem C29_openflow14_name_refuted : forall s xid no hw name config state props,
  pm_version s = Some 5 -> 0 <= xid < 4294967296 -> 0 <= no < 4294967296 -> length hw = 6%nat ->
  (length name <= 16)%nat -> bytes_ok name -> ~ In 0 name -> 56 + zlen props < 65536 ->
  no_waiters s -> pm_ports s = [] ->
  let s' := fst (pm_recv s (msg 5 12 xid ([0] ++ zeros 7 ++ enc_port14 no hw name config state props))) in
  (exists p, wait_attach s' (VBytes name) = (s', Some p)) <-> length name = 6%nat.
Proof.
  intros s xid no hw name config state props Hv Hx Hno Hhw Hn Hb Hz Hp Hw He s'.
  destruct (status14 s xid no hw name config state props) as (c & st & _ & E); try assumption.
  { rewrite He. constructor. }
  assert (K : known s' (VBytes name) =
    (if val_eqb (VBytes (firstn 6 (name16 name))) (VBytes name)
     then Some (mkPort [VInt no; VInt (40 + zlen props); VBytes (before_nul hw);
                VBytes (firstn 6 (name16 name)); VInt c; VInt st] 3) else None)).
  { subst s'. rewrite E. unfold known. cbn [fst pm_ports set_ports]. rewrite He. reflexivity. }
  unfold wait_attach. rewrite K. cbn [val_eqb].
  destruct (list_eq_dec Z.eq_dec (firstn 6 (name16 name)) name) as [E1|E1]; split.
  - intros _. apply (f_equal (@length Z)) in E1. rewrite firstn_length, name16_length in E1 by exact Hn. cbn in E1. lia.
  - intros _. eexists. reflexivity.
  - intros [p H]. discriminate.
  - intros L. exfalso. apply E1. unfold name16. apply firstn_app_l. exact L.
Qed.
Print Assumptions C29_openflow14_name_refuted.

Example C29_openflow14_status_example :
  let s := mkPmon (Some 5) [] true [] [] [] in
  let m := msg 5 12 1 ([0] ++ zeros 7 ++ enc_port14 7 [2; 3; 0; 4; 5; 6] [101; 116; 104; 48] 1 4 []) in
  fst (pm_recv s m) =
    set_ports s [mkPort [VInt 7; VInt 40; VBytes [2; 3]; VBytes [101; 116; 104; 48; 0; 0]; VInt 0; VInt 0] 3] /\
  snd (wait_attach (fst (pm_recv s m)) (VBytes [101; 116; 104; 48])) = None.
Proof. vm_compute. split; reflexivity. Qed.

Example C29_example :
  let p n := mkSport n [2; 0; 0; 0; 0; n] [101; 48 + n] [n; 1; 2; 3; 4; 5] in
  pm_ports (fst (pm_recv (mkPmon (Some 1) [] false [] [] []) (features_reply 1 9 (repeat 255 24) [p 1; p 65534]))) =
    map view [p 1; p 65534] /\
  (let q n := mkSport n [2; 0; 0; 0; 0; n] [101; 48 + n] [n; 1; 2; 3; 4; 5; 6; 7] in
   parts 7 [(1, [q 1; q 2])] [[4; 2; 0; 8; 0; 0; 0; 1]; port_desc 4 7 1 [q 1; q 2]] /\
   pm_ports (pm_run (fst (ports_request (mkPmon (Some 4) [] false [] [] []) 7))
     [[4; 2; 0; 8; 0; 0; 0; 1]; port_desc 4 7 1 [q 1; q 2]; port_desc 4 7 0 [q 3]]) = map view [q 1; q 2; q 3]) /\
  (* OpenFlow 1.4: three 40-byte ports are read as four *)
  length (pm_ports (fst (pm_recv (fst (ports_request (mkPmon (Some 5) [] false [] [] []) 7))
    (msg 5 19 7 (be 2 13 ++ be 2 0 ++ zeros 4 ++
      concat (map (fun n => enc_port14 n [2; 0; 0; 0; 0; n] [101; 48 + n] 0 0 []) [1; 2; 3])))))) = 4%nat.
Proof.
  split; [vm_compute; reflexivity|]. split; [|vm_compute; reflexivity]. split; [|vm_compute; reflexivity].
  apply parts_other; try (cbn; lia). apply parts_part. apply parts_nil.
Qed.

(** C30 refuted: for every state in which somebody waits for the number or
    the name of a port, the PORT_STATUS announcing it raises TypeError and
    leaves the table as it was. *)
Theorem C30_attach_waiter_refuted : forall s v xid p,
  pm_version s = Some v -> 1 <= v <= 4 -> 0 <= xid < 4294967296 -> sport_ok v p ->
  (pm_init s = true -> forall q, In q (pm_ports s) -> p_no q <> VInt (sp_no p)) ->
  (has_key (pm_attach s) (VInt (sp_no p)) = true \/ has_key (pm_attach s) (VBytes (sp_name p)) = true) ->
  pm_recv s (port_status v xid 0 p) = (s, Err TypeError).
Proof. exact waiter_breaks_update. Qed.
Print Assumptions C30_attach_waiter_refuted.

(** ... likewise for a port that goes away while somebody waits for that: it
    stays in the table ... *)
Theorem C30_detach_waiter_refuted : forall s v xid p q l,
  pm_version s = Some v -> 1 <= v <= 4 -> 0 <= xid < 4294967296 -> sport_ok v p ->
  pm_ports s = map view l -> NoDup (map sp_no l) -> In q l -> sp_no q = sp_no p ->
  (has_key (pm_detach s) (VInt (sp_no p)) = true \/ has_key (pm_detach s) (VBytes (sp_name p)) = true) ->
  pm_recv s (port_status v xid 1 p) = (s, Err TypeError).
Proof. exact waiter_breaks_detach. Qed.
Print Assumptions C30_detach_waiter_refuted.

(** ... and for one that is in the initial list: the whole list is lost, and
    the table still counts as not yet there. *)
Theorem C30_initial_waiter_refuted : forall s v xid fixed l p,
  pm_version s = Some v -> 1 <= v <= 3 -> 0 <= xid < 4294967296 -> length fixed = 24%nat ->
  Forall (sport_ok v) l -> 32 + zlen (concat (map (enc_port v) l)) < 65536 ->
  pm_ports s = [] -> In p l ->
  (has_key (pm_attach s) (VInt (sp_no p)) = true \/ has_key (pm_attach s) (VBytes (sp_name p)) = true) ->
  pm_recv s (features_reply v xid fixed l) = (s, Err TypeError).
Proof. exact waiter_breaks_list. Qed.
Print Assumptions C30_initial_waiter_refuted.

Theorem C30_initial_waiter13_refuted : forall s xid flags acc l p,
  pm_version s = Some 4 -> 0 <= xid < 4294967296 -> 0 <= flags < 65536 -> Z.odd flags = false ->
  dget (pm_multi s) xid = Some acc ->
  Forall (sport_ok 4) l -> 16 + zlen (concat (map (enc_port 4) l)) < 65536 ->
  pm_ports s = [] -> In p l ->
  (has_key (pm_attach s) (VInt (sp_no p)) = true \/ has_key (pm_attach s) (VBytes (sp_name p)) = true) ->
  exists s', pm_recv s (port_desc 4 xid flags l) = (s', Err TypeError) /\ pm_ports s' = [] /\ pm_init s' = pm_init s.
Proof. exact waiter_breaks_desc. Qed.
Print Assumptions C30_initial_waiter13_refuted.

(** The list of ports replacing any table, with any waiters: some port, by its
    number or by its name, is in [new] and not in [old], and somebody waits for
    that number or name. *)
Definition noticed (old new : list sport) (waiters : list pyval) : Prop :=
  exists p, In p new /\
    ((~ In (sp_no p) (map sp_no old) /\ In (VInt (sp_no p)) waiters) \/
     (~ In (sp_name p) (map sp_name old) /\ In (VBytes (sp_name p)) waiters)).

Lemma has_int l n : has_key l (VInt n) = true <-> In (VInt n) l.
Proof.
  unfold has_key. rewrite existsb_exists. split.
  - intros [v [Hv E]]. destruct v; try discriminate. cbn in E. apply Z.eqb_eq in E. subst. exact Hv.
  - intros H. exists (VInt n). split; [exact H|]. cbn. lia.
Qed.

Lemma has_bytes l b : has_key l (VBytes b) = true <-> In (VBytes b) l.
Proof.
  unfold has_key. rewrite existsb_exists. split.
  - intros [v [Hv E]]. destruct v; try discriminate. cbn in E. destruct (list_eq_dec Z.eq_dec b b0); [|discriminate].
    subst. exact Hv.
  - intros H. exists (VBytes b). split; [exact H|]. cbn. destruct (list_eq_dec Z.eq_dec b b); congruence.
Qed.

Lemma inb_no l p : inb (map p_no (map view l)) (p_no (view p)) = true <-> In (sp_no p) (map sp_no l).
Proof.
  change (p_no (view p)) with (VInt (sp_no p)). unfold inb. rewrite has_int, map_map, !in_map_iff.
  split; intros [q [E H]]; exists q; split; auto; cbn in *; congruence.
Qed.

Lemma inb_name l p : inb (map p_name (map view l)) (p_name (view p)) = true <-> In (sp_name p) (map sp_name l).
Proof.
  change (p_name (view p)) with (VBytes (sp_name p)). unfold inb. rewrite has_bytes, map_map, !in_map_iff.
  split; intros [q [E H]]; exists q; split; auto; cbn in *; congruence.
Qed.

Definition meets (old : list sport) (w : list pyval) (p : port) : res unit :=
  _ <- (if negb (inb (map p_no (map view old)) (p_no p)) then notify w [p_no p] else Ok tt) ;;
  (if negb (inb (map p_name (map view old)) (p_name p)) then notify w [p_name p] else Ok tt).

Lemma meets_type old w p : meets old w p = Ok tt \/ meets old w p = Err TypeError.
Proof.
  unfold meets. repeat match goal with |- context [if ?c then _ else _] => destruct c end; cbn [bind];
    repeat match goal with |- context [bind (notify ?l ?k) _] => destruct (notify_type l k) as [-> | ->]; cbn [bind] end;
    auto using notify_type.
Qed.

Lemma meets_err old w p : meets old w (view p) = Err TypeError <->
  ((~ In (sp_no p) (map sp_no old) /\ In (VInt (sp_no p)) w) \/
   (~ In (sp_name p) (map sp_name old) /\ In (VBytes (sp_name p)) w)).
Proof.
  rewrite <- (inb_no old p), <- (inb_name old p), <- has_int, <- has_bytes. unfold meets, notify. cbn [existsb].
  change (p_no (view p)) with (VInt (sp_no p)). change (p_name (view p)) with (VBytes (sp_name p)).
  destruct (inb _ (VInt _)); destruct (inb _ (VBytes _)); destruct (has_key w (VInt _)); destruct (has_key w (VBytes _));
    cbn; intuition discriminate.
Qed.

Lemma all_meet old w l :
  (noticed old l w /\ first_err (meets old w) (map view l) = Err TypeError) \/
  (~ noticed old l w /\ first_err (meets old w) (map view l) = Ok tt).
Proof.
  induction l as [|p l IH]; cbn [map first_err].
  - right. split; [|reflexivity]. intros [p [[] _]].
  - destruct (meets_type old w (view p)) as [E|E]; rewrite E; cbn [bind].
    + assert (N : ~ ((~ In (sp_no p) (map sp_no old) /\ In (VInt (sp_no p)) w) \/
                     (~ In (sp_name p) (map sp_name old) /\ In (VBytes (sp_name p)) w)))
        by (rewrite <- meets_err, E; discriminate).
      destruct IH as [[[q [Hq H]] F]|[H F]]; rewrite F; [left|right]; (split; [|reflexivity]).
      * exists q. split; [right; exact Hq|exact H].
      * intros [q [[<-|Hq] Hh]]; [exact (N Hh)|]. apply H. exists q. auto.
    + left. split; [|reflexivity]. exists p. split; [left; reflexivity|]. apply meets_err. exact E.
Qed.

Lemma replaced s old l : pm_ports s = map view old ->
  ((noticed l old (pm_detach s) \/ noticed old l (pm_attach s)) /\ replace_and_set s (map view l) = (s, Err TypeError)) \/
  ((~ noticed l old (pm_detach s) /\ ~ noticed old l (pm_attach s)) /\
   replace_and_set s (map view l) = (set_init (set_ports s (map view l)) true, Ok tt)).
Proof.
  intros Hp. unfold replace_and_set, ports_replace. rewrite Hp.
  change (first_err _ (map view old)) with (first_err (meets l (pm_detach s)) (map view old)).
  change (first_err (fun p => _ <- (if negb (inb (map p_no (map view old)) _) then _ else _) ;; _) (map view l))
    with (first_err (meets old (pm_attach s)) (map view l)).
  destruct (all_meet l (pm_detach s) old) as [[H ->]|[H ->]]; cbn [bind]; [left; split; [auto|reflexivity]|].
  destruct (all_meet old (pm_attach s) l) as [[H2 ->]|[H2 ->]]; [left; split; [auto|reflexivity]|].
  right. split; [auto|reflexivity].
Qed.

Theorem C30_list_exactly_refuted : forall s v xid fixed old l,
  pm_version s = Some v -> 1 <= v <= 3 -> 0 <= xid < 4294967296 -> length fixed = 24%nat ->
  Forall (sport_ok v) l -> 32 + zlen (concat (map (enc_port v) l)) < 65536 ->
  pm_ports s = map view old ->
  (* somebody waits for a port that has gone or come: the loop ends *)
  (noticed l old (pm_detach s) \/ noticed old l (pm_attach s) ->
   pm_recv s (features_reply v xid fixed l) = (s, Err TypeError)) /\
  (* otherwise the list is the table *)
  (~ noticed l old (pm_detach s) -> ~ noticed old l (pm_attach s) ->
   pm_recv s (features_reply v xid fixed l) = (set_init (set_ports s (map view l)) true, Ok tt)).
Proof.
  intros s v xid fixed old l Hv Hv3 Hx Hfx Hok Hlen Hp. rewrite (features_read s v) by assumption.
  destruct (replaced s old l Hp) as [[H ->]|[[H1 H2] ->]]; split; intros; tauto.
Qed.
Print Assumptions C30_list_exactly_refuted.

Example C30_list_exactly_example :
  let p n := mkSport n [0; 0; 0; 0; 0; 3] [101; 48 + n] [0; 0; 0; 0; 0; 0] in
  let s d := mkPmon (Some 1) [view (p 1); view (p 2)] true [] [] [VInt d] in
  (* port 2 goes and 3 comes: one waiting for 2 to go is not served, one waiting for 1 does no harm *)
  pm_recv (s 2) (features_reply 1 9 (repeat 0 24) [p 1; p 3]) = (s 2, Err TypeError) /\
  pm_recv (s 1) (features_reply 1 9 (repeat 0 24) [p 1; p 3]) = (set_ports (s 1) [view (p 1); view (p 3)], Ok tt).
Proof. vm_compute. split; reflexivity. Qed.

(** What does work: asking for a port that is there (or, for wait_detach, is
    not) returns at once. *)
Theorem C30_already_there_partial : forall s l p,
  pm_ports s = map view l -> In p l ->
  (exists q, In q l /\ wait_attach s (VInt (sp_no p)) = (s, Some (view q)) /\
             (sp_no q = sp_no p)) /\
  (forall n, ~ In n (map sp_no l) -> wait_detach s (VInt n) = (s, Some (VInt n))).
Proof.
  intros s l p Hp Hin. unfold wait_attach, wait_detach, known. rewrite Hp. clear Hp.
  assert (Hf : forall n l, find (fun p => val_eqb (p_no p) (VInt n) || val_eqb (p_name p) (VInt n)) (map view l) =
               option_map view (find (fun q => sp_no q =? n) l)).
  { clear. intros n l. induction l as [|q l IH]; [reflexivity|]. cbn [map find].
    change (val_eqb (p_no (view q)) (VInt n)) with (sp_no q =? n).
    change (val_eqb (p_name (view q)) (VInt n)) with false. rewrite orb_false_r.
    destruct (sp_no q =? n); [reflexivity|exact IH]. }
  split.
  - rewrite Hf. destruct (find (fun q => sp_no q =? sp_no p) l) as [q|] eqn:E.
    + apply find_some in E. exists q. split; [tauto|]. split; [reflexivity|]. lia.
    + exfalso. pose proof (find_none _ _ E p Hin) as H. cbn in H. lia.
  - intros n Hn. rewrite Hf. destruct (find (fun q => sp_no q =? n) l) as [q|] eqn:E; [|reflexivity].
    exfalso. apply find_some in E. apply Hn. apply in_map_iff. exists q. split; [lia|tauto].
Qed.
Print Assumptions C30_already_there_partial.

Example C30_example :
  let p := mkSport 3 [0; 0; 0; 0; 0; 3] [101; 51] [0; 0; 0; 0; 0; 0; 0; 0] in
  let s := fst (wait_attach (mkPmon (Some 4) [] true [] [] []) (VBytes [101; 51])) in
  has_key (pm_attach s) (VBytes (sp_name p)) = true /\
  pm_recv s (port_status 4 0 0 p) = (s, Err TypeError) /\
  (* the same for wait_detach, and for the initial list *)
  (let s2 := fst (wait_detach (mkPmon (Some 4) [view p] true [] [] []) (VInt 3)) in
   pm_recv s2 (port_status 4 0 1 p) = (s2, Err TypeError)) /\
  snd (pm_recv (fst (wait_attach (mkPmon (Some 1) [] false [] [] []) (VInt 3)))
     (features_reply 1 9 (repeat 0 24) [mkSport 3 [0; 0; 0; 0; 0; 3] [101; 51] [0; 0; 0; 0; 0; 0]])) = Err TypeError.
Proof. vm_compute. auto. Qed.
