(** Properties C06-C11: HELLO, version negotiation, transaction ids
    (twink/base.py:207-313). *)

From Coq Require Import Permutation.
From Verif Require Import Py Struct M_Hello S_Hello P_Hello P_Negotiate.
Local Open Scope Z_scope.

(** C06. parse_hello(hello(vs)) is the accepted set, or the singleton of its
    maximum when that is below 4. *)
Theorem C06_hello_roundtrip : forall vs xid,
  versions_ok vs -> u32 xid ->
  exists m s mx, hello vs xid = Ok m /\ parse_hello m = Ok s /\ is_max mx (accepts vs) /\
    (4 <= mx -> forall v, In v s <-> accepts vs v) /\ (mx < 4 -> s = [mx]).
Proof. exact hello_roundtrip. Qed.
Print Assumptions C06_hello_roundtrip.

Example C06_example :
  versions_ok (VsSeq [VI 1; VF (Some 13); VI 200]) /\ u32 7 /\
  (m <- hello (VsSeq [VI 1; VF (Some 13); VI 200]) 7 ;; parse_hello m) = Ok [1; 4; 200].
Proof.
  split; [|split].
  - constructor; [exists 1; split; [left; reflexivity|lia]|].
    constructor; [exists 4; split; [right; split; [reflexivity|lia]|lia]|].
    constructor; [exists 200; split; [left; reflexivity|lia]|]. constructor.
  - unfold u32. lia.
  - vm_compute. reflexivity.
Qed.

(** C07. The wire form, including an exact account of when the length is a
    multiple of 8. *)
Theorem C07_hello_wire_partial : forall vs xid m,
  versions_ok vs -> u32 xid -> hello vs xid = Ok m ->
  exists mx, is_max mx (accepts vs) /\
    u16_at m 2 = zlen m /\ byte_at m 0 = mx /\ byte_at m 1 = 0 /\
    of_be (slice m 4 8) = xid /\
    (mx < 4 -> zlen m = 8) /\
    (4 <= mx -> u16_at m 8 = 1 /\ u16_at m 10 = 4 + 4 * (1 + mx / 32)) /\
    (zlen m mod 8 = 0 <-> mx < 4 \/ mx / 32 mod 2 = 0).
Proof. exact hello_wire. Qed.
Print Assumptions C07_hello_wire_partial.

(** C07, last clause refuted: a version set reaching 32 gives 28 bytes. *)
Theorem C07_multiple_of_8_refuted : exists vs xid m,
  versions_ok vs /\ u32 xid /\ hello vs xid = Ok m /\ zlen m = 28 /\ zlen m mod 8 <> 0.
Proof.
  exists (VsSeq [VI 4; VI 32]), 1. eexists.
  split; [|split; [|split; [vm_compute; reflexivity|split; [vm_compute; reflexivity|vm_compute; discriminate]]]].
  - cbn. repeat constructor; eexists; (split; [left; reflexivity|lia]).
  - unfold u32; lia.
Qed.
Print Assumptions C07_multiple_of_8_refuted.

Example C07_example :
  hello (VsSeq [VI 1; VI 4]) 9 = Ok [4; 0; 0; 16; 0; 0; 0; 9; 0; 1; 0; 8; 0; 0; 0; 18].
Proof. vm_compute. reflexivity. Qed.

(** C08 (full statement, refuted below for accept lists reaching 6): *)
Definition C08_statement : Prop := forall accept order xid c m,
  versions_ok accept -> (forall l, Permutation l (order l)) -> u32 xid ->
  bytes_ok m -> hello_wf m ->
  (exists v, is_max v (fun w => advertises m w /\ accepts accept w) /\
     negotiate accept order xid c m = (mkOch (Some v) (o_sent c), Ok m))
  \/
  ((forall w, ~ (advertises m w /\ accepts accept w)) /\
   exists mx txt, is_max mx (accepts accept) /\
     negotiate accept order xid c m =
       (mkOch (o_version c) (o_sent c ++ [hello_failed mx xid txt]), Err ChannelClose)).

Theorem C08_negotiation_partial : forall accept order xid c m,
  versions_ok accept -> (forall l, Permutation l (order l)) -> u32 xid ->
  (forall v, accepts accept v -> v <= 5) ->
  bytes_ok m -> hello_wf m ->
  (exists v, is_max v (fun w => advertises m w /\ accepts accept w) /\
     negotiate accept order xid c m = (mkOch (Some v) (o_sent c), Ok m))
  \/
  ((forall w, ~ (advertises m w /\ accepts accept w)) /\
   exists mx txt, is_max mx (accepts accept) /\
     negotiate accept order xid c m =
       (mkOch (o_version c) (o_sent c ++ [hello_failed mx xid txt]), Err ChannelClose)).
Proof. exact negotiate_hello. Qed.
Print Assumptions C08_negotiation_partial.

(** C08, for every accept list: a common version is always found, and without
    one the version is unchanged and an exception is raised. *)
Theorem C08_common_version_found : forall accept order xid c m,
  versions_ok accept -> bytes_ok m -> hello_wf m ->
  (exists w, advertises m w /\ accepts accept w) ->
  exists v, is_max v (fun w => advertises m w /\ accepts accept w) /\
     negotiate accept order xid c m = (mkOch (Some v) (o_sent c), Ok m).
Proof. exact negotiate_common. Qed.
Print Assumptions C08_common_version_found.

Theorem C08_no_common_version : forall accept order xid c m,
  versions_ok accept -> bytes_ok m -> hello_wf m ->
  (forall w, ~ (advertises m w /\ accepts accept w)) ->
  o_version (fst (negotiate accept order xid c m)) = o_version c /\
  exists e, snd (negotiate accept order xid c m) = Err e.
Proof. exact negotiate_none. Qed.
Print Assumptions C08_no_common_version.

Theorem C08_other_messages : forall accept order xid c m,
  (8 <= length m)%nat -> byte_at m 1 <> 0 ->
  negotiate accept order xid c m = (c, Ok m).
Proof. exact negotiate_other. Qed.
Print Assumptions C08_other_messages.

Theorem C08_malformed_hello : forall accept order xid c m,
  versions_ok accept -> (8 <= length m)%nat -> byte_at m 1 = 0 -> ~ hello_wf m ->
  exists e, negotiate accept order xid c m = (c, Err e) /\ (e = AssertionError \/ e = StructError).
Proof. exact negotiate_malformed. Qed.
Print Assumptions C08_malformed_hello.

(** C08 refuted: a channel accepting OpenFlow 1.5 (wire version 6) raises
    IndexError instead of refusing, and the peer gets no error message. *)
Theorem C08_refusal_refuted : exists accept m,
  versions_ok accept /\ bytes_ok m /\ hello_wf m /\
  (forall w, ~ (advertises m w /\ accepts accept w)) /\
  forall order xid c, (forall l, Permutation l (order l)) ->
    negotiate accept order xid c m = (c, Err IndexError).
Proof.
  exists (VsSeq [VI 6]), [4; 0; 0; 8; 0; 0; 0; 1].
  split; [|split; [|split; [|split]]].
  - cbn. repeat constructor; eexists; (split; [left; reflexivity|lia]).
  - repeat constructor; unfold byte_ok; lia.
  - split; [cbn; lia|]. split; [reflexivity|]. left; reflexivity.
  - intros w [[[_ Hw]|[Hc _]] Ha]; [|exact (Hc eq_refl)]. subst.
    destruct Ha as (y & [<-|[]] & [E|[E _]]); vm_compute in E; congruence.
  - intros order xid c Hord. unfold negotiate, negotiate_msg.
    change (parse_ofp_header _) with (Ok (mkHeader 4 0 8 1)). cbv beta iota. cbn [h_type].
    change (0 =? 0) with true. cbv iota. cbn.
    specialize (Hord [6]). apply Permutation_length_1_inv in Hord. rewrite Hord. reflexivity.
Qed.
Print Assumptions C08_refusal_refuted.

Example C08_example :
  versions_ok (VsSeq [VI 1; VI 4]) /\ hello_wf [4; 0; 0; 16; 0; 0; 0; 9; 0; 1; 0; 8; 0; 0; 0; 18] /\
  negotiate (VsSeq [VI 1; VI 4]) (fun l => l) 5 (mkOch None [])
    [4; 0; 0; 16; 0; 0; 0; 9; 0; 1; 0; 8; 0; 0; 0; 18] =
  (mkOch (Some 4) [], Ok [4; 0; 0; 16; 0; 0; 0; 9; 0; 1; 0; 8; 0; 0; 0; 18]) /\
  snd (negotiate (VsSeq [VI 1; VI 4]) (fun l => l) 5 (mkOch None []) [5; 0; 0; 8; 0; 0; 0; 9])
  = Err ChannelClose.
Proof.
  split; [|split; [|split]].
  - cbn. repeat constructor; eexists; (split; [left; reflexivity|lia]).
  - split; [cbn; lia|]. split; [reflexivity|]. right.
    split; [discriminate|]. split; [cbn; lia|]. split; [reflexivity|].
    split; [vm_compute; discriminate|]. vm_compute. discriminate.
  - vm_compute. reflexivity.
  - vm_compute. reflexivity.
Qed.

(** C09. Both ends agree when each supports a version of at least 4. *)
Theorem C09_both_agree_partial : forall va vb oa ob xa xb xa' xb' ma mb ca cb,
  versions_ok va -> versions_ok vb -> u32 xa -> u32 xb ->
  (exists v, accepts va v /\ 4 <= v) -> (exists v, accepts vb v /\ 4 <= v) ->
  hello va xa = Ok ma -> hello vb xb = Ok mb ->
  let '(ca', ra) := negotiate va oa xa' ca mb in
  let '(cb', rb) := negotiate vb ob xb' cb ma in
  (exists v, o_version ca' = Some v /\ o_version cb' = Some v /\ ra = Ok mb /\ rb = Ok ma /\
     is_max v (fun w => accepts va w /\ accepts vb w)) \/
  ((exists e, ra = Err e) /\ (exists e, rb = Err e) /\
   forall w, ~ (accepts va w /\ accepts vb w)).
Proof. exact both_agree. Qed.
Print Assumptions C09_both_agree_partial.

(** C09, exactly when: there is no common version; or the highest common one
    is told by both HELLOs (a HELLO of a channel below version 4 tells only its
    highest); or neither HELLO tells a version the other accepts. *)
Theorem C09_agree_exactly : forall va vb oa ob xa xb xa' xb' ma mb ca cb mxa mxb,
  versions_ok va -> versions_ok vb -> u32 xa -> u32 xb ->
  is_max mxa (accepts va) -> is_max mxb (accepts vb) ->
  hello va xa = Ok ma -> hello vb xb = Ok mb ->
  (selected (negotiate va oa xa' ca mb) = selected (negotiate vb ob xb' cb ma) <->
   (forall w, ~ (accepts va w /\ accepts vb w)) \/
   (exists m, is_max m (fun w => accepts va w /\ accepts vb w) /\ (4 <= mxa \/ m = mxa) /\ (4 <= mxb \/ m = mxb)) \/
   (mxa < 4 /\ mxb < 4 /\ ~ accepts vb mxa /\ ~ accepts va mxb)).
Proof. exact agree_exactly. Qed.
Print Assumptions C09_agree_exactly.

(** C09 refuted in general: {1,3} against {1,4}: the first end selects 1, the
    other refuses. *)
Theorem C09_both_agree_refuted : exists va vb ma mb,
  versions_ok va /\ versions_ok vb /\ hello va 1 = Ok ma /\ hello vb 2 = Ok mb /\
  negotiate va (fun l => l) 3 (mkOch None []) mb = (mkOch (Some 1) [], Ok mb) /\
  snd (negotiate vb (fun l => l) 4 (mkOch None []) ma) = Err ChannelClose.
Proof.
  exists (VsSeq [VI 1; VI 3]), (VsSeq [VI 1; VI 4]). eexists _, _.
  split; [|split; [|split; [vm_compute; reflexivity|split; [vm_compute; reflexivity|split]]]].
  - cbn. repeat constructor; eexists; (split; [left; reflexivity|lia]).
  - cbn. repeat constructor; eexists; (split; [left; reflexivity|lia]).
  - vm_compute. reflexivity.
  - vm_compute. reflexivity.
Qed.
Print Assumptions C09_both_agree_refuted.

Example C09_example : exists ma mb,
  hello (VsSeq [VI 4; VI 5]) 1 = Ok ma /\ hello (VsSeq [VI 1; VI 4]) 2 = Ok mb /\
  (exists v, accepts (VsSeq [VI 4; VI 5]) v /\ 4 <= v) /\
  (exists v, accepts (VsSeq [VI 1; VI 4]) v /\ 4 <= v).
Proof.
  eexists _, _. split; [vm_compute; reflexivity|]. split; [vm_compute; reflexivity|].
  split; exists 4; (split; [|lia]); eexists; (split; [|left; reflexivity]); cbn; auto.
Qed.

(** C10. *)
Theorem C10_xids_increasing : forall d ts i j,
  (i < j < length ts)%nat -> nth i (hms_xids d ts) 0 < nth j (hms_xids d ts) 0.
Proof. exact xids_strictly_increasing. Qed.
Print Assumptions C10_xids_increasing.

Theorem C10_xids_fit_32_bits : forall ts i,
  Forall clock_ok ts -> (i < length ts)%nat ->
  Z.of_nat i <= 1900000000 -> u32 (nth i (hms_xids None ts) 0).
Proof. exact xids_fit. Qed.
Print Assumptions C10_xids_fit_32_bits.

Example C10_example :
  hms_xids None [mkClock 23 59 59 999999; mkClock 0 0 0 0; mkClock 0 0 0 5] =
    [2359599999; 2359600000; 2359600001] /\
  Forall clock_ok [mkClock 23 59 59 999999; mkClock 0 0 0 0; mkClock 0 0 0 5].
Proof.
  split; [vm_compute; reflexivity|]. repeat constructor; unfold clock_ok; cbn; lia.
Qed.

(** C11. Calls that are not interrupted by another thread's call return
    distinct ids. *)
Theorem C11_atomic_calls_partial : forall calls,
  NoDup (map snd (x_out (xcalls xinit calls))).
Proof. exact atomic_calls_distinct. Qed.
Print Assumptions C11_atomic_calls_partial.

(** C11 refuted: two threads in the same 0.1 ms tick. *)
Theorem C11_two_threads_refuted : exists sched,
  Forall (fun p => clock_ok (snd p)) sched /\
  x_out (xrun xinit sched) = [(1%nat, 1200000000); (0%nat, 1200000000)].
Proof.
  pose (t := mkClock 12 0 0 0).
  exists [(0%nat, t); (1%nat, t); (0%nat, t); (1%nat, t); (0%nat, t); (1%nat, t)].
  split; [|vm_compute; reflexivity].
  repeat constructor; cbn; unfold clock_ok; cbn; lia.
Qed.
Print Assumptions C11_two_threads_refuted.

(** C11 refuted further: even one thread's own ids can repeat, because a slow
    thread may store an older value. *)
Theorem C11_own_ids_repeat_refuted : exists sched,
  Forall (fun p => clock_ok (snd p)) sched /\
  map snd (filter (fun p => Nat.eqb (fst p) 1) (x_out (xrun xinit sched))) = [1200000005; 1200000005].
Proof.
  pose (t := mkClock 12 0 0 0). pose (u := mkClock 12 0 0 500).
  exists [(0%nat, t); (0%nat, t);
          (1%nat, u); (1%nat, u); (1%nat, u);
          (0%nat, t);
          (1%nat, u); (1%nat, u); (1%nat, u); (1%nat, u)].
  split; [|vm_compute; reflexivity].
  repeat constructor; cbn; unfold clock_ok; cbn; lia.
Qed.
Print Assumptions C11_own_ids_repeat_refuted.

Example C11_example :
  let t := mkClock 12 0 0 0 in
  x_out (xcalls xinit [(0%nat, t); (1%nat, t); (0%nat, t)]) =
  [(0%nat, 1200000002); (1%nat, 1200000001); (0%nat, 1200000000)].
Proof. vm_compute. reflexivity. Qed.
