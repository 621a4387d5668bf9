(** Proofs about the structures of fixed size (C111). *)

From Coq Require Import String Lia.
From Verif Require Import Py Struct P_Struct S_Wire4 S_Fixed M_Build4 M_Parse4.
From Verif Require M_Build5 M_Parse5.
Local Open Scope Z_scope.
Local Open Scope list_scope.

Definition item (c : cell) : fitem :=
  match c with
  | Num w | Opt w _ | Const w _ => FU w
  | Sig w => FI w
  | Kind _ | OneOf _ => FU 2
  | Gap n => FX n
  end.
Definition items (cs : list cell) : list fitem := map item cs.

Fixpoint nargs (cs : list cell) : nat :=
  match cs with [] => 0 | Gap _ :: cs' => nargs cs' | _ :: cs' => S (nargs cs') end.

(** The values given to struct.pack. *)
Fixpoint fill (cs : list cell) (args : list pyval) : list pyval :=
  match cs, args with
  | Gap _ :: cs', _ => fill cs' args
  | Opt _ d :: cs', a :: args' => default a d :: fill cs' args'
  | Kind t :: cs', a :: args' => default a t :: fill cs' args'
  | Const _ k :: cs', _ :: args' => VInt k :: fill cs' args'
  | _ :: cs', a :: args' => a :: fill cs' args'
  | _, _ => []
  end.

(** The assertions about the type. *)
Fixpoint kinds_ok (cs : list cell) (args : list pyval) : bool :=
  match cs, args with
  | Gap _ :: cs', _ => kinds_ok cs' args
  | Kind t :: cs', a :: args' => if py_eqz (default a t) t then kinds_ok cs' args' else false
  | OneOf ts :: cs', a :: args' => if py_inz a ts then kinds_ok cs' args' else false
  | _ :: cs', _ :: args' => kinds_ok cs' args'
  | _, _ => true
  end.

Definition good1 (c : cell) : bool :=
  match c with
  | Kind t => in_u 2 t
  | Const w k => in_u w k
  | Sig w => negb (w =? 0)%nat
  | _ => true
  end.
Definition good (cs : list cell) : bool := forallb good1 cs.

Lemma pow8 w : 2 ^ (8 * Z.of_nat w) = 256 ^ Z.of_nat w.
Proof. rewrite Z.pow_mul_r by lia. reflexivity. Qed.

Lemma pow8_half w : (0 < w)%nat -> 2 ^ (8 * Z.of_nat w - 1) = 256 ^ Z.of_nat w / 2.
Proof.
  intros Hw. rewrite <- pow8. rewrite Z.pow_sub_r by lia. reflexivity.
Qed.

Lemma be_mod w z : be w (z mod 2 ^ (8 * Z.of_nat w)) = be w z.
Proof.
  rewrite pow8, <- of_be_be_mod. pose proof (be_of_be (be w z) (be_ok w z)) as K. rewrite be_length in K. exact K.
Qed.

Lemma in_u_iff w z : in_u w z = true <-> 0 <= z < 2 ^ (8 * Z.of_nat w).
Proof. rewrite pow8. unfold in_u. lia. Qed.

Lemma in_i_iff w z : (0 < w)%nat -> in_i w z = true <-> - 2 ^ (8 * Z.of_nat w - 1) <= z < 2 ^ (8 * Z.of_nat w - 1).
Proof. intros Hw. rewrite pow8_half by exact Hw. unfold in_i. lia. Qed.

Lemma says_len cs args zs : says cs args zs -> length args = nargs cs.
Proof.
  induction 1 as [|n cs args zs H IH|c cs a args z zs M Hh H IH]; [reflexivity|exact IH|].
  cbn [length]. rewrite IH. destruct c; try reflexivity. destruct M.
Qed.

Lemma bind_iff {A B} (r : res A) (f : A -> res B) b :
  (x <- r ;; f x) = Ok b <-> exists x, r = Ok x /\ f x = Ok b.
Proof.
  destruct r as [x|e]; cbn; split.
  - intros H. exists x. auto.
  - intros (y & E & H). congruence.
  - discriminate.
  - intros (y & E & H). discriminate.
Qed.

(** One number field. *)
Definition given (c : cell) (a : pyval) : pyval :=
  match c with
  | Opt _ d => default a d | Kind t => default a t | Const _ k => VInt k | _ => a
  end.
Definition checked (c : cell) (a : pyval) : bool :=
  match c with
  | Kind t => py_eqz (default a t) t | OneOf ts => py_inz a ts | _ => true
  end.

Lemma inz_iff z ts : py_inz (VInt z) ts = true <-> In z ts.
Proof.
  unfold py_inz. rewrite existsb_exists. cbn [py_eqz]. split.
  - intros (x & Hx & E). apply Z.eqb_eq in E. subst x. exact Hx.
  - intros H. exists z. split; [exact H|apply Z.eqb_refl].
Qed.

Lemma one_cell c a b : match c with Gap _ => False | _ => True end -> good1 c = true ->
  checked c a = true /\ pack_item (item c) (given c a) = Ok b <->
  exists z, means c a z /\ holds c z /\ b = be (width c) (z mod 2 ^ (8 * Z.of_nat (width c))).
Proof.
  intros Hc G.
  assert (V : forall w v, pack_item (FU w) v = Ok b <-> exists z, v = VInt z /\ 0 <= z < 2 ^ (8 * Z.of_nat w) /\ b = be w (z mod 2 ^ (8 * Z.of_nat w))).
  { intros w v. split.
    - destruct v; cbn; try discriminate. destruct (in_u w z) eqn:E; [|discriminate].
      intros H. inversion H. exists z. rewrite be_mod. apply in_u_iff in E. auto.
    - intros (z & -> & H & ->). cbn [pack_item]. apply in_u_iff in H. rewrite H, be_mod. reflexivity. }
  destruct c as [w|w|w d|t|ts|w k|n]; cbn [checked given item means holds width]; [..|destruct Hc].
  - rewrite V. split; [intros (_ & z & H); exists z; tauto | intros (z & H); split; [reflexivity|exists z; tauto]].
  - cbn [good1] in G. apply Bool.negb_true_iff, Nat.eqb_neq in G. split.
    + intros (_ & H). destruct a; cbn in H; try discriminate. destruct (in_i w z) eqn:E; [|discriminate].
      inversion H. exists z. rewrite be_mod. apply in_i_iff in E; [|lia]. auto.
    + intros (z & -> & H & ->). split; [reflexivity|]. cbn [pack_item]. apply in_i_iff in H; [|lia]. rewrite H, be_mod. reflexivity.
  - rewrite V. split.
    + intros (_ & z & E & H & Hb). exists z. split; [|auto]. destruct a; cbn in E; try discriminate; inversion E; auto.
    + intros (z & [->|[-> ->]] & H & Hb); (split; [reflexivity|]); [exists z|exists d]; auto.
  - cbn [good1] in G. rewrite V. split.
    + intros (C & z & E & H & Hb). exists z. split; [|auto]. rewrite E in C. cbn in C. apply Z.eqb_eq in C. split; [|exact C].
      destruct a; cbn in E; try discriminate; inversion E; auto.
    + intros (z & ([->| ->] & ->) & H & Hb); cbn [default py_eqz]; rewrite Z.eqb_refl; (split; [reflexivity|]); exists t; auto.
  - rewrite V. split.
    + intros (C & z & E & H & Hb). exists z. split; [|auto]. split; [exact E|]. rewrite E in C. apply inz_iff. exact C.
    + intros (z & (-> & Hi) & H & Hb). split; [apply inz_iff; exact Hi|]. exists z. auto.
  - rewrite V. split.
    + intros (_ & z & E & H & Hb). exists z. inversion E. auto.
    + intros (z & -> & H & Hb). split; [reflexivity|]. exists k. auto.
Qed.

Lemma kinds_cons c cs a args : match c with Gap _ => False | _ => True end ->
  kinds_ok (c :: cs) (a :: args) = if checked c a then kinds_ok cs args else false.
Proof. destruct c; intros H; try reflexivity. destruct H. Qed.
Lemma fill_cons c cs a args : match c with Gap _ => False | _ => True end ->
  fill (c :: cs) (a :: args) = given c a :: fill cs args.
Proof. destruct c; intros H; try reflexivity. destruct H. Qed.
Lemma nargs_cons c cs : match c with Gap _ => False | _ => True end -> nargs (c :: cs) = S (nargs cs).
Proof. destruct c; intros H; try reflexivity. destruct H. Qed.
Lemma pack_cons c fs v vs b : match c with Gap _ => False | _ => True end ->
  pack (item c :: fs) (v :: vs) = Ok b <-> exists x y, pack_item (item c) v = Ok x /\ pack fs vs = Ok y /\ b = x ++ y.
Proof.
  intros Hc. assert (E : pack (item c :: fs) (v :: vs) = (x <- pack_item (item c) v ;; y <- pack fs vs ;; Ok (x ++ y)))
    by (destruct c; try reflexivity; destruct Hc).
  rewrite E, bind_iff. split.
  - intros (x & Hx & H). apply bind_iff in H. destruct H as (y & Hy & H). exists x, y. inversion H. auto.
  - intros (x & y & Hx & Hy & ->). exists x. split; [exact Hx|]. apply bind_iff. exists y. auto.
Qed.
Lemma laid_cons c cs z zs : match c with Gap _ => False | _ => True end ->
  laid_out (c :: cs) (z :: zs) = be (width c) (z mod 2 ^ (8 * Z.of_nat (width c))) ++ laid_out cs zs.
Proof. destruct c; intros H; try reflexivity. destruct H. Qed.

(** Packing is saying. *)
Lemma packs_says cs : good cs = true -> forall args b, length args = nargs cs ->
  kinds_ok cs args = true /\ pack (items cs) (fill cs args) = Ok b <->
  exists zs, says cs args zs /\ b = laid_out cs zs.
Proof.
  induction cs as [|c cs IH]; intros G args b Hl.
  - destruct args as [|a args]; [|discriminate]. cbn. split.
    + intros (_ & H). inversion H. exists []. split; [constructor|reflexivity].
    + intros (zs & H & ->). inversion H. auto.
  - cbn [good forallb] in G. apply andb_true_iff in G. destruct G as [G1 G2]. specialize (IH G2).
    assert (D : (exists n, c = Gap n) \/ match c with Gap _ => False | _ => True end) by (destruct c; eauto).
    destruct D as [(n & ->)|Hc].
    + cbn [nargs] in Hl. specialize (IH args). cbn [kinds_ok fill items map item pack]. split.
      * intros (K & H). apply bind_iff in H. destruct H as (r & Hr & E). inversion E.
        destruct (proj1 (IH r Hl) (conj K Hr)) as (zs & S & ->). exists zs. split; [constructor; exact S|reflexivity].
      * intros (zs & S & ->). inversion S as [|n' cs' args' zs' S' E1 E2|c' cs' a' args' z' zs' M' H' S' E1 E2].
        -- subst. destruct (proj2 (IH _ Hl) (ex_intro _ zs (conj S' eq_refl))) as (K & Hr).
           split; [exact K|]. apply bind_iff. exists (laid_out cs zs). split; [exact Hr|reflexivity].
        -- destruct M'.
    + rewrite nargs_cons in Hl by exact Hc. destruct args as [|a args]; [discriminate|].
      injection Hl as Hl. specialize (IH args). rewrite kinds_cons, fill_cons by exact Hc.
      change (items (c :: cs)) with (item c :: items cs). rewrite pack_cons by exact Hc. split.
      * intros (K & x & y & Hx & Hy & ->). destruct (checked c a) eqn:Ck; [|discriminate].
        destruct (proj1 (one_cell c a x Hc G1) (conj Ck Hx)) as (z & M & Hh & ->).
        destruct (proj1 (IH y Hl) (conj K Hy)) as (zs & S & ->).
        exists (z :: zs). split; [constructor; assumption|]. rewrite laid_cons by exact Hc. reflexivity.
      * intros (zs & S & ->). inversion S as [|n' cs' args' zs' S' E1 E2|c' cs' a' args' z zs' M H' S' E1 E2].
        -- subst. destruct Hc.
        -- subst. destruct (proj2 (one_cell c a _ Hc G1) (ex_intro _ z (conj M (conj H' eq_refl)))) as (Ck & Hx).
           destruct (proj2 (IH _ Hl) (ex_intro _ zs' (conj S' eq_refl))) as (K & Hy).
           rewrite Ck. split; [exact K|]. eexists _, _. split; [exact Hx|]. split; [exact Hy|]. apply laid_cons. exact Hc.
Qed.

(** *** The builders *)

Lemma plain f fs vs b : fmt f = Ok fs -> packs f vs = Ok b <-> pack fs vs = Ok b.
Proof. intros E. unfold packs. rewrite E. reflexivity. Qed.

Lemma in_size n f fs vs b : fmt f = Ok fs -> calcsize fs = n -> sized n (packs f vs) = Ok b <-> pack fs vs = Ok b.
Proof.
  intros E Hn. unfold sized. rewrite bind_iff. unfold packs. rewrite E. cbn [bind]. split.
  - intros (m & Hm & H). rewrite (pack_length _ _ _ Hm), Hn, Nat.eqb_refl in H. inversion H. subst. exact Hm.
  - intros H. exists b. split; [exact H|]. rewrite (pack_length _ _ _ H), Hn, Nat.eqb_refl. reflexivity.
Qed.

Lemma asserted (k : bool) (r : res bytes) b (P : Prop) : (r = Ok b <-> P) ->
  (assert_ k ;;; r) = Ok b <-> (if k then true else false) = true /\ P.
Proof.
  intros H. destruct k; cbn [assert_ bind].
  - rewrite H. tauto.
  - split; [discriminate|]. intros (E & _). discriminate.
Qed.

Lemma unasserted (r : res bytes) b (P : Prop) : (r = Ok b <-> P) -> r = Ok b <-> true = true /\ P.
Proof. intros H. rewrite H. tauto. Qed.

(** What the builder [f] of the structure [cs] does. *)
Definition exact_ (f : list pyval -> res bytes) (cs : list cell) : Prop :=
  forall args b, f args = Ok b <-> exists zs, says cs args zs /\ b = laid_out cs zs.

Lemma exact_of f cs : good cs = true ->
  (forall args b, f args = Ok b -> length args = nargs cs) ->
  (forall args b, length args = nargs cs -> f args = Ok b <-> kinds_ok cs args = true /\ pack (items cs) (fill cs args) = Ok b) ->
  exact_ f cs.
Proof.
  intros G L H args b. split.
  - intros E. apply (packs_says cs G args b (L args b E)), H; [exact (L args b E)|exact E].
  - intros (zs & S & ->). pose proof (says_len _ _ _ S) as Hl.
    apply H; [exact Hl|]. apply packs_says; [exact G|exact Hl|]. exists zs. auto.
Qed.

Ltac arity step :=
  let args := fresh "args" in let b := fresh "b" in
  intros args b;
  do 17 try (first [ step; intros; discriminate
                   | destruct args as [|? args]; [first [intros _; reflexivity | step; intros; discriminate]|] ]);
  first [intros _; reflexivity | step; intros; discriminate].

Ltac step4 := lazy beta iota zeta delta [M_Build4.call lookup M_Build4.builders String.eqb Ascii.eqb Bool.eqb arg1 arg2 arg3 arg4 arg5 arg6 arg7 arg8].
Ltac step5 := lazy beta iota zeta delta [M_Build5.call lookup M_Build5.builders String.eqb Ascii.eqb Bool.eqb arg1 arg2 arg3 arg4 arg5 arg6 arg7 arg8].

Lemma queue_stats_none p b : pack [FU 4; FU 4] [p; VNone] = Ok b -> False.
Proof.
  cbn [pack pack_item]. destruct p; cbn [pack_item]; try discriminate. destruct (in_u 4 z); discriminate.
Qed.

Ltac packed :=
  first [ apply plain; reflexivity | apply in_size; [reflexivity|reflexivity] ].
Ltac body :=
  cbn [kinds_ok fill items map item tlv];
  first [ apply asserted; packed | apply unasserted; packed
        | match goal with |- match ?q with _ => _ end = _ <-> _ =>
            destruct q; first [ apply unasserted; packed | split; [discriminate|]; let K := fresh in intros (_ & K); destruct (queue_stats_none _ _ K) ] end ].

Ltac spread Hl args :=
  repeat (destruct args as [|? args]; [discriminate|]; cbn [length nargs tlv] in Hl; injection Hl as Hl);
  destruct args as [|? args]; [clear Hl|discriminate].

Tactic Notation "one4" reference(f) :=
  apply exact_of; [reflexivity|arity step4|];
  let args := fresh "args" in let b := fresh "b" in let Hl := fresh "Hl" in
  intros args b Hl; cbn [nargs tlv] in Hl; spread Hl args; step4; unfold f; body.
Tactic Notation "one5" reference(f) :=
  apply exact_of; [reflexivity|arity step5|];
  let args := fresh "args" in let b := fresh "b" in let Hl := fresh "Hl" in
  intros args b Hl; cbn [nargs tlv] in Hl; spread Hl args; step5; unfold f; body.

Ltac each := repeat first [apply Forall_nil | apply Forall_cons]; cbn [fst snd].

Lemma all_built4 o dx : Forall (fun e => exact_ (M_Build4.call o dx (fst e)) (snd e)) built4.
Proof.
  unfold built4, shared, only4, built_only, built_only4. cbn [Datatypes.app]. each.
(* b4 *)
  - one4 ofp_instruction_goto_table.
  - one4 ofp_instruction_write_metadata.
  - one4 ofp_instruction_meter.
  - one4 ofp_action_output.
  - one4 ofp_action_group.
  - one4 ofp_action_set_queue.
  - one4 ofp_action_nw_ttl.
  - one4 ofp_action_push.
  - one4 ofp_action_pop_mpls.
  - one4 ofp_meter_band_header.
  - one4 ofp_meter_band_drop.
  - one4 ofp_meter_band_dscp_remark.
  - one4 ofp_aggregate_stats_reply.
  - one4 ofp_table_feature_prop_header.
  - one4 ofp_port_stats_request.
  - one4 ofp_queue_stats_request.
  - one4 ofp_group_stats_request.
  - one4 ofp_bucket_counter.
  - one4 ofp_meter_multipart_request.
  - one4 ofp_meter_band_stats.
  - one4 ofp_meter_features.
  - one4 ofp_hello_elem_header.
  - one4 ofp_instruction.
  - one4 ofp_action_header.
  - one4 ofp_table_stats.
  - one4 ofp_queue_stats.
  - one4 ofp_queue_prop_header.
  - one4 ofp_action_mpls_ttl.
  - one4 ofp_experimenter_multipart_header.
  - one4 ofp_port_stats.
(* /b4 *)
Qed.

Lemma all_built5 o dx : Forall (fun e => exact_ (M_Build5.call o dx (fst e)) (snd e)) built5.
Proof.
  unfold built5, shared, only5, built_only, built_only5. cbn [Datatypes.app]. each.
(* b5 *)
  - one5 M_Build5.ofp_instruction_goto_table.
  - one5 M_Build5.ofp_instruction_write_metadata.
  - one5 M_Build5.ofp_instruction_meter.
  - one5 M_Build5.ofp_action_output.
  - one5 M_Build5.ofp_action_group.
  - one5 M_Build5.ofp_action_set_queue.
  - one5 M_Build5.ofp_action_nw_ttl.
  - one5 M_Build5.ofp_action_push.
  - one5 M_Build5.ofp_action_pop_mpls.
  - one5 M_Build5.ofp_meter_band_header.
  - one5 M_Build5.ofp_meter_band_drop.
  - one5 M_Build5.ofp_meter_band_dscp_remark.
  - one5 M_Build5.ofp_aggregate_stats_reply.
  - one5 M_Build5.ofp_table_feature_prop_header.
  - one5 M_Build5.ofp_port_stats_request.
  - one5 M_Build5.ofp_queue_stats_request.
  - one5 M_Build5.ofp_group_stats_request.
  - one5 M_Build5.ofp_bucket_counter.
  - one5 M_Build5.ofp_meter_multipart_request.
  - one5 M_Build5.ofp_meter_band_stats.
  - one5 M_Build5.ofp_meter_features.
  - one5 M_Build5.ofp_hello_elem_header.
  - one5 M_Build5.ofp_port_desc_prop_header.
  - one5 M_Build5.ofp_port_desc_prop_ethernet.
  - one5 M_Build5.ofp_port_desc_prop_optical.
  - one5 M_Build5.ofp_instruction_header.
  - one5 M_Build5.ofp_action_header.
  - one5 M_Build5.ofp_action_generic.
  - one5 M_Build5.ofp_table_mod_prop_header.
  - one5 M_Build5.ofp_table_mod_prop_eviction.
  - one5 M_Build5.ofp_table_mod_prop_vacancy.
  - one5 M_Build5.ofp_port_mod_prop_header.
  - one5 M_Build5.ofp_port_mod_prop_ethernet.
  - one5 M_Build5.ofp_port_mod_prop_optical.
  - one5 M_Build5.ofp_port_stats_prop_header.
  - one5 M_Build5.ofp_port_stats_prop_ethernet.
  - one5 M_Build5.ofp_port_stats_prop_optical.
  - one5 M_Build5.ofp_queue_stats_prop_header.
  - one5 M_Build5.ofp_queue_desc_request.
  - one5 M_Build5.ofp_queue_desc_prop_min_rate.
  - one5 M_Build5.ofp_queue_desc_prop_max_rate.
  - one5 M_Build5.ofp_flow_update_abbrev.
  - one5 M_Build5.ofp_bundle_prop_header.
  - one5 M_Build5.ofp_async_config_prop_header.
  - one5 M_Build5.ofp_async_config_prop_reasons.
  - one5 M_Build5.ofp_role_prop_header.
  - one5 M_Build5.ofp_action_mpls_ttl.
  - one5 M_Build5.ofp_experimenter_multipart_header.
  - one5 M_Build5.ofp_action_experimenter_header.
  - one5 M_Build5.ofp_table_stats.
  - one5 M_Build5.ofp_flow_update_paused.
(* /b5 *)
Qed.

(** *** The parsers *)

Local Open Scope string_scope.

Definition readers4 : list (string * (bytes -> nat -> res (pyval * nat))) :=
(* p4 *)
  [ ("ofp_instruction_goto_table", p_instruction_goto_table);
    ("ofp_instruction_write_metadata", p_instruction_write_metadata);
    ("ofp_instruction_meter", p_instruction_meter);
    ("ofp_action_output", p_action_output);
    ("ofp_action_group", p_action_group);
    ("ofp_action_set_queue", p_action_set_queue);
    ("ofp_action_nw_ttl", p_action_nw_ttl);
    ("ofp_action_push", p_action_push);
    ("ofp_action_pop_mpls", p_action_pop_mpls);
    ("ofp_meter_band_header", p_meter_band_header);
    ("ofp_meter_band_drop", p_meter_band_drop);
    ("ofp_meter_band_dscp_remark", p_meter_band_dscp_remark);
    ("ofp_aggregate_stats_reply", p_aggregate_stats_reply);
    ("ofp_table_feature_prop_header", p_table_feature_prop_header);
    ("ofp_port_stats_request", p_port_stats_request);
    ("ofp_queue_stats_request", p_queue_stats_request);
    ("ofp_group_stats_request", p_group_stats_request);
    ("ofp_bucket_counter", p_bucket_counter);
    ("ofp_meter_multipart_request", p_meter_multipart_request);
    ("ofp_meter_band_stats", p_meter_band_stats);
    ("ofp_meter_features", p_meter_features);
    ("ofp_hello_elem_header", p_hello_elem_header);
    ("ofp_instruction", p_instruction_header);
    ("ofp_action_header", p_action_header);
    ("ofp_table_stats", p_table_stats);
    ("ofp_queue_stats", p_queue_stats);
    ("ofp_queue_prop_header", p_queue_prop_header) ]
(* /p4 *).

Definition readers5 : list (string * (bytes -> nat -> res (pyval * nat))) :=
(* p5 *)
  [ ("ofp_instruction_goto_table", M_Parse5.p_instruction_goto_table);
    ("ofp_instruction_write_metadata", M_Parse5.p_instruction_write_metadata);
    ("ofp_instruction_meter", M_Parse5.p_instruction_meter);
    ("ofp_action_output", M_Parse5.p_action_output);
    ("ofp_action_group", M_Parse5.p_action_group);
    ("ofp_action_set_queue", M_Parse5.p_action_set_queue);
    ("ofp_action_nw_ttl", M_Parse5.p_action_nw_ttl);
    ("ofp_action_push", M_Parse5.p_action_push);
    ("ofp_action_pop_mpls", M_Parse5.p_action_pop_mpls);
    ("ofp_meter_band_header", M_Parse5.p_meter_band_header);
    ("ofp_meter_band_drop", M_Parse5.p_meter_band_drop);
    ("ofp_meter_band_dscp_remark", M_Parse5.p_meter_band_dscp_remark);
    ("ofp_aggregate_stats_reply", M_Parse5.p_aggregate_stats_reply);
    ("ofp_table_feature_prop_header", M_Parse5.p_table_feature_prop_header);
    ("ofp_port_stats_request", M_Parse5.p_port_stats_request);
    ("ofp_queue_stats_request", M_Parse5.p_queue_stats_request);
    ("ofp_group_stats_request", M_Parse5.p_group_stats_request);
    ("ofp_bucket_counter", M_Parse5.p_bucket_counter);
    ("ofp_meter_multipart_request", M_Parse5.p_meter_multipart_request);
    ("ofp_meter_band_stats", M_Parse5.p_meter_band_stats);
    ("ofp_meter_features", M_Parse5.p_meter_features);
    ("ofp_hello_elem_header", M_Parse5.p_hello_elem_header);
    ("ofp_port_desc_prop_header", M_Parse5.p_port_desc_prop_header);
    ("ofp_port_desc_prop_ethernet", M_Parse5.p_port_desc_prop_ethernet);
    ("ofp_port_desc_prop_optical", M_Parse5.p_port_desc_prop_optical);
    ("ofp_instruction_header", M_Parse5.p_instruction_header);
    ("ofp_action_header", M_Parse5.p_action_header);
    ("ofp_action_generic", M_Parse5.p_action_generic);
    ("ofp_table_mod_prop_header", M_Parse5.p_table_mod_prop_header);
    ("ofp_table_mod_prop_eviction", M_Parse5.p_table_mod_prop_eviction);
    ("ofp_table_mod_prop_vacancy", M_Parse5.p_table_mod_prop_vacancy);
    ("ofp_port_mod_prop_header", M_Parse5.p_port_mod_prop_header);
    ("ofp_port_mod_prop_ethernet", M_Parse5.p_port_mod_prop_ethernet);
    ("ofp_port_mod_prop_optical", M_Parse5.p_port_mod_prop_optical);
    ("ofp_port_stats_prop_header", M_Parse5.p_port_stats_prop_header);
    ("ofp_port_stats_prop_ethernet", M_Parse5.p_port_stats_prop_ethernet);
    ("ofp_port_stats_prop_optical", M_Parse5.p_port_stats_prop_optical);
    ("ofp_queue_stats_prop_header", M_Parse5.p_queue_stats_prop_header);
    ("ofp_queue_desc_request", M_Parse5.p_queue_desc_request);
    ("ofp_queue_desc_prop_min_rate", M_Parse5.p_queue_desc_prop_min_rate);
    ("ofp_queue_desc_prop_max_rate", M_Parse5.p_queue_desc_prop_max_rate);
    ("ofp_flow_update_abbrev", M_Parse5.p_flow_update_abbrev);
    ("ofp_bundle_prop_header", M_Parse5.p_bundle_prop_header);
    ("ofp_async_config_prop_header", M_Parse5.p_async_config_prop_header);
    ("ofp_async_config_prop_reasons", M_Parse5.p_async_config_prop_reasons);
    ("ofp_role_prop_header", M_Parse5.p_role_prop_header);
    ("ofp_queue_desc_prop_header", M_Parse5.p_queue_desc_prop_header);
    ("ofp_flow_update_header", M_Parse5.p_flow_update_header) ]
(* /p5 *).

Local Close Scope string_scope.

Lemma size_items cs : calcsize (items cs) = size cs.
Proof.
  unfold calcsize, items, size in *. induction cs as [|c cs IH]; [reflexivity|]. cbn [map fold_right]. rewrite IH. destruct c; reflexivity.
Qed.

Lemma bears_size cs zs b : bears cs zs b -> length b = size cs.
Proof.
  induction 1 as [|n cs zs p b Hp H IH|c cs z zs b Hc Hh H IH]; [reflexivity| |]; cbn [size fold_right width]; rewrite app_length.
  - rewrite Hp, IH. reflexivity.
  - rewrite be_length, IH. reflexivity.
Qed.

Lemma decode_bears cs : good cs = true -> forall zs b, bears cs zs b -> decode (items cs) b = map VInt zs.
Proof.
  intros G zs b H. induction H as [|n cs zs p b Hp H IH|c cs z zs b Hc Hh H IH]; [reflexivity| |];
    cbn [good forallb] in G; apply andb_true_iff in G; destruct G as [G1 G2]; specialize (IH G2); cbn [items map item].
  - cbn [decode]. rewrite skipn_app_l by exact Hp. exact IH.
  - rewrite be_mod. destruct c as [w|w|w d|t|ts|w k|n]; cbn [item width holds good1] in *; [..|destruct Hc];
      try (rewrite decode_FU by (apply in_u_iff; exact Hh); cbn [map]; f_equal; exact IH).
    cbn [decode]. apply Bool.negb_true_iff, Nat.eqb_neq in G1.
    rewrite firstn_app_l, skipn_app_l by apply be_length. cbn [map]. f_equal; [f_equal|exact IH].
    apply of_be_be_signed; [apply in_i_iff; [lia|exact Hh]|lia].
Qed.

Lemma laid_bears cs args zs : says cs args zs -> bears cs zs (laid_out cs zs).
Proof.
  induction 1 as [|n cs args zs H IH|c cs a args z zs M Hh H IH].
  - constructor.
  - cbn [laid_out]. constructor; [apply repeat_length|exact IH].
  - assert (Hc : match c with Gap _ => False | _ => True end) by (destruct c; cbn in *; auto).
    rewrite laid_cons by exact Hc. constructor; assumption.
Qed.

(** What the parser [p] of the structure [cs] does. *)
Definition reads_ (cls : string) (p : bytes -> nat -> res (pyval * nat)) (cs : list cell) : Prop :=
  (forall m off zs b, bears cs zs b -> at_ m off b -> p m off = Ok (VTup cls (map VInt zs), (off + size cs)%nat)) /\
  (forall m off, (length m < off + size cs)%nat -> p m off = Err StructError).

Lemma reads_of cls f cs : good cs = true -> fmt f = Ok (items cs) -> reads_ cls (fixed cls f) cs.
Proof.
  intros G E. unfold fixed, unp, unpacks, sizes. rewrite E. cbn [bind]. split.
  - intros m off zs b H A.
    rewrite (unpack_decode (items cs) b m off A) by (transitivity (size cs); [exact (bears_size _ _ _ H)|symmetry; apply size_items]).
    rewrite (decode_bears cs G zs b H). cbn [bind]. do 2 f_equal. f_equal. apply size_items.
  - intros m off H. unfold unpack_from. rewrite size_items.
    rewrite (proj2 (Nat.leb_gt _ _)) by exact H. reflexivity.
Qed.

Lemma all_parsed4 : Forall2 (fun e r => fst e = fst r /\ reads_ (fst e) (snd r) (snd e)) parsed4 readers4.
Proof.
  unfold parsed4, readers4, shared, only4. cbn [Datatypes.app].
  repeat first [apply Forall2_nil | apply Forall2_cons; [split; [reflexivity|apply reads_of; reflexivity]|]].
Qed.

Lemma all_parsed5 : Forall2 (fun e r => fst e = fst r /\ reads_ (fst e) (snd r) (snd e)) parsed5 readers5.
Proof.
  unfold parsed5, readers5, shared, only5, parsed_only5. cbn [Datatypes.app].
  repeat first [apply Forall2_nil | apply Forall2_cons; [split; [reflexivity|apply reads_of; reflexivity]|]].
Qed.
