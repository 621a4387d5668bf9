(** C82: the helper sockets of ParentChannel. *)

From Verif Require Import Py Struct M_Hello M_Loop M_Controller M_Parent M_Helper S_Hello S_Controller S_Parent S_Helper
  P_Struct P_Hello P_Controller P_Parent P_Helper.
Local Open Scope Z_scope.

(** Full claim: after the HELLO there is one socket for each helper wanted,
    named after the datapath once a FEATURES_REPLY has told it (0 does not
    count); close() removes them all.  Proved for every history in which the
    FEATURES_REPLYs tell one datapath [d], in whatever way the loop ended. *)
Theorem C82_named_partial : forall d order jackin monitor os s r,
  same_switch d os -> nrun order (parent_new jackin monitor) os = (s, r) ->
  (forall x k, In (x, k) (n_fs s) -> match x with Jackin => jackin | Monitor => monitor end = true /\ (k = None \/ k = name_of (Some d))) /\
  (r = Ok tt ->
    (forall x k, In (x, k) (n_fs s) -> k = if known os then name_of (Some d) else None) /\
    (said_hello os = true -> forall x, match x with Jackin => jackin | Monitor => monitor end = true -> exists k, In (x, k) (n_fs s))).
Proof.
  intros d order jackin monitor os s r Hs H.
  destruct (files_run d order os _ _ _ (hinv_new d jackin monitor) Hs H) as ([D I] & J & M & _ & Hello & Kn & _ & Un). cbn in J, M, Un. split.
  - intros x k Hin. destruct (I _ _ Hin) as (N & A & B). split.
    + destruct x; [rewrite <- J; auto | rewrite <- M; apply B; reflexivity].
    + destruct D as [D|D]; rewrite D in N; auto.
  - intros Hr. split.
    + intros x k Hin. destruct (I _ _ Hin) as (N & _). destruct (known os) eqn:Ek.
      * rewrite (Kn Hr eq_refl) in N. exact N.
      * rewrite (Un eq_refl) in N. exact N.
    + intros Hh [] Hx; apply (Hello Hr Hh); exact Hx.
Qed.
Print Assumptions C82_named_partial.

Theorem C82_removed_partial : forall d order jackin monitor os s r,
  same_switch d os -> nrun order (parent_new jackin monitor) os = (s, r) -> close_files s = [].
Proof.
  intros d order jackin monitor os s r Hs H. destruct (files_run d order os _ _ _ (hinv_new d jackin monitor) Hs H) as (I & _).
  exact (close_removes d s I).
Qed.
Print Assumptions C82_removed_partial.

(** Refuted: when a second FEATURES_REPLY tells another datapath, the sockets
    keep the old name and close() leaves their files behind. *)
Definition features_reply (d : Z) : bytes := [1; 6; 0; 24; 0; 0; 0; 3] ++ be 8 d ++ repeat 0 8.
Theorem C82_left_behind_refuted : forall d d' , 0 < d < 256 ^ 8 -> 0 <= d' < 256 ^ 8 -> d <> d' -> exists s,
  nrun (fun l => l) (parent_new true true)
    [NRecv [1; 0; 0; 8; 0; 0; 0; 1] (fun _ => None); NRecv (features_reply d) (fun _ => None); NRecv (features_reply d') (fun _ => None)] = (s, Ok tt) /\
  close_files s = [(Monitor, Some d); (Jackin, Some d)].
Proof.
  intros d d' Hd Hd' Hne.
  assert (Hf : forall x c, 0 <= x < 256 ^ 8 -> k_version c = None ->
    ctl_recv c (features_reply x) = (mkCch (k_seq c) (k_dead c) (k_version c) (k_wire c) (Some x) (k_aux c), Ok tt)).
  { intros x c Hx Hv. rewrite features by (unfold features_reply; rewrite !app_length, be_length, repeat_length; cbn; lia).
    assert (L : length (features_reply x) = 24%nat) by (unfold features_reply; rewrite !app_length, be_length, repeat_length; reflexivity).
    rewrite Hv, L. change (byte_at (features_reply x) 1) with 6.
    assert (U : u64_at (features_reply x) 8 = x); [|cbn [Z.eqb Pos.eqb Nat.leb]; rewrite U; reflexivity].
    rewrite <- u64_be by (rewrite L; lia). unfold features_reply. rewrite (skipn_app_l 8) by reflexivity.
    rewrite firstn_app_l by apply be_length. apply of_be_be. unfold in_u. change (256 ^ Z.of_nat 8) with (256 ^ 8). lia. }
  cbn [nrun nstep].
  assert (H1 : exists s, parent_recv (fun l => l) (fun _ => None) (parent_new true true) [1; 0; 0; 8; 0; 0; 0; 1] = (s, Ok tt) /\
     n_fs s = [(Monitor, None); (Jackin, None)] /\ n_cur s = Some 0%nat /\ k_version (n_ctl s) = None /\ n_members s = [] /\ n_jackin s = true /\ n_monitor s = true).
  { eexists. split; [vm_compute; reflexivity|]. repeat split. }
  destruct H1 as (s1 & E1 & F1 & C1 & V1 & M1 & J1 & N1). rewrite E1.
  assert (Hstep : forall x s, 0 <= x < 256 ^ 8 -> k_version (n_ctl s) = None -> n_members s = [] ->
    parent_recv (fun l => l) (fun _ => None) s (features_reply x) =
    (returned (rename_helpers (with_ctl s (mkCch (k_seq (n_ctl s)) (k_dead (n_ctl s)) (k_version (n_ctl s)) (k_wire (n_ctl s)) (Some x) (k_aux (n_ctl s))))) (features_reply x), Ok tt)).
  { intros x s Hx Hv Hm. unfold parent_recv. rewrite (Hf x _ Hx Hv). set (c := mkCch _ _ _ _ _ _).
    lazymatch goal with |- (match features_reply x with [] => _ | _ :: _ => ?b end) = ?r => change (b = r) end.
    rewrite parse_header_spec by (unfold features_reply; rewrite !app_length, be_length, repeat_length; cbn; lia).
    change (byte_at (features_reply x) 1) with 6. cbn [h_type Z.eqb Pos.eqb].
    assert (Hmm : monitors (rename_helpers (with_ctl s c)) = []).
    { unfold monitors, rename_helpers. destruct s as [[] [] ? ? [] ? ? ? ?]; cbn in *; rewrite ?Hm; reflexivity. }
    change (6 =? 0) with false. change (6 =? 6) with true. cbv iota. rewrite Hmm. reflexivity. }
  rewrite Hstep by (lia || assumption). cbn [nrun nstep].
  set (c1 := mkCch _ _ _ _ _ _). set (s2 := returned (rename_helpers (with_ctl s1 c1)) (features_reply d)).
  assert (A2 : n_fs s2 = [(Monitor, Some d); (Jackin, Some d)] /\ n_cur s2 = Some 0%nat /\ n_ctl s2 = c1 /\ n_members s2 = [] /\ n_jackin s2 = true /\ n_monitor s2 = true).
  { unfold s2, rename_helpers. destruct s1 as [? ? ? ? ? ? ? ? ?]; cbn in *; subst. cbn. replace (d =? 0) with false by (symmetry; lia). cbn. repeat split. }
  destruct A2 as (F2 & C2 & K2 & M2 & J2 & N2).
  rewrite Hstep; [|exact Hd'|rewrite K2; exact V1|exact M2]. eexists. split; [reflexivity|].
  clear Hf Hstep E1. clearbody c1. unfold close_files, rename_helpers. destruct s2 as [? ? ? ? ? ? ? ? ?]; cbn in *; subst; cbn in *.
  destruct (d' =? 0) eqn:E0; cbn.
  - unfold remove_helper, helper_path. rewrite E0. cbn. reflexivity.
  - unfold remove_helper, helper_path. rewrite E0. cbn. rewrite (proj2 (Z.eqb_neq d' d)) by lia. cbn. rewrite (proj2 (Z.eqb_neq d' d)) by lia. reflexivity.
Qed.
Print Assumptions C82_left_behind_refuted.

Example C82_example :
  let hi := [1; 0; 0; 8; 0; 0; 0; 1] in let ok (_ : nat) := @None exn in
  let os := [NRecv hi ok; NJoin 1; NRecv (features_reply 7) ok; NRecv [1; 10; 0; 8; 0; 0; 0; 5] ok; NRecv (features_reply 7) ok] in
  same_switch 7 os /\ known os = true /\ said_hello os = true /\
  match nrun (fun l => l) (parent_new true true) os with
  | (s, r) => r = Ok tt /\ n_fs s = [(Monitor, Some 7); (Jackin, Some 7)] /\ close_files s = []
  end /\
  match nrun (fun l => l) (parent_new true true) [NRecv hi ok; NRecv (features_reply 0) ok] with
  | (s, r) => r = Ok tt /\ n_fs s = [(Monitor, None); (Jackin, None)] /\ close_files s = []
  end.
Proof.
  cbv zeta. split; [|vm_compute; auto 12]. unfold same_switch. repeat (apply Forall_cons; [vm_compute; congruence||exact I|]). apply Forall_nil.
Qed.
