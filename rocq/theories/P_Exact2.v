(** Proofs about the structures that hold others (C115). *)

From Coq Require Import String Lia.
From Verif Require Import Py Struct P_Struct S_Hello S_Ports S_Head S_Wire4 S_Fixed S_Exact M_Build4 P_Fixed P_Head P_Exact.
From Verif Require M_Build5.
Local Open Scope Z_scope.
Local Open Scope list_scope.

Definition exact_str (o : pyval -> res bytes) (f : list pyval -> res bytes) (ps : list part) : Prop :=
  forall args b, f args = Ok b <-> made (made_by o) ps args b.

Lemma exact_str_of o f ps : good_parts ps = true ->
  (forall args b, f args = Ok b -> length args = arity_of ps) ->
  (forall args b, length args = arity_of ps -> f args = Ok b <-> exists P, run o (length b) P ps args = Ok b) ->
  exact_str o f ps.
Proof.
  intros G L H args b. split.
  - intros E. apply (made_iff o ps G). apply H; [exact (L args b E)|exact E].
  - intros M. apply (made_iff o ps G) in M. destruct M as (P & M). apply H; [exact (run_arity _ _ _ _ _ _ M)|]. exists P. exact M.
Qed.

Lemma sized_ok n (b : bytes) : length b = n -> sized n (Ok b) = Ok b.
Proof. intros H. unfold sized. cbn [bind]. rewrite H, Nat.eqb_refl. reflexivity. Qed.

Lemma align_gap n : (align8 n - n < 8)%nat /\ ((n + (align8 n - n)) mod 8 = 0)%nat.
Proof.
  unfold align8. pose proof (Nat.div_mod (n + 7) 8 ltac:(lia)) as D. pose proof (Nat.mod_upper_bound (n + 7) 8 ltac:(lia)) as U.
  split; [lia|]. replace (n + ((n + 7) / 8 * 8 - n))%nat with ((n + 7) / 8 * 8)%nat by lia. apply Nat.mod_mul. lia.
Qed.

Lemma align_only n P : (P < 8)%nat -> ((n + P) mod 8 = 0)%nat -> P = (align8 n - n)%nat.
Proof.
  intros H M. unfold align8. pose proof (Nat.div_mod (n + P) 8 ltac:(lia)) as D. rewrite M in D.
  pose proof (Nat.div_mod (n + 7) 8 ltac:(lia)) as D'. pose proof (Nat.mod_upper_bound (n + 7) 8 ltac:(lia)) as U.
  assert ((n + 7) / 8 = (n + P) / 8)%nat by lia. lia.
Qed.

Lemma align_ge n : (n <= align8 n)%nat.
Proof.
  unfold align8. pose proof (Nat.div_mod (n + 7) 8 ltac:(lia)) as D. pose proof (Nat.mod_upper_bound (n + 7) 8 ltac:(lia)) as U. lia.
Qed.

Lemma align_rounded n p : Z.of_nat (align8 n) = rounded (Z.of_nat n) p.
Proof. unfold align8, rounded. rewrite Nat2Z.inj_mul, Nat2Z.inj_div, Nat2Z.inj_add. reflexivity. Qed.

Ltac refuse_s :=
  split; [let Q := fresh in intros Q | let Q := fresh in intros (? & Q)]; unfold sized in *; unwind; discriminate.

Ltac redo_s := cbn [run nargs firstn skipn length Nat.eqb kinds_ok items map item fill Datatypes.app pack bind assert_].

Ltac str_step o :=
  match goal with
  | |- context [M_Build5.len_of (dflt_bytes ?v ?d)] => is_var v; destruct v; cbn [dflt_bytes as_bytes assert_bytes M_Build5.len_of]; redo_s; try refuse_s
  | |- context [packs ?f ?v] => packed_all; redo_s
  | |- context [assert_ (py_eqz ?a ?z)] => destruct (py_eqz a z); redo_s; [|refuse_s]
  | |- context [assert_ (py_inz ?a ?z)] => destruct (py_inz a z); redo_s; [|refuse_s]
  | |- context [join ?q ?v] => change (join q v) with (seqarg q (VList v)); redo_s
  | |- context [seqarg o ?v] => destruct (seqarg o v); redo_s; [|refuse_s]
  | |- context [pack_item ?f ?v] =>
      match v with VInt (_ + Z.of_nat _) => fail 1 | VInt ?z => is_ground z | _ => idtac end;
      let E := fresh "E" in destruct (pack_item f v) eqn:E; [apply pack_item_length in E; redo_s|refuse_s]
  | |- context [o ?v] => destruct (o v); redo_s; [|refuse_s]
  | |- context [as_bytes (dflt_bytes ?v ?d)] => is_var v; destruct v; cbn [dflt_bytes as_bytes assert_bytes M_Build5.len_of]; redo_s; try refuse_s
  | |- context [as_bytes ?v] => is_var v; destruct v; cbn [as_bytes assert_bytes M_Build5.len_of]; redo_s; try refuse_s
  end.

Ltac regroup := rewrite ?app_nil_r; rewrite <- ?app_assoc.

Lemma Ok_inj {A} (a b : A) : Ok a = Ok b -> b = a.
Proof. congruence. Qed.

Ltac inj_all := repeat match goal with H : Ok _ = Ok _ |- _ => apply Ok_inj in H; subst end.

(** Without a length. *)
Ltac end_plain :=
  let Q := fresh "Q" in
  split; [intros Q; exists 0%nat; rewrite <- Q; regroup; reflexivity
         |intros (? & Q); rewrite <- Q; regroup; reflexivity].

Ltac stated :=
  unfold total, unpadded, zlen, bytes in *; rewrite ?app_length, ?zeros_length in *; cbn [item_size Datatypes.length] in *;
  rewrite ?align_rounded with (p := 0); unfold rounded in *; first [lia | f_equal; f_equal; lia].

Ltac checked_len :=
  try match goal with |- context [assert_ (Datatypes.length ?x =? ?n)%nat] =>
    replace (Datatypes.length x =? n)%nat with true by (symmetry; apply Nat.eqb_eq; lengths); redo_s end.

(** With a length, which the code computes as [z]. *)
Ltac end_total :=
  match goal with |- context [pack_item (FU 2) (VInt ?z)] =>
    let E := fresh "E" in let L := fresh "L" in let Q := fresh "Q" in let P := fresh "P" in
    destruct (pack_item (FU 2) (VInt z)) as [?l|?e] eqn:E; redo_s;
    [ pose proof (pack_item_length _ _ _ E) as L; rewrite ?sized_ok by lengths; checked_len;
      split;
      [ intros Q; apply Ok_inj in Q; subst; exists 0%nat;
        match goal with |- context [pack_item (FU 2) (VInt ?y)] => replace y with z by stated end;
        rewrite E; redo_s; regroup; reflexivity
      | ]
    | unfold sized; split; [intros Q; unwind; discriminate|] ];
    intros (P & Q); unwind;
    (match goal with H : pack_item (FU 2) (VInt ?y) = Ok ?l' |- _ =>
      let L' := fresh "L" in pose proof (pack_item_length _ _ _ H) as L';
      inj_all
    end);
    (match goal with H : pack_item (FU 2) (VInt ?y) = Ok ?l', E : pack_item (FU 2) (VInt z) = _ |- _ =>
      let H' := fresh "H" in assert (H' : y = z) by (clear H E; stated);
      rewrite H', E in H; first [discriminate | apply Ok_inj in H; subst; regroup; reflexivity]
    end)
  end.

(** With padding at the end. *)
Ltac sums := unfold total, unpadded, zlen, bytes, padding in *; rewrite ?app_length, ?zeros_length in *; cbn [item_size Datatypes.length] in *; lia.

Ltac end_align :=
  match goal with |- context [padding ?n] =>
    let G := fresh "G" in let G8 := fresh "G" in let G0 := fresh "G" in
    pose proof (align_ge n) as G; destruct (align_gap n) as [G8 G0];
    match goal with |- context [pack_item (FU 2) (VInt ?z)] =>
      let E := fresh "E" in let L := fresh "L" in let Q := fresh "Q" in let P := fresh "P" in
      destruct (pack_item (FU 2) (VInt z)) as [?l|?e] eqn:E; redo_s;
      [ pose proof (pack_item_length _ _ _ E) as L;
        try match goal with |- context [assert_ (Datatypes.length ?x mod 8 =? 0)%nat] =>
          replace (Datatypes.length x) with (n + (align8 n - n))%nat by sums; rewrite G0; redo_s end;
        split;
        [ intros Q; apply Ok_inj in Q; subst; exists (align8 n - n)%nat;
          match goal with |- context [pack_item (FU 2) (VInt ?y)] => replace y with z by sums end;
          rewrite E; redo_s; rewrite (proj2 (Nat.ltb_lt _ _) G8);
          match goal with |- context [(Datatypes.length ?x mod 8)%nat] => replace (Datatypes.length x) with (n + (align8 n - n))%nat by sums end;
          rewrite G0; redo_s; unfold padding; regroup; reflexivity
        | ]
      | split; [intros Q; unwind; discriminate|] ];
      intros (P & Q);
      (destruct (P <? 8)%nat eqn:?P8; [|unwind; discriminate]);
      (match type of Q with context [(?m mod 8 =? 0)%nat] => destruct (m mod 8 =? 0)%nat eqn:?M0; [|unwind; discriminate] end);
      unwind;
      (match goal with H : pack_item (FU 2) (VInt ?y) = Ok ?l' |- _ =>
        let L' := fresh "L" in pose proof (pack_item_length _ _ _ H) as L';
        inj_all
      end);
      (match goal with H8 : (P <? 8)%nat = true, H0 : (Datatypes.length ?x mod 8 =? 0)%nat = true |- _ =>
        let EP := fresh "EP" in
        assert (EP : P = (align8 n - n)%nat) by
          (apply align_only; [apply Nat.ltb_lt; exact H8
                             |replace (n + P)%nat with (Datatypes.length x) by sums; apply Nat.eqb_eq; exact H0]);
        clear H8 H0; subst P
      end);
      (match goal with H : pack_item (FU 2) (VInt ?y) = Ok ?l', E : pack_item (FU 2) (VInt z) = _ |- _ =>
        let H' := fresh "H" in assert (H' : y = z) by (clear H E; sums);
        rewrite H', E in H; first [discriminate | apply Ok_inj in H; subst; unfold padding; regroup; reflexivity]
      end)
    end
  end.

Ltac spread_str :=
  let args := fresh "args" in let b := fresh "b" in let Hl := fresh "Hl" in
  intros args b Hl; cbn [arity_of arity1 nargs fold_right Nat.add Datatypes.app] in Hl;
  repeat (destruct args as [|? args]; [discriminate|]; cbn [length] in Hl; injection Hl as Hl);
  destruct args as [|? args]; [clear Hl|discriminate].
Tactic Notation "str4" ident(o) reference(f) :=
  apply exact_str_of; [reflexivity|arity step4|]; spread_str; step4; unfold f, M_Build4.pack_app, feature_prop; packed_all; redo_s;
  repeat str_step o.
Tactic Notation "str5" ident(o) reference(f) :=
  apply exact_str_of; [reflexivity|arity step5|]; spread_str; step5; unfold f, M_Build4.pack_app, feature_prop; packed_all; redo_s;
  repeat str_step o.

(** ** The tables *)

Lemma match_arg o v :
  match v with VNone => Ok [] | VBytes b0 => Ok b0 | VList l | VTup _ l => join o l | _ => Err TypeError end =
  match seqarg o v with Ok x => Ok x | Err e => Err (match v with VList _ | VTup _ _ => e | _ => TypeError end) end.
Proof. destruct v; cbn [seqarg]; try reflexivity; destruct (join o l); reflexivity. Qed.

Lemma all_structures4 o dx : (forall d, o (VBytes d) = Ok d) ->
  Forall (fun e => exact_str o (M_Build4.call o dx (fst e)) (snd e)) structures4.
Proof.
  intros Ho. unfold structures4, structures. cbn [Datatypes.app]. each.
  - str4 o ofp_match. rewrite match_arg. repeat str_step o. end_align.
  - str4 o ofp_action_set_field. end_align.
  - str4 o ofp_action_experimenter_. end_align.
  - str4 o ofp_bucket. end_align.
  - str4 o ofp_meter_band_experimenter. end_total.
  - str4 o ofp_desc. rewrite sized_ok by lengths. end_plain.
  - str4 o ofp_flow_stats. end_total.
  - str4 o ofp_table_features. end_total.
  - str4 o ofp_table_feature_prop_instructions. end_align.
  - str4 o ofp_table_feature_prop_actions. end_align.
  - str4 o ofp_group_stats. end_total.
  - str4 o ofp_group_desc. end_total.
  - str4 o ofp_meter_stats. end_plain.
  - str4 o ofp_meter_config. end_total.
  - str4 o ofp_packet_queue. end_total.
  - str4 o ofp_instruction_actions. end_total.
  - str4 o ofp_instruction_experimenter. end_total.
  - str4 o ofp_table_feature_prop_next_tables. end_align.
Qed.

Lemma all_structures5 o dx : (forall d, o (VBytes d) = Ok d) ->
  Forall (fun e => exact_str o (M_Build5.call o dx (fst e)) (snd e)) structures5.
Proof.
  intros Ho. unfold structures5, structures. cbn [Datatypes.app]. each.
  - str5 o M_Build5.ofp_match. rewrite ?match_arg. repeat str_step o. end_align.
  - str5 o M_Build5.ofp_action_set_field. end_align.
  - str5 o M_Build5.ofp_action_experimenter_. end_align.
  - str5 o M_Build5.ofp_bucket. end_align.
  - str5 o M_Build5.ofp_meter_band_experimenter. end_total.
  - str5 o M_Build5.ofp_desc. rewrite sized_ok by lengths. end_plain.
  - str5 o M_Build5.ofp_flow_stats. end_total.
  - str5 o M_Build5.ofp_table_features. end_total.
  - str5 o M_Build5.ofp_table_feature_prop_instructions. end_align.
  - str5 o M_Build5.ofp_table_feature_prop_actions. end_align.
  - str5 o M_Build5.ofp_group_stats. end_total.
  - str5 o M_Build5.ofp_group_desc. end_total.
  - str5 o M_Build5.ofp_meter_stats. end_plain.
  - str5 o M_Build5.ofp_meter_config. end_total.
  - str5 o M_Build5.ofp_instruction_actions. end_total.
  - str5 o M_Build5.ofp_instruction_experimenter_. end_total.
  - str5 o M_Build5.ofp_table_desc. end_total.
  - str5 o M_Build5.ofp_table_feature_prop_tables. end_align.
  - str5 o M_Build5.ofp_port_stats. end_total.
  - str5 o M_Build5.ofp_port_stats_prop_experimenter. all: end_total.
  - str5 o M_Build5.ofp_queue_stats. end_total.
  - str5 o M_Build5.ofp_queue_desc. end_total.
  - str5 o M_Build5.ofp_flow_monitor_request. end_plain.
  - str5 o M_Build5.ofp_flow_update_full. end_total.
Qed.
