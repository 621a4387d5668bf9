(** Proofs for C120: the parser of OpenFlow 1.4 takes exactly the byte strings
    of the grammar in S_Accept5.v. *)

From Coq Require Import String List ZArith Lia Bool.
From Verif Require Import Py Struct M_Parse4 M_Parse5 P_Struct P_Fixed P_Name P_Term5 S_Accept4 P_Accept4 S_Accept5.
Import ListNotations.
Local Open Scope Z_scope.
Local Open Scope list_scope.

Notation holds R off := (fun x : pyval * nat => R off (fst x) (snd x)).

Lemma mean_eq {A} (p q : nat -> res A) P : (forall n, p n = q n) -> mean q P -> mean p P.
Proof.
  intros E [H1 H2]. split; [intros n a K; rewrite E in K; exact (H1 n a K)|]. intros a K. destruct (H2 a K) as (k & H). exists k. intros n Hn. rewrite E. exact (H n Hn).
Qed.

(** *** Tables *)

Lemma choose_cons (c : bool) ty tys R l d off (p q : nat -> res (pyval * nat)) :
  (c = true <-> In ty tys) -> mean p (holds R off) -> mean q (holds (choose ty l d) off) ->
  mean (fun n => if c then p n else q n) (holds (choose ty ((tys, R) :: l) d) off).
Proof.
  intros Hc Hp Hq. cbn [choose]. destruct c.
  - refine (mean_ext _ _ _ Hp _). intros x. assert (I : In ty tys) by (apply Hc; reflexivity). tauto.
  - refine (mean_ext _ _ _ Hq _). intros x. assert (I : ~ In ty tys) by (rewrite <- Hc; discriminate). tauto.
Qed.
Lemma choose_one ty k R l d off (p q : nat -> res (pyval * nat)) :
  mean p (holds R off) -> mean q (holds (choose ty l d) off) ->
  mean (fun n => if ty =? k then p n else q n) (holds (choose ty (([k], R) :: l) d) off).
Proof. apply choose_cons. rewrite Z.eqb_eq. cbn [In]. intuition. Qed.
Lemma choose_some ty ks R l d off (p q : nat -> res (pyval * nat)) :
  mean p (holds R off) -> mean q (holds (choose ty l d) off) ->
  mean (fun n => if py_inz (VInt ty) ks then p n else q n) (holds (choose ty ((ks, R) :: l) d) off).
Proof. apply choose_cons. apply inz_iff. Qed.
Lemma mean_nothing e off : mean (fun _ => Err e) (holds nothing off).
Proof. apply mean_err. Qed.

Ltac line := first [apply choose_one | apply choose_some]; cbv beta.

Lemma up8_z len : 0 <= len -> Z.to_nat (up8 len) = align8 (Z.to_nat len).
Proof. intros L. unfold align8, up8. rewrite Z2Nat.inj_mul, Z2Nat.inj_div, Z2Nat.inj_add by (try apply Z.div_pos; lia). reflexivity. Qed.
Lemma pad_z len : 0 <= len -> Z.to_nat (up8 len - len) = (align8 (Z.to_nat len) - Z.to_nat len)%nat.
Proof. intros L. rewrite Z2Nat.inj_sub by lia. rewrite up8_z by lia. reflexivity. Qed.

Section message.
Variable m : bytes.
Hypothesis Hm : bytes_ok m.

Ltac shp H := let S := fresh "S" in pose proof (here_shape _ _ _ _ _ H) as S; cbn [shape Datatypes.app repeat] in S.
Ltac ext_vo := let v := fresh "v" in let o := fresh "o" in intros [v o]; cbn [fst snd].
Ltac fx f := apply (fun fs cls off H => mean_fixed m Hm cls f fs off H); reflexivity.

Lemma two_shape off vs o : here m off [N 2; N 2] vs o -> exists ty len, vs = [VInt ty; VInt len] /\ 0 <= len < 65536.
Proof. intros H. shp H. destruct S as (ty & ? & -> & _ & len & ? & -> & R & ->). exists ty, len. split; [reflexivity|exact R]. Qed.

Lemma type_mean off : mean (fun _ => prop_type m off) (fun ty => typed m off ty).
Proof.
  unfold prop_type. apply mean_const. intros ty. rewrite bind_iff. unfold typed. split.
  - intros ([vs o] & H & E). apply (unp_here "HH" [N 2; N 2] m off vs o Hm eq_refl) in H. destruct (two_shape _ _ _ H) as (t & len & -> & _). apply Ok_inj in E. subst t. eauto.
  - intros (len & o & H). exists ([VInt ty; VInt len], o). split; [apply (unp_here "HH" [N 2; N 2] m off _ o Hm eq_refl), H|reflexivity].
Qed.

Lemma typed_det off t t' : typed m off t -> typed m off t' -> t = t'.
Proof. intros (l & o & H) (l' & o' & H'). destruct (here_det _ _ _ _ _ _ _ H H') as [E _]. injection E as -> _. reflexivity. Qed.

Lemma by_type_mean l off (q : Z -> nat -> res (pyval * nat)) :
  (forall ty, typed m off ty -> mean (q ty) (holds (choose ty l nothing) off)) ->
  mean (fun n => ty <- prop_type m off ;; q ty n) (holds (by_type m l) off).
Proof.
  intros H. refine (mean_ext _ _ _ (mean_bind _ q _ (fun ty => holds (choose ty l nothing) off) (type_mean off) H) _).
  ext_vo. unfold by_type. reflexivity.
Qed.

(** The same where the header is read as a structure. *)
Lemma by_head_mean cls f l off (q : Z -> nat -> res (pyval * nat)) (r : pyval * nat -> nat -> res (pyval * nat)) : fmt f = Ok (map item [N 2; N 2]) ->
  (forall ty len o n, r (VTup cls [VInt ty; VInt len], o) n = q ty n) ->
  (forall ty, typed m off ty -> mean (q ty) (holds (choose ty l nothing) off)) ->
  mean (fun n => x <- fixed cls f m off ;; r x n) (holds (by_type m l) off).
Proof.
  intros Hf Hr H.
  refine (mean_ext _ _ _ (mean_bind _ r _ (fun x => fun y => exists ty len o, x = (VTup cls [VInt ty; VInt len], o) /\ choose ty l nothing off (fst y) (snd y)) (mean_fixed m Hm cls f _ off Hf) _) _).
  - intros [h o] (vs & Hh & Eh). cbn [fst snd] in *. subst h. destruct (two_shape _ _ _ Hh) as (ty & len & -> & _).
    apply (mean_eq _ (q ty)); [intros n; apply Hr|]. refine (mean_ext _ _ _ (H ty ltac:(do 2 eexists; exact Hh)) _).
    intros y. split; [intros K; eauto 6|]. intros (t & ln & o' & E & K). injection E as <- <- <-. exact K.
  - ext_vo. unfold by_type. split.
    + intros ([h o'] & (vs & Hh & E1) & ty & len & o2 & E2 & K). cbn [fst snd] in *. injection E2 as -> ->. injection E1 as <-. exists ty. split; [do 2 eexists; exact Hh|exact K].
    + intros (ty & (len & o' & Hh) & K). exists (VTup cls [VInt ty; VInt len], o'). split; [eexists; split; [exact Hh|reflexivity]|]. eauto 6.
Qed.

(** *** Structures with data and with lists *)

Lemma data_mean cls f fs first stop off (q : list pyval -> nat -> nat -> res (pyval * nat)) : fmt f = Ok (map item (N 2 :: N 2 :: fs)) ->
  (forall ty len vs o' n, shape fs vs -> 0 <= len -> o' = (off + flen (N 2 :: N 2 :: fs))%nat ->
     q (VInt ty :: VInt len :: vs) o' n = Ok (VTup cls (VInt ty :: VInt len :: vs ++ [VBytes (slice m (first off o' len) (end_ off len))]), stop off o' len)) ->
  mean (fun n => ' (vs, o) <- unp f m off ;; q vs o n) (holds (with_data cls fs first stop m) off).
Proof.
  intros Hf Hq. refine (mean_ext _ _ _ (mean_pair _ q _ (fun vs o c => exists ty len ws, vs = VInt ty :: VInt len :: ws /\
      c = (VTup cls (VInt ty :: VInt len :: ws ++ [VBytes (slice m (first off o len) (end_ off len))]), stop off o len)) (mean_unp m Hm f _ off Hf) _) _).
  - intros vs o H. pose proof (here_end _ _ _ _ _ H) as Eo. shp H. destruct S as (ty & ? & -> & _ & len & ws & -> & R & S).
    eapply mean_eq; [intros n; apply (Hq ty len ws o n S ltac:(lia) Eo)|]. refine (mean_ext _ _ _ (mean_ok _) _).
    intros c. split; [intros ->; eauto 6|]. intros (t & l & w & E & ->). injection E as <- <- <-. reflexivity.
  - ext_vo. unfold with_data. split.
    + intros (vs & o' & H & ty & len & ws & -> & E). injection E as -> ->. eauto 9.
    + intros (ty & len & ws & o' & H & -> & ->). eauto 9.
Qed.

Lemma list_mean cls f fs k (p : nat -> nat -> res (pyval * nat)) R off (q : list pyval -> nat -> nat -> res (pyval * nat)) : fmt f = Ok (map item fs) ->
  (forall off, mean (fun n => p n off) (holds R off)) ->
  (forall vs o', shape fs vs -> exists len, nth_error vs k = Some (VInt len) /\
     forall n, q vs o' n = (' (l, o) <- list_fetch n (p n) (end_ off len) o' ;; Ok (VTup cls (vs ++ [VList l]), o))) ->
  mean (fun n => ' (vs, o) <- unp f m off ;; q vs o n) (holds (with_list cls fs k R m) off).
Proof.
  intros Hf Hp Hq. refine (mean_ext _ _ _ (mean_pair _ q _ (fun vs o c => exists len, nth_error vs k = Some (VInt len) /\
      exists l o2, (filling R (end_ off len) o l /\ o2 = end_ off len) /\ c = (VTup cls (vs ++ [VList l]), o2)) (mean_unp m Hm f _ off Hf) _) _).
  - intros vs o H. pose proof (here_shape _ _ _ _ _ H) as S. destruct (Hq vs o S) as (len & En & K). eapply mean_eq; [exact K|]. eapply mean_ext.
    + eapply mean_pair with (P := fun l o2 => filling R (end_ off len) o l /\ o2 = end_ off len); [apply (mean_list p R _ Hp)|intros l o2 _; apply mean_ok].
    + intros c. split; [intros X; exists len; auto|]. intros (l' & E & X). rewrite En in E. injection E as <-. exact X.
  - ext_vo. unfold with_list. split.
    + intros (vs & o' & H & len & En & l & o2 & (F & ->) & E). injection E as -> ->. exists len, vs, o', l. auto.
    + intros (len & vs & o' & l & H & En & -> & F & ->). exists vs, o'. split; [exact H|]. exists len. split; [exact En|]. eauto 6.
Qed.

Lemma many_mean cls f fs k (p : nat -> nat -> res (pyval * nat)) R off (q : list pyval -> nat -> nat -> res (pyval * nat)) : fmt f = Ok (map item fs) ->
  (forall off, mean (fun n => p n off) (holds R off)) ->
  (forall vs o', shape fs vs -> exists len, nth_error vs k = Some (VInt len) /\
     forall n, q vs o' n = (' (l, o) <- while_fetch n (p n) (end_ off len) o' ;; Ok (VTup cls (vs ++ [VList l]), o))) ->
  mean (fun n => ' (vs, o) <- unp f m off ;; q vs o n) (holds (with_many cls fs k R m) off).
Proof.
  intros Hf Hp Hq. refine (mean_ext _ _ _ (mean_pair _ q _ (fun vs o c => exists len, nth_error vs k = Some (VInt len) /\
      exists l o2, many R (end_ off len) o l o2 /\ c = (VTup cls (vs ++ [VList l]), o2)) (mean_unp m Hm f _ off Hf) _) _).
  - intros vs o H. pose proof (here_shape _ _ _ _ _ H) as S. destruct (Hq vs o S) as (len & En & K). eapply mean_eq; [exact K|]. eapply mean_ext.
    + eapply mean_pair; [apply (mean_while p R _ Hp)|intros l o2 _; apply mean_ok].
    + intros c. split; [intros X; exists len; auto|]. intros (l' & E & X). rewrite En in E. injection E as <-. exact X.
  - ext_vo. unfold with_many. split.
    + intros (vs & o' & H & len & En & l & o2 & F & E). injection E as -> ->. exists len, vs, o', l. auto.
    + intros (len & vs & o' & l & H & En & F & ->). exists vs, o'. split; [exact H|]. exists len. split; [exact En|]. eauto 6.
Qed.

(** *** Actions, instructions, buckets *)

Ltac shape2 := let ty := fresh in let len := fresh in let vs := fresh in let o := fresh in let n := fresh in let L := fresh "L" in let E := fresh "E" in
  intros ty len vs o n; cbn [shape repeat Datatypes.app].
(** No more fields; one; two. *)
Ltac data0 f := apply (data_mean _ f []); [reflexivity|shape2; intros -> ? ->; cbn [Datatypes.app]; unfold after_fields, at_start, at_end, at_padded_end, after_padding, end_; rewrite ?up8_z, ?pad_z by lia; reflexivity].
Ltac data1 f := apply (data_mean _ f [N 4]); [reflexivity|shape2; intros (? & ? & -> & _ & ->) ? ->; cbn [Datatypes.app]; unfold after_fields, at_start, at_end, at_padded_end, after_padding, end_; rewrite ?up8_z, ?pad_z by lia; reflexivity].
Ltac data2 f := apply (data_mean _ f [N 4; N 4]); [reflexivity|shape2; intros (? & ? & -> & _ & ? & ? & -> & _ & ->) ? ->; cbn [Datatypes.app]; unfold after_fields, at_start, at_end, at_padded_end, after_padding, end_; rewrite ?up8_z, ?pad_z by lia; reflexivity].

Lemma action_mean off : mean (fun _ => p_action m off) (holds (an_action m) off).
Proof.
  apply (by_head_mean "ofp_action_header" "HH" _ off (fun ty _ => if ty =? 0 then p_action_output m off
      else if ty =? 22 then p_action_group m off
      else if ty =? 21 then p_action_set_queue m off
      else if ty =? 15 then p_action_mpls_ttl m off
      else if ty =? 23 then p_action_nw_ttl m off
      else if py_inz (VInt ty) [17; 19; 26] then p_action_push m off
      else if ty =? 20 then p_action_pop_mpls m off
      else if ty =? 25 then p_action_set_field m off
      else if ty =? 65535 then p_action_experimenter m off
      else if py_inz (VInt ty) [11; 12; 16; 24; 18; 27] then p_action_generic m off
      else Err ValueError)
    (fun x n => let (h, _) := x in match h with
  | VTup _ [VInt ty; _] =>
      if ty =? 0 then p_action_output m off
      else if ty =? 22 then p_action_group m off
      else if ty =? 21 then p_action_set_queue m off
      else if ty =? 15 then p_action_mpls_ttl m off
      else if ty =? 23 then p_action_nw_ttl m off
      else if py_inz (VInt ty) [17; 19; 26] then p_action_push m off
      else if ty =? 20 then p_action_pop_mpls m off
      else if ty =? 25 then p_action_set_field m off
      else if ty =? 65535 then p_action_experimenter m off
      else if py_inz (VInt ty) [11; 12; 16; 24; 18; 27] then p_action_generic m off
      else Err ValueError
  | _ => Err ValueError
  end)); [reflexivity|reflexivity|].
  intros ty _.
  line; [fx "HHIH6x"%string|]. line; [fx "HHI"%string|]. line; [fx "HHI"%string|]. line; [apply mean_nothing|]. line; [fx "HHB3x"%string|]. line; [fx "HHH2x"%string|]. line; [fx "HHH2x"%string|].
  line; [data0 "HH"%string|]. line; [data1 "HHI"%string|]. line; [fx "HH4x"%string|]. apply mean_nothing.
Qed.


Ltac one_len S := cbn [shape repeat Datatypes.app] in S.

Lemma instruction_mean off : mean (fun n => p_instruction n m off) (holds (an_instruction m) off).
Proof.
  apply (by_head_mean "ofp_instruction_header" "HH" _ off (fun ty n => if ty =? 1 then p_instruction_goto_table m off
      else if ty =? 2 then p_instruction_write_metadata m off
      else if py_inz (VInt ty) [3; 4; 5] then p_instruction_actions n m off
      else if ty =? 6 then p_instruction_meter m off
      else if ty =? 65535 then p_instruction_experimenter m off
      else Err ValueError)
    (fun x n => let (h, _) := x in match h with
  | VTup _ [VInt ty; _] =>
      if ty =? 1 then p_instruction_goto_table m off
      else if ty =? 2 then p_instruction_write_metadata m off
      else if py_inz (VInt ty) [3; 4; 5] then p_instruction_actions n m off
      else if ty =? 6 then p_instruction_meter m off
      else if ty =? 65535 then p_instruction_experimenter m off
      else Err ValueError
  | _ => Err ValueError
  end)); [reflexivity|reflexivity|].
  intros ty _.
  line; [fx "HHB3x"%string|]. line; [fx "HH4xQQ"%string|].
  line. { apply (list_mean _ "HH4x" [N 2; N 2; G 4] 1 (fun _ => p_action m) (an_action m)); [reflexivity|exact action_mean|].
    intros vs o' S. one_len S. destruct S as (a & ? & -> & _ & b & ? & -> & _ & ->). exists b. split; reflexivity. }
  line; [fx "HHI"%string|]. line; [data1 "HHI"%string|]. apply mean_nothing.
Qed.

Lemma bucket_mean off : mean (fun n => p_bucket n m off) (holds (a_bucket m) off).
Proof.
  apply (many_mean _ "HHII4x" [N 2; N 2; N 4; N 4; G 4] 0 (fun _ => p_action m) (an_action m)); [reflexivity|exact action_mean|].
  intros vs o' S. one_len S. destruct S as (a & ? & -> & _ & _). exists a. split; reflexivity.
Qed.

(** *** Ports, properties *)

Lemma port_prop_mean off : mean (fun _ => ty <- prop_type m off ;;
        if ty =? 0 then p_port_desc_prop_ethernet m off
        else if ty =? 1 then p_port_desc_prop_optical m off
        else if ty =? 65535 then p_port_desc_prop_experimenter m off
        else Err ValueError) (holds (a_port_prop m) off).
Proof.
  apply (by_type_mean _ off (fun ty _ => if ty =? 0 then p_port_desc_prop_ethernet m off
        else if ty =? 1 then p_port_desc_prop_optical m off
        else if ty =? 65535 then p_port_desc_prop_experimenter m off
        else Err ValueError)).
  intros ty _. line; [fx "HH4x6I"%string|]. line; [fx "HH4x7I2H"%string|]. line; [data2 "HHII"%string|]. apply mean_nothing.
Qed.

Lemma port_mean off : mean (fun _ => p_port m off) (holds (a_port m) off).
Proof.
  unfold p_port. refine (mean_ext _ _ _ (mean_pair _ (fun vs o (_ : nat) => match vs with
  | _ :: VInt len :: _ =>
      if (o <? off + Z.to_nat len)%nat then
        ty <- prop_type m o ;;
        if ty =? 0 then p_port_desc_prop_ethernet m o
        else if ty =? 1 then p_port_desc_prop_optical m o
        else if ty =? 65535 then p_port_desc_prop_experimenter m o
        else Err ValueError
      else Err NameError
  | _ => Err ValueError
  end) _ (fun vs o c => exists no len ws, vs = VInt no :: VInt len :: ws /\ (o < end_ off len)%nat /\ a_port_prop m o (fst c) (snd c))
    (mean_unp m Hm "IH2x6s2x16sII" [N 4; N 2; G 2; T 6; G 2; T 16; N 4; N 4] off eq_refl) _) _).
  - intros vs o H. shp H. destruct S as (no & ? & -> & _ & len & ws & -> & _ & _).
    destruct (Nat.ltb_spec o (off + Z.to_nat len)) as [L|L].
    + refine (mean_ext _ _ _ (port_prop_mean o) _). intros c. unfold end_. split; [intros K; exists no, len, ws; auto|]. intros (? & ? & ? & _ & _ & K). exact K.
    + refine (mean_ext _ _ _ (mean_err _) _). intros c. split; [intros []|]. intros (? & ? & ? & E & K & _). injection E as <- <- <-. unfold end_ in K. lia.
  - ext_vo. unfold a_port. split.
    + intros (vs & o' & H & no & len & ws & -> & K). exists no, len, ws, o'. tauto.
    + intros (no & len & ws & o' & H & K). exists (VInt no :: VInt len :: ws), o'. split; [exact H|]. exists no, len, ws. tauto.
Qed.

Lemma table_mod_prop_mean off : mean (fun _ => p_table_mod_prop m off) (holds (table_mod_prop m) off).
Proof.
  apply (by_type_mean _ off (fun ty _ => if ty =? 2 then p_table_mod_prop_eviction m off
  else if ty =? 3 then p_table_mod_prop_vacancy m off
  else if ty =? 65535 then p_table_mod_prop_experimenter m off
  else Err ValueError)).
  intros ty _. line; [fx "HHI"%string|]. line; [fx "HH3Bx"%string|]. line; [data2 "HHII"%string|]. apply mean_nothing.
Qed.

(** Signed numbers. *)
Lemma optical_iff off v o : p_port_mod_prop_optical m off = Ok (v, o) <-> port_mod_optical m off v o.
Proof.
  assert (F : unp "HHIIiII" m off = match unp "HHIIIII" m off with
      | Ok ([a; b; c; d; VInt s; g; p], o) => Ok ([a; b; c; d; VInt (signed4 s); g; p], o) | Ok x => Ok x | Err e => Err e end).
  { unfold unp, unpacks, sizes, unpack_from. change (fmt "HHIIiII") with (@Ok (list fitem) [FU 2; FU 2; FU 4; FU 4; FI 4; FU 4; FU 4]).
    change (fmt "HHIIIII") with (@Ok (list fitem) [FU 2; FU 2; FU 4; FU 4; FU 4; FU 4; FU 4]). cbn [bind calcsize item_size]. destruct (_ <=? _)%nat; reflexivity. }
  unfold p_port_mod_prop_optical, fixed, port_mod_optical. rewrite F. rewrite bind_iff. split.
  - intros ([vs o'] & E & K). apply Ok_inj in K. injection K as <- <-.
    destruct (unp "HHIIIII" m off) as [[ws o1]|e] eqn:U; [|discriminate].
    apply (unp_here "HHIIIII" (N 2 :: N 2 :: repeat (N 4) 5) m off ws o1 Hm eq_refl) in U. shp U.
    destruct S as (a & ? & -> & _ & b & ? & -> & _ & c & ? & -> & _ & d & ? & -> & _ & s & ? & -> & _ & g & ? & -> & _ & p & ? & -> & _ & ->).
    apply Ok_inj in E. injection E as <- <-. eexists _, _, _, _, s, _, _. split; [exact U|reflexivity].
  - intros (ty & len & c & f & s & g & p & H & ->). apply (unp_here "HHIIIII" (N 2 :: N 2 :: repeat (N 4) 5) m off _ o Hm eq_refl) in H. rewrite H.
    eexists (_, _). split; reflexivity.
Qed.

(** An unknown property: the loop does not move. *)
Lemma port_mod_stuck e off ty n : (off < e)%nat -> prop_type m off = Ok ty -> (ty =? 0) = false -> (ty =? 1) = false -> (ty =? 65535) = false ->
  port_mod_props n m e off = Err OutOfFuel.
Proof.
  intros L E E0 E1 E2. induction n as [|n IH]; cbn [port_mod_props]; rewrite (proj2 (Nat.ltb_lt _ _) L); [reflexivity|].
  rewrite E. cbn [bind]. rewrite E0, E1, E2. exact IH.
Qed.
Definition one_port_mod_prop (off : nat) : res (pyval * nat) :=
  ty <- prop_type m off ;;
  if ty =? 0 then p_port_mod_prop_ethernet m off
  else if ty =? 1 then p_port_mod_prop_optical m off
  else if ty =? 65535 then p_port_mod_prop_experimenter m off
  else Err OutOfFuel.
Lemma port_mod_while e n : forall off, port_mod_props n m e off = while_fetch n one_port_mod_prop e off.
Proof.
  induction n as [|n IH]; intros off; cbn [port_mod_props while_fetch]; [reflexivity|]. destruct (Nat.ltb_spec off e) as [L|L]; [|reflexivity].
  unfold one_port_mod_prop at 1. destruct (prop_type m off) as [ty|x] eqn:E; cbn [bind]; [|reflexivity].
  assert (K : forall r : res (pyval * nat), (' (v, o) <- r ;; ' (vs, o') <- port_mod_props n m e o ;; Ok (v :: vs, o')) = (' (v, o) <- r ;; ' (vs, o') <- while_fetch n one_port_mod_prop e o ;; Ok (v :: vs, o'))).
  { intros [[v o]|x]; cbn [bind]; [rewrite IH|]; reflexivity. }
  destruct (ty =? 0) eqn:E0; [apply K|]. destruct (ty =? 1) eqn:E1; [apply K|]. destruct (ty =? 65535) eqn:E2; [apply K|].
  cbn [bind]. exact (port_mod_stuck e off ty n L E E0 E1 E2).
Qed.
Lemma port_mod_prop_mean off : mean (fun _ => one_port_mod_prop off) (holds (port_mod_prop m) off).
Proof.
  apply (by_type_mean _ off (fun ty _ => if ty =? 0 then p_port_mod_prop_ethernet m off
  else if ty =? 1 then p_port_mod_prop_optical m off
  else if ty =? 65535 then p_port_mod_prop_experimenter m off
  else Err OutOfFuel)).
  intros ty _. line; [fx "HHI"%string|]. line; [apply mean_const; intros [v o]; apply optical_iff|]. line; [data2 "HHII"%string|]. apply mean_nothing.
Qed.

Lemma queue_desc_prop_mean off : mean (fun _ => p_queue_desc_prop m off) (holds (queue_desc_prop m) off).
Proof.
  apply (by_type_mean _ off (fun ty _ => if ty =? 1 then p_queue_desc_prop_min_rate m off
  else if ty =? 2 then p_queue_desc_prop_max_rate m off
  else if ty =? 65535 then p_queue_desc_prop_experimenter m off
  else Err ValueError)).
  intros ty _. line; [fx "HHH2x"%string|]. line; [fx "HHH2x"%string|]. line; [data2 "HHII"%string|]. apply mean_nothing.
Qed.

(** *** Features of tables *)

Lemma instruction_id_mean off : mean (fun _ => p_instruction_id m off) (holds (an_instruction_id m) off).
Proof. data0 "HH"%string. Qed.

Lemma feature_instructions_mean off : mean (fun n => p_table_feature_prop_instructions n m off) (holds (feature_instructions m) off).
Proof.
  unfold p_table_feature_prop_instructions. refine (mean_ext _ _ _ (mean_pair _ (fun vs o n => match vs with
  | [_; VInt len] =>
      let l := Z.to_nat len in
      ' (ids, _) <- list_fetch n (p_instruction_id m) (off + l) o ;;
      Ok (VTup "ofp_table_feature_prop_instructions" (vs ++ [VList ids]), (off + align8 l)%nat)
  | _ => Err ValueError
  end) _ (fun vs o c => exists ty len, vs = [VInt ty; VInt len] /\ exists l o2, (filling (an_instruction_id m) (end_ off len) o l /\ o2 = end_ off len) /\
     c = (VTup "ofp_table_feature_prop_instructions" (vs ++ [VList l]), end_ off (up8 len))) (mean_unp m Hm "HH" [N 2; N 2] off eq_refl) _) _).
  - intros vs o H. destruct (two_shape _ _ _ H) as (ty & len & -> & R). cbv zeta. eapply mean_ext.
    + eapply mean_pair with (P := fun l o2 => filling (an_instruction_id m) (end_ off len) o l /\ o2 = end_ off len);
        [apply (mean_list (fun _ => p_instruction_id m) _ _ instruction_id_mean)|intros l o2 _; apply mean_ok].
    + intros c. unfold end_. rewrite <- up8_z by lia. split; [intros K; exists ty, len; auto|]. intros (? & ? & E & K). injection E as <- <-. exact K.
  - ext_vo. unfold feature_instructions. split.
    + intros (vs & o' & H & ty & len & -> & l & o2 & (F & ->) & E). injection E as -> ->. exists ty, len, o', l. auto.
    + intros (ty & len & o' & l & H & F & -> & ->). eexists _, _. split; [exact H|]. exists ty, len. split; [reflexivity|]. eauto 6.
Qed.

Lemma here_words w k : forall off vs o, here m off (repeat (N w) k) vs o <->
  unpack_from (repeat (FU w) k) m off = Ok vs /\ o = (off + calcsize (repeat (FU w) k))%nat.
Proof.
  intros off vs o. rewrite (here_iff _ _ _ _ _ Hm). unfold flen, unpack_from.
  assert (E : map item (repeat (N w) k) = repeat (FU w) k) by (induction k as [|k IH]; [reflexivity|cbn [repeat map]; rewrite IH; reflexivity]).
  rewrite E. destruct (Nat.leb_spec (off + calcsize (repeat (FU w) k)) (length m)) as [L|L]; split.
  - intros (_ & <- & ->). auto.
  - intros (K & ->). apply Ok_inj in K. auto.
  - intros (K & _). lia.
  - intros (K & _). discriminate.
Qed.

Lemma count_iff w k off vs o : unp_count (FU w) k m off = Ok (vs, o) <-> 0 <= k /\ here m off (repeat (N w) (Z.to_nat k)) vs o.
Proof.
  unfold unp_count. destruct (Z.ltb_spec k 0) as [L|L]; [split; [discriminate|lia]|]. cbv zeta. rewrite here_words, bind_iff. split.
  - intros (vs' & E & K). apply Ok_inj in K. injection K as <- <-. auto.
  - intros (_ & E & ->). exists vs. auto.
Qed.

Lemma feature_tables_mean off : mean (fun _ => p_table_feature_prop_tables m off) (holds (feature_tables m) off).
Proof.
  apply mean_const. intros [v o]. cbn [fst snd]. unfold p_table_feature_prop_tables, feature_tables. rewrite bind_iff. split.
  - intros ([vs o'] & H & E). apply (unp_here "HH" [N 2; N 2] m off vs o' Hm eq_refl) in H. destruct (two_shape _ _ _ H) as (ty & len & -> & R). cbv zeta in E.
    apply bind_ok in E. destruct E as ([ids o2] & Ei & E). apply count_iff in Ei. destruct Ei as [L Hi]. apply Ok_inj in E. injection E as <- <-.
    exists ty, len, o', ids, o2. unfold after_padding. rewrite pad_z by lia. split; [exact H|]. split; [lia|]. auto.
  - intros (ty & len & o' & ids & o2 & H & L & Hi & -> & ->). exists ([VInt ty; VInt len], o'). split; [apply (unp_here "HH" [N 2; N 2] m off _ o' Hm eq_refl), H|]. cbv zeta.
    assert (Ei : unp_count (FU 1) (len - 4) m off = Ok (ids, o2)) by (apply count_iff; split; [lia|exact Hi]). rewrite Ei. cbn [bind Datatypes.app].
    unfold after_padding. rewrite pad_z by lia. reflexivity.
Qed.

Lemma feature_oxm_mean off : mean (fun _ => p_table_feature_prop_oxm m off) (holds (feature_oxm m) off).
Proof.
  assert (Q : forall len, 0 <= (len - 4) / 4 -> 4 <= len).
  { intros len K. destruct (Z_lt_le_dec len 4) as [L|L]; [|exact L]. pose proof (Z.div_lt_upper_bound (len - 4) 4 0 ltac:(lia) ltac:(lia)). lia. }
  assert (P : forall len, len / 4 - 1 = (len - 4) / 4).
  { intros len. replace len with ((len - 4) + 1 * 4) at 1 by lia. rewrite Z.div_add by lia. lia. }
  apply mean_const. intros [v o]. cbn [fst snd]. unfold p_table_feature_prop_oxm, feature_oxm. rewrite bind_iff. split.
  - intros ([vs o'] & H & E). apply (unp_here "HH" [N 2; N 2] m off vs o' Hm eq_refl) in H. destruct (two_shape _ _ _ H) as (ty & len & -> & R). cbv zeta in E.
    apply bind_ok in E. destruct E as ([ids o2] & Ei & E). apply count_iff in Ei. destruct Ei as [L Hi]. apply Ok_inj in E. injection E as <- <-.
    exists ty, len, ids, o2. unfold after_padding. rewrite pad_z by lia. split; [exact (Q len L)|]. split; [|auto].
    apply here_split. exists [VInt ty; VInt len], ids, o'. rewrite P. auto.
  - intros (ty & len & ids & o2 & L & H & -> & ->). apply here_split in H. destruct H as (v1 & v2 & o' & E & H & Hi). destruct (two_shape _ _ _ H) as (ty' & len' & -> & R).
    injection E as <- <- <-. exists ([VInt ty; VInt len], o'). split; [apply (unp_here "HH" [N 2; N 2] m off _ o' Hm eq_refl), H|]. cbv zeta.
    assert (Ei : unp_count (FU 4) ((len - 4) / 4) m o' = Ok (ids, o2)) by (apply count_iff; rewrite <- P; split; [rewrite P; apply Z.div_pos; lia|exact Hi]). rewrite Ei. cbn [bind Datatypes.app].
    unfold after_padding. rewrite pad_z by lia. reflexivity.
Qed.

Lemma feature_prop_mean off : mean (fun n => p_table_feature_prop n m off) (holds (feature_prop m) off).
Proof.
  apply (by_type_mean _ off (fun ty n => if py_inz (VInt ty) [0; 1] then p_table_feature_prop_instructions n m off
  else if py_inz (VInt ty) [2; 3; 14] then p_table_feature_prop_tables m off
  else if py_inz (VInt ty) [4; 5; 6; 7] then p_table_feature_prop_actions m off
  else if py_inz (VInt ty) [8; 9; 10; 11; 12; 13] then p_table_feature_prop_oxm m off
  else if py_inz (VInt ty) [65534; 65535] then p_table_feature_prop_experimenter m off
  else Err ValueError)).
  intros ty _. line; [apply feature_instructions_mean|]. line; [apply feature_tables_mean|].
  line. { apply mean_const. intros x. unfold p_table_feature_prop_actions, nothing. destruct (unp _ m off); cbn [bind]; split; try discriminate; intros []. }
  line; [apply feature_oxm_mean|]. line; [data2 "HHII"%string|]. apply mean_nothing.
Qed.

Lemma name_iff f nm : name_of f nm <-> nm = before_nul f.
Proof.
  unfold name_of. split.
  - intros (Z0 & r & -> & Hr). symmetry. apply before_nul_ends; assumption.
  - intros ->. split; [apply before_nul_no_zero|apply before_nul_split].
Qed.

Lemma table_features_mean off : mean (fun n => p_table_features n m off) (holds (table_features m) off).
Proof.
  unfold p_table_features. refine (mean_ext _ _ _ (mean_pair _ (fun vs o n => match vs with
  | VInt len :: t :: VBytes name :: rest =>
      ' (ps, o) <- while_fetch n (p_table_feature_prop n m) (off + Z.to_nat len) o ;;
      Ok (VTup "ofp_table_feature_prop_header"
            (VInt len :: t :: VBytes (before_nul name) :: rest ++ [VList ps]), o)
  | _ => Err ValueError
  end) _ (fun vs o c => exists len t f ws, vs = VInt len :: t :: VBytes f :: ws /\ exists ps o2, many (feature_prop m) (end_ off len) o ps o2 /\
     c = (VTup "ofp_table_feature_prop_header" (VInt len :: t :: VBytes (before_nul f) :: ws ++ [VList ps]), o2))
    (mean_unp m Hm "HB5x32sQQII" [N 2; N 1; G 5; T 32; N 8; N 8; N 4; N 4] off eq_refl) _) _).
  - intros vs o H. shp H. destruct S as (len & ? & -> & _ & t & ? & -> & _ & f & ws & -> & _ & _). eapply mean_ext.
    + eapply mean_pair; [apply (mean_while (fun n => p_table_feature_prop n m) _ _ feature_prop_mean)|intros ps o2 _; apply mean_ok].
    + intros c. split; [intros K; exists len, (VInt t), f, ws; auto|]. intros (? & ? & ? & ? & E & K). injection E as <- <- <- <-. exact K.
  - ext_vo. unfold table_features. split.
    + intros (vs & o' & H & len & t & f & ws & -> & ps & o2 & M & E). injection E as -> ->. exists len, t, f, (before_nul f), ws, o', ps. rewrite name_iff. auto.
    + intros (len & t & f & nm & ws & o' & ps & H & Hn & M & ->). apply name_iff in Hn. subst nm. eexists _, _. split; [exact H|]. exists len, t, f, ws. split; [reflexivity|]. eauto.
Qed.

(** *** Bodies of multipart messages *)

Lemma flow_stats_mean off : mean (fun n => p_flow_stats n m off) (holds (flow_stats m) off).
Proof.
  unfold p_flow_stats. refine (mean_ext _ _ _ (mean_pair _ (fun vs o n => match vs with
      | VInt len :: _ => ' (mt, o) <- p_match m o ;; ' (insts, o) <- list_fetch n (p_instruction n m) (off + Z.to_nat len) o ;;
          Ok (VTup "ofp_flow_stats" (vs ++ [mt; VList insts]), o)
      | _ => Err ValueError end) _
    (fun vs o c => exists len r, vs = VInt len :: r /\ exists mt o1, a_match m o mt o1 /\ exists is o2, (filling (an_instruction m) (end_ off len) o1 is /\ o2 = end_ off len) /\
        c = (VTup "ofp_flow_stats" (vs ++ [mt; VList is]), o2))
    (mean_unp m Hm "HBxII4H4x3Q" [N 2; N 1; G 1; N 4; N 4; N 2; N 2; N 2; N 2; G 4; N 8; N 8; N 8] off eq_refl) _) _).
  - intros vs o H. shp H. destruct S as (len & r & -> & _ & _). eapply mean_ext.
    + eapply mean_pair; [apply (match_mean m Hm)|]. intros mt o1 _.
      eapply mean_pair with (P := fun is o2 => filling (an_instruction m) (end_ off len) o1 is /\ o2 = end_ off len);
        [apply (mean_list (fun n => p_instruction n m) (an_instruction m) _ instruction_mean)|intros is o2 _; apply mean_ok].
    + intros c. split; [intros K; exists len, r; auto|intros (l & r' & E & K); injection E as <- <-; exact K].
  - ext_vo. unfold flow_stats. split.
    + intros (vs & o' & H & len & r & -> & mt & o1 & M & is & o2 & (F & ->) & E). injection E as -> ->. exists len, r, o', mt, o1, is. auto.
    + intros (len & r & o' & mt & o1 & is & H & M & -> & F & ->). eexists _, _. split; [exact H|]. exists len, r. split; [reflexivity|]. exists mt, o1. split; [exact M|].
      exists is, (end_ off len). auto.
Qed.

Lemma monitor_mean off : mean (fun _ => p_flow_monitor_request m off) (holds (monitor_request m) off).
Proof.
  unfold p_flow_monitor_request. eapply mean_ext.
  - eapply mean_pair; [apply (mean_unp m Hm "IIIHBB" [N 4; N 4; N 4; N 2; N 1; N 1] off eq_refl)|]. intros vs o H.
    eapply mean_pair; [apply (match_mean m Hm)|]. intros mt o' H'. apply mean_ok.
  - ext_vo. unfold monitor_request. split.
    + intros (vs & o1 & H & mt & o2 & M & E). injection E as -> ->. eauto 6.
    + intros (vs & o1 & mt & H & M & ->). eauto 8.
Qed.

Lemma group_features_mean off : mean (fun _ => p_group_features m off) (holds (group_features m) off).
Proof.
  unfold p_group_features. eapply mean_ext.
  - eapply mean_pair; [apply (mean_unp m Hm "II" [N 4; N 4] off eq_refl)|]. intros vs o _.
    eapply mean_pair; [apply (mean_unp m Hm "4I" [N 4; N 4; N 4; N 4] o eq_refl)|]. intros g o1 _.
    eapply mean_pair; [apply (mean_unp m Hm "4I" [N 4; N 4; N 4; N 4] o1 eq_refl)|]. intros a o2 _. apply mean_ok.
  - ext_vo. unfold group_features. split.
    + intros (vs & o1 & H1 & g & o2 & H2 & a & o3 & H3 & E). injection E as -> ->.
      pose proof (here_shape _ _ _ _ _ H1) as (t & ? & -> & _ & c & ? & -> & _ & S1). cbn [shape] in S1. subst.
      pose proof (here_shape _ _ _ _ _ H2) as (g1 & ? & -> & _ & g2 & ? & -> & _ & g3 & ? & -> & _ & g4 & ? & -> & _ & S1). cbn [shape] in S1. subst.
      pose proof (here_shape _ _ _ _ _ H3) as (a1 & ? & -> & _ & a2 & ? & -> & _ & a3 & ? & -> & _ & a4 & ? & -> & _ & S1). cbn [shape] in S1. subst.
      do 10 eexists. split; [|reflexivity].
      apply (here_split m off [N 4; N 4] (repeat (N 4) 8)). eexists [_; _], [_; _; _; _; _; _; _; _], _. split; [reflexivity|]. split; [exact H1|].
      apply (here_split m _ [N 4; N 4; N 4; N 4] [N 4; N 4; N 4; N 4]). eexists [_; _; _; _], [_; _; _; _], _. split; [reflexivity|]. split; [exact H2|exact H3].
    + intros (? & ? & ? & ? & ? & ? & ? & ? & ? & ? & H & ->).
      apply (here_split m off [N 4; N 4] (repeat (N 4) 8)) in H; destruct H as (y1 & y2 & o1 & E1 & H1 & H2).
      apply (here_split m _ [N 4; N 4; N 4; N 4] [N 4; N 4; N 4; N 4]) in H2. destruct H2 as (y3 & y4 & o2 & E2 & H2 & H3). subst y2.
      pose proof (here_shape _ _ _ _ _ H1) as (? & ? & -> & _ & ? & ? & -> & _ & S1). cbn [shape] in S1. subst.
      pose proof (here_shape _ _ _ _ _ H2) as (? & ? & -> & _ & ? & ? & -> & _ & ? & ? & -> & _ & ? & ? & -> & _ & S1). cbn [shape] in S1. subst.
      injection E1; intros; subst. eexists _, _. split; [exact H1|]. eexists _, _. split; [exact H2|]. eexists _, _. split; [exact H3|reflexivity].
Qed.

Lemma requests_mean e off ty :
  mean (fun n => if py_inz (VInt ty) [0; 3; 7; 8; 11; 13; 14] then Ok (VBytes [], off)
         else if ty =? 1 then p_flow_stats_request m off
         else if ty =? 2 then p_aggregate_stats_request m off
         else if ty =? 4 then p_port_stats_request m off
         else if ty =? 5 then p_queue_stats_request m off
         else if ty =? 6 then p_group_stats_request m off
         else if py_inz (VInt ty) [9; 10] then Err NameError
         else if ty =? 15 then p_queue_desc_request m off
         else if ty =? 16 then p_flow_monitor_request m off
         else if ty =? 12 then
           ' (fs, o) <- while_fetch n (p_table_features n m) e off ;; Ok (VList fs, o)
         else if ty =? 65535 then Ok (VBytes (slice m off e), e)
         else Err ValueError)
    (holds (choose ty (requests m e) nothing) off).
Proof.
  line. { refine (mean_ext _ _ _ (mean_ok _) _). ext_vo. split; [intros E; injection E as -> ->; auto|intros [-> ->]; reflexivity]. }
  line; [apply (request_mean m Hm)|]. line; [apply (request_mean m Hm)|]. line; [fx "I4x"%string|]. line; [fx "II"%string|]. line; [fx "I4x"%string|].
  line; [apply mean_nothing|]. line; [fx "II"%string|]. line; [apply monitor_mean|].
  line. { eapply mean_ext; [eapply mean_pair; [apply (mean_while (fun n => p_table_features n m) _ _ table_features_mean)|intros l o _; apply mean_ok]|].
    ext_vo. split; [intros (l & o' & M & E); injection E as -> ->; eauto|intros (l & M & ->); eauto]. }
  line. { refine (mean_ext _ _ _ (mean_ok _) _). ext_vo. split; [intros E; injection E as -> ->; auto|intros [-> ->]; reflexivity]. }
  apply mean_nothing.
Qed.

Lemma all_mean (f : nat -> nat -> res (pyval * nat)) R e off : (forall off, mean (fun n => f n off) (holds R off)) ->
  mean (fun n => ' (l, o) <- list_fetch n (f n) e off ;; Ok (VList l, o)) (holds (all R e) off).
Proof.
  intros Hf. eapply mean_ext.
  - eapply mean_pair with (P := fun l o => filling R e off l /\ o = e); [apply (mean_list f R e Hf)|intros l o _; apply mean_ok].
  - ext_vo. unfold all. split; [intros (l & o' & (F & ->) & E); injection E as -> ->; eauto|intros (l & F & -> & ->); eauto 6].
Qed.

Lemma never (f : nat -> nat -> res (pyval * nat)) : (forall n off x, f n off <> Ok x) -> forall off, mean (fun n => f n off) (holds nothing off).
Proof. intros H off. split; [intros n a E; elim (H n off a E)|intros a []]. Qed.

Lemma replies_mean e off ty :
  mean (fun n => let fetch f := (' (l, o) <- list_fetch n f e off ;; Ok (VList l, o)) in
        (if ty =? 0 then p_desc m off
         else if ty =? 1 then fetch (p_flow_stats n m)
         else if ty =? 2 then fetch (p_aggregate_stats_reply m)
         else if ty =? 3 then fetch (p_table_stats m)
         else if ty =? 4 then fetch (p_port_stats n m)
         else if ty =? 5 then fetch (p_queue_stats n m)
         else if ty =? 6 then fetch (p_group_stats n m)
         else if ty =? 7 then fetch (p_group_desc n m)
         else if ty =? 8 then p_group_features m off
         else if ty =? 9 then fetch (p_meter_stats n m)
         else if ty =? 10 then fetch (p_meter_config n m)
         else if ty =? 11 then p_meter_features m off
         else if ty =? 12 then fetch (p_table_features n m)
         else if ty =? 13 then fetch (p_port m)
         else if ty =? 14 then fetch (p_table_desc m)
         else if ty =? 15 then fetch (p_queue_desc n m)
         else if ty =? 16 then fetch (p_flow_update_header m)
         else if ty =? 65535 then p_experimenter_multipart m off e
         else Err ValueError))
    (holds (choose ty (replies m e) nothing) off).
Proof.
  cbv zeta.
  line; [fx "256s256s256s32s256s"%string|].
  line; [apply (all_mean (fun n => p_flow_stats n m)); exact flow_stats_mean|].
  line; [apply (all_mean (fun _ => p_aggregate_stats_reply m)); intros o; fx "QQI4x"%string|].
  line. { apply (all_mean (fun _ => p_table_stats m)). apply never. intros n o x. unfold p_table_stats. destruct (unp _ m o); discriminate. }
  line. { apply (all_mean (fun n => p_port_stats n m)). apply never. intros n o x. unfold p_port_stats. destruct (unp _ m o) as [[vs o']|]; cbn [bind]; [|discriminate].
    destruct vs as [|[] vs]; try discriminate. destruct (while_fetch _ _ _ _); discriminate. }
  line. { apply (all_mean (fun n => p_queue_stats n m)). apply never. intros n o x. unfold p_queue_stats. destruct (unp _ m o) as [[vs o']|]; cbn [bind]; [|discriminate].
    destruct vs as [|[] vs]; try discriminate. destruct (while_fetch _ _ _ _); discriminate. }
  line. { apply (all_mean (fun n => p_group_stats n m)). intros o. apply (with_list0_mean m Hm "ofp_group_stats" "H2xII4xQQII" _ (fun _ => p_bucket_counter m)); [reflexivity|exact Logic.I|].
    intros o'. fx "QQ"%string. }
  line. { apply (all_mean (fun n => p_group_desc n m)). intros o. apply (with_list0_mean m Hm "ofp_group_desc" "HBxI" _ (fun n => p_bucket n m)); [reflexivity|exact Logic.I|]. exact bucket_mean. }
  line; [apply group_features_mean|].
  line. { apply (all_mean (fun n => p_meter_stats n m)). intros o. apply (with_list1_mean m Hm "ofp_meter_stats" "IH6xIQQII" _ _ _ (fun _ => p_meter_band_stats m)); [reflexivity|].
    intros o'. fx "QQ"%string. }
  line. { apply (all_mean (fun n => p_meter_config n m)). intros o. apply (with_list0_mean m Hm "ofp_meter_config" "HHI" _ (fun _ => p_meter_band m)); [reflexivity|exact Logic.I|]. exact (band_mean m Hm). }
  line; [fx "3IBB2x"%string|].
  line; [apply (all_mean (fun n => p_table_features n m)); exact table_features_mean|].
  line; [apply (all_mean (fun _ => p_port m)); exact port_mean|].
  line. { apply (all_mean (fun _ => p_table_desc m)). apply never. intros n o x. unfold p_table_desc. destruct (unp _ m o); discriminate. }
  line. { apply (all_mean (fun n => p_queue_desc n m)). intros o. apply (many_mean _ "IIH6x" [N 4; N 4; N 2; G 6] 2 (fun _ => p_queue_desc_prop m) (queue_desc_prop m)); [reflexivity|exact queue_desc_prop_mean|].
    intros vs o' S. one_len S. destruct S as (a & ? & -> & _ & b & ? & -> & _ & c & ? & -> & _ & ->). exists c. split; reflexivity. }
  line; [apply (all_mean (fun _ => p_flow_update_header m)); intros o; fx "HH"%string|].
  line. { unfold p_experimenter_multipart. eapply mean_ext; [eapply mean_pair; [apply (mean_unp m Hm "II" [N 4; N 4] off eq_refl)|intros vs o _; apply mean_ok]|].
    ext_vo. split; [intros (vs & o' & H & E); injection E as -> ->; eauto|intros (vs & o' & H & -> & ->); eauto]. }
  apply mean_nothing.
Qed.

(** *** Messages *)

Lemma hello_mean off : mean (fun _ => p_hello_elem m off) (holds (hello_element m) off).
Proof. exact (P_Accept4.hello_mean m Hm off). Qed.

Lemma header_iff off h ty l o : p_header m off = Ok (h, ty, l, o) <-> exists len, header m off ty len h /\ l = Z.to_nat len /\ o = (off + 8)%nat.
Proof.
  unfold p_header, header. rewrite bind_iff. split.
  - intros ([vs o'] & H & E). apply (unp_here "BBHI" [N 1; N 1; N 2; N 4] m off vs o' Hm eq_refl) in H. pose proof (here_end _ _ _ _ _ H) as Eo. cbn in Eo.
    shp H. destruct S as (a & ? & -> & _ & b & ? & -> & _ & c & ? & -> & _ & d & ? & -> & _ & ->). cbv beta iota in E.
    destruct (Z.eqb_spec a 5) as [->|N4]; [|discriminate]. cbn [assert_ bind] in E. apply Ok_inj in E. injection E as <- <- <- <-.
    exists c. split; [|auto]. exists d, o'. auto.
  - intros (len & (xid & o' & H & ->) & -> & ->). exists ([VInt 5; VInt ty; VInt len; VInt xid], o'). split; [apply (unp_here "BBHI" [N 1; N 1; N 2; N 4] m off _ o' Hm eq_refl), H|].
    apply here_end in H. subst o'. reflexivity.
Qed.

Lemma header_det off ty ty' len len' h h' : header m off ty len h -> header m off ty' len' h' -> ty = ty' /\ len = len' /\ h = h'.
Proof.
  intros (x & o & H & ->) (x' & o' & H' & ->). destruct (here_det _ _ _ _ _ _ _ H H') as [E _]. injection E as <- <- <-. auto.
Qed.

Section body.
Variables (off : nat) (h : pyval) (ty len : Z).
Hypothesis Eh : p_header m off = Ok (h, ty, Z.to_nat len, (off + 8)%nat).

Lemma simple_mean cls f fs : fmt f = Ok (map item fs) -> mean (fun _ => simple_message cls f m off) (holds (simple m h cls fs) off).
Proof.
  intros Hf. unfold simple_message. rewrite Eh. cbn [bind]. eapply mean_ext; [eapply mean_pair; [apply (mean_unp m Hm f fs _ Hf)|intros vs o _; apply mean_ok]|].
  ext_vo. unfold simple. split; [intros (vs & o' & H & E); injection E as -> ->; eauto|intros (vs & H & ->); eauto].
Qed.
Lemma rest_mean cls f fs : fmt f = Ok (map item fs) -> mean (fun _ => data_message cls f m off) (holds (with_rest m h (end_ off len) cls fs) off).
Proof.
  intros Hf. unfold data_message. rewrite Eh. cbn [bind]. eapply mean_ext; [eapply mean_pair; [apply (mean_unp m Hm f fs _ Hf)|intros vs o _; apply mean_ok]|].
  ext_vo. unfold with_rest. split; [intros (vs & o' & H & E); injection E as -> ->; eauto|intros (vs & o' & H & -> & ->); eauto].
Qed.
Lemma listing_mean cls f fs (p : nat -> nat -> res (pyval * nat)) R : fmt f = Ok (map item fs) -> (forall off, mean (fun n => p n off) (holds R off)) ->
  mean (fun n => ' (vs, o) <- unp f m (off + 8) ;; ' (l, o) <- while_fetch n (p n) (end_ off len) o ;; Ok (VTup cls (h :: vs ++ [VList l]), o))
    (holds (listing m h (end_ off len) cls fs R) off).
Proof.
  intros Hf Hp. eapply mean_ext; [eapply mean_pair; [apply (mean_unp m Hm f fs _ Hf)|intros vs o _]; eapply mean_pair; [apply (mean_while p R _ Hp)|intros l o' _; apply mean_ok]|].
  ext_vo. unfold listing. split; [intros (vs & o' & H & l & o2 & M & E); injection E as -> ->; eauto 7|intros (vs & o' & l & H & M & ->); eauto 8].
Qed.

Variables (p : nat -> nat -> res (pyval * nat)) (inner : rel).
Hypothesis Hp : forall off, mean (fun n => p n off) (holds inner off).

Lemma bodies_mean : mean (fun n => if ty =? 0 then p_hello n m off
      else if ty =? 1 then p_error_msg m off
      else if ty =? 6 then p_switch_features m off
      else if py_inz (VInt ty) [9; 8] then p_switch_config m off
      else if ty =? 10 then p_packet_in m off
      else if ty =? 11 then p_flow_removed m off
      else if ty =? 12 then p_port_status m off
      else if ty =? 13 then p_packet_out n m off
      else if ty =? 14 then p_flow_mod n m off
      else if ty =? 15 then p_group_mod n m off
      else if ty =? 16 then p_port_mod n m off
      else if ty =? 17 then p_table_mod n m off
      else if ty =? 18 then p_multipart_request n m off
      else if ty =? 19 then p_multipart_reply n m off
      else if ty =? 4 then p_experimenter_msg m off
      else if py_inz (VInt ty) [28; 27] then p_async_config n m off
      else if ty =? 29 then p_meter_mod n m off
      else if ty =? 30 then p_role_status n m off
      else if ty =? 31 then p_table_status m off
      else if ty =? 32 then p_requestforward (fun _ => p n) m off
      else if ty =? 33 then p_bundle_ctrl_msg n m off
      else if ty =? 34 then p_bundle_add_msg (fun _ => p n) m off
      else p_ofp m off)
  (holds (choose ty (bodies m h (end_ off len) inner) (other m h (end_ off len))) off).
Proof.
  unfold bodies.
  line. { unfold p_hello. rewrite Eh. cbn [bind]. eapply mean_ext.
    - eapply mean_pair with (P := fun l o => filling (hello_element m) (end_ off len) (off + 8) l /\ o = end_ off len); [apply (mean_list (fun _ => p_hello_elem m) _ _ hello_mean)|intros l o _; apply mean_ok].
    - ext_vo. unfold hello. split; [intros (l & o' & (F & ->) & E); injection E as -> ->; eauto|intros (l & F & -> & ->); eauto 6]. }
  line; [apply (rest_mean _ "HH"); reflexivity|].
  line. { unfold p_switch_features. rewrite Eh. cbn [bind].
    refine (mean_ext _ _ _ (mean_pair _ (fun vs o (_ : nat) => match vs with [a; b; c; d; e; _] => Ok (VTup "ofp_switch_features" [h; a; b; c; d; e], o) | _ => Err ValueError end) _
      (fun vs o y => exists a b c d e f, vs = [a; b; c; d; e; f] /\ y = (VTup "ofp_switch_features" [h; a; b; c; d; e], o))
      (mean_unp m Hm "QIBB2xII" [N 8; N 4; N 1; N 1; G 2; N 4; N 4] _ eq_refl) _) _).
    - intros vs o H. shp H. destruct S as (a & ? & -> & _ & b & ? & -> & _ & c & ? & -> & _ & d & ? & -> & _ & e & ? & -> & _ & f & ? & -> & _ & ->).
      refine (mean_ext _ _ _ (mean_ok _) _). intros y. split; [intros ->; eauto 10|]. intros (? & ? & ? & ? & ? & ? & E & ->). injection E as <- <- <- <- <- <-. reflexivity.
    - ext_vo. unfold features. split.
      + intros (vs & o' & H & a & b & c & d & e & f & -> & E). injection E as -> ->. exists a, b, c, d, e, f. auto.
      + intros (a & b & c & d & e & f & H & ->). eexists _, _. split; [exact H|]. eauto 10. }
  line; [apply (simple_mean _ "HH"); reflexivity|].
  line. { unfold p_packet_in. rewrite Eh. cbn [bind]. eapply mean_ext.
    - eapply mean_pair; [apply (mean_unp m Hm "IHBBQ" [N 4; N 2; N 1; N 1; N 8]); reflexivity|intros vs o _].
      eapply mean_pair; [apply (match_mean m Hm)|intros mt o1 _].
      eapply mean_pair; [apply (mean_unp m Hm "2x" [G 2]); reflexivity|intros ws o2 _; apply mean_ok].
    - ext_vo. unfold packet_in. split.
      + intros (vs & o' & H & mt & o1 & M & ws & o2 & H2 & E). injection E as -> ->. shp H2. subst ws. exists vs, o', mt, o1, o2. auto.
      + intros (vs & o' & mt & o1 & o2 & H & M & H2 & -> & ->). eauto 12. }
  line. { unfold p_flow_removed. rewrite Eh. cbn [bind]. eapply mean_ext.
    - eapply mean_pair; [apply (mean_unp m Hm "QHBBIIHHQQ" [N 8; N 2; N 1; N 1; N 4; N 4; N 2; N 2; N 8; N 8]); reflexivity|intros vs o _].
      eapply mean_pair; [apply (match_mean m Hm)|intros mt o1 _; apply mean_ok].
    - ext_vo. unfold flow_removed. split.
      + intros (vs & o' & H & mt & o1 & M & E). injection E as -> ->. eauto 7.
      + intros (vs & o' & mt & H & M & ->). eauto 10. }
  line. { unfold p_port_status. rewrite Eh. cbn [bind]. eapply mean_ext.
    - eapply mean_pair; [apply (mean_unp m Hm "B7x" [N 1; G 7]); reflexivity|intros vs o _].
      eapply mean_pair; [apply port_mean|intros mt o1 _; apply mean_ok].
    - ext_vo. unfold port_status. split.
      + intros (vs & o' & H & mt & o1 & M & E). injection E as -> ->. shp H. destruct S as (a & ? & -> & _ & ->). eauto 7.
      + intros (r & o' & mt & H & M & ->). eauto 10. }
  line. { unfold p_packet_out. rewrite Eh. cbn [bind].
    refine (mean_ext _ _ _ (mean_pair _ (fun vs o n => match vs with
        | [_; _; VInt alen] => ' (acts, o) <- while_fetch n (p_action m) (o + Z.to_nat alen) o ;;
            Ok (VTup "ofp_packet_out" (h :: vs ++ [VList acts; VBytes (slice m o (end_ off len))]), end_ off len) | _ => Err ValueError end) _
      (fun vs o y => exists a b c, vs = [a; b; VInt c] /\ exists acts o', many (an_action m) (end_ o c) o acts o' /\
         y = (VTup "ofp_packet_out" (h :: vs ++ [VList acts; VBytes (slice m o' (end_ off len))]), end_ off len))
      (mean_unp m Hm "IIH6x" [N 4; N 4; N 2; G 6] _ eq_refl) _) _).
    - intros vs o H. shp H. destruct S as (a & ? & -> & _ & b & ? & -> & _ & c & ? & -> & _ & ->). eapply mean_ext.
      + eapply mean_pair; [apply (mean_while (fun _ => p_action m) (an_action m) _ action_mean)|intros acts o1 _; apply mean_ok].
      + intros y. split; [intros K; exists (VInt a), (VInt b), c; auto|]. intros (? & ? & ? & E & K). injection E as <- <- <-. exact K.
    - ext_vo. unfold packet_out. split.
      + intros (vs & o' & H & a & b & c & -> & acts & o1 & M & E). injection E as -> ->. exists a, b, c, o', acts, o1. auto.
      + intros (a & b & c & o' & acts & o1 & H & M & -> & ->). eexists _, _. split; [exact H|]. exists a, b, c. split; [reflexivity|]. eauto. }
  line. { unfold p_flow_mod. rewrite Eh. cbn [bind]. eapply mean_ext.
    - eapply mean_pair; [apply (mean_unp m Hm "QQBB3H3IHH" [N 8; N 8; N 1; N 1; N 2; N 2; N 2; N 4; N 4; N 4; N 2; N 2]); reflexivity|intros vs o _].
      eapply mean_pair; [apply (match_mean m Hm)|intros mt o1 _].
      eapply mean_pair with (P := fun is o2 => filling (an_instruction m) (end_ off len) o1 is /\ o2 = end_ off len);
        [apply (mean_list (fun n => p_instruction n m) (an_instruction m) _ instruction_mean)|intros is o2 _; apply mean_ok].
    - ext_vo. unfold flow_mod. split.
      + intros (vs & o' & H & mt & o1 & M & is & o2 & (F & ->) & E). injection E as -> ->. exists vs, o', mt, o1, is. auto.
      + intros (vs & o' & mt & o1 & is & H & M & F & -> & ->). eexists _, _. split; [exact H|]. eauto 10. }
  line. { unfold p_group_mod. rewrite Eh. cbn [bind]. apply (listing_mean _ "HBxI" _ (fun n => p_bucket n m)); [reflexivity|exact bucket_mean]. }
  line. { unfold p_port_mod. rewrite Eh. cbn [bind]. eapply mean_ext.
    - eapply mean_pair; [apply (mean_unp m Hm "I4x6s2xII" [N 4; G 4; T 6; G 2; N 4; N 4]); reflexivity|intros vs o _].
      eapply mean_pair; [|intros l o' _; apply mean_ok].
      eapply mean_eq; [intros n; apply port_mod_while|]. apply (mean_while (fun _ => one_port_mod_prop) _ _ port_mod_prop_mean).
    - ext_vo. unfold port_mod. split.
      + intros (vs & o' & H & l & o2 & M & E). injection E as -> ->. eauto 7.
      + intros (vs & o' & l & H & M & ->). eauto 8. }
  line. { unfold p_table_mod. rewrite Eh. cbn [bind]. apply (listing_mean _ "B3xI" _ (fun _ => p_table_mod_prop m)); [reflexivity|exact table_mod_prop_mean]. }
  line. { unfold p_multipart_request. rewrite Eh. cbn [bind]. eapply mean_ext.
    - eapply mean_pair with (Q := fun vs o y => exists t f, vs = [VInt t; f] /\ exists v o', choose t (requests m (end_ off len)) nothing o v o' /\ y = (VTup "ofp_multipart_request" (h :: vs ++ [v]), o'));
        [apply (mean_unp m Hm "HH4x" [N 2; N 2; G 4]); reflexivity|intros vs o H].
      shp H. destruct S as (a & ? & -> & _ & b & ? & -> & _ & ->). eapply mean_ext.
      + eapply mean_pair; [apply (requests_mean (end_ off len) o a)|intros v o1 _; apply mean_ok].
      + intros y. split; [intros K; exists a, (VInt b); auto|]. intros (? & ? & E & K). injection E as <- <-. exact K.
    - ext_vo. unfold request. split.
      + intros (vs & o' & H & a & b & -> & v1 & o1 & M & E). injection E as -> ->. shp H. destruct S as (? & ? & E & _ & f & ? & E' & _ & _). injection E as <- <-. injection E' as -> _.
        exists a, f, o', v1. auto.
      + intros (a & f & o' & v1 & H & M & ->). eexists _, _. split; [exact H|]. eauto 10. }
  line. { unfold p_multipart_reply. rewrite Eh. cbn [bind]. eapply mean_ext.
    - eapply mean_pair with (Q := fun vs o y => exists t f, vs = [VInt t; f] /\ exists v o', choose t (replies m (end_ off len)) nothing o v o' /\ y = (VTup "ofp_multipart_reply" (h :: vs ++ [v]), o'));
        [apply (mean_unp m Hm "HH4x" [N 2; N 2; G 4]); reflexivity|intros vs o H].
      shp H. destruct S as (a & ? & -> & _ & b & ? & -> & _ & ->). eapply mean_ext.
      + eapply mean_pair; [apply (replies_mean (end_ off len) o a)|intros v o1 _; apply mean_ok].
      + intros y. split; [intros K; exists a, (VInt b); auto|]. intros (? & ? & E & K). injection E as <- <-. exact K.
    - ext_vo. unfold reply. split.
      + intros (vs & o' & H & a & b & -> & v1 & o1 & M & E). injection E as -> ->. shp H. destruct S as (? & ? & E & _ & f & ? & E' & _ & _). injection E as <- <-. injection E' as -> _.
        exists a, f, o', v1. auto.
      + intros (a & f & o' & v1 & H & M & ->). eexists _, _. split; [exact H|]. eauto 10. }
  line; [apply (rest_mean _ "II"); reflexivity|].
  line. { unfold p_async_config. rewrite Eh. cbn [bind]. eapply mean_ext.
    - eapply mean_pair; [apply (mean_while (fun _ => p_async_config_prop m) (async_prop m))|intros l o _; apply mean_ok].
      intros o. apply (by_type_mean _ o (fun ty _ => if py_inz (VInt ty) [0; 1; 2; 3; 4; 5; 6; 7; 10; 11] then p_async_config_prop_reasons m o else Err NameError)).
      intros t _. line; [fx "HHI"%string|apply mean_nothing].
    - ext_vo. unfold listing. split.
      + intros (l & o' & M & E). injection E as -> ->. exists [], (off + 8)%nat, l. split; [|auto]. apply (here_iff _ _ _ _ _ Hm). apply header_iff in Eh.
        destruct Eh as (len' & (x & o8 & Hh & _) & _). apply (here_iff _ _ _ _ _ Hm) in Hh. destruct Hh as (L & _). change (flen [N 1; N 1; N 2; N 4]) with 8%nat in L.
        change (flen []) with 0%nat. split; [lia|]. split; [reflexivity|lia].
      + intros (vs & o' & l & H & M & ->). shp H. subst vs. apply here_end in H. change (flen []) with 0%nat in H. replace o' with (off + 8)%nat in M by lia. eauto. }
  line. { unfold p_meter_mod. rewrite Eh. cbn [bind]. apply (listing_mean _ "HHI" _ (fun _ => p_meter_band m)); [reflexivity|exact (band_mean m Hm)]. }
  line. { unfold p_role_status. rewrite Eh. cbn [bind]. eapply mean_ext.
    - eapply mean_pair; [apply (mean_unp m Hm "IB3xQ" [N 4; N 1; G 3; N 8]); reflexivity|intros vs o _].
      eapply mean_pair; [|intros l o' _; apply mean_ok]. cbv beta.
      apply (mean_while (fun _ => p_role_prop off m) (fun o v o' => p_role_prop off m o = Ok (v, o'))).
      intros o'. apply mean_const. intros [v o2]. reflexivity.
    - ext_vo. unfold role_status.
      assert (K : forall e a l b, many (fun o v o' => p_role_prop off m o = Ok (v, o')) e a l b -> (e <= a)%nat /\ l = [] /\ b = a).
      { intros e a l b M. induction M as [a L|a v1 b vs c L R M IH]; [auto|]. unfold p_role_prop in R. apply bind_ok in R. destruct R as (t & _ & R).
        destruct (t =? 65535); [|discriminate]. apply bind_ok in R. destruct R as (w & _ & R). apply Ok_inj in R. injection R as _ <-. lia. }
      split.
      + intros (vs & o' & H & l & o2 & M & E). injection E as -> ->. apply K in M. destruct M as (L & -> & ->). exists vs, o'. auto.
      + intros (vs & o' & H & L & -> & ->). eexists _, _. split; [exact H|]. exists [], (off + 8)%nat. split; [constructor; exact L|reflexivity]. }
  line. { apply (never (fun _ => p_table_status m)). intros n o x. unfold p_table_status. destruct (p_header m o) as [[[[? ?] ?] o1]|]; cbn [bind]; [|discriminate].
    destruct (unp _ m o1) as [[? o2]|]; cbn [bind]; [|discriminate]. unfold p_table_desc. destruct (unp _ m o2); discriminate. }
  line. { unfold p_requestforward. rewrite Eh. cbn [bind]. eapply mean_ext; [eapply mean_pair; [apply Hp|intros v o _; apply mean_ok]|].
    ext_vo. unfold forwarded. split; [intros (v1 & o' & H & E); injection E as -> ->; eauto|intros (v1 & H & ->); eauto]. }
  line. { unfold p_bundle_ctrl_msg. rewrite Eh. cbn [bind]. apply (listing_mean _ "IHH" _ (fun _ => p_bundle_prop m)); [reflexivity|].
    apply (never (fun _ => p_bundle_prop m)). intros n o x. unfold p_bundle_prop. destruct (prop_type m o); discriminate. }
  line. { unfold p_bundle_add_msg. rewrite Eh. cbn [bind]. eapply mean_ext.
    - eapply mean_pair; [apply (mean_unp m Hm "I2xH" [N 4; G 2; N 2]); reflexivity|intros vs o _].
      eapply mean_pair; [apply Hp|intros v1 o1 _]. apply mean_if; [apply mean_err|apply mean_ok].
    - ext_vo. unfold bundle_add. split.
      + intros (vs & o' & H & v1 & o1 & M & [[_ []]|[L E]]). injection E as -> ->. apply Nat.ltb_ge in L. exists vs, o', v1. auto.
      + intros (vs & o' & v1 & H & M & L & ->). eexists _, _. split; [exact H|]. exists v1, o. split; [exact M|]. right. split; [apply Nat.ltb_ge; exact L|reflexivity]. }
  unfold p_ofp. rewrite Eh. cbn [bind]. refine (mean_ext _ _ _ (mean_ok _) _). ext_vo. unfold other. cbn [choose]. split; [intros E; injection E as -> ->; auto|intros [-> ->]; reflexivity].
Qed.
End body.

Lemma message_mean d : forall off, mean (fun n => parse d n m off) (holds (message d m) off).
Proof.
  induction d as [|d IH]; intros off; cbn [parse message]; [apply mean_nothing|].
  refine (mean_then (fun _ => p_header m off) _ (fun y => match y with (h, ty, l, o) => exists len, header m off ty len h /\ l = Z.to_nat len /\ o = (off + 8)%nat end) _ _ _ _).
  { apply mean_const. intros [[[h ty] l] o]. apply header_iff. }
  2:{ intros [v o] (ty & len & h & H & _). exists (h, ty, Z.to_nat len, (off + 8)%nat). eauto. }
  intros [[[h ty] l] o8] (len & Hh & -> & ->).
  assert (Eh : p_header m off = Ok (h, ty, Z.to_nat len, (off + 8)%nat)) by (apply header_iff; eauto).
  refine (mean_ext _ _ _ (bodies_mean off h ty len Eh (fun n => parse d n m) (message d m) IH) _).
  ext_vo. split; [intros K; eauto|]. intros (ty' & len' & h' & H & K). destruct (header_det _ _ _ _ _ _ _ Hh H) as (-> & -> & ->). exact K.
Qed.

(** Deeper nesting is no harm. *)
Lemma choose_mono ty l l' d off v o : Forall2 (fun a b : list Z * rel => fst a = fst b /\ forall off v o, snd a off v o -> snd b off v o) l l' ->
  choose ty l d off v o -> choose ty l' d off v o.
Proof.
  induction 1 as [|[ks R] [ks' R'] l l' [E K] H IH]; cbn [choose fst snd] in *; [auto|]. subst ks'. intros [[I A]|[I A]]; [left; auto|right; auto].
Qed.
Lemma message_S d : forall off v o, message d m off v o -> message (S d) m off v o.
Proof.
  induction d as [|d IH]; intros off v o A; [destruct A|]. change (exists ty len h, header m off ty len h /\ choose ty (bodies m h (end_ off len) (message (S d) m)) (other m h (end_ off len)) off v o).
  destruct A as (ty & len & h & H & A). exists ty, len, h. split; [exact H|]. refine (choose_mono _ _ _ _ _ _ _ _ A). unfold bodies.
  repeat (constructor; [split; [reflexivity|cbn [snd]; first [exact (fun _ _ _ K => K)|idtac]]|]); [| |constructor].
  - intros o1 v1 o2 (v' & K & E). exists v'. auto.
  - intros o1 v1 o2 (vs & o3 & v' & H1 & K & E). exists vs, o3, v'. auto.
Qed.
Lemma message_le d d' off v o : (d <= d')%nat -> message d m off v o -> message d' m off v o.
Proof. intros L A. induction L as [|d' L IH]; [exact A|]. apply message_S, IH. Qed.

Theorem parse_iff off d n v o : (length m < d)%nat -> (length m < n)%nat -> parse d n m off = Ok (v, o) <-> a_message m off v o.
Proof.
  intros Hd Hn. unfold a_message. split.
  - intros E. exists d. exact (proj1 (message_mean d off) n (v, o) E).
  - intros (k & A). apply (message_le k (k + d)) in A; [|lia]. destruct (proj2 (message_mean (k + d) off) (v, o) A) as (j & K).
    rewrite (parse_const m n (j + S (length m)) Hn ltac:(lia) d (k + d) off) by lia. apply K. lia.
Qed.

End message.
