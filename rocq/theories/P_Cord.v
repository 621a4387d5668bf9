(** Proofs about the pipeline scripts. *)

From Coq Require Import Lia.
From Verif Require Import Py Struct P_Struct M_Cord S_Cord.
Local Open Scope Z_scope.
Local Open Scope list_scope.

(** *** What the scripts set up *)
Definition pb : pipe := Eval vm_compute in match setup [] bess_calls with Ok p => p | Err _ => [] end.
Definition ps : pipe := Eval vm_compute in match setup [] script_calls with Ok p => p | Err _ => [] end.
Lemma pb_ok : setup [] bess_calls = Ok pb. Proof. vm_compute; reflexivity. Qed.
Lemma ps_ok : setup [] script_calls = Ok ps. Proof. vm_compute; reflexivity. Qed.

Section Nodes.
Variables (conv : val -> bytes) (g0 : option nat) (lb : bytes -> bool).
Notation go := (go conv g0 lb).

Definition next (p : pipe) (m : modl) (n : string) (f : nat) (gk : option nat * pkt) : fate :=
  match fst gk with
  | None => Lost n
  | Some g => match gate g (m_out m) with None => Lost n | Some t => go f p t (snd gk) end
  end.

Lemma go_step p n m f k :
  find n p = Some m -> String.eqb (m_cls m) "Sink" = false ->
  go (S f) p n k = next p m n f (work conv g0 lb m k).
Proof.
  intros H C. cbn [M_Cord.go]. rewrite H, C. unfold next. destruct (work conv g0 lb m k) as [g k']. reflexivity.
Qed.
Lemma go_sink p n m f k :
  find n p = Some m -> String.eqb (m_cls m) "Sink" = true -> go (S f) p n k = Reach n k.
Proof. intros H C. cbn [M_Cord.go]. rewrite H, C. reflexivity. Qed.
End Nodes.


(** *** With falling priorities the first match wins *)
Fixpoint first {A} (ok : A -> bool) (l : list (Z * A * nat)) : option nat :=
  match l with [] => None | (_, a, g) :: l' => if ok a then Some g else first ok l' end.
Fixpoint falling {A} (l : list (Z * A * nat)) (top : Z) : bool :=
  match l with [] => true | (p, _, _) :: l' => (p <=? top) && falling l' p end.
Lemma falling_le {A} (l : list (Z * A * nat)) : forall a b, a <= b -> falling l a = true -> falling l b = true.
Proof.
  induction l as [|[[p x] g] l IH]; intros a b H F; [reflexivity|]. cbn in *.
  apply andb_prop in F as [F1 F2]. apply Z.leb_le in F1. rewrite F2, andb_true_r. apply Z.leb_le. lia.
Qed.
Lemma best_kept {A} (ok : A -> bool) (l : list (Z * A * nat)) : forall p g,
  falling l p = true -> best ok l (Some (p, g)) = Some g.
Proof.
  induction l as [|[[q x] g'] l IH]; intros p g F; [reflexivity|]. cbn in *.
  apply andb_prop in F as [F1 F2]. apply Z.leb_le in F1.
  rewrite (proj2 (Z.ltb_ge p q)) by lia.
  destruct (ok x); apply IH; apply (falling_le _ q); auto; lia.
Qed.
Lemma best_first {A} (ok : A -> bool) (l : list (Z * A * nat)) top :
  falling l top = true -> best ok l None = first ok l.
Proof.
  revert top. induction l as [|[[q x] g'] l IH]; intros top F; [reflexivity|]. cbn in *.
  apply andb_prop in F as [F1 F2]. destruct (ok x).
  - apply best_kept; auto.
  - eapply IH; eauto.
Qed.

Ltac node :=
  erewrite go_step; [|vm_compute; reflexivity|reflexivity]; unfold next, work, wild;
  cbn [m_cls m_arg m_w m_e m_b m_dflt m_out fields_of values_of map fst snd];
  repeat match goal with
  | |- context [String.eqb ?a ?b] => let r := eval vm_compute in (String.eqb a b) in change (String.eqb a b) with r
  end;
  cbv iota beta;
  try (erewrite (best_first _ _ 60000) by reflexivity);
  cbn [first masked eqs exact fst snd dflt m_dflt];
  rewrite ?Z.land_0_r, ?Z.eqb_refl, ?andb_true_r.
Ltac sink := erewrite go_sink; [|vm_compute; reflexivity|reflexivity].
Ltac cases :=
  repeat match goal with
  | |- context [?x =? ?y] => destruct (x =? y)
  | |- context [pass ?x ?y] => destruct (pass x y)
  end; reflexivity.

Section Pipe.
Variables (conv : val -> bytes) (g0 : option nat) (lb : bytes -> bool).
Notation go := (go conv g0 lb).

Definition b_tag (k : pkt) : bool :=
  ((Z.land (readf ETHTYPE k) 65535 =? 33024) && (Z.land (readf VLANID k) 4096 =? 4096)) ||
  ((Z.land (readf ETHTYPE k) 65535 =? 34984) && (Z.land (readf VLANID k) 4096 =? 4096)).
Definition b_lcl (k : pkt) : bool :=
  pass (k_data k) [PIp; PDstHost 16843009] || (pass (k_data k) [PArp; PDstHost 16843009] || pass (k_data k) [PUdp; PDstPort 4789]).
Definition b_ctl (k : pkt) : bool :=
  pass (k_data k) [PUdp; PSrcPort 68; PDstPort 67] || (pass (k_data k) [PEther 35020] || (pass (k_data k) [PEther 35138] || pass (k_data k) [PArp])).
Definition inp (k : pkt) (n : Z) : bool := Z.land (k_port k) 255 =? n.
Definition src (k : pkt) (m a : Z) : bool := Z.land (readf IPSRC k) m =? a.
Definition dst (k : pkt) (m a : Z) : bool := Z.land (readf IPDST k) m =? a.
Definition via (p : pipe) (f : nat) (n : string) (k : pkt) (l : list (nat * string)) : fate :=
  match g0 with None => Lost n | Some g => match gate g l with None => Lost n | Some t => go f p t k end end.

Lemma nb_t0 f k : go (S f) pb "t0_start" k =
  if b_tag k then go f pb "t6_start" k else via pb f "t0_start" k [(1%nat, "t6_start"%string); (0%nat, "t0_inport"%string)].
Proof. node. unfold b_tag, via, ETHTYPE, VLANID. cases. Qed.
Lemma nb_inport f k : go (S f) pb "t0_inport" k =
  if k_port k =? 101 then go f pb "OUT2" k else if k_port k =? 2 then go f pb "t0_p2" k else go f pb "t0_default" k.
Proof. node. change (readf (Attr "in_port" 1) k) with (k_port k). cases. Qed.
Lemma nb_p2 f k : go (S f) pb "t0_p2" k = if b_lcl k then go f pb "LCL" k else go f pb "t0_default" k.
Proof. node. unfold b_lcl, orb. cases. Qed.
Lemma nb_def f k : go (S f) pb "t0_default" k = if b_ctl k then go f pb "CTL" k else go f pb "t1_start" k.
Proof. node. unfold b_ctl, orb. cases. Qed.
Lemma nb_t1 f k : go (S f) pb "t1_start" k =
  if inp k 1 then go f pb "t5_start" k else
  if inp k 2 then go f pb "t4_start" k else
  if inp k 3 && src k 4294967295 168430083 then go f pb "t2_start" k else
  if inp k 4 && src k 4294967295 168430595 then go f pb "t2_start" k else
  if inp k 3 then go f pb "t3_start" k else go f pb "sink0" k.
Proof. node. change (readf (Attr "in_port" 1) k) with (k_port k). unfold inp, src, IPSRC. cases. Qed.
Lemma nb_t2 f k : go (S f) pb "t2_start" k =
  if src k 4294967040 168430080 && dst k 4294967295 168430593 then go f pb "grp_start" k else
  if src k 4294967040 168430592 && dst k 4294967040 168430592 then go f pb "t4_start" k else
  if src k 4294967040 168430592 && dst k 4294967040 168430080 then go f pb "t4_start" k else
  if src k 4294967040 168430080 && dst k 4294967040 168430592 then go f pb "t4_start" k else
  if src k 4294967040 168430080 && dst k 4294967040 168430080 then go f pb "t4_start" k else
  if dst k 4294967040 168430080 then go f pb "sink1" k else
  if dst k 4294967040 168430592 then go f pb "sink1" k else go f pb "OUT2" k.
Proof. node. unfold src, dst, IPSRC, IPDST. cbn [andb]. cases. Qed.
Lemma nb_t3 f k : go (S f) pb "t3_start" k = if k_port k =? 3 then go f pb "grp_start" k else go f pb "sink2" k.
Proof. node. change (readf (Attr "in_port" 1) k) with (k_port k). cases. Qed.
Definition wr (m : bytes) (k : pkt) : pkt := mkPkt (overwrite 6 (conv (B m)) (k_data k)) (k_port k) (k_tun k) (k_tdst k).
Definition tun (n : Z) (k : pkt) : pkt := mkPkt (k_data k) (k_port k) n 16843010.
(** the texts of the four addresses *)
Definition x1 := [102; 97; 58; 49; 54; 58; 51; 101; 58; 99; 102; 58; 102; 50; 58; 53; 54].
Definition x2 := [102; 97; 58; 49; 54; 58; 51; 101; 58; 102; 51; 58; 53; 101; 58; 56; 50].
Definition x3 := [102; 97; 58; 49; 54; 58; 51; 101; 58; 100; 97; 58; 48; 53; 58; 101; 100].
Definition x4 := [102; 97; 58; 49; 54; 58; 51; 101; 58; 51; 101; 58; 56; 50; 58; 101; 56].

Lemma nb_grp f k : go (7 + f) pb "grp_start" k =
  if lb (k_data k) then Reach "OUT4" (wr x1 k) else Reach "OUT1" (tun 1036 (wr x2 k)).
Proof. cbn [Nat.add]. node. destruct (lb (k_data k)); cbn -[M_Cord.go]; repeat first [sink; reflexivity | node; cbn -[M_Cord.go]]. Qed.
Lemma nb_t4 f k : g0 = Some 0%nat -> go (7 + f) pb "t4_start" k =
  if readf IPDST k =? 168430083 then Reach "OUT3" (wr x4 k) else
  if readf IPDST k =? 168430082 then Reach "OUT1" (tun 1030 (wr x3 k)) else
  if readf IPDST k =? 168430594 then Reach "OUT1" (tun 1036 (wr x2 k)) else
  if readf IPDST k =? 168430595 then Reach "OUT4" (wr x1 k) else Lost "t4_start".
Proof.
  intros G. cbn [Nat.add]. node. rewrite G. unfold IPDST.
  repeat match goal with |- context [?x =? ?y] => destruct (x =? y) end; cbn -[M_Cord.go];
    repeat first [reflexivity | sink; reflexivity | node; cbn -[M_Cord.go]].
Qed.
Lemma nb_t5 f k : go (2 + f) pb "t5_start" k =
  if (k_tun k =? 1036) && (readf HWSRC k =? of_be mac1) then Reach "OUT4" k else
  if (k_tun k =? 1030) && (readf HWSRC k =? of_be mac4) then Reach "OUT3" k else Reach "sink3" k.
Proof.
  cbn [Nat.add]. node. change (readf (Attr "tun_id" 4) k) with (k_tun k). unfold HWSRC.
  change (of_be mac1) with 274973450039894. change (of_be mac4) with 274973440508648.
  repeat match goal with |- context [?x =? ?y] => destruct (x =? y) end; cbn -[M_Cord.go]; sink; reflexivity.
Qed.
Lemma nb_t6 f k : go (3 + f) pb "t6_start" k =
  if pass (k_data k) [PVlan 500; PArp] then Reach "CTL" k else
  if pass (k_data k) [PVlan 500] then Reach "OUT2" (mkPkt (pop (k_data k)) (k_port k) (k_tun k) (k_tdst k)) else Reach "sink4" k.
Proof.
  cbn [Nat.add]. node.
  repeat match goal with |- context [pass ?x ?y] => destruct (pass x y) end; cbn -[M_Cord.go pop];
    repeat first [reflexivity | sink; reflexivity | node; cbn -[M_Cord.go pop]].
Qed.

(** The other script. *)
Lemma ns_t0 f k : go (S f) ps "t0_start" k =
  if b_tag k then go f ps "t6_start" k else via ps f "t0_start" k [(1%nat, "t6_start"%string); (0%nat, "t0_inport"%string)].
Proof. node. unfold b_tag, via, ETHTYPE, VLANID. cases. Qed.
Lemma ns_inport f k : g0 = Some 0%nat -> go (S f) ps "t0_inport" k =
  if k_port k =? 3 then go f ps "t0_p2" k else
  if k_port k =? 101 then go f ps "OUT2" k else if k_port k =? 2 then go f ps "t0_p2" k else go f ps "t0_default" k.
Proof. intros G. node. rewrite G. change (readf (Attr "in_port" 1) k) with (k_port k). cases. Qed.
Lemma ns_p2 f k : go (S f) ps "t0_p2" k = if b_lcl k then go f ps "LCL" k else go f ps "t0_default" k.
Proof. node. unfold b_lcl, orb. cases. Qed.
Lemma ns_def f k : go (S f) ps "t0_default" k = if b_ctl k then go f ps "CTL" k else go f ps "t1_start" k.
Proof. node. unfold b_ctl, orb. cases. Qed.
Lemma ns_t1 f k : go (S f) ps "t1_start" k =
  if inp k 1 then go f ps "t5_start" k else
  if inp k 2 then go f ps "t4_start" k else
  if inp k 3 && src k 4294967295 168430083 then go f ps "t2_start" k else
  if inp k 4 && src k 4294967295 168430595 then go f ps "t2_start" k else
  if inp k 3 then go f ps "t3_start" k else go f ps "DRP1" k.
Proof. node. change (readf (Attr "in_port" 1) k) with (k_port k). unfold inp, src, IPSRC. cases. Qed.
Lemma ns_t2 f k : go (S f) ps "t2_start" k =
  if src k 4294967040 168430080 && dst k 4294967295 168430593 then go f ps "grp_start" k else
  if src k 4294967040 168430592 && dst k 4294967040 168430592 then go f ps "t4_start" k else
  if src k 4294967040 168430592 && dst k 4294967040 168430080 then go f ps "t4_start" k else
  if src k 4294967040 168430080 && dst k 4294967040 168430592 then go f ps "t4_start" k else
  if src k 4294967040 168430080 && dst k 4294967040 168430080 then go f ps "t4_start" k else
  if dst k 4294967040 168430080 then go f ps "DRP2" k else
  if dst k 4294967040 168430592 then go f ps "DRP2" k else go f ps "OUT2" k.
Proof. node. unfold src, dst, IPSRC, IPDST. cbn [andb]. cases. Qed.
Lemma ns_t3 f k : go (S f) ps "t3_start" k = go f ps "DRP3" k.
Proof. node. reflexivity. Qed.
Lemma ns_grp f k : go (7 + f) ps "grp_start" k =
  if lb (k_data k) then Reach "OUT4" (wr x1 k) else Reach "OUT1" (tun 1036 (wr x2 k)).
Proof. cbn [Nat.add]. node. destruct (lb (k_data k)); cbn -[M_Cord.go]; repeat first [sink; reflexivity | node; cbn -[M_Cord.go]]. Qed.
Lemma ns_t4 f k : g0 = Some 0%nat -> go (7 + f) ps "t4_start" k =
  if readf IPDST k =? 168430083 then Reach "OUT3" (wr x4 k) else
  if readf IPDST k =? 168430082 then Reach "OUT1" (tun 1030 (wr x3 k)) else
  if readf IPDST k =? 168430594 then Reach "OUT1" (tun 1036 (wr x2 k)) else
  if readf IPDST k =? 168430595 then Reach "OUT4" (wr x1 k) else Lost "t4_start".
Proof.
  intros G. cbn [Nat.add]. node. rewrite G. unfold IPDST.
  repeat match goal with |- context [?x =? ?y] => destruct (x =? y) end; cbn -[M_Cord.go];
    repeat first [reflexivity | sink; reflexivity | node; cbn -[M_Cord.go]].
Qed.
Lemma ns_t5 f k : go (2 + f) ps "t5_start" k =
  if (k_tun k =? 1036) && (readf HWSRC k =? of_be mac1) then Reach "OUT4" k else
  if (k_tun k =? 1030) && (readf HWSRC k =? of_be mac4) then Reach "OUT3" k else Reach "DRP4" k.
Proof.
  cbn [Nat.add]. node. change (readf (Attr "tun_id" 4) k) with (k_tun k). unfold HWSRC.
  change (of_be mac1) with 274973450039894. change (of_be mac4) with 274973440508648.
  repeat match goal with |- context [?x =? ?y] => destruct (x =? y) end; cbn -[M_Cord.go]; sink; reflexivity.
Qed.
Lemma ns_t6 f k : go (3 + f) ps "t6_start" k =
  if pass (k_data k) [PVlan 500; PArp] then Reach "CTL" k else
  if pass (k_data k) [PVlan 500] then Reach "OUT2" (mkPkt (pop (k_data k)) (k_port k) (k_tun k) (k_tdst k)) else Reach "DRP5" k.
Proof.
  cbn [Nat.add]. node.
  repeat match goal with |- context [pass ?x ?y] => destruct (pass x y) end; cbn -[M_Cord.go pop];
    repeat first [reflexivity | sink; reflexivity | node; cbn -[M_Cord.go pop]].
Qed.
End Pipe.
