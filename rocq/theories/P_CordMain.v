(** The pipelines against the OpenFlow tables. *)

From Coq Require Import Lia.
From Verif Require Import Py Struct P_Struct M_Cord S_Cord S_CordLink P_Cord P_CordFrame.
Local Open Scope Z_scope.
Local Open Scope list_scope.

(** *** The tables: with falling priorities the first match wins *)
Fixpoint hit (p : opkt) (l : list rule) : option rule :=
  match l with [] => None | r :: l' => if forallb (holds p) (matches r) then Some r else hit p l' end.
Fixpoint fall (l : list rule) (top : Z) : bool :=
  match l with [] => true | r :: l' => (priority r <=? top) && fall l' (priority r) end.
Lemma fall_le l : forall a b, a <= b -> fall l a = true -> fall l b = true.
Proof.
  induction l as [|r l IH]; intros a b H F; [reflexivity|]. cbn in *.
  apply andb_prop in F as [F1 F2]. apply Z.leb_le in F1. rewrite F2, andb_true_r. apply Z.leb_le. lia.
Qed.
Lemma pick_le p l : forall a r, fall l a = true -> pick p l = Some r -> priority r <= a.
Proof.
  induction l as [|x l IH]; intros a r F E; [discriminate|]. cbn in *.
  apply andb_prop in F as [F1 F2]. apply Z.leb_le in F1.
  assert (forall r, pick p l = Some r -> priority r <= a) as K by (intros r' E'; specialize (IH _ _ F2 E'); lia).
  destruct (forallb (holds p) (matches x)); [|auto].
  destruct (pick p l) as [y|]; [destruct (priority x <? priority y)|]; try (injection E as <-); auto.
Qed.
Lemma pick_hit p l a : fall l a = true -> pick p l = hit p l.
Proof.
  revert a. induction l as [|x l IH]; intros a F; [reflexivity|]. cbn in *.
  apply andb_prop in F as [F1 F2]. rewrite <- (IH _ F2).
  destruct (forallb (holds p) (matches x)); [|reflexivity].
  destruct (pick p l) as [y|] eqn:E; [|reflexivity].
  pose proof (pick_le _ _ _ _ F2 E). rewrite (proj2 (Z.ltb_ge _ _)) by lia. reflexivity.
Qed.

Lemma prefix32 a : prefix a 32 = a.
Proof. unfold prefix. change (2 ^ (32 - 32)) with 1. apply Z.div_1_r. Qed.
Lemma prefix24 a : prefix a 24 = a / 256. Proof. reflexivity. Qed.

Lemma land32 x : 0 <= x < 4294967296 -> Z.land x 4294967295 = x.
Proof. intros H. change 4294967295 with (2 ^ 32 - 1). rewrite land_low by lia. apply Z.mod_small; lia. Qed.
Lemma land24 x : 0 <= x < 4294967296 -> Z.land x 4294967040 = x / 256 * 256.
Proof.
  intros H. change 4294967040 with (Z.shiftl (Z.ones 24) 8). change 256 with (2 ^ 8).
  rewrite <- Z.shiftl_mul_pow2, <- Z.shiftr_div_pow2 by lia.
  apply Z.bits_inj'. intros i I. rewrite Z.land_spec.
  destruct (Z.ltb_spec i 8).
  - rewrite !Z.shiftl_spec_low by lia. apply andb_false_r.
  - rewrite !Z.shiftl_spec_high, Z.shiftr_spec by lia. replace (i - 8 + 8) with i by lia.
    destruct (Z.ltb_spec i 32).
    + rewrite Z.ones_spec_low by lia. apply andb_true_r.
    + replace (Z.testbit x i) with false; [reflexivity|]. symmetry.
      destruct (Z.eq_dec x 0) as [->|]; [apply Z.bits_0|]. apply Z.bits_above_log2; [lia|].
      assert (Z.log2 x < 32) by (apply Z.log2_lt_pow2; lia). lia.
Qed.
Lemma net24 x a : 0 <= x < 4294967296 -> (Z.land x 4294967040 =? a * 256) = (x / 256 =? a).
Proof. intros H. rewrite land24 by auto. destruct (Z.eqb_spec (x / 256) a), (Z.eqb_spec (x / 256 * 256) (a * 256)); lia || reflexivity. Qed.
Lemma land8 x : 0 <= x < 256 -> Z.land x 255 = x.
Proof. intros H. change 255 with (2 ^ 8 - 1). rewrite land_low by lia. apply Z.mod_small; lia. Qed.

(** *** Table by table, untagged *)
Definition lcl_of (n : net) : bool :=
  match n with Ip4 h _ => i_dst h =? a4 1 1 1 1 | _ => false end ||
  (match n with Arp _ _ _ _ _ tpa _ => tpa =? a4 1 1 1 1 | _ => false end || udp_port n (fun x => snd x =? 4789)).
Definition ctl_of (n : net) : bool :=
  udp_port n (fun x => (fst x =? 68) && (snd x =? 67)) ||
  ((net_type n =? 35020) || ((net_type n =? 35138) || (net_type n =? 2054))).

Ltac spec t := cbn [switch]; rewrite (pick_hit _ _ 60000) by reflexivity; unfold tables, t;
  cbn [hit R matches actions priority forallb app].
Definition to (p : opkt) (m : bytes) : opkt := set_dst m p.
Definition tot (p : opkt) (m : bytes) (t : Z) : opkt :=
  set_dst m {| p_frame := p_frame p; p_in := p_in p; p_tun := t; p_tdst := 16843010 |}.
Section Untag.
Variables (d s : bytes) (n : net) (inport tunid tdst : Z) (b : opkt -> bool).
Hypothesis D : length d = 6%nat.
Hypothesis S_ : length s = 6%nat.
Hypothesis N : net_ok n.
Hypothesis I_ : in_ok inport.
Let p := {| p_frame := {| f_dst := d; f_src := s; f_tag := None; f_net := n |}; p_in := inport; p_tun := tunid; p_tdst := tdst |}.
Let k := mkPkt (uw d s n) (meta_port inport) tunid tdst.

Lemma sw0 f : switch b (S f) 0 p =
  if inport =? LOCAL then Port 2 p else
  if (inport =? 2) && lcl_of n then Local p else
  if ctl_of n then Controller p else switch b f 1 p.
Proof.
  cbn [switch]. rewrite (pick_hit _ _ 60000) by reflexivity.
  unfold tables, udp, ip, arp, R, lcl_of, ctl_of, udp_port. cbn [hit matches forallb holds p p_frame f_tag f_net p_in app].
  destruct (inport =? LOCAL); [reflexivity|].
  rewrite ?prefix32.
  destruct n as [h t|hd op sha spa tha tpa r|ty bb]; cbn [net_type ports_of];
    rewrite ?prefix32;
    repeat match goal with
    | |- context [2048 =? ?x] => let r := eval vm_compute in (2048 =? x) in change (2048 =? x) with r
    | |- context [2054 =? ?x] => let r := eval vm_compute in (2054 =? x) in change (2054 =? x) with r
    end; cbn [andb orb].
  - destruct (inport =? 2), (i_dst h =? a4 1 1 1 1), (i_proto h =? 17); cbn [andb orb]; try reflexivity;
    (destruct t as [sp dp r|r]; [destruct (i_off h =? 0)|]; cbn [andb orb fst snd]; try reflexivity);
    destruct (sp =? 68), (dp =? 67), (dp =? 4789); reflexivity.
  - destruct (inport =? 2), (tpa =? a4 1 1 1 1); reflexivity.
  - cbn in N. destruct (Z.eqb_spec ty 2048); [lia|]. destruct (Z.eqb_spec ty 2054); [lia|].
    destruct (inport =? 2), (ty =? 35020), (ty =? 35138); reflexivity.
Qed.

Definition ip_src_is (m : bool) (a : Z) : bool :=
  match n with Ip4 h _ => if m then i_src h =? a else i_src h / 256 =? a | _ => false end.
Definition ip_dst_is (m : bool) (a : Z) : bool :=
  match n with Ip4 h _ => if m then i_dst h =? a else i_dst h / 256 =? a | _ => false end.
Lemma sw1 f : switch b (S f) 1 p =
  if inport =? 1 then switch b f 5 p else
  if inport =? 2 then switch b f 4 p else
  if (inport =? 3) && ip_src_is true 168430083 then switch b f 2 p else
  if (inport =? 4) && ip_src_is true 168430595 then switch b f 2 p else
  if inport =? 3 then switch b f 3 p else if inport =? 4 then switch b f 3 p else Dropped.
Proof.
  cbn [switch]. rewrite (pick_hit _ _ 60000) by reflexivity.
  unfold tables, ip, R, ip_src_is. cbn [hit matches forallb holds p p_frame f_tag f_net p_in app].
  change (a4 10 10 10 3) with 168430083. change (a4 10 10 12 3) with 168430595.
  destruct n as [h t|hd op sha spa tha tpa r|ty bb]; cbn [net_type]; rewrite ?prefix32; change (2048 =? 2048) with true;
    repeat match goal with |- context [?x =? ?y] => destruct (x =? y) end; reflexivity.
Qed.
Definition isip : bool := match n with Ip4 _ _ => true | _ => false end.
Lemma sw2 f : isip = true -> switch b (S f) 2 p =
  if ip_src_is false 657930 && ip_dst_is true 168430593 then perform (fun _ _ => Dropped) (buckets (b p)) p else
  if ip_src_is false 657932 && ip_dst_is false 657932 then switch b f 4 p else
  if ip_src_is false 657932 && ip_dst_is false 657930 then switch b f 4 p else
  if ip_src_is false 657930 && ip_dst_is false 657932 then switch b f 4 p else
  if ip_src_is false 657930 && ip_dst_is false 657930 then switch b f 4 p else
  if ip_dst_is false 657930 then Dropped else
  if ip_dst_is false 657932 then Dropped else Port 2 p.
Proof.
  intros V. cbn [switch]. rewrite (pick_hit _ _ 60000) by reflexivity.
  unfold tables, ip, R, ip_src_is, ip_dst_is, isip in *. cbn [hit matches forallb holds p p_frame f_tag f_net p_in app].
  destruct n as [h t|hd op sha spa tha tpa r|ty bb]; try discriminate.
  cbn [net_type]. rewrite ?prefix32, ?prefix24. change (2048 =? 2048) with true. cbn [andb].
  change (a4 10 10 10 0 / 256) with 657930. change (a4 10 10 12 0 / 256) with 657932. change (a4 10 10 12 1) with 168430593.
  repeat match goal with |- context [?x =? ?y] => destruct (x =? y) end; reflexivity.
Qed.
Lemma sw3 f : switch b (S f) 3 p = if inport =? 3 then perform (fun _ _ => Dropped) (buckets (b p)) p else Dropped.
Proof.
  cbn [switch]. rewrite (pick_hit _ _ 60000) by reflexivity. unfold tables, R. cbn [hit matches forallb holds p p_in].
  destruct (inport =? 3); reflexivity.
Qed.
Lemma sw4 f : switch b (S f) 4 p =
  if ip_dst_is true 168430595 then Port 4 (to p mac1) else
  if ip_dst_is true 168430594 then Port 1 (tot p mac2 1036) else
  if ip_dst_is true 168430082 then Port 1 (tot p mac3 1030) else
  if ip_dst_is true 168430083 then Port 3 (to p mac4) else Dropped.
Proof.
  cbn [switch]. rewrite (pick_hit _ _ 60000) by reflexivity.
  unfold tables, ip, R, ip_dst_is. cbn [hit matches forallb holds p p_frame f_tag f_net p_in app].
  change (a4 10 10 12 3) with 168430595. change (a4 10 10 12 2) with 168430594.
  change (a4 10 10 10 2) with 168430082. change (a4 10 10 10 3) with 168430083.
  destruct n as [h t|hd op sha spa tha tpa r|ty bb]; cbn [net_type]; rewrite ?prefix32; change (2048 =? 2048) with true;
    repeat match goal with |- context [?x =? ?y] => destruct (x =? y) end; reflexivity.
Qed.
Lemma sw5 f : switch b (S f) 5 p =
  if (tunid =? 1030) && (if list_eq_dec Z.eq_dec d mac4 then true else false) then Port 3 p else
  if (tunid =? 1036) && (if list_eq_dec Z.eq_dec d mac1 then true else false) then Port 4 p else Dropped.
Proof.
  cbn [switch]. rewrite (pick_hit _ _ 60000) by reflexivity.
  unfold tables, R. cbn [hit matches forallb holds p p_frame f_dst p_tun]. rewrite !andb_true_r.
  destruct (tunid =? 1030), (tunid =? 1036), (list_eq_dec Z.eq_dec d mac4), (list_eq_dec Z.eq_dec d mac1); reflexivity.
Qed.
Lemma grp : perform (fun _ _ => Dropped) (buckets (b p)) p = if b p then Port 4 (to p mac1) else Port 1 (tot p mac2 1036).
Proof. destruct (b p); reflexivity. Qed.
End Untag.

(** *** What the modules see *)
Section Read.
Variables (d s : bytes) (n : net) (inport tunid tdst : Z).
Hypothesis D : length d = 6%nat.
Hypothesis S_ : length s = 6%nat.
Hypothesis N : net_ok n.
Hypothesis I_ : in_ok inport.
Let k := mkPkt (uw d s n) (meta_port inport) tunid tdst.

Lemma r_type : readf ETHTYPE k = net_type n.
Proof.
  unfold readf, ETHTYPE, k. cbn [k_data]. unfold uw. rewrite u_type, of_be_be_mod by auto.
  apply Z.mod_small. change (256 ^ Z.of_nat 2) with 65536. apply type_range; auto.
Qed.
Lemma r_tag : b_tag k = false.
Proof.
  unfold b_tag. rewrite r_type. change 65535 with (2 ^ 16 - 1). rewrite land_low by lia.
  pose proof (type_range n N). rewrite Z.mod_small by (change (2 ^ 16) with 65536; lia).
  replace (net_type n =? 33024) with false; [replace (net_type n =? 34984) with false; [reflexivity|]|];
    symmetry; apply Z.eqb_neq; destruct n; cbn in *; lia.
Qed.
Lemma r_lcl : net_type n <> 34525 -> b_lcl k = lcl_of n.
Proof.
  intros V. unfold b_lcl, lcl_of, k. cbn [k_data]. rewrite pass_udp_dst by auto. unfold uw.
  rewrite pass_ip_dst, pass_arp_dst by auto. reflexivity.
Qed.
Lemma r_ctl : net_type n <> 34525 -> b_ctl k = ctl_of n.
Proof.
  intros V. unfold b_ctl, ctl_of, k. cbn [k_data]. rewrite pass_dhcp by auto. unfold uw.
  rewrite !pass_ether, pass_arp by auto. reflexivity.
Qed.
Lemma r_port x : 0 <= x < 101 -> (k_port k =? x) = (inport =? x).
Proof.
  intros X. cbn [k k_port]. unfold meta_port. destruct (Z.eqb_spec inport LOCAL) as [->|]; [|reflexivity].
  unfold LOCAL. transitivity false; [|symmetry]; apply Z.eqb_neq; lia.
Qed.
Lemma r_local : (k_port k =? 101) = (inport =? LOCAL).
Proof.
  cbn [k k_port]. unfold meta_port. destruct (Z.eqb_spec inport LOCAL) as [->|]; [reflexivity|].
  destruct I_; [congruence|]. apply Z.eqb_neq. lia.
Qed.
Lemma r_inp x : 0 <= x < 101 -> inp k x = (inport =? x).
Proof.
  intros X. unfold inp. rewrite land8; [apply r_port; auto|]. cbn [k k_port]. unfold meta_port.
  destruct (Z.eqb_spec inport LOCAL); destruct I_; lia.
Qed.
Lemma r_hw m : bytes_ok d -> bytes_ok m -> length m = 6%nat ->
  (readf HWSRC k =? of_be m) = if list_eq_dec Z.eq_dec d m then true else false.
Proof.
  intros Bd Bm L. unfold readf, HWSRC, k. cbn [k_data]. unfold uw. rewrite u_dst by auto.
  destruct (list_eq_dec Z.eq_dec d m) as [->|NE]; [apply Z.eqb_refl|].
  apply Z.eqb_neq. intros E. apply NE. rewrite <- (be_of_be d Bd), <- (be_of_be m Bm), E, D, L. reflexivity.
Qed.
End Read.
Section ReadIp.
Variables (d s : bytes) (h : ip4) (t : tp) (inport tunid tdst : Z).
Hypothesis D : length d = 6%nat.
Hypothesis S_ : length s = 6%nat.
Hypothesis N : net_ok (Ip4 h t).
Let k := mkPkt (uw d s (Ip4 h t)) (meta_port inport) tunid tdst.
Lemma r_src : readf IPSRC k = i_src h.
Proof.
  unfold readf, IPSRC, k. cbn [k_data]. unfold uw. rewrite u_shift by (auto; lia). cbn [Nat.sub]. rewrite ip_src, of_be_be_mod.
  apply Z.mod_small. destruct N as [(_ & _ & _ & A & _) _]. exact A.
Qed.
Lemma r_dst : readf IPDST k = i_dst h.
Proof.
  unfold readf, IPDST, k. cbn [k_data]. unfold uw. rewrite u_shift by (auto; lia). cbn [Nat.sub]. rewrite ip_dst, of_be_be_mod.
  apply Z.mod_small. destruct N as [(_ & _ & _ & _ & A & _) _]. exact A.
Qed.
Lemma src_range : 0 <= i_src h < 4294967296. Proof. destruct N as [(_ & _ & _ & A & _) _]. exact A. Qed.
Lemma dst_range : 0 <= i_dst h < 4294967296. Proof. destruct N as [(_ & _ & _ & _ & A & _) _]. exact A. Qed.
Lemma r_src32 a : src k 4294967295 a = ip_src_is (Ip4 h t) true a.
Proof. unfold src. rewrite r_src, land32; [reflexivity|apply src_range]. Qed.
Lemma r_dst32 a : dst k 4294967295 a = ip_dst_is (Ip4 h t) true a.
Proof. unfold dst. rewrite r_dst, land32; [reflexivity|apply dst_range]. Qed.
Lemma r_src24 a c : c = a * 256 -> src k 4294967040 c = ip_src_is (Ip4 h t) false a.
Proof. intros ->. unfold src. rewrite r_src. apply net24, src_range. Qed.
Lemma r_dst24 a c : c = a * 256 -> dst k 4294967040 c = ip_dst_is (Ip4 h t) false a.
Proof. intros ->. unfold dst. rewrite r_dst. apply net24, dst_range. Qed.
End ReadIp.

(** *** Addresses written over the source *)
Section Cross.
Variables (conv : val -> bytes) (d s : bytes) (n : net) (inport tunid tdst : Z).
Hypothesis D : length d = 6%nat.
Hypothesis S_ : length s = 6%nat.
Hypothesis C6 : forall v, length (conv v) = 6%nat.
Let p := {| p_frame := {| f_dst := d; f_src := s; f_tag := None; f_net := n |}; p_in := inport; p_tun := tunid; p_tdst := tdst |}.
Lemma over12 v : overwrite 6 (conv v) (uw d s n) = d ++ conv v ++ be 2 (net_type n) ++ net_wire n.
Proof.
  unfold overwrite, uw, frame_wire. cbn [f_dst f_src f_tag f_net app]. rewrite C6. change (6 + 6)%nat with 12%nat.
  rewrite (firstn_app_l 6 d) by auto. rewrite app_assoc with (l := d) (m := s).
  rewrite (skipn_app_l 12 (d ++ s)) by (rewrite app_length; lia). reflexivity.
Qed.
Lemma cross q m x tn td :
  length m = 6%nat -> x = colon m ->
  q = {| p_frame := {| f_dst := m; f_src := s; f_tag := None; f_net := n |}; p_in := inport; p_tun := tn; p_tdst := td |} ->
  mkPkt (overwrite 6 (conv (B x)) (uw d s n)) (meta_port inport) tn td = crossed conv p q.
Proof.
  intros L -> ->. unfold crossed, p. cbn [p_frame p_in p_tun p_tdst f_dst f_src]. f_equal. rewrite over12. do 2 f_equal.
  unfold frame_wire. cbn [f_dst f_src f_tag f_net app]. rewrite app_assoc with (l := m) (m := s).
  symmetry. apply skipn_app_l. rewrite app_length. lia.
Qed.
End Cross.

(** *** The .bess script *)
Section Bess.
Variables (conv : val -> bytes) (lb : bytes -> bool).
Hypothesis C6 : forall v, length (conv v) = 6%nat.
Notation go0 := (go conv (Some 0%nat) lb).

Section One.
Variables (d s : bytes) (n : net) (inport tunid tdst : Z).
Hypothesis D : length d = 6%nat.
Hypothesis S_ : length s = 6%nat.
Hypothesis Bd : bytes_ok d.
Hypothesis N : net_ok n.
Hypothesis I_ : in_ok inport.
Let p := {| p_frame := {| f_dst := d; f_src := s; f_tag := None; f_net := n |}; p_in := inport; p_tun := tunid; p_tdst := tdst |}.
Let k := mkPkt (uw d s n) (meta_port inport) tunid tdst.
Let b := bucket lb.

Lemma kp : k = meta p. Proof. reflexivity. Qed.
Ltac near := cbn [nearly as_told]; split; [auto|reflexivity].
Ltac un := unfold p, k, b.
Ltac evz := repeat match goal with
  | |- context [Zpos ?x =? Zpos ?y] => let r := eval vm_compute in (Zpos x =? Zpos y) in change (Zpos x =? Zpos y) with r
  end; cbv iota.
Ltac xx I1 := cbn [nearly]; (split; [auto|]); cbn [p_in]; rewrite (proj2 (Z.eqb_neq _ _) I1);
    cbn [orb Z.eqb Pos.eqb]; f_equal; (refine (cross conv d s _ inport tunid tdst D S_ C6 _ _ _ _ _ _ _ eq_refl); reflexivity).
Lemma eq_grp f : inport <> 1 -> nearly conv p (go0 (7 + f) pb "grp_start" k) (perform (fun _ _ => Dropped) (buckets (b p)) p).
Proof.
  intros I1. un. rewrite nb_grp, grp. unfold bucket. cbn [p_frame k_data]. fold (uw d s n).
  destruct (lb (uw d s n)); xx I1.
Qed.
Lemma eq_t4 f f' : inport <> 1 -> isip n = true -> nearly conv p (go0 (7 + f) pb "t4_start" k) (switch b (S f') 4 p).
Proof.
  intros I1 V. un. rewrite nb_t4, sw4 by auto. unfold isip in *. destruct n as [h t| |]; try discriminate.
  rewrite r_dst by auto. cbn [ip_dst_is].
  destruct (Z.eqb_spec (i_dst h) 168430083) as [->|]; [|destruct (Z.eqb_spec (i_dst h) 168430082) as [->|];
    [|destruct (Z.eqb_spec (i_dst h) 168430594) as [->|]; [|destruct (i_dst h =? 168430595)]]];
    evz; try exact Logic.I; xx I1.
Qed.
Lemma eq_t5 f f' : inport = 1 -> nearly conv p (go0 (2 + f) pb "t5_start" k) (switch b (S f') 5 p).
Proof.
  intros I1. un. rewrite nb_t5, sw5. rewrite !r_hw by (auto; repeat constructor; lia). cbn [k_tun].
  destruct (Z.eqb_spec tunid 1036) as [T|T], (Z.eqb_spec tunid 1030) as [T'|T'];
    destruct (list_eq_dec Z.eq_dec d mac1), (list_eq_dec Z.eq_dec d mac4); cbn [andb];
    try (cbn [nearly p_in]; rewrite I1; split; [auto|reflexivity]);
    try (cbn; intuition discriminate); lia.
Qed.
Lemma eq_t2 f f' : inport <> 1 -> isip n = true -> nearly conv p (go0 (8 + f) pb "t2_start" k) (switch b (S (S f')) 2 p).
Proof.
  intros I1 V. change (8 + f)%nat with (S (7 + f)).
  pose proof (eq_grp f I1) as G. pose proof (eq_t4 f f' I1 V) as T4. revert G T4. un. rewrite nb_t2, sw2 by auto.
  unfold isip in *. destruct n as [h t| |]; try discriminate. intros G T4.
  rewrite r_dst32, !(r_src24 _ _ _ _ _ _ _ D S_ N 657930 168430080 eq_refl), !(r_src24 _ _ _ _ _ _ _ D S_ N 657932 168430592 eq_refl),
    !(r_dst24 _ _ _ _ _ _ _ D S_ N 657930 168430080 eq_refl), !(r_dst24 _ _ _ _ _ _ _ D S_ N 657932 168430592 eq_refl) by auto.
  destruct (ip_src_is _ false 657930 && ip_dst_is _ true 168430593); [exact G|].
  repeat match goal with
  | |- context [if ?x && ?y then _ else _] => destruct (x && y); [exact T4|]
  end.
  destruct (ip_dst_is _ false 657930); [cbn; intuition discriminate|].
  destruct (ip_dst_is _ false 657932); [cbn; intuition discriminate|].
  cbn [Nat.add]. erewrite go_sink; [|vm_compute; reflexivity|reflexivity]. cbn [nearly]. split; [auto|reflexivity].
Qed.
Lemma eq_t1 f f' : (isip n = true \/ (inport <> 2 /\ inport <> 3 /\ inport <> 4)) ->
  nearly conv p (go0 (9 + f) pb "t1_start" k) (switch b (S (S (S f'))) 1 p).
Proof.
  intros V. change (9 + f)%nat with (S (8 + f)).
  pose proof (fun H => eq_t5 (6 + f) (S f') H) as T5.
  pose proof (fun H => eq_t4 (1 + f) (S f') H) as T4.
  pose proof (fun H => eq_t2 f f' H) as T2.
  pose proof (fun H => eq_grp f H) as G.
  revert T5 T4 T2 G. un. rewrite nb_t1, sw1, !r_inp by (auto; lia). intros T5 T4 T2 G.
  destruct (Z.eqb_spec inport 1) as [E1|E1]; [apply T5; auto|].
  destruct (Z.eqb_spec inport 2) as [E2|E2]; [apply T4; auto; destruct V; auto; lia|].
  destruct (Z.eqb_spec inport 3) as [E3|E3].
  - destruct V as [V|V]; [|lia]. cbn [andb].
    replace (inport =? 4) with false by (symmetry; apply Z.eqb_neq; lia). cbn [andb].
    unfold isip in V. destruct n as [h t| |]; try discriminate. rewrite r_src32 by auto.
    destruct (ip_src_is (Ip4 h t) true 168430083); [apply T2; auto|].
    change (8 + f)%nat with (S (7 + f)). rewrite nb_t3, sw3, r_port by (auto; lia). rewrite E3. evz.
    rewrite <- E3. apply G; auto.
  - cbn [andb]. destruct (Z.eqb_spec inport 4) as [E4|E4].
    + destruct V as [V|V]; [|lia]. cbn [andb].
      unfold isip in V. destruct n as [h t| |]; try discriminate. rewrite r_src32 by auto.
      destruct (ip_src_is (Ip4 h t) true 168430595); [apply T2; auto|].
      rewrite sw3. rewrite (proj2 (Z.eqb_neq _ _) E3). cbn; intuition discriminate.
    + cbn; intuition discriminate.
Qed.
Lemma eq_t0 f f' : net_type n <> 34525 ->
  (ctl_of n = true \/ isip n = true \/ (inport <> 2 /\ inport <> 3 /\ inport <> 4)) ->
  nearly conv p (go0 (13 + f) pb "t0_start" k) (switch b (S (S (S (S f')))) 0 p).
Proof.
  intros V6 V. change (13 + f)%nat with (S (S (11 + f))).
  assert (TD : forall g, inport <> LOCAL -> (10 <= g)%nat ->
    nearly conv p (go0 g pb "t0_default" k) (if ctl_of n then Controller p else switch b (S (S (S f'))) 1 p)).
  { intros g IL Hg. replace g with (S (9 + (g - 10))) by lia.
    pose proof (fun H => eq_t1 (g - 10) f' H) as T1. revert T1. un. rewrite nb_def, r_ctl by auto. intros T1.
    destruct (ctl_of n) eqn:C.
    - reflexivity.
    - apply T1. destruct V as [V|V]; [discriminate|auto]. }
  revert TD. un. intros TD. rewrite nb_t0, r_tag, sw0 by auto. unfold via. cbn [gate Nat.eqb].
  rewrite nb_inport, r_local, r_port by (auto; lia).
  destruct (Z.eqb_spec inport LOCAL) as [E|E].
  - cbn [Nat.add]. erewrite go_sink; [|vm_compute; reflexivity|reflexivity]. cbn [nearly]. split; [auto|reflexivity].
  - destruct (Z.eqb_spec inport 2) as [E2|E2]; cbn [andb].
    + change (11 + f)%nat with (S (10 + f)). rewrite nb_p2, r_lcl by auto.
      destruct (lcl_of n); [reflexivity|]. apply TD; auto. lia.
    + apply TD; auto. lia.
Qed.
End One.

Lemma eq_tagged d s t n inport tunid tdst f f' (p := {| p_frame := {| f_dst := d; f_src := s; f_tag := Some t; f_net := n |};
    p_in := inport; p_tun := tunid; p_tdst := tdst |}) :
  length d = 6%nat -> length s = 6%nat -> vtag_ok t -> net_ok n -> v_dei t = 1 ->
  nearly conv p (go0 (4 + f) pb "t0_start" (meta p)) (switch (bucket lb) (S (S f')) 0 p).
Proof.
  intros D S_ T N V. unfold p, meta. cbn [p_frame p_in p_tun p_tdst].
  change (4 + f)%nat with (S (3 + f)). rewrite nb_t0.
  replace (b_tag _) with true.
  2: { symmetry. unfold b_tag, readf, ETHTYPE, VLANID. cbn [k_data].
    rewrite t_tpid, t_tci, !of_be_be_mod by auto. change (256 ^ Z.of_nat 2) with 65536.
    rewrite (Z.mod_small (_ + _)) by (apply (tci_range d s t D S_ T)).
    rewrite (tci_dei d s t D S_ T), V. destruct T as ([-> | ->] & _); reflexivity. }
  rewrite nb_t6. cbn [k_data k_port k_tun k_tdst]. rewrite pass_vlan_arp, pass_vlan, pop_tag by auto.
  cbn [switch]. rewrite (pick_hit _ _ 60000) by reflexivity. unfold tables at 1, R. cbn [hit matches forallb holds p_frame f_tag actions perform andb].
  rewrite (pick_hit _ _ 60000) by reflexivity. unfold tables, arp, R. cbn [hit matches forallb holds p_frame f_tag f_net].
  rewrite !andb_true_r.
  
  destruct (v_vid t =? 500), (net_type n =? 2054); cbn [andb actions perform nearly as_told]; try reflexivity;
    try (cbn; intuition discriminate).
Qed.

Theorem main_b p f :
  frame_ok (p_frame p) -> in_ok (p_in p) -> plain p ->
  nearly conv p (go0 (13 + f) pb "t0_start" (meta p)) (openflow (bucket lb) p).
Proof.
  destruct p as [[d s tg n] i tu td]. intros (D & S_ & Bd & T & N) IO PL. cbn [p_frame f_dst f_src f_tag f_net p_in] in *.
  unfold openflow. destruct tg as [t|].
  - change (13 + f)%nat with (4 + (9 + f))%nat. apply eq_tagged; auto.
  - cbn [plain p_frame f_tag f_net p_in] in PL.
    apply (eq_t0 d s n i tu td D S_ Bd N IO f 3).
    + destruct n; cbn; lia.
    + destruct n as [h t|hd op sha spa tha tpa r|ty bb]; auto; cbn in PL.
      destruct PL as [->|[->|PL]]; [left; reflexivity|left; reflexivity|right; right; tauto].
Qed.
End Bess.

(** *** The two scripts *)
Lemma dropped_sink s k : ~ In s live -> dropped (Reach s k). Proof. auto. Qed.
Section Both.
Variables (conv : val -> bytes) (lb : bytes -> bool).
Notation go0 := (go conv (Some 0%nat) lb).
Ltac drop2 := right; split; cbn; intuition discriminate.
Ltac same := left; reflexivity.
Lemma al_t4 f k : alike (go0 (7 + f) ps "t4_start" k) (go0 (7 + f) pb "t4_start" k).
Proof. rewrite ns_t4, nb_t4 by auto. same. Qed.
Lemma al_grp f k : alike (go0 (7 + f) ps "grp_start" k) (go0 (7 + f) pb "grp_start" k).
Proof. rewrite ns_grp, nb_grp. same. Qed.
Lemma al_t5 f k : alike (go0 (2 + f) ps "t5_start" k) (go0 (2 + f) pb "t5_start" k).
Proof.
  rewrite ns_t5, nb_t5. destruct (_ && _); [same|]. destruct (_ && _); [same|]. drop2.
Qed.
Lemma al_t2 f k : alike (go0 (8 + f) ps "t2_start" k) (go0 (8 + f) pb "t2_start" k).
Proof.
  change (8 + f)%nat with (S (7 + f)). rewrite ns_t2, nb_t2.
  destruct (_ && _); [apply al_grp|]. do 4 (destruct (_ && _); [apply al_t4|]).
  destruct (dst _ _ _); [drop2|]. destruct (dst _ _ _); [drop2|]. same.
Qed.
Lemma al_t1 f k : inp k 3 = false -> alike (go0 (9 + f) ps "t1_start" k) (go0 (9 + f) pb "t1_start" k).
Proof.
  intros H. change (9 + f)%nat with (S (8 + f)). rewrite ns_t1, nb_t1, H.
  destruct (inp k 1); [apply (al_t5 (6 + f))|]. destruct (inp k 2); [apply (al_t4 (1 + f))|]. cbn [andb].
  destruct (_ && _); [apply al_t2|]. drop2.
Qed.
Lemma al_def f k : inp k 3 = false -> alike (go0 (10 + f) ps "t0_default" k) (go0 (10 + f) pb "t0_default" k).
Proof.
  intros H. change (10 + f)%nat with (S (9 + f)). rewrite ns_def, nb_def.
  destruct (b_ctl k); [same|]. apply al_t1, H.
Qed.
Lemma al_t6 g0 f k : alike (go conv g0 lb (3 + f) ps "t6_start" k) (go conv g0 lb (3 + f) pb "t6_start" k).
Proof. rewrite ns_t6, nb_t6. destruct (pass _ _); [same|]. destruct (pass _ _); [same|]. drop2. Qed.

Theorem both g0 f k : 0 <= k_port k < 256 -> k_port k <> 3 ->
  alike (go conv g0 lb (13 + f) ps "t0_start" k) (go conv g0 lb (13 + f) pb "t0_start" k).
Proof.
  intros R NE. change (13 + f)%nat with (S (12 + f)). rewrite ns_t0, nb_t0.
  destruct (b_tag k); [apply (al_t6 g0 (9 + f))|]. unfold via.
  destruct g0 as [[|[|g]]|]; cbn [gate Nat.eqb].
  - change (12 + f)%nat with (S (11 + f)). rewrite ns_inport, nb_inport by auto.
    rewrite (proj2 (Z.eqb_neq _ _) NE).
    assert (H : inp k 3 = false) by (unfold inp; rewrite land8 by auto; apply Z.eqb_neq; auto).
    destruct (k_port k =? 101); [same|]. destruct (k_port k =? 2).
    + change (11 + f)%nat with (S (10 + f)). rewrite ns_p2, nb_p2. destruct (b_lcl k); [same|]. apply al_def, H.
    + apply (al_def (1 + f)), H.
  - apply (al_t6 (Some 1%nat) (9 + f)).
  - same.
  - same.
Qed.
Lemma alike_nearly p a b d : alike a b -> nearly conv p b d -> nearly conv p a d.
Proof.
  intros [->|[A B]]; auto. destruct d as [n q|q|q|]; cbn; auto.
  - intros [H ->]. exfalso. cbn in B. apply B. unfold port_sink, live.
    destruct H as [->|[->|[->| ->]]]; cbn; tauto.
  - intros ->. exfalso. apply B. cbn. tauto.
  - intros ->. exfalso. apply B. cbn. tauto.
Qed.
End Both.

(** *** No packet goes round in circles *)
Definition ends (f : fate) : Prop :=
  match f with Reach _ _ => True | Lost n => n = "t0_start"%string \/ n = "t4_start"%string | NoFuel => False end.
Lemma alike_ends a b : alike a b -> ends b -> a <> NoFuel.
Proof. intros [->|[A B]] E; [destruct b; cbn in *; congruence|destruct a; cbn in *; congruence]. Qed.
Ltac en := repeat match goal with |- context [if ?b then _ else _] => destruct b end; cbn; auto.
Section Ends.
Variables (conv : val -> bytes) (lb : bytes -> bool).
Notation go0 := (go conv (Some 0%nat) lb).
Lemma en_b g0 f k : ends (go conv g0 lb (13 + f) pb "t0_start" k).
Proof.
  change (13 + f)%nat with (S (12 + f)). rewrite nb_t0.
  assert (T6 : forall g0, ends (go conv g0 lb (12 + f) pb "t6_start" k))
    by (intros g; change (12 + f)%nat with (3 + (9 + f))%nat; rewrite nb_t6; en).
  destruct (b_tag k); [apply T6|]. unfold via.
  destruct g0 as [[|[|g]]|]; cbn [gate Nat.eqb]; [|apply T6|cbn; auto|cbn; auto].
  assert (T4 : forall f, ends (go0 (7 + f) pb "t4_start" k)) by (intros f'; rewrite nb_t4 by auto; en).
  assert (GR : forall f, ends (go0 (7 + f) pb "grp_start" k)) by (intros f'; rewrite nb_grp; en).
  assert (T2 : forall f, ends (go0 (8 + f) pb "t2_start" k)).
  { intros f'. change (8 + f')%nat with (S (7 + f')). rewrite nb_t2.
    repeat match goal with |- context [if ?b then _ else _] => destruct b end; auto; cbn; auto. }
  assert (T1 : forall f, ends (go0 (9 + f) pb "t1_start" k)).
  { intros f'. change (9 + f')%nat with (S (8 + f')). rewrite nb_t1.
    repeat match goal with |- context [if ?b then _ else _] => destruct b end; auto.
    - change (8 + f')%nat with (2 + (6 + f'))%nat. rewrite nb_t5. en.
    - apply (T4 (1 + f')%nat).
    - change (8 + f')%nat with (S (7 + f')). rewrite nb_t3. destruct (_ =? _); auto. cbn; auto.
    - cbn; auto. }
  assert (TD : forall f, ends (go0 (10 + f) pb "t0_default" k)).
  { intros f'. change (10 + f')%nat with (S (9 + f')). rewrite nb_def. destruct (b_ctl k); auto. cbn; auto. }
  change (12 + f)%nat with (S (11 + f)). rewrite nb_inport.
  destruct (_ =? _); [cbn; auto|]. destruct (_ =? _).
  - change (11 + f)%nat with (S (10 + f)). rewrite nb_p2. destruct (b_lcl k); auto. cbn; auto.
  - apply (TD (1 + f)%nat).
Qed.
Lemma en_s g0 f k : ends (go conv g0 lb (13 + f) ps "t0_start" k).
Proof.
  change (13 + f)%nat with (S (12 + f)). rewrite ns_t0.
  assert (T6 : forall g0, ends (go conv g0 lb (12 + f) ps "t6_start" k))
    by (intros g; change (12 + f)%nat with (3 + (9 + f))%nat; rewrite ns_t6; en).
  destruct (b_tag k); [apply T6|]. unfold via.
  destruct g0 as [[|[|g]]|]; cbn [gate Nat.eqb]; [|apply T6|cbn; auto|cbn; auto].
  assert (T4 : forall f, ends (go0 (7 + f) ps "t4_start" k)) by (intros f'; rewrite ns_t4 by auto; en).
  assert (GR : forall f, ends (go0 (7 + f) ps "grp_start" k)) by (intros f'; rewrite ns_grp; en).
  assert (T2 : forall f, ends (go0 (8 + f) ps "t2_start" k)).
  { intros f'. change (8 + f')%nat with (S (7 + f')). rewrite ns_t2.
    repeat match goal with |- context [if ?b then _ else _] => destruct b end; auto; cbn; auto. }
  assert (T1 : forall f, ends (go0 (9 + f) ps "t1_start" k)).
  { intros f'. change (9 + f')%nat with (S (8 + f')). rewrite ns_t1.
    repeat match goal with |- context [if ?b then _ else _] => destruct b end; auto.
    - change (8 + f')%nat with (2 + (6 + f'))%nat. rewrite ns_t5. en.
    - apply (T4 (1 + f')%nat).
    - change (8 + f')%nat with (S (7 + f')). rewrite ns_t3. cbn; auto.
    - cbn; auto. }
  assert (TD : forall f, ends (go0 (10 + f) ps "t0_default" k)).
  { intros f'. change (10 + f')%nat with (S (9 + f')). rewrite ns_def. destruct (b_ctl k); auto. cbn; auto. }
  change (12 + f)%nat with (S (11 + f)). rewrite ns_inport by auto.
  assert (P2 : ends (go0 (11 + f) ps "t0_p2" k)).
  { change (11 + f)%nat with (S (10 + f)). rewrite ns_p2. destruct (b_lcl k); auto. cbn; auto. }
  destruct (_ =? _); [exact P2|]. destruct (_ =? _); [cbn; auto|]. destruct (_ =? _); [exact P2|].
  apply (TD (1 + f)%nat).
Qed.
End Ends.

(** *** Addresses in text *)
Lemma hexval_char d : 0 <= d < 16 -> hexval (hexchar d) = Some d.
Proof.
  intros H. unfold hexval, hexchar. destruct (Z.ltb_spec d 10).
  - rewrite (proj2 (Z.leb_le 48 (48 + d))), (proj2 (Z.leb_le (48 + d) 57)) by lia. cbn [andb]. f_equal. lia.
  - rewrite (proj2 (Z.leb_gt (87 + d) 57)) by lia. rewrite andb_false_r.
    rewrite (proj2 (Z.leb_le 97 (87 + d))), (proj2 (Z.leb_le (87 + d) 102)) by lia. cbn [andb]. f_equal. lia.
Qed.
Lemma hexchar_58 d : 0 <= d < 16 -> (hexchar d =? 58) = false.
Proof. intros H. apply Z.eqb_neq. unfold hexchar. destruct (Z.ltb_spec d 10); lia. Qed.
Lemma int16_hex2 x : 0 <= x < 256 -> int16 (hex2 x) = Ok x.
Proof.
  intros H. unfold int16, hex2, hex_go.
  rewrite !hexval_char by (split; [try apply Z.mod_pos_bound; try apply Z.div_pos; lia|try apply Z.mod_pos_bound; try apply Z.div_lt_upper_bound; lia]).
  f_equal. pose proof (Z.div_mod x 16). lia.
Qed.
Lemma split_hex2 x r : 0 <= x < 256 ->
  split_at 58 (hex2 x ++ 58 :: r) = hex2 x :: split_at 58 r.
Proof.
  intros H. unfold hex2. cbn [app split_at].
  rewrite !hexchar_58 by (split; [try apply Z.mod_pos_bound; try apply Z.div_pos; lia|try apply Z.mod_pos_bound; try apply Z.div_lt_upper_bound; lia]).
  change (58 =? 58) with true. cbv iota. reflexivity.
Qed.
Lemma split_hex2_end x : 0 <= x < 256 -> split_at 58 (hex2 x) = [hex2 x].
Proof.
  intros H. unfold hex2. cbn [app split_at].
  rewrite !hexchar_58 by (split; [try apply Z.mod_pos_bound; try apply Z.div_pos; lia|try apply Z.mod_pos_bound; try apply Z.div_lt_upper_bound; lia]).
  reflexivity.
Qed.
Lemma split_colon l : l <> [] -> Forall (fun b => 0 <= b < 256) l -> split_at 58 (colon l) = map hex2 l.
Proof.
  induction l as [|x l IH]; intros NE F; [congruence|]. inversion F; subst.
  destruct l as [|y l].
  - cbn [colon map]. apply split_hex2_end; auto.
  - change (colon (x :: y :: l)) with (hex2 x ++ 58 :: colon (y :: l)). rewrite split_hex2 by auto.
    rewrite IH by (auto; discriminate). reflexivity.
Qed.
Lemma map_res_int l : Forall (fun b => 0 <= b < 256) l -> map_res int16 (map hex2 l) = Ok l.
Proof.
  induction 1 as [|x l H F IH]; [reflexivity|]. cbn [map map_res]. rewrite int16_hex2 by auto. cbn [bind]. rewrite IH. reflexivity.
Qed.
Lemma map_res_pack l : Forall (fun b => 0 <= b < 256) l -> map_res packB l = Ok l.
Proof.
  induction 1 as [|x l H F IH]; [reflexivity|]. cbn [map_res].
  assert (E : packB x = Ok x)
    by (unfold packB; rewrite (proj2 (Z.leb_le 0 x)), (proj2 (Z.ltb_lt x 256)) by lia; reflexivity).
  rewrite E. cbn [bind]. rewrite IH. reflexivity.
Qed.
Lemma aton_colon l : l <> [] -> Forall (fun b => 0 <= b < 256) l ->
  aton_mac (colon l) = if (length l =? 6)%nat then Ok l else Err StructError.
Proof.
  intros NE F. unfold aton_mac. rewrite split_colon, map_res_int by auto. cbn [bind].
  destruct (_ =? _)%nat; [apply map_res_pack; auto|reflexivity].
Qed.
