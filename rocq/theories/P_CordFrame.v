(** Fields of frames: what the modules of the pipeline read, against how frames are built. *)

From Coq Require Import Lia.
From Verif Require Import Py Struct P_Struct M_Cord S_Cord S_CordLink.
Local Open Scope Z_scope.
Local Open Scope list_scope.

Lemma slice_r (a b : bytes) o n : (length a <= o)%nat -> slice o n (a ++ b) = slice (o - length a) n b.
Proof. intros H. unfold slice. rewrite skipn_app, (skipn_all2 a) by lia. reflexivity. Qed.
Lemma slice_l (a b : bytes) n : length a = n -> slice 0 n (a ++ b) = a.
Proof. intros <-. unfold slice. cbn. rewrite firstn_app, Nat.sub_diag, firstn_all, app_nil_r. reflexivity. Qed.

Lemma isk_at b o n x z : (0 < n)%nat -> slice o n b = be n x -> 0 <= x < 256 ^ Z.of_nat n -> isk b o n z = Some (x =? z).
Proof.
  intros N S X. unfold isk, ld.
  assert (L : length (slice o n b) = n) by (rewrite S; apply be_length).
  unfold slice in L. rewrite firstn_length, skipn_length in L.
  rewrite (proj2 (Nat.leb_le (o + n) (length b))) by lia. rewrite S, of_be_be_mod, Z.mod_small by lia. reflexivity.
Qed.
Lemma ld_at b o n x : (0 < n)%nat -> slice o n b = be n x -> 0 <= x < 256 ^ Z.of_nat n -> ld b o n = Some x.
Proof.
  intros N S X. unfold ld.
  assert (L : length (slice o n b) = n) by (rewrite S; apply be_length).
  unfold slice in L. rewrite firstn_length, skipn_length in L.
  rewrite (proj2 (Nat.leb_le (o + n) (length b))) by lia. rewrite S, of_be_be_mod, Z.mod_small by lia. reflexivity.
Qed.

(** *** Untagged frames *)
Ltac skip := rewrite slice_r by (rewrite ?be_length; lia); rewrite ?be_length.
Ltac skips := repeat (first [rewrite slice_l by (rewrite ?be_length; lia); reflexivity | rewrite slice_r by (rewrite ?be_length; lia); rewrite ?be_length]).

Section Untagged.
Variables (d s : bytes) (n : net).
Hypothesis D : length d = 6%nat.
Hypothesis S_ : length s = 6%nat.
Let w := frame_wire {| f_dst := d; f_src := s; f_tag := None; f_net := n |}.

Lemma u_shift o k : (14 <= o)%nat -> slice o k w = slice (o - 14) k (net_wire n).
Proof.
  intros H. unfold w, frame_wire. cbn [f_dst f_src f_tag f_net app].
  rewrite !slice_r by (rewrite ?be_length; lia). rewrite be_length, D, S_. f_equal. lia.
Qed.
Lemma u_type : slice 12 2 w = be 2 (net_type n).
Proof.
  unfold w, frame_wire. cbn [f_dst f_src f_tag f_net app].
  rewrite !slice_r by lia. rewrite D, S_. apply slice_l, be_length.
Qed.
Lemma u_dst : slice 0 6 w = d.
Proof. unfold w, frame_wire. cbn [f_dst]. apply slice_l, D. Qed.
End Untagged.

Section Ip.
Variables (h : ip4) (t : tp).
Let b := net_wire (Ip4 h t).
Hypothesis O_ : ip4_ok h.
Lemma ip_vh : slice 0 1 b = be 1 (64 + 5 + Z.of_nat (i_words h)).
Proof. apply slice_l, be_length. Qed.
Ltac go_ip := unfold b, net_wire, ip4_wire; repeat (rewrite slice_r by (rewrite ?be_length; lia); rewrite be_length); cbn [Nat.sub]; apply slice_l, be_length.
Lemma ip_frag : slice 6 2 b = be 2 (i_flags h * 8192 + i_off h). Proof. go_ip. Qed.
Lemma ip_proto : slice 9 1 b = be 1 (i_proto h). Proof. go_ip. Qed.
Lemma ip_src : slice 12 4 b = be 4 (i_src h). Proof. go_ip. Qed.
Lemma ip_dst : slice 16 4 b = be 4 (i_dst h). Proof. go_ip. Qed.
Lemma ip_tp o k : slice (20 + 4 * i_words h + o) k b = slice o k (tp_wire t).
Proof.
  destruct O_ as (_ & _ & _ & _ & _ & L & _).
  unfold b, net_wire, ip4_wire. repeat (rewrite slice_r by (rewrite ?be_length; lia); rewrite ?be_length).
  rewrite L. f_equal. lia.
Qed.
End Ip.

Lemma arp_tpa hd op sha spa tha tpa r :
  length hd = 6%nat -> length sha = 6%nat -> length tha = 6%nat ->
  slice 24 4 (net_wire (Arp hd op sha spa tha tpa r)) = be 4 tpa.
Proof.
  intros H1 H2 H3. unfold net_wire. repeat (rewrite slice_r by (rewrite ?be_length; lia); rewrite ?be_length).
  rewrite H1, H2, H3. apply slice_l, be_length.
Qed.

Lemma land_low x k : 0 <= k -> Z.land x (2 ^ k - 1) = x mod 2 ^ k.
Proof. intros K. rewrite <- Z.land_ones by lia. f_equal. rewrite Z.ones_equiv. lia. Qed.

Lemma type_range n : net_ok n -> 0 <= net_type n < 65536.
Proof. intros N. destruct n; cbn in *; lia. Qed.

(** *** Filters on untagged frames *)
Section Filters.
Variables (d s : bytes) (n : net).
Hypothesis D : length d = 6%nat.
Hypothesis S_ : length s = 6%nat.
Hypothesis N : net_ok n.
Let w := frame_wire {| f_dst := d; f_src := s; f_tag := None; f_net := n |}.

Lemma is_type z : isk w 12 2 z = Some (net_type n =? z).
Proof. apply isk_at; [lia|apply u_type; auto|apply type_range, N]. Qed.
Lemma pass_ether z : pass w [PEther z] = (net_type n =? z).
Proof. unfold pass, pcap, pcap1. cbn [Nat.add]. rewrite is_type. destruct (net_type n =? z); reflexivity. Qed.
Lemma pass_arp : pass w [PArp] = (net_type n =? 2054).
Proof. unfold pass, pcap, pcap1. cbn [Nat.add]. rewrite is_type. destruct (net_type n =? 2054); reflexivity. Qed.
Lemma pass_ip_dst a :
  pass w [PIp; PDstHost a] = match n with Ip4 h _ => i_dst h =? a | _ => false end.
Proof.
  unfold pass, pcap, pcap1. cbn [Nat.add]. rewrite !is_type.
  destruct n as [h t|hd op sha spa tha tpa r|ty b] eqn:E; cbn [net_type].
  - change (2048 =? 2048) with true. cbn [oand].
    rewrite (isk_at w 30 4 (i_dst h)).
    + destruct (i_dst h =? a); reflexivity.
    + lia.
    + unfold w. rewrite u_shift, ?E by (auto; lia). apply ip_dst.
    + destruct N as [(_ & _ & _ & _ & X & _) _]. lia.
  - reflexivity.
  - cbn in N. destruct (Z.eqb_spec ty 2048); [lia|]. reflexivity.
Qed.
Lemma pass_arp_dst a :
  pass w [PArp; PDstHost a] = match n with Arp _ _ _ _ _ tpa _ => tpa =? a | _ => false end.
Proof.
  unfold pass, pcap, pcap1. cbn [Nat.add]. rewrite !is_type.
  destruct n as [h t|hd op sha spa tha tpa r|ty b] eqn:E; cbn [net_type].
  - reflexivity.
  - change (2054 =? 2054) with true. change (2054 =? 2048) with false. cbn [oand oor].
    destruct N as (H1 & H2 & H3 & _ & X).
    rewrite (isk_at w 38 4 tpa).
    + destruct (tpa =? a); reflexivity.
    + lia.
    + unfold w. rewrite u_shift, ?E by (auto; lia). apply arp_tpa; auto.
    + lia.
  - cbn in N. destruct (Z.eqb_spec ty 2054); [lia|]. reflexivity.
Qed.

(** A port of an IPv4 packet that is not a later fragment. *)
Lemma port4_ip h t k x z :
  n = Ip4 h t -> slice k 2 (tp_wire t) = be 2 x -> 0 <= x < 65536 -> i_off h = 0 ->
  port4 w 0 k z = Some (x =? z).
Proof.
  intros E P X O_. pose proof N as N'. rewrite E in N'. destruct N' as [OK _].
  pose proof OK as (F1 & F2 & F3 & F4 & F5 & F6 & F7).
  unfold port4. cbn [Nat.add].
  rewrite (ld_at w 20 2 (i_flags h * 8192 + i_off h)); [|lia| |].
  2: { unfold w. rewrite u_shift, ?E by (auto; lia). apply ip_frag. }
  2: { change (256 ^ Z.of_nat 2) with 65536. lia. }
  rewrite (ld_at w 14 1 (64 + 5 + Z.of_nat (i_words h))); [|lia| |].
  2: { unfold w. rewrite u_shift, ?E by (auto; lia). apply ip_vh. }
  2: { change (256 ^ Z.of_nat 1) with 256. lia. }
  change 8191 with (2 ^ 13 - 1). change 15 with (2 ^ 4 - 1). rewrite !land_low by lia.
  change (2 ^ 13) with 8192. change (2 ^ 4) with 16.
  replace ((i_flags h * 8192 + i_off h) mod 8192) with 0.
  2: { rewrite O_, Z.add_0_r, Z.mod_mul; lia. }
  replace ((64 + 5 + Z.of_nat (i_words h)) mod 16) with (5 + Z.of_nat (i_words h)).
  2: { apply Z.mod_unique with 4; lia. }
  cbn [Z.eqb]. apply isk_at; [lia| |change (256 ^ Z.of_nat 2) with 65536; lia].
  rewrite <- P. unfold w. rewrite u_shift, ?E by (auto; lia).
  rewrite <- (ip_tp h t OK k). f_equal. lia.
Qed.
Lemma port4_later h t k z : n = Ip4 h t -> i_off h <> 0 -> port4 w 0 k z = Some false.
Proof.
  intros E O_. pose proof N as N'. rewrite E in N'. destruct N' as [OK _].
  pose proof OK as (F1 & F2 & F3 & F4 & F5 & F6 & F7).
  unfold port4. cbn [Nat.add].
  rewrite (ld_at w 20 2 (i_flags h * 8192 + i_off h)); [|lia| |].
  2: { unfold w. rewrite u_shift, ?E by (auto; lia). apply ip_frag. }
  2: { change (256 ^ Z.of_nat 2) with 65536. lia. }
  rewrite (ld_at w 14 1 (64 + 5 + Z.of_nat (i_words h))); [|lia| |].
  2: { unfold w. rewrite u_shift, ?E by (auto; lia). apply ip_vh. }
  2: { change (256 ^ Z.of_nat 1) with 256. lia. }
  change 8191 with (2 ^ 13 - 1). rewrite land_low by lia. change (2 ^ 13) with 8192.
  rewrite Z.add_comm, Z.mod_add, Z.mod_small by lia.
  destruct (Z.eqb_spec (i_off h) 0); [lia|reflexivity].
Qed.
Lemma is_proto h t z : n = Ip4 h t -> isk w 23 1 z = Some (i_proto h =? z).
Proof.
  intros E. apply isk_at; [lia| |].
  - unfold w. rewrite u_shift, ?E by (auto; lia). apply ip_proto.
  - pose proof N as N'. rewrite E in N'. destruct N' as [(F1 & F2 & F3 & F4) _]. change (256 ^ Z.of_nat 1) with 256. lia.
Qed.

End Filters.

(** The specification's reading of the ports. *)
Definition udp_port (n : net) (c : Z * Z -> bool) : bool :=
  match n with
  | Ip4 h _ => (i_proto h =? 17) && match ports_of n with Some x => c x | None => false end
  | _ => false
  end.
Definition uw d s n := frame_wire {| f_dst := d; f_src := s; f_tag := None; f_net := n |}.
Section Udp.
Variables (d s : bytes).
Hypothesis D : length d = 6%nat.
Hypothesis S_ : length s = 6%nat.
Lemma pass_udp n l c :
  net_ok n -> net_type n <> 34525 ->
  (forall h sp dp r, n = Ip4 h (Ports sp dp r) -> i_proto h = 17 -> i_off h = 0 -> pcap (uw d s n) 0 l = Some (c (sp, dp))) ->
  (forall h t, n = Ip4 h t -> i_proto h = 17 -> i_off h <> 0 -> pcap (uw d s n) 0 l = Some false) ->
  pass (uw d s n) (PUdp :: l) = udp_port n c.
Proof.
  intros N V6 H1 H2. unfold pass. cbn [pcap]. unfold pcap1. cbn [Nat.add].
  unfold uw in *. rewrite !(is_type d s n D S_ N).
  rewrite (proj2 (Z.eqb_neq _ _) V6). cbn [oand oor].
  destruct n as [h t|hd op sha spa tha tpa r|ty b]; cbn [net_type udp_port].
  - change (2048 =? 2048) with true. cbn [oand].
    rewrite (is_proto d s (Ip4 h t) D S_ N h t 17 eq_refl).
    destruct (Z.eqb_spec (i_proto h) 17) as [P|P]; [|reflexivity]. cbn [oand andb ports_of].
    pose proof N as (OK & T).
    destruct (Z.eqb_spec (i_off h) 0) as [O_|O_].
    + destruct t as [sp dp r|r]; [|exfalso; auto].
      rewrite (H1 h sp dp r) by auto. destruct (c (sp, dp)); reflexivity.
    + rewrite (H2 h t) by auto. destruct t; reflexivity.
  - reflexivity.
  - cbn in N. destruct (Z.eqb_spec ty 2048); [lia|]. reflexivity.
Qed.
Lemma trans_ip h t : net_ok (Ip4 h t) -> i_proto h = 17 -> transport (uw d s (Ip4 h t)) 23 = Some true.
Proof.
  intros N P. unfold transport, uw. rewrite !(is_proto d s (Ip4 h t) D S_ N h t _ eq_refl), P. reflexivity.
Qed.
Lemma dst_port h sp dp r z : net_ok (Ip4 h (Ports sp dp r)) -> i_proto h = 17 -> i_off h = 0 ->
  pcap1 (uw d s (Ip4 h (Ports sp dp r))) 0 (PDstPort z) = Some (dp =? z).
Proof.
  intros N P O_. unfold pcap1. cbn [Nat.add]. rewrite (trans_ip _ _ N P). unfold uw. rewrite !(is_type d s _ D S_ N).
  change (net_type (Ip4 h (Ports sp dp r)) =? 34525) with false. change (net_type (Ip4 h (Ports sp dp r)) =? 2048) with true.
  cbn [oand oor]. apply (port4_ip d s _ D S_ N h (Ports sp dp r) 2 dp z eq_refl); auto.
  destruct N; lia.
Qed.
Lemma src_port h sp dp r z : net_ok (Ip4 h (Ports sp dp r)) -> i_proto h = 17 -> i_off h = 0 ->
  pcap1 (uw d s (Ip4 h (Ports sp dp r))) 0 (PSrcPort z) = Some (sp =? z).
Proof.
  intros N P O_. unfold pcap1. cbn [Nat.add]. rewrite (trans_ip _ _ N P). unfold uw. rewrite !(is_type d s _ D S_ N).
  change (net_type (Ip4 h (Ports sp dp r)) =? 34525) with false. change (net_type (Ip4 h (Ports sp dp r)) =? 2048) with true.
  cbn [oand oor]. apply (port4_ip d s _ D S_ N h (Ports sp dp r) 0 sp z eq_refl); auto.
  destruct N; lia.
Qed.
Lemma no_port h t z p : net_ok (Ip4 h t) -> i_proto h = 17 -> i_off h <> 0 -> p = PDstPort z \/ p = PSrcPort z ->
  pcap1 (uw d s (Ip4 h t)) 0 p = Some false.
Proof.
  intros N P O_ Q. destruct Q as [-> | ->]; unfold pcap1; cbn [Nat.add]; rewrite (trans_ip _ _ N P); unfold uw; rewrite !(is_type d s _ D S_ N);
  change (net_type (Ip4 h t) =? 34525) with false; change (net_type (Ip4 h t) =? 2048) with true;
  cbn [oand oor]; apply (port4_later d s _ D S_ N h t _ z eq_refl O_).
Qed.
Lemma pass_udp_dst n z : net_ok n -> net_type n <> 34525 ->
  pass (uw d s n) [PUdp; PDstPort z] = udp_port n (fun x => snd x =? z).
Proof.
  intros N V6. apply pass_udp; auto.
  - intros h sp dp r -> P O_. cbn [pcap]. rewrite dst_port by auto. cbn [snd]. destruct (dp =? z); reflexivity.
  - intros h t -> P O_. cbn [pcap]. rewrite (no_port h t z) by auto. reflexivity.
Qed.
Lemma pass_dhcp n a z : net_ok n -> net_type n <> 34525 ->
  pass (uw d s n) [PUdp; PSrcPort a; PDstPort z] = udp_port n (fun x => (fst x =? a) && (snd x =? z)).
Proof.
  intros N V6. apply pass_udp; auto.
  - intros h sp dp r -> P O_. cbn [pcap]. rewrite dst_port, src_port by auto. cbn [fst snd]. destruct (sp =? a), (dp =? z); reflexivity.
  - intros h t -> P O_. cbn [pcap]. rewrite (no_port h t a) by auto. reflexivity.
Qed.
End Udp.

(** *** Tagged frames *)
Section Tagged.
Variables (d s : bytes) (t : vtag) (n : net).
Hypothesis D : length d = 6%nat.
Hypothesis S_ : length s = 6%nat.
Hypothesis T : vtag_ok t.
Hypothesis N : net_ok n.
Let w := frame_wire {| f_dst := d; f_src := s; f_tag := Some t; f_net := n |}.
Let tci := v_pcp t * 8192 + v_dei t * 4096 + v_vid t.
Ltac go_t := unfold w, frame_wire, vtag_wire; cbn [f_dst f_src f_tag f_net]; rewrite <- !app_assoc;
  repeat (rewrite slice_r by (rewrite ?be_length; lia); rewrite ?be_length); rewrite D, S_; apply slice_l, be_length.
Lemma t_tpid : slice 12 2 w = be 2 (v_tpid t).
Proof. unfold w, frame_wire, vtag_wire. cbn [f_dst f_src f_tag f_net]. rewrite <- !app_assoc.
  rewrite !slice_r by lia. rewrite D, S_. apply slice_l, be_length. Qed.
Lemma t_tci : slice 14 2 w = be 2 tci.
Proof. unfold w, frame_wire, vtag_wire. cbn [f_dst f_src f_tag f_net]. rewrite <- !app_assoc.
  rewrite !slice_r by (rewrite ?be_length; lia). rewrite be_length, D, S_. apply slice_l, be_length. Qed.
Lemma t_type : slice 16 2 w = be 2 (net_type n).
Proof. unfold w, frame_wire, vtag_wire. cbn [f_dst f_src f_tag f_net]. rewrite <- !app_assoc.
  rewrite !slice_r by (rewrite ?be_length; lia). rewrite !be_length, D, S_. apply slice_l, be_length. Qed.
Lemma tci_range : 0 <= tci < 65536.
Proof. destruct T as (_ & A & B & C). unfold tci. lia. Qed.
Lemma tci_vid : Z.land tci 4095 = v_vid t.
Proof.
  destruct T as (_ & A & B & C). change 4095 with (2 ^ 12 - 1). rewrite land_low by lia. change (2 ^ 12) with 4096.
  symmetry; apply Z.mod_unique with (v_pcp t * 2 + v_dei t); unfold tci; lia.
Qed.
Lemma tci_dei : Z.land tci 4096 = 4096 * v_dei t.
Proof.
  destruct T as (_ & A & B & C).
  apply Z.bits_inj'. intros i I. rewrite Z.land_spec.
  change 4096 with (2 ^ 12) at 1. rewrite Z.pow2_bits_eqb by lia.
  assert (dv : v_dei t = 0 \/ v_dei t = 1) by lia.
  destruct (Z.eqb_spec 12 i) as [<-|NE].
  - rewrite andb_true_r. rewrite Z.testbit_odd, Z.shiftr_div_pow2 by lia. change (2 ^ 12) with 4096.
    replace (tci / 4096) with (2 * v_pcp t + v_dei t) by (apply Z.div_unique with (v_vid t); unfold tci; lia).
    replace (2 * v_pcp t + v_dei t) with (v_dei t + 2 * v_pcp t) by lia. rewrite Z.odd_add_mul_2.
    destruct dv as [->| ->]; reflexivity.
  - rewrite andb_false_r. symmetry. destruct dv as [->| ->]; [apply Z.bits_0|].
    change (4096 * 1) with (2 ^ 12). rewrite Z.pow2_bits_eqb by lia. apply Z.eqb_neq. auto.
Qed.
Lemma t_is z : isk w 12 2 z = Some (v_tpid t =? z).
Proof. apply isk_at; [lia|apply t_tpid|]. change (256 ^ Z.of_nat 2) with 65536. destruct T as ([-> | ->] & _); lia. Qed.
Lemma t_vlan v l : pcap w 0 (PVlan v :: l) = oand (Some (v_vid t =? v)) (pcap w 4 l).
Proof.
  cbn [pcap]. f_equal. unfold pcap1. cbn [Nat.add]. rewrite !t_is.
  rewrite (ld_at w 14 2 tci); [|lia|apply t_tci|apply tci_range]. rewrite tci_vid.
  destruct T as ([-> | ->] & _); reflexivity.
Qed.
Lemma pass_vlan v : pass w [PVlan v] = (v_vid t =? v).
Proof. unfold pass. rewrite t_vlan. cbn. destruct (v_vid t =? v); reflexivity. Qed.
Lemma pass_vlan_arp v : pass w [PVlan v; PArp] = (v_vid t =? v) && (net_type n =? 2054).
Proof.
  unfold pass. rewrite t_vlan. cbn [pcap]. unfold pcap1. cbn [Nat.add].
  rewrite (isk_at w 16 2 (net_type n)); [|lia|apply t_type|change (256 ^ Z.of_nat 2) with 65536; destruct n; cbn in *; lia].
  destruct (v_vid t =? v), (net_type n =? 2054); reflexivity.
Qed.
Lemma pop_tag : pop w = uw d s n.
Proof.
  unfold pop. rewrite t_tpid, of_be_be_mod. change (256 ^ Z.of_nat 2) with 65536.
  replace ((v_tpid t mod 65536 =? 33024) || (v_tpid t mod 65536 =? 34984)) with true
    by (destruct T as ([-> | ->] & _); reflexivity).
  unfold w, uw, frame_wire, vtag_wire. cbn [f_dst f_src f_tag f_net app].
  set (r := be 2 (net_type n) ++ net_wire n).
  replace (firstn 12 _) with (d ++ s).
  2: { rewrite app_assoc, firstn_app, app_length, D, S_, firstn_all2 by (rewrite app_length; lia).
       change (12 - (6 + 6))%nat with 0%nat. rewrite firstn_O, app_nil_r. reflexivity. }
  rewrite <- app_assoc. f_equal. f_equal.
  rewrite !app_assoc. rewrite skipn_app. rewrite skipn_all2 by (rewrite !app_length, !be_length; lia).
  rewrite !app_length, !be_length, D, S_. reflexivity.
Qed.
End Tagged.
