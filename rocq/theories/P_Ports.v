(** Proofs about the port table. *)

From Verif Require Import Py Struct P_Struct M_Hello M_Loop M_Sync M_Ports S_Hello S_Controller S_Ports P_Hello P_Controller P_Sync.
Local Open Scope Z_scope.

(** *** Decoding a port *)

Lemma before_nul_pad n k : ~ In 0 n -> before_nul (n ++ zeros k) = n.
Proof.
  induction n as [|x n IH]; intros H; cbn [Datatypes.app before_nul].
  - destruct k; reflexivity.
  - destruct (x =? 0) eqn:E; [exfalso; apply H; left; lia|]. rewrite IH; [reflexivity|].
    intros Hc. apply H. right. exact Hc.
Qed.

Lemma name16_length n : (length n <= 16)%nat -> length (name16 n) = 16%nat.
Proof. intros H. unfold name16. rewrite app_length, zeros_length. lia. Qed.

Lemma decode_words ws rest : Forall (fun w => 0 <= w < 4294967296) ws ->
  decode (repeat (FU 4) (length ws)) (words ws ++ rest) = map VInt ws.
Proof.
  induction ws as [|w ws IH]; intros H; [reflexivity|]. inversion H; subst.
  unfold words. cbn [map concat length repeat]. rewrite <- app_assoc.
  rewrite decode_FU by (unfold in_u; change (256 ^ Z.of_nat 4) with 4294967296; lia).
  fold (words ws). rewrite IH by assumption. reflexivity.
Qed.

Lemma words_length ws : length (words ws) = (4 * length ws)%nat.
Proof.
  unfold words. induction ws as [|w ws IH]; [reflexivity|]. cbn [map concat length]. rewrite app_length, be_length, IH. lia.
Qed.

Definition items (v : Z) : list fitem :=
  if v =? 1 then [FU 2; FS 6; FS 16] ++ repeat (FU 4) 6
  else [FU 4; FX 4; FS 6; FX 2; FS 16] ++ repeat (FU 4) 8.

Definition psize (v : Z) : nat := if v =? 1 then 48%nat else 64%nat.

Lemma items_fmt v : 1 <= v <= 4 -> fmt (String "!"%char (port_fmt (Some v))) = Ok (items v).
Proof.
  intros H. assert (C : v = 1 \/ v = 2 \/ v = 3 \/ v = 4) by lia.
  destruct C as [->|[->|[->| ->]]]; vm_compute; reflexivity.
Qed.

Lemma items_size v : calcsize (items v) = psize v.
Proof. unfold items, psize. destruct (v =? 1); reflexivity. Qed.

Lemma enc_length v p : sport_ok v p -> length (enc_port v p) = psize v.
Proof.
  intros (_ & Hhw & Hn & _ & Hw & _). unfold enc_port, psize. destruct (v =? 1).
  - rewrite !app_length, be_length, Hhw, name16_length, words_length, Hw by exact Hn. reflexivity.
  - rewrite !app_length, be_length, !zeros_length, Hhw, name16_length, words_length, Hw by exact Hn. reflexivity.
Qed.

Definition raw (p : sport) : list pyval :=
  [VInt (sp_no p); VBytes (sp_hw p); VBytes (name16 (sp_name p))] ++ map VInt (sp_words p).

Lemma decode_port v p : sport_ok v p -> decode (items v) (enc_port v p) = raw p.
Proof.
  intros (Hno & Hhw & Hn & Hz & Hw & Hws). unfold items, enc_port, raw. destruct (v =? 1).
  - cbn [Datatypes.app]. rewrite decode_FU by (unfold in_u; change (256 ^ Z.of_nat 2) with 65536; lia).
    rewrite decode_FS by exact Hhw. rewrite decode_FS by (apply name16_length; exact Hn).
    rewrite <- Hw, <- (app_nil_r (words _)). rewrite decode_words by exact Hws. reflexivity.
  - cbn [Datatypes.app]. rewrite decode_FU by (unfold in_u; change (256 ^ Z.of_nat 4) with 4294967296; lia).
    rewrite decode_FX, decode_FS by exact Hhw. rewrite decode_FX, decode_FS by (apply name16_length; exact Hn).
    rewrite <- Hw, <- (app_nil_r (words _)). rewrite decode_words by exact Hws. reflexivity.
Qed.

Lemma cut2_raw p : ~ In 0 (sp_name p) -> cut2 (raw p) = Ok (p_vals (view p)).
Proof. intros H. unfold raw, cut2, name16. cbn [Datatypes.app]. rewrite before_nul_pad by exact H. reflexivity. Qed.

Lemma name_index_2 v : 1 <= v <= 4 -> name_index (Some v) = 2%nat.
Proof. intros H. assert (C : v = 1 \/ v = 2 \/ v = 3 \/ v = 4) by lia. destruct C as [->|[->|[->| ->]]]; reflexivity. Qed.

Lemma read_port_spec v p m off : 1 <= v <= 4 -> sport_ok v p -> at_ m off (enc_port v p) ->
  read_port (Some v) m off = Ok (view p).
Proof.
  intros Hv Hok Hat. unfold read_port, unpacks. rewrite items_fmt by exact Hv. cbn [bind].
  rewrite (unpack_decode _ _ _ _ Hat) by (rewrite enc_length, items_size; auto).
  rewrite decode_port by exact Hok. cbn [bind]. rewrite cut2_raw by apply Hok. cbn [bind].
  rewrite name_index_2 by exact Hv. reflexivity.
Qed.

Lemma read_ports_spec v l : 1 <= v <= 4 -> forall fuel m off acc,
  Forall (sport_ok v) l -> at_ m off (concat (map (enc_port v) l)) ->
  (length l <= fuel)%nat ->
  read_ports fuel (Some v) m off (Z.of_nat off + zlen (concat (map (enc_port v) l))) acc =
  (acc ++ map view l, Ok tt).
Proof.
  intros Hv. induction l as [|p l IH]; intros fuel m off acc Hok Hat Hf; cbn [map concat] in *.
  - unfold zlen. cbn [length]. rewrite app_nil_r.
    assert (E : Z.of_nat off <? Z.of_nat off + Z.of_nat 0 = false) by lia. destruct fuel; cbn [read_ports]; rewrite E; reflexivity.
  - inversion Hok as [|? ? Hp Hl]; subst. apply at_app in Hat. destruct Hat as [Hat1 Hat2].
    destruct fuel as [|fuel]; [cbn in Hf; lia|]. cbn [read_ports].
    assert (Hpz : (0 < psize v)%nat) by (unfold psize; destruct (v =? 1); lia).
    pose proof (enc_length v p Hp) as Hlen.
    unfold zlen. rewrite app_length, Hlen.
    assert (E : Z.of_nat off <? Z.of_nat off + Z.of_nat (psize v + length (concat (map (enc_port v) l))) = true) by lia.
    rewrite E, (read_port_spec v p) by assumption. unfold sizes. rewrite items_fmt by exact Hv. cbn [bind].
    rewrite items_size. rewrite Hlen in Hat2.
    replace (Z.of_nat off + Z.of_nat (psize v + length (concat (map (enc_port v) l))))
      with (Z.of_nat (off + psize v) + zlen (concat (map (enc_port v) l))) by (unfold zlen; lia).
    rewrite IH; [|exact Hl|exact Hat2|cbn in Hf; lia]. rewrite <- app_assoc. reflexivity.
Qed.

(** *** Messages *)

Lemma msg_length v ty xid body : length (msg v ty xid body) = (8 + length body)%nat.
Proof. unfold msg. rewrite !app_length, !be_length. reflexivity. Qed.

Lemma msg_header v ty xid body : 8 + zlen body < 65536 -> 0 <= xid < 4294967296 ->
  parse_ofp_header (msg v ty xid body) = Ok (mkHeader v ty (8 + zlen body) xid).
Proof.
  intros Hl Hx. rewrite parse_header_spec by (rewrite msg_length; lia).
  unfold msg, u16_at, u32_at, byte_at. cbn [be Datatypes.app nth Nat.add].
  f_equal. unfold zlen in *. f_equal; lia.
Qed.

Lemma msg_at v ty xid body : at_ (msg v ty xid body) 8 body.
Proof. exists ([v; ty] ++ be 2 (8 + zlen body) ++ be 4 xid), []. unfold msg. rewrite app_nil_r, <- !app_assoc. auto. Qed.

Lemma msg_nonempty v ty xid body : exists b r, msg v ty xid body = b :: r.
Proof. unfold msg. cbn. eauto. Qed.

Lemma pm_recv_unfold s m h : parse_ofp_header m = Ok h ->
  pm_recv s m =
      match dget (pm_multi s) (h_xid h), h_type h =? 19 with
      | Some ports, true =>
          if negb (is_v45 (pm_version s)) then (s, Err AssertionError)
          else
            match unpacks "!HH4x" m 8 with
            | Ok [VInt mptype; VInt flags] =>
                if mptype =? 13 then
                  let '(ports', r) := read_ports (length m) (pm_version s) m 16 (h_length h) ports in
                  let s1 := set_multi s (dput (pm_multi s) (h_xid h) ports') in
                  match r with
                  | Err e => (s1, Err e)
                  | Ok _ =>
                      if Z.odd flags then (s1, Ok tt)
                      else
                        match replace_and_set s1 ports' with
                        | (s2, Ok _) => (set_multi s2 (dpop (pm_multi s2) (h_xid h)), Ok tt)
                        | r => r
                        end
                  end
                else (s, Ok tt)
            | Ok _ => (s, Err ValueError)
            | Err e => (s, Err e)
            end
      | _, _ =>
          if (h_type h =? 6) && negb (match pm_version s with Some 4 => true | _ => false end) then
            match sizes "!BBHIQIB3xII" with
            | Err e => (s, Err e)
            | Ok off =>
                let '(ports, r) := read_ports (length m) (pm_version s) m off (h_length h) [] in
                match r with
                | Err e => (s, Err e)
                | Ok _ => replace_and_set s ports
                end
            end
          else if h_type h =? 12 then
            match unpacks (String.append "!B7x" (port_fmt (pm_version s))) m 8 with
            | Ok (VInt reason :: vals) =>
                match cut2 vals with
                | Ok l => update_port s reason (mkPort l (name_index (pm_version s)))
                | Err e => (s, Err e)
                end
            | Ok _ => (s, Err TypeError)
            | Err e => (s, Err e)
            end
          else (s, Ok tt)
      end.
Proof.
  intros H. unfold pm_recv. destruct m as [|b m].
  - rewrite parse_header_short in H by (cbn; lia). discriminate.
  - rewrite H. reflexivity.
Qed.

(** *** PORT_STATUS *)

Lemma status_fmt v : 1 <= v <= 4 ->
  fmt (String.append "!B7x" (port_fmt (Some v))) = Ok (FU 1 :: FX 7 :: items v).
Proof.
  intros H. assert (C : v = 1 \/ v = 2 \/ v = 3 \/ v = 4) by lia.
  destruct C as [->|[->|[->| ->]]]; vm_compute; reflexivity.
Qed.

Lemma be1 z : 0 <= z < 256 -> [z] = be 1 z.
Proof. intros H. cbn [be Datatypes.app]. rewrite Z.mod_small by exact H. reflexivity. Qed.

Lemma psize_bound v : (psize v <= 64)%nat.
Proof. unfold psize. destruct (v =? 1); lia. Qed.

Lemma status_recv s v xid reason p :
  pm_version s = Some v -> 1 <= v <= 4 -> 0 <= xid < 4294967296 -> 0 <= reason < 256 -> sport_ok v p ->
  pm_recv s (port_status v xid reason p) = update_port s reason (view p).
Proof.
  intros Hv Hv4 Hx Hr Hok. unfold port_status.
  set (body := [reason] ++ zeros 7 ++ enc_port v p).
  assert (Hbl : length body = (8 + psize v)%nat).
  { unfold body. rewrite !app_length, zeros_length, enc_length by exact Hok. reflexivity. }
  rewrite (pm_recv_unfold _ _ (mkHeader v 12 (8 + zlen body) xid)).
  2:{ apply msg_header; [unfold zlen; rewrite Hbl; pose proof (psize_bound v); lia|exact Hx]. }
  cbn [h_xid h_type]. change (12 =? 19) with false. change (12 =? 6) with false. change (12 =? 12) with true. cbn [andb].
  assert (Hu : unpacks (String.append "!B7x" (port_fmt (pm_version s))) (msg v 12 xid body) 8 = Ok (VInt reason :: raw p)).
  { rewrite Hv. unfold unpacks. rewrite status_fmt by exact Hv4. cbn [bind].
    rewrite (unpack_decode _ _ _ _ (msg_at v 12 xid body)).
    2:{ cbn [calcsize item_size]. rewrite items_size, Hbl. lia. }
    unfold body. rewrite be1 by exact Hr.
    rewrite decode_FU by (unfold in_u; change (256 ^ Z.of_nat 1) with 256; lia).
    rewrite decode_FX, decode_port by exact Hok. reflexivity. }
  rewrite Hu, cut2_raw by apply Hok. rewrite Hv, name_index_2 by exact Hv4.
  destruct (dget (pm_multi s) xid); reflexivity.
Qed.

(** *** The table *)

Lemma val_eqb_no p q : val_eqb (p_no (view p)) (p_no (view q)) = same_no q p.
Proof. unfold same_no. cbn. apply Z.eqb_sym. Qed.

Lemma val_eqb_refl a : match a with VInt _ | VBytes _ | VNone => True | _ => False end -> val_eqb a a = true.
Proof.
  destruct a; cbn; try tauto; intros _; [apply Z.eqb_refl|]. destruct (list_eq_dec Z.eq_dec b b); congruence.
Qed.

Lemma vals_eqb_refl l : Forall (fun a => match a with VInt _ | VBytes _ | VNone => True | _ => False end) l -> vals_eqb l l = true.
Proof. induction 1 as [|a l H _ IH]; cbn; [reflexivity|]. rewrite val_eqb_refl by exact H. exact IH. Qed.

Lemma port_eqb_refl p : port_eqb (view p) (view p) = true.
Proof.
  unfold port_eqb. apply vals_eqb_refl. unfold view. cbn [p_vals Datatypes.app].
  do 3 (constructor; [exact I|]). apply Forall_forall. intros x Hx. apply in_map_iff in Hx. destruct Hx as (w & <- & _). exact I.
Qed.

Lemma port_eqb_no p q : port_eqb (view p) (view q) = true -> sp_no p = sp_no q.
Proof. unfold port_eqb, view. cbn. intros H. lia. Qed.

Lemma hit_spec p l : filter (fun x => val_eqb (p_no x) (p_no (view p))) (map view l) = map view (filter (same_no p) l).
Proof.
  induction l as [|q l IH]; cbn [map filter]; [reflexivity|]. rewrite val_eqb_no.
  destruct (same_no p q); cbn [map]; rewrite IH; reflexivity.
Qed.

Lemma absent_filter p l : existsb (same_no p) l = false -> filter (same_no p) l = [].
Proof.
  induction l as [|q l IH]; cbn; [reflexivity|]. destruct (same_no p q); cbn; [discriminate|exact IH].
Qed.

Lemma present_filter p l : NoDup (map sp_no l) -> existsb (same_no p) l = true ->
  exists l1 old l2, l = l1 ++ old :: l2 /\ sp_no old = sp_no p /\
    existsb (same_no p) l1 = false /\ existsb (same_no p) l2 = false.
Proof.
  induction l as [|q l IH]; cbn; [discriminate|]. intros Hn H. inversion Hn as [|? ? Hq Hl]; subst.
  destruct (same_no p q) eqn:E; cbn in H.
  - exists [], q, l. unfold same_no in E. split; [reflexivity|]. split; [lia|]. split; [reflexivity|].
    destruct (existsb (same_no p) l) eqn:E2; [|reflexivity]. apply existsb_exists in E2. destruct E2 as (q' & Hin & Hq').
    unfold same_no in Hq'. exfalso. apply Hq. apply in_map_iff. exists q'. split; [lia|exact Hin].
  - destruct (IH Hl H) as (l1 & old & l2 & -> & H1 & H2 & H3). exists (q :: l1), old, l2.
    split; [reflexivity|]. split; [exact H1|]. split; [cbn; rewrite E; exact H2|exact H3].
Qed.

Lemma absent_index p old l1 rest : sp_no old = sp_no p -> existsb (same_no p) l1 = false ->
  index_of (view old) (map view l1 ++ rest) = option_map (fun n => (length l1 + n)%nat) (index_of (view old) rest) /\
  remove_first (view old) (map view l1 ++ rest) = map view l1 ++ remove_first (view old) rest.
Proof.
  intros Ho. induction l1 as [|q l1 IH]; cbn [map Datatypes.app index_of remove_first existsb]; intros H.
  - split; [destruct (index_of (view old) rest); reflexivity|reflexivity].
  - apply orb_false_iff in H. destruct H as [Hq Hl]. destruct (IH Hl) as [I1 I2].
    destruct (port_eqb (view q) (view old)) eqn:E.
    + apply port_eqb_no in E. unfold same_no in Hq. lia.
    + rewrite I1, I2. split; [|reflexivity]. destruct (index_of (view old) rest); reflexivity.
Qed.

Lemma index_app p old l1 l2 : sp_no old = sp_no p -> existsb (same_no p) l1 = false ->
  index_of (view old) (map view l1 ++ view old :: map view l2) = Some (length l1) /\
  remove_first (view old) (map view l1 ++ view old :: map view l2) = map view l1 ++ map view l2.
Proof.
  intros Ho H. destruct (absent_index p old l1 (view old :: map view l2) Ho H) as [H1 H2].
  rewrite H1, H2. cbn [index_of remove_first]. rewrite port_eqb_refl. cbn. rewrite Nat.add_0_r. auto.
Qed.

Lemma filter_absent p l : existsb (same_no p) l = false -> filter (fun q => negb (same_no p q)) l = l.
Proof.
  induction l as [|q l IH]; cbn; [reflexivity|]. destruct (same_no p q); cbn; [discriminate|]. intros H. rewrite IH by exact H. reflexivity.
Qed.

Lemma map_absent p l : existsb (same_no p) l = false -> map (fun q => if same_no p q then p else q) l = l.
Proof.
  induction l as [|q l IH]; cbn; [reflexivity|]. destruct (same_no p q); cbn; [discriminate|]. intros H. rewrite IH by exact H. reflexivity.
Qed.

Lemma notify_none ks : notify [] ks = Ok tt.
Proof. unfold notify. replace (existsb (has_key []) ks) with false; [reflexivity|]. induction ks; auto. Qed.

Theorem update_spec s reason p l :
  pm_ports s = map view l -> NoDup (map sp_no l) -> pm_init s = true -> no_waiters s -> 0 <= reason ->
  update_port s reason (view p) =
  match apply_event l reason p with
  | Some l' => (set_ports s (map view l'), Ok tt)
  | None => (s, Err AssertionError)
  end.
Proof.
  intros Hp Hn Hi [Ha Hd] Hr. unfold update_port. rewrite Hp, hit_spec, Hi, Ha, Hd, !notify_none. cbn [bind andb].
  assert (C : reason = 0 \/ reason = 1 \/ reason = 2 \/ 3 <= reason) by lia.
  assert (HP : existsb (same_no p) l = true ->
    exists l1 old l2, l = l1 ++ old :: l2 /\ sp_no old = sp_no p /\ filter (same_no p) l = [old] /\
      existsb (same_no p) l1 = false /\ existsb (same_no p) l2 = false).
  { intros E. destruct (present_filter p l Hn E) as (l1 & old & l2 & -> & H1 & H2 & H3). exists l1, old, l2.
    repeat split; auto. rewrite filter_app. cbn [filter]. rewrite !absent_filter by assumption.
    replace (same_no p old) with true by (unfold same_no; lia). reflexivity. }
  unfold apply_event.
  destruct C as [->|[->|[->|Hr3]]].
  - change (0 =? 0) with true. cbv iota. destruct (existsb (same_no p) l) eqn:E.
    + destruct (HP eq_refl) as (l1 & old & l2 & _ & _ & -> & _). reflexivity.
    + rewrite absent_filter by exact E. cbn [map negb]. rewrite map_app. reflexivity.
  - change (1 =? 0) with false. change (1 =? 1) with true. cbv iota. destruct (existsb (same_no p) l) eqn:E.
    + destruct (HP eq_refl) as (l1 & old & l2 & -> & Ho & -> & H1 & H2). cbn [map].
      rewrite map_app. cbn [map]. destruct (index_app p old l1 l2 Ho H1) as [_ ->].
      rewrite filter_app. cbn [filter]. rewrite !filter_absent by assumption.
      replace (same_no p old) with true by (unfold same_no; lia). cbn [negb]. rewrite map_app. reflexivity.
    + rewrite absent_filter by exact E. reflexivity.
  - change (2 =? 0) with false. change (2 =? 1) with false. change (2 =? 2) with true. cbv iota. destruct (existsb (same_no p) l) eqn:E.
    + destruct (HP eq_refl) as (l1 & old & l2 & -> & Ho & -> & H1 & H2). cbn [map].
      rewrite map_app. cbn [map]. destruct (index_app p old l1 l2 Ho H1) as [-> ->].
      rewrite map_app. cbn [map]. rewrite !map_absent by assumption.
      replace (same_no p old) with true by (unfold same_no; lia).
      unfold insert_at. rewrite firstn_app_l, skipn_app_l by apply map_length. rewrite map_app. reflexivity.
    + rewrite absent_filter by exact E. reflexivity.
  - replace (reason =? 0) with false by lia. replace (reason =? 1) with false by lia. replace (reason =? 2) with false by lia.
    cbv iota. destruct reason as [|[[?|?|]|[?|?|]|]|?]; try lia; reflexivity.
Qed.

Lemma NoDup_app_snoc {A} (l : list A) a : NoDup l -> ~ In a l -> NoDup (l ++ [a]).
Proof.
  intros Hn Ha. induction Hn as [|b l Hb _ IH]; cbn; [constructor; [auto|constructor]|].
  constructor.
  - intros Hc. apply in_app_or in Hc. destruct Hc as [Hc|[Hc|[]]]; [exact (Hb Hc)|]. apply Ha. left. auto.
  - apply IH. intros Hc. apply Ha. right. exact Hc.
Qed.

Lemma apply_nodup l reason p l' : NoDup (map sp_no l) -> apply_event l reason p = Some l' -> NoDup (map sp_no l').
Proof.
  intros Hn. unfold apply_event. destruct reason as [|[q|[q|q|]|]|q]; try discriminate.
  - destruct (existsb (same_no p) l) eqn:E; [discriminate|]. intros H. injection H as <-.
    rewrite map_app. cbn [map]. apply NoDup_app_snoc; [exact Hn|]. intros Hin. apply in_map_iff in Hin.
    destruct Hin as (q & Hq & Hin). assert (existsb (same_no p) l = true) by (apply existsb_exists; exists q; unfold same_no; split; [exact Hin|lia]).
    congruence.
  - destruct (existsb (same_no p) l); [|discriminate]. intros H. injection H as <-.
    replace (map sp_no (map (fun q => if same_no p q then p else q) l)) with (map sp_no l); [exact Hn|].
    rewrite map_map. apply map_ext. intros q. unfold same_no. destruct (sp_no p =? sp_no q) eqn:E; [lia|reflexivity].
  - destruct (existsb (same_no p) l); [|discriminate]. intros H. injection H as <-.
    clear -Hn. induction l as [|q l IH]; [constructor|]. cbn [map filter] in *. inversion Hn as [|? ? Hq Hl]; subst.
    destruct (negb (same_no p q)); [|auto]. cbn [map]. constructor; [|auto].
    intros Hc. apply Hq. apply in_map_iff in Hc. destruct Hc as (x & Hx & Hin). apply filter_In in Hin.
    apply in_map_iff. exists x. tauto.
Qed.

Theorem status_history v es : forall s l,
  pm_version s = Some v -> 1 <= v <= 4 -> pm_ports s = map view l -> NoDup (map sp_no l) ->
  pm_init s = true -> no_waiters s ->
  Forall (fun e => 0 <= fst (fst e) < 4294967296 /\ 0 <= snd (fst e) < 256 /\ sport_ok v (snd e)) es ->
  let s' := pm_run s (map (fun e => port_status v (fst (fst e)) (snd (fst e)) (snd e)) es) in
  pm_ports s' = map view (table_run l es) /\ NoDup (map sp_no (table_run l es)).
Proof.
  induction es as [|[[x reason] p] es IH]; intros s l Hv Hv4 Hp Hn Hi Hw He; cbn [map pm_run table_run fst snd].
  - auto.
  - inversion He as [|? ? (Hx & Hr & Hok) He']; subst. cbn [fst snd] in Hx, Hr, Hok.
    rewrite (status_recv s v) by assumption.
    rewrite (update_spec s reason p l) by (auto; lia).
    destruct (apply_event l reason p) as [l'|] eqn:E; cbn [fst].
    + apply IH; auto. eapply apply_nodup; eauto.
    + apply IH; auto.
Qed.

(** *** Initial lists *)

Lemma enc_fuel v l : Forall (sport_ok v) l -> (length l <= length (concat (map (enc_port v) l)))%nat.
Proof.
  induction 1 as [|p l Hp _ IH]; cbn [map concat length]; [lia|].
  rewrite app_length, enc_length by exact Hp. unfold psize. destruct (v =? 1); lia.
Qed.

Lemma first_err_ok {A} (f : A -> res unit) l : (forall a, f a = Ok tt) -> first_err f l = Ok tt.
Proof. intros H. induction l as [|a l IH]; cbn; [reflexivity|]. rewrite H. exact IH. Qed.

Lemma replace_spec s l : no_waiters s -> replace_and_set s l = (set_init (set_ports s l) true, Ok tt).
Proof.
  intros [Ha Hd]. unfold replace_and_set, ports_replace. rewrite Ha, Hd.
  rewrite !first_err_ok; [reflexivity| |]; intros p; rewrite !notify_none;
    repeat match goal with |- context [if ?c then _ else _] => destruct c end; reflexivity.
Qed.

Lemma features_read s v xid fixed l :
  pm_version s = Some v -> 1 <= v <= 3 -> 0 <= xid < 4294967296 -> length fixed = 24%nat ->
  Forall (sport_ok v) l -> 32 + zlen (concat (map (enc_port v) l)) < 65536 ->
  pm_recv s (features_reply v xid fixed l) = replace_and_set s (map view l).
Proof.
  intros Hv Hv3 Hx Hfx Hok Hlen. unfold features_reply.
  set (body := fixed ++ concat (map (enc_port v) l)).
  assert (Hbl : zlen body = 24 + zlen (concat (map (enc_port v) l))).
  { unfold body, zlen. rewrite app_length, Hfx. lia. }
  rewrite (pm_recv_unfold _ _ (mkHeader v 6 (8 + zlen body) xid)) by (apply msg_header; [lia|exact Hx]).
  cbn [h_xid h_type h_length]. change (6 =? 19) with false. change (6 =? 6) with true.
  assert (E4 : negb match pm_version s with Some 4 => true | _ => false end = true).
  { rewrite Hv. assert (C : v = 1 \/ v = 2 \/ v = 3) by lia. destruct C as [->|[->| ->]]; reflexivity. }
  rewrite E4. cbn [andb].
  replace (sizes "!BBHIQIB3xII") with (@Ok nat 32%nat) by (vm_compute; reflexivity).
  rewrite Hv, Hbl.
  replace (8 + (24 + zlen (concat (map (enc_port v) l)))) with (Z.of_nat 32 + zlen (concat (map (enc_port v) l))) by lia.
  rewrite read_ports_spec.
  - cbn [Datatypes.app]. destruct (dget (pm_multi s) xid); reflexivity.
  - lia.
  - exact Hok.
  - pose proof (msg_at v 6 xid body) as Hat. unfold body at 2 in Hat. apply at_app in Hat. destruct Hat as [_ Hat].
    rewrite Hfx in Hat. exact Hat.
  - rewrite msg_length. unfold body. rewrite app_length. pose proof (enc_fuel v l Hok). lia.
Qed.

Theorem features_recv s v xid fixed l :
  pm_version s = Some v -> 1 <= v <= 3 -> 0 <= xid < 4294967296 -> length fixed = 24%nat ->
  Forall (sport_ok v) l -> 32 + zlen (concat (map (enc_port v) l)) < 65536 -> no_waiters s ->
  pm_recv s (features_reply v xid fixed l) = (set_init (set_ports s (map view l)) true, Ok tt).
Proof.
  intros Hv Hv3 Hx Hfx Hok Hlen Hw. rewrite (features_read s v) by assumption. apply replace_spec. exact Hw.
Qed.

Lemma desc_read s xid flags acc l :
  pm_version s = Some 4 -> 0 <= xid < 4294967296 -> 0 <= flags < 65536 ->
  dget (pm_multi s) xid = Some acc ->
  Forall (sport_ok 4) l -> 16 + zlen (concat (map (enc_port 4) l)) < 65536 ->
  pm_recv s (port_desc 4 xid flags l) =
  let s1 := set_multi s (dput (pm_multi s) xid (acc ++ map view l)) in
  if Z.odd flags then (s1, Ok tt)
  else match replace_and_set s1 (acc ++ map view l) with
       | (s2, Ok _) => (set_multi s2 (dpop (pm_multi s2) xid), Ok tt)
       | r => r
       end.
Proof.
  intros Hv Hx Hfl Hg Hok Hlen. unfold port_desc.
  set (ps := concat (map (enc_port 4) l)).
  set (body := be 2 13 ++ be 2 flags ++ zeros 4 ++ ps).
  assert (Hbl : zlen body = 8 + zlen ps).
  { unfold body, zlen. rewrite !app_length, !be_length, zeros_length. lia. }
  rewrite (pm_recv_unfold _ _ (mkHeader 4 19 (8 + zlen body) xid)) by (apply msg_header; [unfold ps in *; lia|exact Hx]).
  cbn [h_xid h_type h_length]. rewrite Hg. change (19 =? 19) with true. cbv iota. rewrite Hv. cbn [is_v45 negb].
  assert (Hat8 : at_ (msg 4 19 xid body) 8 ((be 2 13 ++ be 2 flags ++ zeros 4) ++ ps)).
  { rewrite <- !app_assoc. apply msg_at. }
  apply at_app in Hat8. destruct Hat8 as [Hat8 Hat16].
  rewrite !app_length, !be_length, zeros_length in Hat16.
  assert (Hu : unpacks "!HH4x" (msg 4 19 xid body) 8 = Ok [VInt 13; VInt flags]).
  { unfold unpacks. eval_fmt. cbn [bind]. rewrite (unpack_decode _ _ _ _ Hat8) by (rewrite !app_length, !be_length, zeros_length; reflexivity).
    rewrite decode_FU by reflexivity.
    rewrite decode_FU by (unfold in_u; change (256 ^ Z.of_nat 2) with 65536; lia).
    rewrite <- (app_nil_r (zeros 4)), decode_FX. reflexivity. }
  rewrite Hu. change (13 =? 13) with true. cbv iota. rewrite Hbl.
  replace (8 + (8 + zlen ps)) with (Z.of_nat 16 + zlen ps) by lia.
  change (Z.of_nat 16 + zlen ps) with (Z.of_nat 16 + zlen (concat (map (enc_port 4) l))).
  rewrite read_ports_spec; [| lia | exact Hok | exact Hat16 |].
  2:{ rewrite msg_length. unfold body. rewrite !app_length. pose proof (enc_fuel 4 l Hok). unfold ps. lia. }
  reflexivity.
Qed.

Theorem desc_recv s xid flags acc l :
  pm_version s = Some 4 -> 0 <= xid < 4294967296 -> 0 <= flags < 65536 ->
  dget (pm_multi s) xid = Some acc ->
  Forall (sport_ok 4) l -> 16 + zlen (concat (map (enc_port 4) l)) < 65536 -> no_waiters s ->
  pm_recv s (port_desc 4 xid flags l) =
  if Z.odd flags then (set_multi s (dput (pm_multi s) xid (acc ++ map view l)), Ok tt)
  else (mkPmon (Some 4) (acc ++ map view l) true (dpop (dput (pm_multi s) xid (acc ++ map view l)) xid)
          (pm_attach s) (pm_detach s), Ok tt).
Proof.
  intros Hv Hx Hfl Hg Hok Hlen Hw. rewrite (desc_read s xid flags acc) by assumption. cbv zeta.
  destruct (Z.odd flags); [reflexivity|]. rewrite replace_spec by exact Hw.
  unfold set_multi, set_init, set_ports. cbn. rewrite Hv. reflexivity.
Qed.

(** A message that is none of the port messages. *)
Lemma inert_recv s m : (8 <= length m)%nat -> byte_at m 1 <> 6 -> byte_at m 1 <> 12 -> byte_at m 1 <> 19 ->
  pm_recv s m = (s, Ok tt).
Proof.
  intros Hl H6 H12 H19. erewrite pm_recv_unfold by (apply parse_header_spec; exact Hl). cbn [h_xid h_type].
  replace (byte_at m 1 =? 19) with false by lia. replace (byte_at m 1 =? 6) with false by lia.
  replace (byte_at m 1 =? 12) with false by lia. destruct (dget (pm_multi s) (u32_at m 4)); reflexivity.
Qed.

Theorem desc_parts xid ps ms : parts xid ps ms -> forall s acc lastf lastl,
  pm_version s = Some 4 -> 0 <= xid < 4294967296 -> dget (pm_multi s) xid = Some acc -> no_waiters s ->
  Forall (fun q => 0 <= fst q < 65536 /\ Z.odd (fst q) = true /\ Forall (sport_ok 4) (snd q) /\
                   16 + zlen (concat (map (enc_port 4) (snd q))) < 65536) ps ->
  0 <= lastf < 65536 -> Z.odd lastf = false -> Forall (sport_ok 4) lastl ->
  16 + zlen (concat (map (enc_port 4) lastl)) < 65536 ->
  let s' := pm_run s (ms ++ [port_desc 4 xid lastf lastl]) in
  pm_ports s' = acc ++ map view (concat (map snd ps) ++ lastl) /\ pm_init s' = true.
Proof.
  induction 1 as [|fl l ps ms H IH|m ps ms Hl H6 H12 H19 H IH]; intros s acc lastf lastl Hv Hx Hg Hw Hps Hlf Hlo Hlok Hll.
  - cbn [Datatypes.app pm_run map concat]. rewrite (desc_recv s xid lastf acc lastl) by assumption. rewrite Hlo. cbn. auto.
  - cbn [Datatypes.app pm_run map concat]. inversion Hps as [|? ? (Hf & Ho & Hok & Hb) Hps']; subst. cbn [fst snd] in *.
    rewrite (desc_recv s xid fl acc l) by assumption. rewrite Ho. cbn [fst].
    destruct (IH (set_multi s (dput (pm_multi s) xid (acc ++ map view l))) (acc ++ map view l) lastf lastl) as [H1 H2]; auto.
    { cbn. rewrite dget_dput, Z.eqb_refl. reflexivity. }
    split; [|exact H2]. rewrite H1. rewrite !map_app, <- !app_assoc. reflexivity.
  - cbn [Datatypes.app pm_run]. rewrite inert_recv by assumption. cbn [fst]. apply IH; auto.
Qed.

(** *** OpenFlow 1.4 *)

Lemma enc14_length no hw name c st props : length hw = 6%nat -> (length name <= 16)%nat ->
  length (enc_port14 no hw name c st props) = (40 + length props)%nat.
Proof. intros H1 H2. unfold enc_port14. rewrite !app_length, !be_length, !zeros_length, H1, name16_length by exact H2. lia. Qed.

(** Reading with the 30-byte format yields more entries than there are. *)
Lemma read5_count : forall fuel m off len acc acc',
  read_ports fuel (Some 5) m off len acc = (acc', Ok tt) ->
  len <= Z.of_nat off + 30 * (zlen acc' - zlen acc) /\ (length acc <= length acc')%nat.
Proof.
  induction fuel as [|fuel IH]; intros m off len acc acc'; cbn [read_ports]; destruct (Z.of_nat off <? len) eqn:E; intros H.
  - discriminate.
  - injection H as <-. unfold zlen. lia.
  - destruct (read_port (Some 5) m off) as [p|e]; [|discriminate].
    replace (sizes (String "!"%char (port_fmt (Some 5)))) with (@Ok nat 30%nat) in H by (vm_compute; reflexivity).
    apply IH in H. unfold zlen in *. rewrite app_length in H. cbn [length] in H. lia.
  - injection H as <-. unfold zlen. lia.
Qed.

Theorem desc14_wrong s xid flags encs s' r :
  pm_version s = Some 5 -> 0 <= xid < 4294967296 -> 0 <= flags < 65536 -> Z.odd flags = false ->
  dget (pm_multi s) xid = Some [] ->
  encs <> [] -> Forall (fun e => (40 <= length e)%nat) encs -> 16 + zlen (concat encs) < 65536 ->
  pm_recv s (msg 5 19 xid (be 2 13 ++ be 2 flags ++ zeros 4 ++ concat encs)) = (s', r) ->
  r <> Ok tt \/ (length (pm_ports s') > length encs)%nat.
Proof.
  intros Hv Hx Hfl Ho Hg Hne H40 Hlen.
  set (ps := concat encs) in *. set (body := be 2 13 ++ be 2 flags ++ zeros 4 ++ ps).
  assert (Hbl : zlen body = 8 + zlen ps).
  { unfold body, zlen. rewrite !app_length, !be_length, zeros_length. lia. }
  rewrite (pm_recv_unfold _ _ (mkHeader 5 19 (8 + zlen body) xid)) by (apply msg_header; [unfold ps in *; lia|exact Hx]).
  cbn [h_xid h_type h_length]. rewrite Hg. change (19 =? 19) with true. cbv iota. rewrite Hv. cbn [is_v45 negb].
  assert (Hat8 : at_ (msg 5 19 xid body) 8 ((be 2 13 ++ be 2 flags ++ zeros 4) ++ ps)).
  { rewrite <- !app_assoc. apply msg_at. }
  apply at_app in Hat8. destruct Hat8 as [Hat8 _].
  assert (Hu : unpacks "!HH4x" (msg 5 19 xid body) 8 = Ok [VInt 13; VInt flags]).
  { unfold unpacks. eval_fmt. cbn [bind]. rewrite (unpack_decode _ _ _ _ Hat8) by (rewrite !app_length, !be_length, zeros_length; reflexivity).
    rewrite decode_FU by reflexivity.
    rewrite decode_FU by (unfold in_u; change (256 ^ Z.of_nat 2) with 65536; lia).
    rewrite <- (app_nil_r (zeros 4)), decode_FX. reflexivity. }
  rewrite Hu. change (13 =? 13) with true. cbv iota. rewrite Hbl, Ho.
  destruct (read_ports (length (msg 5 19 xid body)) (Some 5) (msg 5 19 xid body) 16 (8 + (8 + zlen ps)) []) as [acc rr] eqn:Er.
  destruct rr as [[]|e].
  2:{ intros H. injection H as _ <-. left. discriminate. }
  pose proof (read5_count _ _ _ _ _ _ Er) as [Hc _].
  assert (Hbig : 40 * zlen encs <= zlen ps).
  { unfold ps, zlen. clear -H40. induction H40 as [|e l He _ IH]; cbn [concat length]; [lia|]. rewrite app_length. lia. }
  assert (Hacc : (length acc > length encs)%nat).
  { unfold zlen in *. cbn [length] in Hc. destruct encs; [congruence|]. cbn [length] in *. lia. }
  unfold replace_and_set, ports_replace.
  match goal with |- context [bind ?a ?b] => destruct (bind a b) as [[]|e] end.
  - intros H. injection H as <- <-. right. cbn. exact Hacc.
  - intros H. injection H as _ <-. left. discriminate.
Qed.

Theorem features14_wipes s xid fixed :
  pm_version s = Some 5 -> 0 <= xid < 4294967296 -> length fixed = 24%nat -> no_waiters s ->
  pm_recv s (msg 5 6 xid fixed) = (set_init (set_ports s []) true, Ok tt).
Proof.
  intros Hv Hx Hf Hw.
  rewrite (pm_recv_unfold _ _ (mkHeader 5 6 (8 + zlen fixed) xid)) by (apply msg_header; [unfold zlen; lia|exact Hx]).
  cbn [h_xid h_type h_length]. change (6 =? 19) with false. change (6 =? 6) with true. rewrite Hv. cbn [andb negb].
  replace (sizes "!BBHIQIB3xII") with (@Ok nat 32%nat) by (vm_compute; reflexivity).
  assert (E : read_ports (length (msg 5 6 xid fixed)) (Some 5) (msg 5 6 xid fixed) 32 (8 + zlen fixed) [] = ([], Ok tt)).
  { rewrite msg_length, Hf. cbn [Nat.add read_ports]. unfold zlen. rewrite Hf.
    change (Z.of_nat 32 <? 8 + Z.of_nat 24) with false. reflexivity. }
  rewrite E, replace_spec by exact Hw. destruct (dget (pm_multi s) xid); reflexivity.
Qed.

(** *** PORT_STATUS of OpenFlow 1.4 *)

Lemma split_name name : (length name <= 16)%nat -> bytes_ok name -> exists n c st t,
  name16 name = n ++ be 4 c ++ be 4 st ++ t /\ length n = 6%nat /\ length t = 2%nat /\
  in_u 4 c = true /\ in_u 4 st = true.
Proof.
  intros Hl Hb.
  assert (Hl2 := name16_length name Hl).
  assert (Hb2 : bytes_ok (name16 name)) by (apply bytes_ok_app; [exact Hb|apply zeros_ok]).
  revert Hl2 Hb2. generalize (name16 name). intros b Hl2 Hb2.
  do 16 (destruct b as [|? b]; [discriminate|]). destruct b; [|discriminate].
  assert (Hk : forall l : bytes, length l = 4%nat -> bytes_ok l -> be 4 (of_be l) = l /\ in_u 4 (of_be l) = true).
  { intros l H1 H2. rewrite <- H1. split; [apply be_of_be; exact H2|]. pose proof (of_be_range l H2) as R.
    unfold zlen in R. unfold in_u. lia. }
  exists [z; z0; z1; z2; z3; z4], (of_be [z5; z6; z7; z8]), (of_be [z9; z10; z11; z12]), [z13; z14].
  destruct (Hk [z5; z6; z7; z8]) as [E1 I1]; [reflexivity|unfold bytes_ok in *; rewrite Forall_forall in *; intros x Hx; apply Hb2; cbn in *; tauto|].
  destruct (Hk [z9; z10; z11; z12]) as [E2 I2]; [reflexivity|unfold bytes_ok in *; rewrite Forall_forall in *; intros x Hx; apply Hb2; cbn in *; tauto|].
  rewrite E1, E2. repeat split; assumption.
Qed.

Theorem status14 s xid no hw name config state props :
  pm_version s = Some 5 -> 0 <= xid < 4294967296 -> 0 <= no < 4294967296 -> length hw = 6%nat ->
  (length name <= 16)%nat -> bytes_ok name -> 56 + zlen props < 65536 ->
  no_waiters s -> Forall (fun q => p_no q <> VInt no) (pm_ports s) ->
  exists c st,
    firstn 8 (skipn 6 (name16 name)) = be 4 c ++ be 4 st /\
    pm_recv s (msg 5 12 xid ([0] ++ zeros 7 ++ enc_port14 no hw name config state props)) =
    (set_ports s (pm_ports s ++
       [mkPort [VInt no; VInt (40 + zlen props); VBytes (before_nul hw);
                VBytes (firstn 6 (name16 name)); VInt c; VInt st] 3]), Ok tt).
Proof.
  intros Hv Hx Hno Hhw Hn Hb Hp [Ha Hd] Hf.
  destruct (split_name name Hn Hb) as (n & c & st & t & En & Ln & Lt & Ic & Ist).
  exists c, st. split.
  { rewrite En, skipn_app_l by exact Ln. rewrite app_assoc. apply firstn_app_l. rewrite app_length, !be_length. reflexivity. }
  set (body := [0] ++ zeros 7 ++ enc_port14 no hw name config state props).
  assert (Hbl : length body = (48 + length props)%nat).
  { unfold body. rewrite !app_length, zeros_length, enc14_length by assumption. cbn [length]. lia. }
  rewrite (pm_recv_unfold _ _ (mkHeader 5 12 (8 + zlen body) xid)).
  2:{ apply msg_header; [unfold zlen in *; rewrite Hbl; lia|exact Hx]. }
  cbn [h_xid h_type]. change (12 =? 19) with false. change (12 =? 6) with false. change (12 =? 12) with true. cbn [andb].
  assert (Hu : unpacks (String.append "!B7x" (port_fmt (pm_version s))) (msg 5 12 xid body) 8 =
    Ok [VInt 0; VInt no; VInt (40 + zlen props); VBytes hw; VBytes n; VInt c; VInt st]).
  { rewrite Hv. unfold unpacks.
    replace (fmt (String.append "!B7x" (port_fmt (Some 5)))) with
      (@Ok (list fitem) [FU 1; FX 7; FU 4; FU 2; FX 2; FS 6; FX 2; FS 6; FU 4; FU 4]) by (vm_compute; reflexivity).
    cbn [bind].
    assert (Eb : body = (be 1 0 ++ zeros 7 ++ be 4 no ++ be 2 (40 + zlen props) ++ zeros 2 ++ hw ++ zeros 2 ++ n ++ be 4 c ++ be 4 st) ++
                        (t ++ be 4 config ++ be 4 state ++ props)).
    { unfold body, enc_port14. rewrite En, <- !app_assoc. reflexivity. }
    pose proof (msg_at 5 12 xid body) as Hat. rewrite Eb in Hat at 2. apply at_app in Hat. destruct Hat as [Hat _].
    rewrite (unpack_decode _ _ _ _ Hat).
    2:{ rewrite !app_length, !be_length, !zeros_length, Hhw, Ln. reflexivity. }
    rewrite <- (app_nil_r (be 4 st)).
    rewrite decode_FU by reflexivity. rewrite decode_FX.
    rewrite decode_FU by (unfold in_u; change (256 ^ Z.of_nat 4) with 4294967296; lia).
    rewrite decode_FU by (unfold in_u; change (256 ^ Z.of_nat 2) with 65536; unfold zlen in *; lia).
    rewrite decode_FX, decode_FS by exact Hhw. rewrite decode_FX, decode_FS by exact Ln.
    rewrite !decode_FU by assumption. reflexivity. }
  rewrite Hu. cbn [cut2]. rewrite Hv. change (name_index (Some 5)) with 3%nat.
  assert (E : filter (fun x => val_eqb (p_no x) (VInt no)) (pm_ports s) = []).
  { revert Hf. generalize (pm_ports s). induction l as [|q l IH]; intros Hf; [reflexivity|].
    inversion Hf as [|? ? Hq Hr]; subst. cbn [filter]. rewrite IH by exact Hr.
    destruct (val_eqb (p_no q) (VInt no)) eqn:E; [|reflexivity]. exfalso. apply Hq.
    destruct (p_no q); try discriminate. cbn in E. f_equal. lia. }
  rewrite En, firstn_app_l by exact Ln.
  assert (Eu : update_port s 0 (mkPort [VInt no; VInt (40 + zlen props); VBytes (before_nul hw); VBytes n; VInt c; VInt st] 3) =
    (set_ports s (pm_ports s ++ [mkPort [VInt no; VInt (40 + zlen props); VBytes (before_nul hw); VBytes n; VInt c; VInt st] 3]), Ok tt)).
  { unfold update_port. change (0 =? 0) with true. cbv iota.
    change (p_no (mkPort (VInt no :: _) 3)) with (VInt no). rewrite E, Ha, andb_false_r, notify_none. reflexivity. }
  destruct (dget (pm_multi s) xid); exact Eu.
Qed.

(** *** Waiters *)

Theorem waiter_breaks_update s v xid p :
  pm_version s = Some v -> 1 <= v <= 4 -> 0 <= xid < 4294967296 -> sport_ok v p ->
  (pm_init s = true -> forall q, In q (pm_ports s) -> p_no q <> VInt (sp_no p)) ->
  (has_key (pm_attach s) (VInt (sp_no p)) = true \/ has_key (pm_attach s) (VBytes (sp_name p)) = true) ->
  pm_recv s (port_status v xid 0 p) = (s, Err TypeError).
Proof.
  intros Hv Hv4 Hx Hok Hno Hk. rewrite (status_recv s v) by (auto; lia). unfold update_port.
  change (0 =? 0) with true. cbv iota.
  assert (E : pm_init s && negb match filter (fun x => val_eqb (p_no x) (p_no (view p))) (pm_ports s) with [] => true | _ => false end = false).
  { destruct (pm_init s) eqn:Ei; [|reflexivity]. cbn [andb].
    assert (Ef : filter (fun x => val_eqb (p_no x) (p_no (view p))) (pm_ports s) = []).
    { specialize (Hno eq_refl). revert Hno. generalize (pm_ports s). induction l as [|q l IH]; intros Hno; [reflexivity|].
      cbn [filter]. destruct (val_eqb (p_no q) (p_no (view p))) eqn:E.
      - exfalso. apply (Hno q); [left; reflexivity|]. cbn in E. destruct (p_no q); try discriminate. cbn in E. f_equal. apply Z.eqb_eq. exact E.
      - apply IH. intros q' Hq'. apply Hno. right. exact Hq'. }
    rewrite Ef. reflexivity. }
  rewrite E. unfold notify. cbn [existsb p_no p_name view p_vals p_nameix nth Datatypes.app].
  assert (Ek : has_key (pm_attach s) (VInt (sp_no p)) || (has_key (pm_attach s) (VBytes (sp_name p)) || false) = true).
  { destruct Hk as [-> | ->]; [reflexivity|]. cbn. apply orb_true_r. }
  rewrite Ek. reflexivity.
Qed.

Theorem waiter_breaks_detach s v xid p q l :
  pm_version s = Some v -> 1 <= v <= 4 -> 0 <= xid < 4294967296 -> sport_ok v p ->
  pm_ports s = map view l -> NoDup (map sp_no l) -> In q l -> sp_no q = sp_no p ->
  (has_key (pm_detach s) (VInt (sp_no p)) = true \/ has_key (pm_detach s) (VBytes (sp_name p)) = true) ->
  pm_recv s (port_status v xid 1 p) = (s, Err TypeError).
Proof.
  intros Hv Hv4 Hx Hok Hp Hn Hin Hno Hk. rewrite (status_recv s v) by (auto; lia). unfold update_port.
  change (1 =? 0) with false. change (1 =? 1) with true. cbv iota. rewrite Hp, hit_spec.
  destruct (present_filter p l Hn) as (l1 & old & l2 & -> & H1 & H2 & H3).
  { apply existsb_exists. exists q. split; [exact Hin|]. unfold same_no. lia. }
  rewrite filter_app. cbn [filter]. rewrite !absent_filter by assumption.
  replace (same_no p old) with true by (unfold same_no; lia). cbn [map Datatypes.app].
  assert (Ek : notify (pm_detach s) [p_no (view p); p_name (view p)] = Err TypeError).
  { unfold notify. cbn [existsb p_no p_name view p_vals p_nameix nth Datatypes.app].
    destruct Hk as [-> | ->]; cbn [orb]; rewrite ?orb_true_r; reflexivity. }
  rewrite Ek. reflexivity.
Qed.

Lemma notify_type l ks : notify l ks = Ok tt \/ notify l ks = Err TypeError.
Proof. unfold notify. destruct (existsb _ ks); auto. Qed.

Lemma first_err_type {A} (f : A -> res unit) l : (forall a, f a = Ok tt \/ f a = Err TypeError) ->
  (first_err f l = Ok tt /\ Forall (fun a => f a = Ok tt) l) \/ first_err f l = Err TypeError.
Proof.
  intros H. induction l as [|a l IH]; cbn; [auto|].
  destruct (H a) as [E|E]; rewrite E; cbn [bind]; [|auto].
  destruct IH as [[E2 F]|E2]; rewrite E2; auto.
Qed.

Lemma list_waiter s new p : In p new ->
  (inb (map p_no (pm_ports s)) (p_no p) = false /\ has_key (pm_attach s) (p_no p) = true) \/
  (inb (map p_name (pm_ports s)) (p_name p) = false /\ has_key (pm_attach s) (p_name p) = true) ->
  replace_and_set s new = (s, Err TypeError).
Proof.
  intros Hin Hk. unfold replace_and_set, ports_replace.
  match goal with |- context [first_err ?f (pm_ports s)] => destruct (first_err_type f (pm_ports s)) as [[-> _]| ->] end.
  - intros a. repeat match goal with |- context [if ?c then _ else _] => destruct c end; cbn [bind];
      repeat match goal with |- context [bind (notify ?l ?k) _] => destruct (notify_type l k) as [-> | ->]; cbn [bind] end;
      auto using notify_type.
  - cbn [bind].
    match goal with |- context [first_err ?f new] => destruct (first_err_type f new) as [[_ F]| ->] end; [| |reflexivity].
    + intros a. repeat match goal with |- context [if ?c then _ else _] => destruct c end; cbn [bind];
      repeat match goal with |- context [bind (notify ?l ?k) _] => destruct (notify_type l k) as [-> | ->]; cbn [bind] end;
      auto using notify_type.
    + exfalso. rewrite Forall_forall in F. specialize (F p Hin). cbv beta in F.
      unfold notify in F. cbn [existsb] in F.
      destruct Hk as [[H1 H2]|[H1 H2]]; rewrite H1, H2 in F; cbn in F; [discriminate|].
      destruct (negb (inb (map p_no (pm_ports s)) (p_no p))); cbn in F;
        [destruct (has_key (pm_attach s) (p_no p)); cbn in F|]; discriminate.
  - reflexivity.
Qed.

(** The initial list with a port somebody waits for. *)
Theorem waiter_breaks_list s v xid fixed l p :
  pm_version s = Some v -> 1 <= v <= 3 -> 0 <= xid < 4294967296 -> length fixed = 24%nat ->
  Forall (sport_ok v) l -> 32 + zlen (concat (map (enc_port v) l)) < 65536 ->
  pm_ports s = [] -> In p l ->
  (has_key (pm_attach s) (VInt (sp_no p)) = true \/ has_key (pm_attach s) (VBytes (sp_name p)) = true) ->
  pm_recv s (features_reply v xid fixed l) = (s, Err TypeError).
Proof.
  intros Hv Hv3 Hx Hfx Hok Hlen Hp Hin Hk. rewrite (features_read s v) by assumption.
  apply (list_waiter s _ (view p)); [apply in_map; exact Hin|]. rewrite Hp. cbn [map inb has_key existsb].
  destruct Hk; [left|right]; auto.
Qed.

Theorem waiter_breaks_desc s xid flags acc l p :
  pm_version s = Some 4 -> 0 <= xid < 4294967296 -> 0 <= flags < 65536 -> Z.odd flags = false ->
  dget (pm_multi s) xid = Some acc ->
  Forall (sport_ok 4) l -> 16 + zlen (concat (map (enc_port 4) l)) < 65536 ->
  pm_ports s = [] -> In p l ->
  (has_key (pm_attach s) (VInt (sp_no p)) = true \/ has_key (pm_attach s) (VBytes (sp_name p)) = true) ->
  exists s', pm_recv s (port_desc 4 xid flags l) = (s', Err TypeError) /\ pm_ports s' = [] /\ pm_init s' = pm_init s.
Proof.
  intros Hv Hx Hf Ho Hg Hok Hlen Hp Hin Hk. rewrite (desc_read s xid flags acc) by assumption. cbv zeta. rewrite Ho.
  rewrite (list_waiter _ _ (view p)); [eexists; split; [reflexivity|]; cbn; auto| |].
  - apply in_or_app. right. apply in_map. exact Hin.
  - cbn [pm_ports set_multi pm_attach]. rewrite Hp. destruct Hk; [left|right]; auto.
Qed.

Theorem request_spec s xid v : pm_version s = Some v -> 0 <= v < 256 -> pm_init s = false -> 0 <= xid < 4294967296 ->
  snd (ports_request s xid) =
  Some (Ok (if (v =? 4) || (v =? 5) then [v; 18; 0; 16] ++ be 4 xid ++ [0; 13; 0; 0; 0; 0; 0; 0]
            else [v; 5; 0; 8] ++ be 4 xid)) /\
  ((v =? 4) || (v =? 5) = true -> dget (pm_multi (fst (ports_request s xid))) xid = Some []).
Proof.
  intros Hv Hb Hi Hx. unfold ports_request. rewrite Hi, Hv.
  assert (E : is_v45 (Some v) = (v =? 4) || (v =? 5)).
  { destruct (v =? 4) eqn:E4; [apply Z.eqb_eq in E4; subst; reflexivity|].
    destruct (v =? 5) eqn:E5; [apply Z.eqb_eq in E5; subst; reflexivity|].
    destruct v as [|p|p]; try reflexivity. destruct p as [[p|[p|p|]|]|[p|[p|p|]|]|]; try reflexivity; vm_compute in E4, E5; discriminate. }
  rewrite E. destruct ((v =? 4) || (v =? 5)) eqn:E45; cbn [snd fst vint].
  - split; [|intros _; cbn; rewrite dget_dput, Z.eqb_refl; reflexivity]. f_equal.
    unfold packs. eval_fmt. cbn [bind pack pack_item]. unfold in_u.
    change (256 ^ Z.of_nat 1) with 256. change (256 ^ Z.of_nat 2) with 65536. change (256 ^ Z.of_nat 4) with 4294967296.
    replace ((0 <=? v) && (v <? 256)) with true by lia.
    replace ((0 <=? xid) && (xid <? 4294967296)) with true by lia. cbn [bind].
    change ((0 <=? 18) && (18 <? 256)) with true. change ((0 <=? 16) && (16 <? 65536)) with true.
    change ((0 <=? 13) && (13 <? 65536)) with true. change ((0 <=? 0) && (0 <? 65536)) with true. cbn [bind].
    rewrite <- be1 by lia. reflexivity.
  - split; [|discriminate]. f_equal. rewrite pack_barrier by lia.
    replace ((0 <=? v) && (v <? 256) && (0 <=? xid) && (xid <? 4294967296)) with true by lia. reflexivity.
Qed.
