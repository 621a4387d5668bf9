(** Proofs about port names (C118). *)

From Coq Require Import String Lia.
From Verif Require Import Py Struct P_Struct S_Hello S_Ports S_Wire4 S_Fixed S_Exact S_Name M_Build4 M_Parse4 P_Wire4 P_Stat4 P_MsgParse4 P_Fixed P_Exact.
From Verif Require M_Build5 P_Ports P_Head.
Local Open Scope Z_scope.
Local Open Scope list_scope.

(** *** UTF-8 *)

Lemma utf8_letter c r : code_point c -> utf8 (letter c ++ r) = (t <- utf8 r ;; Ok (c :: t)).
Proof.
  unfold code_point, letter. intros H. destruct (c <? 128) eqn:E1.
  { cbn [Datatypes.app utf8]. rewrite E1. reflexivity. }
  destruct (c <? 2048) eqn:E2.
  { cbn [Datatypes.app utf8]. pose proof (Z.div_mod c 64 ltac:(lia)). pose proof (Z.mod_pos_bound c 64 ltac:(lia)).
    set (q := c / 64) in *. set (m := c mod 64) in *.
    replace (192 + q <? 128) with false by lia. replace ((194 <=? 192 + q) && (192 + q <? 224)) with true by lia.
    unfold cont. replace ((128 <=? 128 + m) && (128 + m <? 192)) with true by lia.
    replace ((192 + q - 192) * 64 + (128 + m - 128)) with c by lia. reflexivity. }
  destruct (c <? 65536) eqn:E3.
  { cbn [Datatypes.app utf8]. pose proof (Z.div_mod c 64 ltac:(lia)). pose proof (Z.mod_pos_bound c 64 ltac:(lia)).
    assert (D : c / 4096 = c / 64 / 64) by (rewrite Z.div_div by lia; reflexivity). rewrite D.
    pose proof (Z.div_mod (c / 64) 64 ltac:(lia)). pose proof (Z.mod_pos_bound (c / 64) 64 ltac:(lia)).
    set (q := c / 64) in *. set (m := c mod 64) in *. set (q2 := q / 64) in *. set (m2 := q mod 64) in *.
    replace (224 + q2 <? 128) with false by lia. replace ((194 <=? 224 + q2) && (224 + q2 <? 224)) with false by lia.
    replace ((224 <=? 224 + q2) && (224 + q2 <? 240)) with true by lia.
    unfold cont. replace ((128 <=? 128 + m) && (128 + m <? 192)) with true by lia.
    replace ((128 <=? 128 + m2) && (128 + m2 <? 192)) with true by lia.
    replace (negb ((224 + q2 =? 224) && (128 + m2 <? 160))) with true by lia. cbn [andb].
    replace ((224 + q2 - 224) * 4096 + (128 + m2 - 128) * 64 + (128 + m - 128)) with c by lia. reflexivity. }
  cbn [Datatypes.app utf8]. pose proof (Z.div_mod c 64 ltac:(lia)). pose proof (Z.mod_pos_bound c 64 ltac:(lia)).
  assert (D : c / 262144 = c / 4096 / 64) by (rewrite Z.div_div by lia; reflexivity). rewrite D.
  assert (D2 : c / 4096 = c / 64 / 64) by (rewrite Z.div_div by lia; reflexivity). rewrite D2. clear D D2.
  pose proof (Z.div_mod (c / 64) 64 ltac:(lia)). pose proof (Z.mod_pos_bound (c / 64) 64 ltac:(lia)).
  pose proof (Z.div_mod (c / 64 / 64) 64 ltac:(lia)). pose proof (Z.mod_pos_bound (c / 64 / 64) 64 ltac:(lia)).
  set (q := c / 64) in *. set (m := c mod 64) in *. set (q2 := q / 64) in *. set (m2 := q mod 64) in *.
  set (q3 := q2 / 64) in *. set (m3 := q2 mod 64) in *.
  replace (240 + q3 <? 128) with false by lia. replace ((194 <=? 240 + q3) && (240 + q3 <? 224)) with false by lia.
  replace ((224 <=? 240 + q3) && (240 + q3 <? 240)) with false by lia.
  replace ((240 <=? 240 + q3) && (240 + q3 <? 245)) with true by lia.
  unfold cont. replace ((128 <=? 128 + m) && (128 + m <? 192)) with true by lia.
  replace ((128 <=? 128 + m2) && (128 + m2 <? 192)) with true by lia.
  replace ((128 <=? 128 + m3) && (128 + m3 <? 192)) with true by lia.
  replace (negb ((240 + q3 =? 240) && (128 + m3 <? 144))) with true by lia.
  replace (negb ((240 + q3 =? 244) && (143 <? 128 + m3))) with true by lia. cbn [andb].
  replace ((240 + q3 - 240) * 262144 + (128 + m3 - 128) * 4096 + (128 + m2 - 128) * 64 + (128 + m - 128)) with c by lia. reflexivity.
Qed.

Lemma utf8_text cs : forall r, Forall code_point cs -> utf8 (text cs ++ r) = (t <- utf8 r ;; Ok (cs ++ t)).
Proof.
  induction cs as [|c cs IH]; intros r F; cbn [text flat_map Datatypes.app].
  - destruct (utf8 r); reflexivity.
  - inversion F as [|? ? F1 F2]; subst. rewrite <- app_assoc, utf8_letter by exact F1. fold (text cs). rewrite IH by exact F2.
    destruct (utf8 r); reflexivity.
Qed.

Lemma utf8_all cs : Forall code_point cs -> utf8 (text cs) = Ok cs.
Proof. intros F. rewrite <- (app_nil_r (text cs)), utf8_text by exact F. cbn. rewrite app_nil_r. reflexivity. Qed.

(** Reading 6-bit digits back. *)
Lemma digit2 q m : 0 <= m < 64 -> (q * 64 + m) / 64 = q /\ (q * 64 + m) mod 64 = m.
Proof.
  intros H. split; [rewrite Z.div_add_l by lia; rewrite Z.div_small by lia; lia|].
  rewrite Z.add_comm, Z.mod_add by lia. apply Z.mod_small. lia.
Qed.

Lemma utf8_only n : forall b cs, (length b <= n)%nat -> bytes_ok b -> utf8 b = Ok cs -> Forall code_point cs /\ b = text cs.
Proof.
  induction n as [|n IH]; intros b cs Hn Hb E.
  { destruct b; [|cbn in Hn; lia]. cbn in E. injection E as <-. split; [constructor|reflexivity]. }
  destruct b as [|x b1]; [cbn in E; injection E as <-; split; [constructor|reflexivity]|].
  inversion Hb as [|? ? Hx Hb1]; subst. unfold byte_ok in Hx. cbn [length] in Hn. cbn [utf8] in E.
  destruct (x <? 128) eqn:E1.
  { destruct (utf8 b1) as [t|] eqn:Et; [|discriminate]. cbn [bind] in E. injection E as <-.
    destruct (IH b1 t ltac:(lia) Hb1 Et) as [F ->]. split; [constructor; [unfold code_point; lia|exact F]|].
    cbn [text flat_map]. unfold letter at 1. rewrite E1. reflexivity. }
  destruct ((194 <=? x) && (x <? 224)) eqn:E2.
  { destruct b1 as [|y b2]; [discriminate|]. unfold cont in E. destruct ((128 <=? y) && (y <? 192)) eqn:Ey; [|discriminate].
    destruct (utf8 b2) as [t|] eqn:Et; [|discriminate]. cbn [bind] in E. injection E as <-.
    inversion Hb1 as [|? ? Hy Hb2]; subst. cbn [length] in Hn. destruct (IH b2 t ltac:(lia) Hb2 Et) as [F ->].
    destruct (digit2 (x - 192) (y - 128) ltac:(lia)) as [D M]. set (c := (x - 192) * 64 + (y - 128)) in *.
    split; [constructor; [unfold code_point; lia|exact F]|]. cbn [text flat_map]. unfold letter at 1.
    replace (c <? 128) with false by lia. replace (c <? 2048) with true by lia. rewrite D, M. cbn [Datatypes.app].
    replace (192 + (x - 192)) with x by lia. replace (128 + (y - 128)) with y by lia. reflexivity. }
  destruct ((224 <=? x) && (x <? 240)) eqn:E3.
  { destruct b1 as [|y [|z b3]]; try discriminate. unfold cont in E.
    destruct (((128 <=? y) && (y <? 192)) && ((128 <=? z) && (z <? 192)) && negb ((x =? 224) && (y <? 160))) eqn:Ey; [|discriminate].
    destruct (utf8 b3) as [t|] eqn:Et; [|discriminate]. cbn [bind] in E. injection E as <-.
    inversion Hb1 as [|? ? Hy Hb2]; subst. inversion Hb2 as [|? ? Hz Hb3]; subst. cbn [length] in Hn. destruct (IH b3 t ltac:(lia) Hb3 Et) as [F ->].
    destruct (digit2 ((x - 224) * 64 + (y - 128)) (z - 128) ltac:(lia)) as [D M]. destruct (digit2 (x - 224) (y - 128) ltac:(lia)) as [D2 M2].
    replace ((x - 224) * 4096 + (y - 128) * 64 + (z - 128)) with (((x - 224) * 64 + (y - 128)) * 64 + (z - 128)) by lia.
    set (q := (x - 224) * 64 + (y - 128)) in *. set (c := q * 64 + (z - 128)) in *.
    split; [constructor; [unfold code_point; lia|exact F]|]. cbn [text flat_map]. unfold letter at 1.
    replace (c <? 128) with false by lia. replace (c <? 2048) with false by lia. replace (c <? 65536) with true by lia.
    change 4096 with (64 * 64). rewrite <- Z.div_div by lia. rewrite D, M, D2, M2. cbn [Datatypes.app].
    replace (224 + (x - 224)) with x by lia. replace (128 + (y - 128)) with y by lia. replace (128 + (z - 128)) with z by lia. reflexivity. }
  destruct ((240 <=? x) && (x <? 245)) eqn:E4; [|discriminate].
  destruct b1 as [|y [|z [|w b4]]]; try discriminate. unfold cont in E.
  destruct (((128 <=? y) && (y <? 192)) && ((128 <=? z) && (z <? 192)) && ((128 <=? w) && (w <? 192)) && negb ((x =? 240) && (y <? 144)) && negb ((x =? 244) && (143 <? y))) eqn:Ey; [|discriminate].
  destruct (utf8 b4) as [t|] eqn:Et; [|discriminate]. cbn [bind] in E. injection E as <-.
  inversion Hb1 as [|? ? Hy Hb2]; subst. inversion Hb2 as [|? ? Hz Hb3]; subst. inversion Hb3 as [|? ? Hw Hb4]; subst. cbn [length] in Hn.
  destruct (IH b4 t ltac:(lia) Hb4 Et) as [F ->].
  destruct (digit2 (((x - 240) * 64 + (y - 128)) * 64 + (z - 128)) (w - 128) ltac:(lia)) as [D M].
  destruct (digit2 ((x - 240) * 64 + (y - 128)) (z - 128) ltac:(lia)) as [D2 M2]. destruct (digit2 (x - 240) (y - 128) ltac:(lia)) as [D3 M3].
  replace ((x - 240) * 262144 + (y - 128) * 4096 + (z - 128) * 64 + (w - 128)) with ((((x - 240) * 64 + (y - 128)) * 64 + (z - 128)) * 64 + (w - 128)) by lia.
  repeat (apply andb_true_iff in Ey; destruct Ey as [Ey ?Ey]).
  assert (B : 65536 <= (((x - 240) * 64 + (y - 128)) * 64 + (z - 128)) * 64 + (w - 128) < 1114112).
  { destruct (x =? 240) eqn:?, (x =? 244) eqn:?; cbn [andb negb] in *; lia. }
  set (q2 := (x - 240) * 64 + (y - 128)) in *. set (q := q2 * 64 + (z - 128)) in *. set (c := q * 64 + (w - 128)) in *.
  clearbody c. clearbody q. clearbody q2.
  split; [constructor; [unfold code_point; lia|exact F]|]. cbn [text flat_map]. unfold letter at 1.
  replace (c <? 128) with false by lia. replace (c <? 2048) with false by lia. replace (c <? 65536) with false by lia.
  change 262144 with (4096 * 64). rewrite <- Z.div_div by lia. change 4096 with (64 * 64). rewrite <- Z.div_div by lia. rewrite D, M, D2, M2, D3, M3. cbn [Datatypes.app].
  replace (240 + (x - 240)) with x by lia. replace (128 + (y - 128)) with y by lia. replace (128 + (z - 128)) with z by lia. replace (128 + (w - 128)) with w by lia. reflexivity.
Qed.

Lemma utf8_iff b cs : bytes_ok b -> utf8 b = Ok cs <-> Forall code_point cs /\ b = text cs.
Proof.
  intros Hb. split; [intros E; exact (utf8_only (length b) b cs (Nat.le_refl _) Hb E)|].
  intros [F ->]. apply utf8_all. exact F.
Qed.

Lemma utf8_err n : forall b e, (length b <= n)%nat -> utf8 b = Err e -> e = UnicodeError.
Proof.
  induction n as [|n IH]; intros b e Hn E; [destruct b; [discriminate|cbn in Hn; lia]|].
  assert (K : forall k l, (length l <= n)%nat -> (r <- utf8 l ;; Ok (k :: r)) = Err e -> e = UnicodeError).
  { intros k l Hl E'. destruct (utf8 l) as [|e'] eqn:Q; [discriminate|]. cbn [bind] in E'. injection E' as <-. exact (IH l _ Hl Q). }
  destruct b as [|x b1]; [discriminate|]. cbn [length] in Hn. cbn [utf8] in E.
  destruct (x <? 128); [eapply K; [|exact E]; lia|].
  destruct ((194 <=? x) && (x <? 224)).
  { destruct b1 as [|y b2]; [congruence|]. cbn [length] in Hn. destruct (cont y); [eapply K; [|exact E]; lia|congruence]. }
  destruct ((224 <=? x) && (x <? 240)).
  { destruct b1 as [|y [|z b3]]; [congruence|congruence|]. cbn [length] in Hn. destruct (_ && _); [eapply K; [|exact E]; lia|congruence]. }
  destruct ((240 <=? x) && (x <? 245)); [|congruence].
  destruct b1 as [|y [|z [|w b4]]]; [congruence|congruence|congruence|]. cbn [length] in Hn. destruct (_ && _); [eapply K; [|exact E]; lia|congruence].
Qed.

(** *** Names *)

Lemma letter_no_zero c : code_point c -> c <> 0 -> ~ In 0 (letter c).
Proof.
  unfold code_point, letter. intros H N. pose proof (Z.mod_pos_bound c 64 ltac:(lia)). pose proof (Z.mod_pos_bound (c / 64) 64 ltac:(lia)).
  pose proof (Z.mod_pos_bound (c / 4096) 64 ltac:(lia)). pose proof (Z.div_pos c 64 ltac:(lia) ltac:(lia)).
  pose proof (Z.div_pos c 4096 ltac:(lia) ltac:(lia)). pose proof (Z.div_pos c 262144 ltac:(lia) ltac:(lia)).
  destruct (c <? 128); [cbn; lia|]. destruct (c <? 2048); [cbn; lia|]. destruct (c <? 65536); cbn; lia.
Qed.

Lemma text_no_zero cs : Forall (fun c => code_point c /\ c <> 0) cs -> ~ In 0 (text cs).
Proof.
  intros F Hi. apply in_flat_map in Hi. destruct Hi as (c & Hc & Hz). rewrite Forall_forall in F. destruct (F c Hc) as [A B].
  exact (letter_no_zero c A B Hz).
Qed.

Lemma before_nul_split nm : exists r, nm = before_nul nm ++ r /\ (r = [] \/ exists r', r = 0 :: r').
Proof.
  induction nm as [|x nm (r & E & H)]; [exists []; auto|]. cbn [before_nul]. destruct (x =? 0) eqn:Q.
  - exists (x :: nm). split; [reflexivity|]. right. exists nm. f_equal. lia.
  - exists r. split; [cbn [Datatypes.app]; congruence|exact H].
Qed.

Lemma before_nul_no_zero nm : ~ In 0 (before_nul nm).
Proof.
  induction nm as [|x nm IH]; [auto|]. cbn [before_nul]. destruct (x =? 0) eqn:Q; [auto|]. cbn [In]. lia || (intros [H|H]; [lia|contradiction]).
Qed.

Lemma before_nul_ends a r : ~ In 0 a -> (r = [] \/ exists r', r = 0 :: r') -> before_nul (a ++ r) = a.
Proof.
  intros Ha Hr. induction a as [|x a IH]; cbn [Datatypes.app before_nul].
  - destruct Hr as [->|(r' & ->)]; reflexivity.
  - destruct (x =? 0) eqn:Q; [exfalso; apply Ha; left; lia|]. rewrite IH; [reflexivity|]. intros H. apply Ha. right. exact H.
Qed.

Lemma text_zero cs : Forall code_point cs -> In 0 cs -> In 0 (text cs).
Proof. intros F Hi. apply in_flat_map. exists 0. split; [exact Hi|]. left. reflexivity. Qed.

Lemma spells_iff nm cs : bytes_ok nm -> spells nm cs <-> utf8 (before_nul nm) = Ok cs.
Proof.
  intros Hb. split.
  - intros (F & r & E & Hr). rewrite E, (before_nul_ends _ _ (text_no_zero _ F) Hr). apply utf8_all. apply (Forall_impl _ (fun c H => proj1 H) F).
  - intros E. destruct (before_nul_split nm) as (r & En & Hr).
    assert (Hb' : bytes_ok (before_nul nm)) by (rewrite En in Hb; apply Forall_app in Hb; apply Hb).
    apply (utf8_iff _ _ Hb') in E. destruct E as [F E]. split.
    + rewrite Forall_forall in *. intros c Hc. split; [apply F; exact Hc|]. intros ->.
      apply (before_nul_no_zero nm). rewrite E. apply text_zero; [apply Forall_forall; exact F|exact Hc].
    + exists r. split; [congruence|exact Hr].
Qed.

(** *** Port descriptions *)

Definition pdesc_fields (d : pdesc) : list fld := [U 4 (pd_no d); P 4; R (pd_hw d); P 2; R (pd_name d)] ++ map (U 4) (pd_words d).

Lemma pdesc_enc d : pdesc_wire d = enc (pdesc_fields d).
Proof.
  unfold pdesc_wire, pdesc_fields. rewrite enc_app. unfold enc at 1. cbn [map concat enc1 Datatypes.app]. rewrite app_nil_r, <- !app_assoc.
  do 5 f_equal. unfold enc. rewrite map_map, flat_map_concat_map. reflexivity.
Qed.

Lemma pdesc_len d : pdesc_ok d -> length (pdesc_wire d) = 64%nat.
Proof.
  intros (_ & H1 & H2 & _ & H3 & _). rewrite pdesc_enc. unfold pdesc_fields. rewrite enc_length, flen_app, flen_words, H3. cbn [flen fld_len]. rewrite H1, H2. reflexivity.
Qed.

Lemma pdesc_read m off d : at_ m off (pdesc_wire d) -> pdesc_ok d ->
  p_port m off = (t <- utf8 (before_nul (pd_name d)) ;; Ok (pdesc_view d t, (off + 64)%nat)).
Proof.
  intros Hat Hok. pose proof (pdesc_len d Hok) as Hl. rewrite pdesc_enc in *. rewrite enc_length in Hl. destruct Hok as (H0 & H1 & H2 & _ & H3 & H4).
  unfold p_port. rewrite (unp_enc "I4x6s2x16sII6I" (pdesc_fields d) m off).
  - rewrite Hl. cbn [bind]. unfold pdesc_fields, pdesc_view. rewrite vals_app, vals_words. cbn [vals Datatypes.app]. reflexivity.
  - unfold pdesc_fields. rewrite map_app, shape_words, H3. cbn [map shape]. rewrite H1, H2. reflexivity.
  - unfold pdesc_fields. apply fits_app. split; [|apply fits_words; exact H4].
    apply Forall_cons; [exact H0|]. repeat (apply Forall_cons; [exact Logic.I|]). apply Forall_nil.
  - exact Hat.
Qed.

Lemma port_exact m off d : at_ m off (pdesc_wire d) -> pdesc_ok d ->
  (forall v o, p_port m off = Ok (v, o) <-> exists cs, spells (pd_name d) cs /\ v = pdesc_view d cs /\ o = (off + 64)%nat) /\
  ((forall cs, ~ spells (pd_name d) cs) -> p_port m off = Err UnicodeError).
Proof.
  intros Hat Hok. rewrite (pdesc_read m off d Hat Hok). pose proof Hok as (_ & _ & _ & Hb & _). split.
  - intros v o. split.
    + intros E. apply bind_ok in E. destruct E as (t & Et & E). injection E as <- <-. exists t. split; [apply spells_iff; assumption|auto].
    + intros (cs & Hs & -> & ->). apply (spells_iff _ _ Hb) in Hs. rewrite Hs. reflexivity.
  - intros N. destruct (utf8 (before_nul (pd_name d))) as [t|e] eqn:E; [exfalso; apply (N t); apply spells_iff; assumption|].
    cbn [bind]. f_equal. exact (utf8_err _ _ e (Nat.le_refl _) E).
Qed.

Lemma at_mid (a b c : bytes) n : n = length a -> at_ (a ++ b ++ c) n b.
Proof. intros ->. exists a, c. auto. Qed.

(** *** Messages *)

Lemma status_read n xid reason d : 0 <= xid < 2 ^ 32 -> 0 <= reason < 256 -> pdesc_ok d ->
  parse n (status_wire xid reason d) 0 =
  (' (p, o) <- p_port (status_wire xid reason d) 16 ;;
   Ok (VTup "ofp_port_status" [VTup "ofp_header" [VInt 4; VInt 12; VInt 80; VInt xid]; VInt reason; p], o)) /\
  at_ (status_wire xid reason d) 16 (pdesc_wire d).
Proof.
  intros Hx Hr Hok. pose proof (pdesc_len d Hok) as Hl. set (w := status_wire xid reason d).
  assert (E : w = msg 4 12 xid ([reason] ++ repeat 0 7 ++ pdesc_wire d)).
  { unfold w, status_wire, msg, zlen. rewrite !app_length, repeat_length, Hl. cbn [Datatypes.app length Nat.add]. reflexivity. }
  assert (Hz : zlen ([reason] ++ repeat 0 7 ++ pdesc_wire d) = 72) by (unfold zlen; rewrite !app_length, repeat_length, Hl; reflexivity).
  assert (A : at_ w 0 (msg 4 12 xid ([reason] ++ repeat 0 7 ++ pdesc_wire d))) by (rewrite <- E; apply at_whole).
  destruct (p_header_ok w 0 12 xid _ A ltac:(unfold u8; lia) Hx ltac:(lia)) as [Hh Hb].
  change ([reason] ++ repeat 0 7 ++ pdesc_wire d) with (([reason] ++ repeat 0 7) ++ pdesc_wire d) in Hb.
  apply at_app in Hb. destruct Hb as [B1 B2]. split; [|exact B2].
  rewrite (parse_type _ _ _ _ _ _ _ Hh).
  change ((' (h, _, _, o) <- p_header w 0 ;; ' (vs, o) <- unp "B7x" w o ;; ' (p, o) <- p_port w o ;; Ok (VTup "ofp_port_status" (h :: vs ++ [p]), o)) =
    (' (p, o) <- p_port w 16 ;; Ok (VTup "ofp_port_status" [VTup "ofp_header" [VInt 4; VInt 12; VInt 80; VInt xid]; VInt reason; p], o))).
  rewrite Hh. cbn [bind]. rewrite (unp_enc "B7x" [U 1 reason; P 7]).
  - cbn [bind vals flen fld_len Nat.add]. unfold hdr_view. rewrite Hz. reflexivity.
  - reflexivity.
  - apply Forall_cons; [exact Hr|]. apply Forall_cons; [exact Logic.I|]. apply Forall_nil.
  - replace (enc [U 1 reason; P 7]) with ([reason] ++ repeat 0 7); [exact B1|]. unfold enc. cbn [map concat enc1]. rewrite <- P_Ports.be1 by lia. reflexivity.
Qed.

Lemma status_exact n xid reason d : 0 <= xid < 2 ^ 32 -> 0 <= reason < 256 -> pdesc_ok d ->
  (forall v o, parse n (status_wire xid reason d) 0 = Ok (v, o) <-> exists cs, spells (pd_name d) cs /\
     v = VTup "ofp_port_status" [VTup "ofp_header" [VInt 4; VInt 12; VInt 80; VInt xid]; VInt reason; pdesc_view d cs] /\ o = 80%nat) /\
  ((forall cs, ~ spells (pd_name d) cs) -> parse n (status_wire xid reason d) 0 = Err UnicodeError).
Proof.
  intros Hx Hr Hok. destruct (status_read n xid reason d Hx Hr Hok) as [-> A]. destruct (port_exact _ _ d A Hok) as [Y N]. split.
  - intros v o. split.
    + intros E. apply bind_ok in E. destruct E as ([p o'] & Ep & E). injection E as <- <-. apply Y in Ep. destruct Ep as (cs & Hs & -> & ->). exists cs. auto.
    + intros (cs & Hs & -> & ->). rewrite (proj2 (Y (pdesc_view d cs) 80%nat)) by (exists cs; auto). reflexivity.
  - intros H. rewrite (N H). reflexivity.
Qed.

(** The list of ports. *)
Lemma ports_fetch m limit ds : forall n off, Forall pdesc_ok ds -> at_ m off (flat_map pdesc_wire ds) ->
  limit = (off + 64 * length ds)%nat -> (length ds < n)%nat ->
  (forall d, In d ds -> exists cs, spells (pd_name d) cs) /\ (exists l, while_fetch n (p_port m) limit off = Ok (l, limit)) \/
  (exists d, In d ds /\ forall cs, ~ spells (pd_name d) cs) /\ while_fetch n (p_port m) limit off = Err UnicodeError.
Proof.
  induction ds as [|d ds IH]; intros n off F A -> Hn; cbn [length] in *.
  - left. split; [intros d []|]. exists []. destruct n; cbn [while_fetch]; replace (off <? off + 64 * 0)%nat with false by (symmetry; apply Nat.ltb_ge; lia);
      do 2 f_equal; lia.
  - inversion F as [|? ? F1 F2]; subst. cbn [flat_map] in A. apply at_app in A. destruct A as [A1 A2]. rewrite (pdesc_len d F1) in A2.
    destruct n as [|n]; [lia|]. cbn [while_fetch]. replace (off <? off + 64 * S (length ds))%nat with true by (symmetry; apply Nat.ltb_lt; lia).
    rewrite (pdesc_read m off d A1 F1). pose proof F1 as (_ & _ & _ & Hb & _).
    destruct (utf8 (before_nul (pd_name d))) as [t|e] eqn:Eu.
    + cbn [bind].
      destruct (IH n (off + 64)%nat F2 A2 ltac:(lia) ltac:(lia)) as [(H1 & l & ->)|((d' & Hd & H1) & ->)].
      * left. split; [|eexists; reflexivity]. intros d' [<-|Hd]; [exists t; apply spells_iff; assumption|exact (H1 d' Hd)].
      * right. split; [exists d'; split; [right; exact Hd|exact H1]|reflexivity].
    + right. split; [|cbn [bind]; f_equal; exact (utf8_err _ _ e (Nat.le_refl _) Eu)].
      exists d. split; [left; reflexivity|]. intros cs Hs. apply (spells_iff _ _ Hb) in Hs. congruence.
Qed.

Lemma ports_len ds : Forall pdesc_ok ds -> length (flat_map pdesc_wire ds) = (64 * length ds)%nat.
Proof. induction 1 as [|d ds H _ IH]; [reflexivity|]. cbn [flat_map]. rewrite app_length, (pdesc_len d H), IH. cbn [length]. lia. Qed.

Lemma ports_exact n xid flags ds : 0 <= xid < 2 ^ 32 -> 0 <= flags < 65536 -> Forall pdesc_ok ds ->
  16 + 64 * Z.of_nat (length ds) < 65536 -> (length ds < n)%nat ->
  ((exists r, parse n (ports_wire xid flags ds) 0 = Ok r) <-> forall d, In d ds -> exists cs, spells (pd_name d) cs) /\
  ((exists d, In d ds /\ forall cs, ~ spells (pd_name d) cs) -> parse n (ports_wire xid flags ds) 0 = Err UnicodeError).
Proof.
  intros Hx Hf Hok Hlen Hn. set (w := ports_wire xid flags ds). set (body := ([0; 13] ++ be 2 flags ++ repeat 0 4) ++ flat_map pdesc_wire ds).
  assert (Hz : zlen body = 8 + 64 * Z.of_nat (length ds)).
  { unfold zlen, body. rewrite !app_length, be_length, repeat_length, ports_len by exact Hok. cbn [length]. lia. }
  assert (E : w = msg 4 19 xid body).
  { unfold w, ports_wire, msg. rewrite Hz. replace (8 + (8 + 64 * Z.of_nat (length ds))) with (16 + 64 * Z.of_nat (length ds)) by lia.
    unfold body. rewrite <- !app_assoc. reflexivity. }
  assert (A : at_ w 0 (msg 4 19 xid body)) by (rewrite <- E; apply at_whole).
  destruct (p_header_ok w 0 19 xid _ A ltac:(unfold u8; lia) Hx ltac:(lia)) as [Hh Hb].
  unfold body in Hb. apply at_app in Hb. destruct Hb as [B1 B2].
  assert (P16 : parse n w 0 = (' (l, o) <- (' (l, o) <- list_fetch n (p_port w) (16 + 64 * length ds) 16 ;; Ok (VList l, o)) ;; Ok (VTup "ofp_multipart_reply" ([hdr_view 19 xid body; VInt 13; VInt flags] ++ [l]), o))).
  { rewrite (parse_type _ _ _ _ _ _ _ Hh).
    change (p_multipart_reply n w 0 = (' (l, o) <- (' (l, o) <- list_fetch n (p_port w) (16 + 64 * length ds) 16 ;; Ok (VList l, o)) ;; Ok (VTup "ofp_multipart_reply" ([hdr_view 19 xid body; VInt 13; VInt flags] ++ [l]), o))).
    unfold p_multipart_reply. rewrite Hh. cbn [bind]. rewrite (unp_enc "HH4x" [U 2 13; U 2 flags; P 4]).
    - cbn [bind vals flen fld_len]. cbv zeta. change (13 =? 0) with false. change (13 =? 1) with false. change (13 =? 2) with false.
      change (13 =? 3) with false. change (13 =? 4) with false. change (13 =? 5) with false. change (13 =? 6) with false. change (13 =? 7) with false.
      change (13 =? 8) with false. change (13 =? 9) with false. change (13 =? 10) with false. change (13 =? 11) with false. change (13 =? 12) with false. change (13 =? 13) with true. cbv iota.
      replace (0 + (8 + length body))%nat with (16 + 64 * length ds)%nat by (unfold zlen in Hz; lia). reflexivity.
    - reflexivity.
    - apply Forall_cons; [cbn; lia|]. apply Forall_cons; [cbn; lia|]. apply Forall_cons; [exact Logic.I|]. apply Forall_nil.
    - exact B1. }
  rewrite P16. unfold list_fetch.
  assert (L : length ([0; 13] ++ be 2 flags ++ repeat 0 4) = 8%nat) by (rewrite !app_length, be_length; reflexivity).
  rewrite L in B2. cbn [Nat.add] in B2.
  destruct (ports_fetch w (16 + 64 * length ds) ds n 16 Hok B2 eq_refl Hn) as [(H1 & l & ->)|(H1 & ->)]; cbn [bind].
  - rewrite Nat.eqb_refl. cbn [assert_ bind]. split; [split; [intros _; exact H1|intros _; eexists; reflexivity]|].
    intros (d & Hd & N). destruct (H1 d Hd) as (cs & Hs). exfalso. exact (N cs Hs).
  - split; [|intros _; reflexivity]. split; [intros (r & Er); discriminate|]. intros H. destruct H1 as (d & Hd & N). destruct (H d Hd) as (cs & Hs). exfalso. exact (N cs Hs).
Qed.

(** A text cut in the middle of a character. *)
Lemma cut_unreadable cs nm : Forall (fun c => code_point c /\ c <> 0) cs -> nm = firstn 16 (text cs) -> (16 <= length (text cs))%nat ->
  (forall a b, cs = a ++ b -> length (text a) <> 16%nat) -> forall cs', ~ spells nm cs'.
Proof.
  intros F -> L N cs' (F' & r & E & Hr).
  assert (Z0 : ~ In 0 (firstn 16 (text cs))).
  { intros H. apply (text_no_zero cs F). rewrite <- (firstn_skipn 16 (text cs)). apply in_or_app. left. exact H. }
  assert (r = []) as ->.
  { destruct Hr as [->|(r' & ->)]; [reflexivity|]. exfalso. apply Z0. rewrite E. apply in_or_app. right. left. reflexivity. }
  rewrite app_nil_r in E.
  assert (Et : text cs = text cs' ++ skipn 16 (text cs)) by (rewrite <- E, firstn_skipn; reflexivity).
  assert (Fc : Forall code_point cs) by (apply (Forall_impl _ (fun c H => proj1 H) F)).
  assert (Fc' : Forall code_point cs') by (apply (Forall_impl _ (fun c H => proj1 H) F')).
  pose proof (utf8_all cs Fc) as U. rewrite Et, utf8_text in U by exact Fc'.
  apply bind_ok in U. destruct U as (t & _ & U). injection U as U.
  apply (N cs' t); [congruence|]. rewrite <- E, firstn_length. lia.
Qed.

(** *** The builders *)

Lemma u4_iff a b : pack_item (FU 4) a = Ok b <-> exists z, a = VInt z /\ 0 <= z < 2 ^ 32 /\ b = be 4 z.
Proof.
  split.
  - destruct a; try discriminate. intros E. apply word_iff in E. destruct E as [H ->]. eauto.
  - intros (z & -> & H & ->). apply word_iff. auto.
Qed.

Lemma u4s_iff l : forall b, pack (repeat (FU 4) (length l)) l = Ok b <->
  exists ws, l = map VInt ws /\ Forall (fun z => 0 <= z < 2 ^ 32) ws /\ b = flat_map (be 4) ws.
Proof.
  induction l as [|a l IH]; intros b; cbn [length repeat pack].
  - split; [intros E; injection E as <-; exists []; auto|]. intros (ws & E & _ & ->). destruct ws; [reflexivity|discriminate].
  - split.
    + intros E. apply bind_iff in E. destruct E as (x & Ex & E). apply bind_iff in E. destruct E as (r & Er & E). injection E as <-.
      apply u4_iff in Ex. destruct Ex as (z & -> & Hz & ->). apply IH in Er. destruct Er as (ws & -> & F & ->). exists (z :: ws). auto.
    + intros (ws & E & F & ->). destruct ws as [|z ws]; [discriminate|]. cbn [map] in E. injection E as -> ->. inversion F; subst.
      rewrite (proj2 (u4_iff (VInt z) (be 4 z))) by eauto. cbn [bind]. rewrite (proj2 (IH _)) by eauto. reflexivity.
Qed.

Lemma cut_all n s : (length s <= n)%nat -> cut n s = s ++ repeat 0 (n - length s).
Proof. intros H. unfold cut. rewrite firstn_all2 by exact H. reflexivity. Qed.

Lemma front_iff fs no hw nm rest b : (length hw = 6)%nat -> (length nm <= 16)%nat ->
  pack ([FU 4; FX 4; FS 6; FX 2; FS 16] ++ fs) (no :: VBytes hw :: VBytes nm :: rest) = Ok b <->
  exists z c, no = VInt z /\ 0 <= z < 2 ^ 32 /\ pack fs rest = Ok c /\
    b = be 4 z ++ repeat 0 4 ++ hw ++ repeat 0 2 ++ (nm ++ repeat 0 (16 - length nm)) ++ c.
Proof.
  intros H1 H2. cbn [Datatypes.app pack].
  assert (E6 : pack_item (FS 6) (VBytes hw) = Ok hw).
  { apply text_iff. exists hw. split; [reflexivity|]. rewrite cut_all by lia. rewrite H1, Nat.sub_diag. cbn [repeat]. rewrite app_nil_r. reflexivity. }
  assert (E16 : pack_item (FS 16) (VBytes nm) = Ok (nm ++ repeat 0 (16 - length nm))).
  { apply text_iff. exists nm. split; [reflexivity|]. rewrite cut_all by lia. reflexivity. }
  rewrite E6, E16. cbn [bind]. split.
  - intros E. apply bind_iff in E. destruct E as (x & Ex & E). apply u4_iff in Ex. destruct Ex as (z & -> & Hz & ->).
    destruct (pack fs rest) as [c|e]; cbn [bind] in E; [|discriminate]. apply (f_equal (fun r => match r with Ok b => b | Err _ => [] end)) in E. subst b.
    exists z, c. rewrite <- !app_assoc. auto.
  - intros (z & c & -> & Hz & E & ->). rewrite (proj2 (u4_iff (VInt z) (be 4 z))) by eauto. rewrite E. cbn [bind]. rewrite <- !app_assoc. reflexivity.
Qed.

Lemma port4_iff no hw nm args b : length args = 8%nat ->
  M_Build4.ofp_port no hw nm (nth 0 args VNone) (nth 1 args VNone) (nth 2 args VNone) (nth 3 args VNone) (nth 4 args VNone) (nth 5 args VNone) (nth 6 args VNone) (nth 7 args VNone) = Ok b <->
  port4_made (no :: hw :: nm :: args) b.
Proof.
  intros L. destruct args as [|a0 [|a1 [|a2 [|a3 [|a4 [|a5 [|a6 [|a7 [|? ?]]]]]]]]]; try discriminate L. cbn [nth].
  set (args := [a0; a1; a2; a3; a4; a5; a6; a7]) in *.
  unfold M_Build4.ofp_port, port4_made.
  assert (S : forall h n, length h = 6%nat -> (length n <= 16)%nat ->
    sized 64 (packs "I4x6s2x16s8I" [no; VBytes h; VBytes n; a0; a1; a2; a3; a4; a5; a6; a7]) = Ok b <->
    exists z ws, no = VInt z /\ 0 <= z < 2 ^ 32 /\ args = map VInt ws /\ Forall (fun z => 0 <= z < 2 ^ 32) ws /\ b = pdesc_wire (mkPdesc z h (n ++ repeat 0 (16 - length n)) ws)).
  { intros h n Hh Hn. rewrite (in_size 64 "I4x6s2x16s8I" ([FU 4; FX 4; FS 6; FX 2; FS 16] ++ repeat (FU 4) (length args)) _ b eq_refl eq_refl).
    change [no; VBytes h; VBytes n; a0; a1; a2; a3; a4; a5; a6; a7] with (no :: VBytes h :: VBytes n :: args).
    rewrite (front_iff (repeat (FU 4) (length args)) no h n args b Hh Hn). split.
    - intros (z & c & -> & Hz & E & ->). apply u4s_iff in E. destruct E as (ws & Ew & F & ->). exists z, ws. unfold pdesc_wire. cbn [pd_no pd_hw pd_name pd_words]. auto.
    - intros (z & ws & -> & Hz & Ew & F & ->). exists z, (flat_map (be 4) ws). split; [reflexivity|]. split; [exact Hz|]. split; [apply u4s_iff; eauto|reflexivity]. }
  split.
  - intros E. apply bind_iff in E. destruct E as (nm' & En & E).
    apply bind_iff in E. destruct E as (? & Ea & E). apply P_Head.assert_true in Ea. destruct hw as [| |hw| | |]; try discriminate. apply Nat.eqb_eq in Ea.
    apply bind_iff in E. destruct E as (? & Eb & E). apply P_Head.assert_true in Eb. destruct nm' as [| |nm'| | |]; try discriminate. apply Nat.leb_le in Eb.
    destruct nm as [| |nm| | |]; try discriminate. cbn [encode_name] in En. destruct (forallb (fun c => c <? 128) nm) eqn:Fb; [|discriminate]. injection En as <-.
    apply (S _ _ Ea Eb) in E. destruct E as (z & ws & -> & Hz & Ew & F & ->). exists z, hw, nm, ws. cbn [Datatypes.app].
    split; [rewrite Ew; reflexivity|]. split; [exact Hz|]. split; [exact Ea|]. split; [exact Eb|]. split.
    { apply Forall_forall. intros c Hc. rewrite forallb_forall in Fb. apply Z.ltb_lt. apply Fb. exact Hc. }
    split; [|auto]. apply (f_equal (@length _)) in Ew. rewrite map_length in Ew. rewrite <- Ew. exact L.
  - intros (z & h & n & ws & E & Hz & Hh & Hn & Fn & Lw & F & ->). cbn [Datatypes.app] in E. injection E as -> -> -> Ea. 
    cbn [encode_name]. replace (forallb (fun c => c <? 128) n) with true.
    2: { symmetry. apply forallb_forall. intros c Hc. rewrite Forall_forall in Fn. apply Z.ltb_lt. apply Fn. exact Hc. }
    cbn [bind]. rewrite Hh, Nat.eqb_refl. cbn [assert_ bind]. rewrite (proj2 (Nat.leb_le _ _) Hn). cbn [assert_ bind].
    apply (S h n Hh Hn). exists z, ws. auto.
Qed.

Lemma port4_call o dx args b : M_Build4.call o dx "ofp_port" args = Ok b <-> port4_made args b.
Proof.
  split.
  - intros E. destruct args as [|no [|hw [|nm [|a0 [|a1 [|a2 [|a3 [|a4 [|a5 [|a6 [|a7 [|? ?]]]]]]]]]]]]; try discriminate E.
    apply (port4_iff no hw nm [a0; a1; a2; a3; a4; a5; a6; a7] b eq_refl). exact E.
  - intros H. pose proof H as (z & h & n & ws & -> & _ & _ & _ & _ & Lw & _). 
    destruct ws as [|w0 [|w1 [|w2 [|w3 [|w4 [|w5 [|w6 [|w7 [|? ?]]]]]]]]]; try discriminate Lw.
    apply (port4_iff (VInt z) (VBytes h) (VBytes n) (map VInt [w0; w1; w2; w3; w4; w5; w6; w7]) b eq_refl). exact H.
Qed.

Lemma port5_call o dx args b : M_Build5.call o dx "ofp_port" args = Ok b <-> port5_made (many (made_by o)) args b.
Proof.
  assert (K : forall no l hw nm cf st v, M_Build5.ofp_port o no l hw nm cf st v = Ok b <-> port5_made (many (made_by o)) [no; l; hw; nm; cf; st; v] b).
  { intros no l hw nm cf st v. unfold M_Build5.ofp_port, port5_made. split.
    - intros E. apply bind_iff in E. destruct E as (? & Ea & E). apply P_Head.assert_true in Ea. destruct hw as [| |hw| | |]; try discriminate. apply Nat.eqb_eq in Ea.
      apply bind_iff in E. destruct E as (? & Eb & E). apply P_Head.assert_true in Eb. destruct nm as [| |nm| | |]; try discriminate. apply Nat.leb_le in Eb.
      apply bind_iff in E. destruct E as (p & Ep & E). apply seqarg_iff in Ep.
      apply (plain "IH2x6s2x16sII" [FU 4; FU 2; FX 2; FS 6; FX 2; FS 16; FU 4; FU 4] _ _ eq_refl) in E. cbn [pack] in E.
      apply bind_iff in E. destruct E as (y0 & E0 & E). apply u4_iff in E0. destruct E0 as (z & -> & Hz & ->).
      apply bind_iff in E. destruct E as (r & E & Eb0). apply (f_equal (fun r => match r with Ok b => b | Err _ => [] end)) in Eb0. subst b.
      apply bind_iff in E. destruct E as (x1 & E1 & E). apply word_iff in E1. destruct E1 as (H2 & ->).
      apply bind_iff in E. destruct E as (r1 & E & Er). apply (f_equal (fun r => match r with Ok b => b | Err _ => [] end)) in Er. subst r.
      apply bind_iff in E. destruct E as (r2 & E & Er). apply (f_equal (fun r => match r with Ok b => b | Err _ => [] end)) in Er. subst r1.
      apply bind_iff in E. destruct E as (x3 & E3 & E). apply text_iff in E3. destruct E3 as (s & Es & ->). injection Es as <-.
      apply bind_iff in E. destruct E as (r3 & E & Er). apply (f_equal (fun r => match r with Ok b => b | Err _ => [] end)) in Er. subst r2.
      apply bind_iff in E. destruct E as (r4 & E & Er). apply (f_equal (fun r => match r with Ok b => b | Err _ => [] end)) in Er. subst r3.
      apply bind_iff in E. destruct E as (x5 & E5 & E). apply text_iff in E5. destruct E5 as (s & Es & ->). injection Es as <-.
      apply bind_iff in E. destruct E as (r5 & E & Er). apply (f_equal (fun r => match r with Ok b => b | Err _ => [] end)) in Er. subst r4.
      apply bind_iff in E. destruct E as (x6 & E6 & E). apply u4_iff in E6. destruct E6 as (c & -> & Hc & ->).
      apply bind_iff in E. destruct E as (r6 & E & Er). apply (f_equal (fun r => match r with Ok b => b | Err _ => [] end)) in Er. subst r5.
      apply bind_iff in E. destruct E as (x7 & E7 & E). apply u4_iff in E7. destruct E7 as (t & -> & Ht & ->).
      apply bind_iff in E. destruct E as (r7 & E & Er). apply (f_equal (fun r => match r with Ok b => b | Err _ => [] end)) in Er. subst r6. injection E as <-.
      change (2 ^ (8 * Z.of_nat 2)) with 65536 in H2. unfold zlen in *.
      exists z, l, hw, nm, c, t, v, p. split; [reflexivity|]. split; [exact Ep|]. split; [exact Hz|]. split; [lia|]. split; [exact Ea|]. split; [exact Eb|]. split; [exact Hc|]. split; [exact Ht|].
      rewrite (cut_all 16 nm) by lia. rewrite (cut_all 6 hw) by lia. rewrite Ea, Nat.sub_diag. cbn [repeat]. rewrite !app_nil_r. reflexivity.
    - intros (z & l' & h & n & c & t & v' & p & E & Hp & Hz & H2 & Hh & Hn & Hc & Ht & ->). injection E as -> <- -> -> -> -> <-.
      rewrite Hh, Nat.eqb_refl. cbn [assert_ bind]. rewrite (proj2 (Nat.leb_le _ _) Hn). cbn [assert_ bind].
      apply seqarg_iff in Hp. rewrite Hp. cbn [bind].
      apply (plain "IH2x6s2x16sII" [FU 4; FU 2; FX 2; FS 6; FX 2; FS 16; FU 4; FU 4] _ _ eq_refl). cbn [pack].
      rewrite (proj2 (u4_iff (VInt z) (be 4 z))) by eauto. cbn [bind].
      rewrite (proj2 (word_iff 2 (40 + zlen p) (be 2 (40 + zlen p)))) by (split; [change (2 ^ (8 * Z.of_nat 2)) with 65536; unfold zlen; lia|reflexivity]). cbn [bind].
      rewrite (proj2 (text_iff 6 (VBytes h) h)) by (exists h; split; [reflexivity|]; rewrite cut_all by lia; rewrite Hh, Nat.sub_diag; cbn [repeat]; rewrite app_nil_r; reflexivity). cbn [bind].
      rewrite (proj2 (text_iff 16 (VBytes n) (n ++ repeat 0 (16 - length n)))) by (exists n; split; [reflexivity|]; rewrite cut_all by lia; reflexivity). cbn [bind].
      rewrite (proj2 (u4_iff (VInt c) (be 4 c))) by eauto. cbn [bind]. rewrite (proj2 (u4_iff (VInt t) (be 4 t))) by eauto. cbn [bind]. rewrite app_nil_r. reflexivity. }
  split.
  - intros E. destruct args as [|a0 [|a1 [|a2 [|a3 [|a4 [|a5 [|a6 [|? ?]]]]]]]]; try discriminate E. apply K. exact E.
  - intros H. pose proof H as (z & l' & h & n & c & t & v' & p & -> & _). apply K in H. exact H.
Qed.
