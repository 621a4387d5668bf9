(** C119: exactly which byte strings the parser of OpenFlow 1.3 messages takes,
    and what it returns for them. *)

From Coq Require Import String List ZArith Lia Bool.
From Verif Require Import Py Struct M_Parse4 P_Struct P_Fixed S_Accept4 P_Accept4.
Import ListNotations.
Local Open Scope Z_scope.
Local Open Scope list_scope.

(** The parser returns a value for a message exactly if the message is one of
    the grammar, and then what the grammar says; for every string of bytes and
    every offset.  (The fuel is that of the loops: any number larger than the
    message.) *)
Theorem C119_message : forall m off n v o, bytes_ok m -> (length m < n)%nat ->
  parse n m off = Ok (v, o) <-> a_message m off v o.
Proof. intros m off n v o Hm. exact (parse_iff m Hm off n v o). Qed.
Print Assumptions C119_message.

(** So the grammar is unambiguous. *)
Theorem C119_unambiguous : forall m off v o v' o', bytes_ok m -> a_message m off v o -> a_message m off v' o' -> v = v' /\ o = o'.
Proof.
  intros m off v o v' o' Hm A B. apply (C119_message m off (S (length m)) _ _ Hm ltac:(lia)) in A. apply (C119_message m off (S (length m)) _ _ Hm ltac:(lia)) in B.
  rewrite A in B. injection B as <- <-. auto.
Qed.
Print Assumptions C119_unambiguous.

Lemma header_bytes len xid ty b : 0 <= ty < 256 -> 0 <= len < 65536 -> 0 <= xid < 2 ^ 32 ->
  header ([4; ty] ++ be 2 len ++ be 4 xid ++ b) 0 ty len (VTup "ofp_header" [VInt 4; VInt ty; VInt len; VInt xid]).
Proof.
  intros Ht Hl Hx. exists xid, 8%nat. split; [|reflexivity].
  assert (E1 : forall z, 0 <= z < 256 -> be 1 z = [z]) by (intros z Hz; cbn [be Datatypes.app]; rewrite Z.mod_small by lia; reflexivity).
  exists [], (be 1 4 ++ be 1 ty ++ be 2 len ++ be 4 xid ++ []), b.
  split; [rewrite (E1 4), (E1 ty) by lia; rewrite app_nil_r; cbn [Datatypes.app]; rewrite <- app_assoc; reflexivity|]. split; [reflexivity|].
  split; [repeat constructor; cbn; lia|]. rewrite !app_length, !be_length. reflexivity.
Qed.

(** Refuted: messages whose header announces another length than they have are
    not refused.  Of the messages of fixed size the length is never looked at:
    any is taken, and what is read is the same. *)
Definition fixed_messages : list (Z * string * list fld) :=
  [ (8, "ofp_switch_config"%string, [N 2; N 2]); (9, "ofp_switch_config"%string, [N 2; N 2]);
    (17, "ofp_table_mod"%string, [N 1; G 3; N 4]); (22, "ofp_queue_get_config_request"%string, [N 4; G 4]);
    (24, "ofp_role_request"%string, [N 4; G 4; N 8]) ].

Theorem C119_length_refuted : forall ty cls fs len xid vs b post n,
  In (ty, cls, fs) fixed_messages -> 0 <= len < 65536 -> 0 <= xid < 2 ^ 32 -> shows fs vs b -> bytes_ok (b ++ post) ->
  let m := [4; ty] ++ be 2 len ++ be 4 xid ++ b ++ post in (length m < n)%nat ->
  parse n m 0 = Ok (VTup cls (VTup "ofp_header" [VInt 4; VInt ty; VInt len; VInt xid] :: vs), (8 + length b)%nat).
Proof.
  intros ty cls fs len xid vs b post n Hin Hl Hx Hs Hb m Hn.
  assert (Ht : 0 <= ty < 256) by (cbn [In fixed_messages] in Hin; intuition (match goal with E : (_, _, _) = _ |- _ => injection E as <- <- <- end); lia).
  assert (Hm : bytes_ok m).
  { unfold m. apply Forall_app. split; [constructor; [unfold byte_ok; lia|constructor; [exact Ht|constructor]]|]. apply Forall_app. split; [apply be_ok|]. apply Forall_app. split; [apply be_ok|exact Hb]. }
  apply (C119_message m 0 n _ _ Hm Hn). exists ty, len, (VTup "ofp_header" [VInt 4; VInt ty; VInt len; VInt xid]), cls, vs.
  split; [apply header_bytes; assumption|]. split; [|reflexivity].
  assert (H : here m (0 + 8) fs vs (8 + length b)).
  { exists ([4; ty] ++ be 2 len ++ be 4 xid), b, post. unfold m. split; [rewrite <- !app_assoc; reflexivity|]. split; [rewrite !app_length, !be_length; reflexivity|]. auto. }
  cbn [In fixed_messages] in Hin; intuition (match goal with E : (_, _, _) = _ |- _ => injection E as <- <- <- end); constructor; try exact H; cbn [In]; tauto.
Qed.
Print Assumptions C119_length_refuted.

(** Refuted: a message that is cut short is not refused: an error message, or
    one of a type that is not read further, is returned with the data there
    is, though the header announces more; the offset returned is behind the
    end of the buffer. *)
Theorem C119_cut_refuted : forall ty len xid data n, 0 <= ty < 256 ->
  ~ In ty [0; 1; 4; 6; 8; 9; 10; 11; 12; 13; 14; 15; 16; 17; 18; 19; 22; 23; 24; 27; 28; 29] ->
  0 <= len < 65536 -> 0 <= xid < 2 ^ 32 -> bytes_ok data -> 8 + Z.of_nat (length data) <= len ->
  let m := [4; ty] ++ be 2 len ++ be 4 xid ++ data in (length m < n)%nat ->
  parse n m 0 = Ok (VTup "ofp_" [VTup "ofp_header" [VInt 4; VInt ty; VInt len; VInt xid]; VBytes data], Z.to_nat len).
Proof.
  intros ty len xid data n Ht Hn Hl Hx Hb Hs m Hf.
  assert (Hm : bytes_ok m).
  { unfold m. apply Forall_app. split; [constructor; [unfold byte_ok; lia|constructor; [exact Ht|constructor]]|]. apply Forall_app. split; [apply be_ok|]. apply Forall_app. split; [apply be_ok|exact Hb]. }
  apply (C119_message m 0 n _ _ Hm Hf). eexists ty, len, _, "ofp_"%string, [VBytes data]. split; [apply header_bytes; assumption|]. split; [|reflexivity].
  change (Z.to_nat len) with (end_ 0 len). replace data with (slice m (0 + 8) (end_ 0 len)) at 1; [apply body_other; exact Hn|].
  unfold slice, m. rewrite !app_assoc. rewrite skipn_app_l by (rewrite !app_length, !be_length; reflexivity). apply firstn_all2. unfold end_. cbn [Nat.add]. lia.
Qed.
Print Assumptions C119_cut_refuted.

(** Nothing of another version is taken, nothing shorter than a header, no
    PORT_MOD and no EXPERIMENTER message; how these two are refused. *)
Theorem C119_refused : forall m off n, bytes_ok m -> (length m < n)%nat ->
  (length m < off + 8)%nat \/ nth off m 0 <> 4 \/ nth (off + 1) m 0 = 4 \/ nth (off + 1) m 0 = 16 ->
  forall v o, parse n m off <> Ok (v, o).
Proof.
  intros m off n Hm Hn H v o E. apply (C119_message m off n v o Hm Hn) in E. destruct E as (ty & len & h & cls & vs & (xid & o' & Hh & _) & B & _).
  destruct Hh as (pre & b & post & Em & L & S & Eo).
  inversion S as [|w fs z vs' b1 R1 S1| |]; subst. inversion S1 as [|w' fs' z' vs'' b2 R2 S2| |]; subst.
  rewrite !app_length, !be_length in H. rewrite !app_nth2 in H by (rewrite ?app_length, ?be_length; lia).
  replace (length pre - length pre)%nat with 0%nat in H by lia.
  assert (E1 : forall z, 0 <= z < 256 -> be 1 z = [z]) by (intros z Hz; cbn [be Datatypes.app]; rewrite Z.mod_small by lia; reflexivity).
  rewrite (E1 4), (E1 ty) in H by (try lia; exact R2). cbn [Datatypes.app nth length] in H.
  assert (N1 : nth (length pre + 1) (pre ++ 4 :: ty :: b2 ++ post) 0 = ty).
  { rewrite app_nth2 by lia. replace (length pre + 1 - length pre)%nat with 1%nat by lia. reflexivity. }
  rewrite N1 in H. destruct (decode_shows _ _ _ S2 []) as [_ L2]. cbn in L2. destruct H as [H|[H|[H|H]]]; [cbn [length Datatypes.app] in H; lia|congruence| |]; subst ty;
    inversion B; subst; cbn [In] in *; try lia; match goal with H : ~ _ |- _ => apply H; tauto end.
Qed.
Print Assumptions C119_refused.

Theorem C119_port_mod_errors : forall m off n, bytes_ok m -> (off + 8 <= length m)%nat -> nth off m 0 = 4 ->
  (nth (off + 1) m 0 = 16 -> parse n m off = Err (if (off + 32 <=? length m)%nat then ValueError else StructError)) /\
  (nth (off + 1) m 0 = 4 -> parse n m off = Err (if (off + 16 <=? length m)%nat then NameError else StructError)).
Proof.
  intros m off n Hm L H4.
  assert (Eh : exists h l, p_header m off = Ok (h, nth (off + 1) m 0, l, (off + 8)%nat)).
  { unfold p_header, unp, unpacks, sizes, unpack_from. change (fmt "BBHI") with (Ok [FU 1; FU 1; FU 2; FU 4]). cbn [bind]. cbn [calcsize item_size].
    change (off + (1 + (1 + (2 + (4 + 0)))))%nat with (off + 8)%nat. rewrite (proj2 (Nat.leb_le _ _) L). cbn [bind].
    destruct (skipn off m) as [|a [|b r]] eqn:E; [apply (f_equal (@length _)) in E; rewrite skipn_length in E; cbn in E; lia..|].
    assert (N0 : nth off m 0 = a) by (rewrite <- (firstn_skipn off m) at 1; rewrite app_nth2 by (rewrite firstn_length; lia); rewrite firstn_length, Nat.min_l, Nat.sub_diag, E by lia; reflexivity).
    assert (N1 : nth (off + 1) m 0 = b) by (rewrite <- (firstn_skipn off m) at 1; rewrite app_nth2 by (rewrite firstn_length; lia); rewrite firstn_length, Nat.min_l, E by lia; replace (off + 1 - off)%nat with 1%nat by lia; reflexivity).
    cbn [decode firstn skipn of_be fold_left]. rewrite N1. subst a. rewrite H4. change (0 * 256 + 4 =? 4) with true. cbn [assert_ bind]. eauto. }
  destruct Eh as (h & l & Eh). split; intros Ht; rewrite Ht in Eh; unfold parse; rewrite Eh; cbn [bind].
  - change (p_port_mod m off = Err (if (off + 32 <=? length m)%nat then ValueError else StructError)).
    unfold p_port_mod. rewrite Eh. cbn [bind]. unfold unpacks, unpack_from. change (fmt "I4x6s2xIII4x") with (Ok [FU 4; FX 4; FS 6; FX 2; FU 4; FU 4; FU 4; FX 4]). cbn [bind].
    change (calcsize [FU 4; FX 4; FS 6; FX 2; FU 4; FU 4; FU 4; FX 4]) with 32%nat. destruct (off + 32 <=? length m)%nat; reflexivity.
  - change (p_experimenter m off = Err (if (off + 16 <=? length m)%nat then NameError else StructError)).
    unfold p_experimenter, p_experimenter_header, simple_message. rewrite Eh. cbn [bind]. unfold unp, unpacks, sizes, unpack_from. change (fmt "II") with (Ok [FU 4; FU 4]). cbn [bind].
    change (calcsize [FU 4; FU 4]) with 8%nat. replace (off + 8 + 8)%nat with (off + 16)%nat by lia. destruct (off + 16 <=? length m)%nat; reflexivity.
Qed.
Print Assumptions C119_port_mod_errors.

(** A FLOW_MOD with an instruction and an action, of the grammar; a role
    request that announces no length at all. *)
Example C119_example :
  let m := [4; 14; 0; 80] ++ be 4 7 ++ zeros 40 ++ [0; 1; 0; 4; 0; 0; 0; 0] ++ [0; 4; 0; 24; 0; 0; 0; 0] ++ [0; 0; 0; 16; 0; 0; 0; 2; 255; 255; 0; 0; 0; 0; 0; 0] in
  bytes_ok m /\
  a_message m 0 (VTup "ofp_flow_mod" ([VTup "ofp_header" [VInt 4; VInt 14; VInt 80; VInt 7]] ++ repeat (VInt 0) 11 ++
    [VTup "ofp_match" [VInt 1; VInt 4; VBytes []];
     VList [VTup "ofp_instruction_actions" [VInt 4; VInt 24; VList [VTup "ofp_action_output" [VInt 0; VInt 16; VInt 2; VInt 65535]]]]])) 80 /\
  parse 100 ([4; 24; 0; 0] ++ be 4 7 ++ [0; 0; 0; 2] ++ zeros 12) 0 =
    Ok (VTup "ofp_role_request" [VTup "ofp_header" [VInt 4; VInt 24; VInt 0; VInt 7]; VInt 2; VInt 0], 24%nat).
Proof.
  intros m. assert (Hm : bytes_ok m) by (unfold m; vm_compute; repeat constructor; discriminate).
  split; [exact Hm|]. split; [|vm_compute; reflexivity]. apply (C119_message m 0 100 _ _ Hm); [vm_compute; lia|vm_compute; reflexivity].
Qed.
