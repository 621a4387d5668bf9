(** Property C116: multipart messages and the builders not in the tables of
    C115, exactly. *)

From Coq Require Import String Lia.
From Verif Require Import Py Struct P_Struct S_Hello S_Head S_Wire4 S_Fixed S_Exact S_Multipart M_Build4 P_Fixed P_Exact P_Exact2 P_Multipart.
From Verif Require M_Build5.
Local Open Scope Z_scope.
Local Open Scope list_scope.

Lemma bytes4 dx d : forall x, M_Build4.obj dx d (VBytes x) = Ok x.
Proof. intros x. destruct d; reflexivity. Qed.
Lemma bytes5 dx d : forall x, M_Build5.obj dx d (VBytes x) = Ok x.
Proof. intros x. destruct d; reflexivity. Qed.

(** A multipart request is built from exactly a header, a type and flags of 16
    bits and a body of the kind the type has - the body may be missing from the
    arguments -, and is that header, type, flags, four zeros and body. *)
Theorem C116_request4 : forall dx d all b,
  M_Build4.obj dx (S d) (VTup "ofp_multipart_request" all) = Ok b <->
  multi dx 4 18 (body_asked (fun v c => M_Build4.obj dx d v = Ok c)) (with_body all) b.
Proof. intros dx d all b. exact (request4 (M_Build4.obj dx d) dx all b (bytes4 dx d)). Qed.
Print Assumptions C116_request4.

Theorem C116_request5 : forall dx d all b,
  M_Build5.obj dx (S d) (VTup "ofp_multipart_request" all) = Ok b <->
  multi dx 5 18 (body_asked (fun v c => M_Build5.obj dx d v = Ok c)) (with_body all) b.
Proof. intros dx d all b. exact (request5 (M_Build5.obj dx d) dx all b (bytes5 dx d)). Qed.
Print Assumptions C116_request5.

(** A reply likewise, of the types that exist in OpenFlow 1.3. *)
Theorem C116_reply4 : forall dx d all b,
  M_Build4.obj dx (S d) (VTup "ofp_multipart_reply" all) = Ok b <->
  multi dx 4 19 (body_answered (fun v c => M_Build4.obj dx d v = Ok c)) all b.
Proof. intros dx d all b. exact (reply4 (M_Build4.obj dx d) dx all b (bytes4 dx d)). Qed.
Print Assumptions C116_reply4.

Theorem C116_reply5 : forall dx d all b,
  M_Build5.obj dx (S d) (VTup "ofp_multipart_reply" all) = Ok b <->
  multi dx 5 19 (body_answered (fun v c => M_Build5.obj dx d v = Ok c)) all b.
Proof. intros dx d all b. exact (reply5 (M_Build5.obj dx d) dx all b (bytes5 dx d)). Qed.
Print Assumptions C116_reply5.

(** The versions of a HELLO and the ids of match fields: bytes, or a list or
    tuple of numbers of 32 bits, padded to eight bytes. *)
Theorem C116_versions : forall dx d args b,
  (M_Build4.obj dx (S d) (VTup "ofp_hello_elem_versionbitmap" args) = Ok b <-> made word versions args b) /\
  (M_Build5.obj dx (S d) (VTup "ofp_hello_elem_versionbitmap" args) = Ok b <-> made word versions args b).
Proof.
  intros dx d args b. rewrite <- (made_same (made_by pw) word versions args b pw_word).
  split; [exact (versions4 (M_Build4.obj dx d) dx args b)|exact (versions5 (M_Build5.obj dx d) dx args b)].
Qed.
Print Assumptions C116_versions.

Theorem C116_field_ids : forall dx d args b,
  (M_Build4.obj dx (S d) (VTup "ofp_table_feature_prop_oxm" args) = Ok b <-> made word field_ids args b) /\
  (M_Build5.obj dx (S d) (VTup "ofp_table_feature_prop_oxm" args) = Ok b <-> made word field_ids args b).
Proof.
  intros dx d args b. rewrite <- (made_same (made_by pw) word field_ids args b pw_word).
  split; [exact (field_ids4 (M_Build4.obj dx d) dx args b)|exact (field_ids5 (M_Build5.obj dx d) dx args b)].
Qed.
Print Assumptions C116_field_ids.

(** A request for flow statistics: what is left out means everything. *)
Theorem C116_flow_request4 : forall dx d args b,
  M_Build4.obj dx (S d) (VTup "ofp_flow_stats_request" args) = Ok b <->
  made (or_all (fun v c => M_Build4.obj dx d v = Ok c)) flow_request args b.
Proof.
  intros dx d args b. rewrite <- (made_same (made_by (oall (M_Build4.obj dx d))) _ flow_request args b (oall_iff (M_Build4.obj dx d))).
  exact (flow_request4 (M_Build4.obj dx d) dx (bytes4 dx d) args b).
Qed.
Print Assumptions C116_flow_request4.

Theorem C116_flow_request5 : forall dx d args b,
  M_Build5.obj dx (S d) (VTup "ofp_flow_stats_request" args) = Ok b <->
  made (or_all (fun v c => M_Build5.obj dx d v = Ok c)) flow_request args b.
Proof.
  intros dx d args b. rewrite <- (made_same (made_by (oall (M_Build5.obj dx d))) _ flow_request args b (oall_iff (M_Build5.obj dx d))).
  exact (flow_request5 (M_Build5.obj dx d) dx (bytes5 dx d) args b).
Qed.
Print Assumptions C116_flow_request5.

(** Group features. *)
Theorem C116_group_features : forall dx d args b,
  (M_Build4.obj dx (S d) (VTup "ofp_group_features" args) = Ok b <-> group_features_of args b) /\
  (M_Build5.obj dx (S d) (VTup "ofp_group_features" args) = Ok b <-> group_features_of args b).
Proof.
  intros dx d args b.
  split; [exact (group_features4 (M_Build4.obj dx d) dx args b)|exact (group_features5 (M_Build5.obj dx d) dx args b)].
Qed.
Print Assumptions C116_group_features.

(** Headers by themselves. *)
Theorem C116_header : forall dx d args b,
  (M_Build4.obj dx (S d) (VTup "ofp_header" args) = Ok b <-> header_made dx 4 args b) /\
  (M_Build5.obj dx (S d) (VTup "ofp_header" args) = Ok b <-> header_made dx 5 args b).
Proof.
  intros dx d args b.
  split; [exact (header4 (M_Build4.obj dx d) dx args b)|exact (header5 (M_Build5.obj dx d) dx args b)].
Qed.
Print Assumptions C116_header.

(** The masks of an asynchronous configuration (1.3): six words in three lists
    or three tuples ... *)
Theorem C116_async4 : forall dx d all b,
  M_Build4.obj dx (S d) (VTup "ofp_async_config" all) = Ok b <->
  exists h x y z l bs, all = [h; x; y; z] /\ joined x y z l /\ length l = 6%nat /\ Forall2 word l bs /\
    framed dx 4 [27; 28] h (concat bs) b.
Proof. intros dx d all b. exact (async4 (M_Build4.obj dx d) dx all b (bytes4 dx d)). Qed.
Print Assumptions C116_async4.

(** ... refuted: two in each.  Any six do, so that the words of one mask may be
    taken for those of the next. *)
Theorem C116_async_refuted : forall dx d m1 m2 p1 p2 f1 f2,
  M_Build4.obj dx (S d) (VTup "ofp_async_config" [VTup "ofp_header" [VNone; VInt 28; VNone; VNone];
    VTup "tuple" [m1]; VTup "tuple" [m2; p1; p2]; VTup "tuple" [f1; f2]]) =
  M_Build4.obj dx (S d) (VTup "ofp_async_config" [VTup "ofp_header" [VNone; VInt 28; VNone; VNone];
    VTup "tuple" [m1; m2]; VTup "tuple" [p1; p2]; VTup "tuple" [f1; f2]]).
Proof. intros. reflexivity. Qed.
Print Assumptions C116_async_refuted.

(** A meter modification of 1.4 (refuted, C77, C108: it is no message of its own
    making): the first eight bytes of whatever its header is built into. *)
Theorem C116_meter5_refuted : forall dx d all b,
  M_Build5.obj dx (S d) (VTup "ofp_meter_mod" all) = Ok b <->
  exists h bh body args, all = h :: args /\ M_Build5.obj dx d h = Ok bh /\
    made (fun v c => M_Build5.obj dx d v = Ok c) [Fields [Num 2; Num 2; Num 4]; Many] args body /\ b = cut 8 bh ++ body.
Proof. intros dx d all b. exact (meter5 (M_Build5.obj dx d) dx all b). Qed.
Print Assumptions C116_meter5_refuted.

(** Refuted: a request has a type that exists, and the body that type has.  The
    bytes of any other type go through. *)
Theorem C116_other_types_refuted : forall dx d ty c, 14 <= ty < 65536 -> Z.of_nat (length c) <= 65519 -> 0 <= dx < 2 ^ 32 ->
  exists b, M_Build4.obj dx (S d) (VTup "ofp_multipart_request" [VNone; VInt ty; VInt 0; VBytes c]) = Ok b.
Proof.
  intros dx d ty c Ht Hc Hd.
  exists (be 1 4 ++ be 1 18 ++ be 2 (8 + Z.of_nat (length (be 2 ty ++ be 2 0 ++ repeat 0 4 ++ c))) ++ be 4 dx ++ (be 2 ty ++ be 2 0 ++ repeat 0 4 ++ c)).
  apply C116_request4. cbn [with_body]. exists VNone, ty, 0, (VBytes c), c. split; [reflexivity|]. split; [lia|]. split; [lia|]. split.
  - apply ask_other. cbn. intuition lia.
  - exists None, None, 18, dx. split; [constructor|]. split; [left; reflexivity|]. split; [left; reflexivity|]. split; [right; split; reflexivity|].
    split; [exact Hd|]. split; [|reflexivity].
    replace (length (be 2 ty ++ be 2 0 ++ repeat 0 4 ++ c)) with (8 + length c)%nat; [lia|].
    rewrite !app_length, repeat_length, !be_length. lia.
Qed.
Print Assumptions C116_other_types_refuted.

Example C116_requests :
  M_Build4.obj 7 2 (VTup "ofp_multipart_request" [VNone; VInt 1; VInt 0;
    VTup "ofp_flow_stats_request" [VNone; VNone; VInt 3; VNone; VNone; VNone]]) =
  Ok ([4; 18; 0; 56; 0; 0; 0; 7] ++ [0; 1; 0; 0; 0; 0; 0; 0] ++
      [255; 0; 0; 0; 255; 255; 255; 255; 0; 0; 0; 3] ++ repeat 0 20 ++ [0; 1; 0; 4; 0; 0; 0; 0]) /\
  M_Build5.obj 7 2 (VTup "ofp_multipart_request" [VNone; VInt 13; VInt 0]) =
  Ok ([5; 18; 0; 16; 0; 0; 0; 7] ++ [0; 13; 0; 0; 0; 0; 0; 0]) /\
  M_Build5.obj 7 2 (VTup "ofp_multipart_request" [VNone; VInt 13]) = Err TypeError /\
  M_Build4.obj 7 2 (VTup "ofp_multipart_request" [VNone; VInt 99; VInt 0; VBytes [1; 2]]) =
  Ok [4; 18; 0; 18; 0; 0; 0; 7; 0; 99; 0; 0; 0; 0; 0; 0; 1; 2].
Proof. repeat split; vm_compute; reflexivity. Qed.

Example C116_replies :
  M_Build4.obj 7 2 (VTup "ofp_multipart_reply" [VNone; VInt 8; VInt 0;
    VTup "ofp_group_features" [VInt 1; VInt 2; VList [VInt 3; VInt 4; VInt 5; VInt 6]; VNone]]) =
  Ok ([4; 19; 0; 56; 0; 0; 0; 7] ++ [0; 8; 0; 0; 0; 0; 0; 0] ++
      [0; 0; 0; 1; 0; 0; 0; 2; 0; 0; 0; 3; 0; 0; 0; 4; 0; 0; 0; 5; 0; 0; 0; 6] ++ repeat 0 16) /\
  M_Build4.obj 7 2 (VTup "ofp_multipart_reply" [VNone; VInt 8; VInt 0;
    VTup "ofp_group_features" [VInt 1; VInt 2; VList [VInt 3; VInt 4; VInt 5]; VNone]]) = Err StructError /\
  M_Build4.obj 7 2 (VTup "ofp_multipart_reply" [VNone; VInt 14; VInt 0; VNone]) = Err ValueError /\
  M_Build5.obj 7 2 (VTup "ofp_multipart_reply" [VNone; VInt 3; VInt 1; VList [VBytes [1]; VBytes [2; 3]]]) =
  Ok [5; 19; 0; 19; 0; 0; 0; 7; 0; 3; 0; 1; 0; 0; 0; 0; 1; 2; 3].
Proof. repeat split; vm_compute; reflexivity. Qed.

Example C116_others :
  M_Build4.obj 7 1 (VTup "ofp_hello_elem_versionbitmap" [VNone; VNone; VList [VInt 18; VInt 1]]) =
  Ok [0; 1; 0; 12; 0; 0; 0; 18; 0; 0; 0; 1; 0; 0; 0; 0] /\
  M_Build5.obj 7 1 (VTup "ofp_table_feature_prop_oxm" [VInt 10; VNone; VTup "tuple" [VInt 2147483652]]) =
  Ok [0; 10; 0; 8; 128; 0; 0; 4] /\
  M_Build4.obj 7 1 (VTup "ofp_header" [VNone; VInt 2; VNone; VNone]) = Ok [4; 2; 0; 8; 0; 0; 0; 7] /\
  M_Build4.obj 7 1 (VTup "ofp_async_config" [VTup "ofp_header" [VNone; VInt 28; VNone; VNone];
    VList [VInt 1; VInt 2]; VList [VInt 3; VInt 4]; VList [VInt 5; VInt 6]]) =
  Ok [4; 28; 0; 32; 0; 0; 0; 7; 0; 0; 0; 1; 0; 0; 0; 2; 0; 0; 0; 3; 0; 0; 0; 4; 0; 0; 0; 5; 0; 0; 0; 6] /\
  M_Build5.obj 7 2 (VTup "ofp_meter_mod" [VBytes [9; 9; 9; 9; 9; 9; 9; 9; 9]; VInt 0; VInt 1; VInt 2; VNone]) =
  Ok [9; 9; 9; 9; 9; 9; 9; 9; 0; 0; 0; 1; 0; 0; 0; 2].
Proof. repeat split; vm_compute; reflexivity. Qed.
