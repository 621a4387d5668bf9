(** The assertions of test/test_twink.py, evaluated in the model.  These are
    tests of the model's faithfulness on concrete values, not properties. *)

From Verif Require Import Py Struct M_Channel M_Hello M_Loop M_Controller M_Ports M_Send.
Local Open Scope Z_scope.

Local Definition hello8 : bytes := [4; 0; 0; 8; 0; 0; 0; 0].

(** test_twink.py:59-72 [OpenflowBaseChannelTestCase.test_pair1]. *)
Example base_pair1 :
  sends (mkTr false true false [] []) [(WAccept 8, hello8)] = (mkTr false true false hello8 [], [Ok tt]) /\
  fst (recvs 2 (new_chan [ERead (RData hello8); ERead (RData [])])) = [Got hello8; Got []].
Proof. split; vm_compute; reflexivity. Qed.

(** The first message of a peer: hello([4]) (base.py:289-309, 240-245). *)
Local Definition peer_hello : bytes :=
  match hello (VsSeq [VI 4]) 7 with Ok m => m | Err _ => [] end.

(** test_twink.py:105-123 [OpenflowChannelTestCase.test_pair1]. *)
Example of_pair1 :
  let '(s, r) := of_recv (VsSeq [VI 4]) (fun l => l) 9
     (mkSrv (new_chan [ERead (RData peer_hello); ERead (RData [])]) (mkApp (mkOch None []) [])) in
  r = Got peer_hello /\ o_version (a_och (s_app s)) = Some 4 /\
  (0 < length peer_hello)%nat /\ nth 1 peer_hello 9 = 0 /\
  snd (of_recv (VsSeq [VI 4]) (fun l => l) 9 s) = Got [].
Proof. vm_compute. repeat split; lia || reflexivity. Qed.

(** test_twink.py:135-157 [AutoEchoChannelTestCase.test_pair1]. *)
Example auto_echo_pair1 :
  let m2 := [4; 2; 0; 8; 0; 0; 0; 21] in
  let m5 := [4; 5; 0; 8; 0; 0; 0; 22] in
  let '(s, e) := loop (VsSeq [VI 4]) (fun l => l) 9
     (auto_echo_proxy (server_proxy (user_handle (fun _ _ => ([], Ok tt))))) 10
     (mkSrv (new_chan [ERead (RData (peer_hello ++ m2 ++ m5)); ERead (RData [])])
        (mkApp (mkOch None []) [])) in
  e = LReturned /\ map (fun m => nth 1 m 99) (a_seen (s_app s)) = [0; 5] /\
  map (fun m => nth 1 m 99) (o_sent (a_och (s_app s))) = [3].
Proof. vm_compute. repeat split. Qed.

(** test_twink.py:206-239 [ControllerChannelTestCase2.test_pair1]: two echo
    requests with a callback each and a barrier; each callback is called
    once.  The switch answers what it was sent (BarrieredReply). *)
Example controller_pair1 :
  let '(s, rs) := crun false k_new
     [CVersion 4; CSend (Some 1%nat) [4; 2; 0; 8; 0; 0; 0; 21] 31 None None;
      CSend (Some 2%nat) [4; 2; 0; 8; 0; 0; 0; 22] 32 None None;
      CSend None [4; 20; 0; 8; 0; 0; 0; 23] 33 None None] in
  map (fun m => (nth 1 m 99, nth 7 m 99)) (k_wire s) = [(2, 21); (20, 32); (2, 22); (20, 23)] /\
  snd (crun false s
     [CRecv [4; 3; 0; 8; 0; 0; 0; 21]; CRecv [4; 21; 0; 8; 0; 0; 0; 32];
      CRecv [4; 3; 0; 8; 0; 0; 0; 22]; CRecv [4; 21; 0; 8; 0; 0; 0; 23]]) =
    [CGot (ToCallback 1); CGot Swallowed; CGot (ToCallback 2); CGot Swallowed].
Proof. vm_compute. repeat split. Qed.

(** test_twink.py:261-290 [ControllerChannelTestCase.test_pair1]: on HELLO the
    application sends an echo request and a barrier request; with the HELLO
    these are the three messages the peer sees. *)
Example sample_app :
  let '(s, rs) := crun false k_new
     [CVersion 4; CSend None [4; 2; 0; 8; 0; 0; 0; 21] 31 None None;
      CSend None [4; 20; 0; 8; 0; 0; 0; 22] 32 None None] in
  length (peer_hello :: k_wire s) = 3%nat.
Proof. vm_compute. reflexivity. Qed.
