(** Property C118: the names of ports, and the builders of ports. *)

From Coq Require Import String.
From Verif Require Import Py Struct P_Struct S_Hello S_Exact S_Name M_Build4 M_Parse4 P_Exact P_Name.
From Verif Require M_Build5.
Local Open Scope Z_scope.
Local Open Scope list_scope.

(** C118. The decoder used for names accepts exactly the UTF-8 texts, and
    returns their code points. *)
Theorem C118_utf8 : forall b cs, bytes_ok b -> utf8 b = Ok cs <-> Forall code_point cs /\ b = text cs.
Proof. exact utf8_iff. Qed.
Print Assumptions C118_utf8.

(** A port description of OpenFlow 1.3, anywhere in a message, is read exactly
    if its name, up to the first zero, is such a text; the name returned is
    that text.  Otherwise it is refused. *)
Theorem C118_port : forall pre post d, pdesc_ok d ->
  let m := pre ++ pdesc_wire d ++ post in
  (forall v o, p_port m (length pre) = Ok (v, o) <->
     exists cs, spells (pd_name d) cs /\ v = pdesc_view d cs /\ o = (length pre + 64)%nat) /\
  ((forall cs, ~ spells (pd_name d) cs) -> p_port m (length pre) = Err UnicodeError).
Proof. intros pre post d Hok m. apply port_exact; [apply at_mid; reflexivity|exact Hok]. Qed.
Print Assumptions C118_port.

(** So is a port status message. *)
Theorem C118_status : forall n xid reason d, 0 <= xid < 2 ^ 32 -> 0 <= reason < 256 -> pdesc_ok d ->
  (forall v o, parse n (status_wire xid reason d) 0 = Ok (v, o) <-> exists cs, spells (pd_name d) cs /\
     v = VTup "ofp_port_status" [VTup "ofp_header" [VInt 4; VInt 12; VInt 80; VInt xid]; VInt reason; pdesc_view d cs] /\ o = 80%nat) /\
  ((forall cs, ~ spells (pd_name d) cs) -> parse n (status_wire xid reason d) 0 = Err UnicodeError).
Proof. exact status_exact. Qed.
Print Assumptions C118_status.

(** Refuted, as the specification asks for no encoding: the list of all ports
    of a switch is read only if every name in it is such a text; one other
    name, and none of the ports is read. *)
Theorem C118_one_name_refuted : forall n xid flags ds, 0 <= xid < 2 ^ 32 -> 0 <= flags < 65536 -> Forall pdesc_ok ds ->
  16 + 64 * Z.of_nat (length ds) < 65536 -> (length ds < n)%nat ->
  ((exists r, parse n (ports_wire xid flags ds) 0 = Ok r) <-> forall d, In d ds -> exists cs, spells (pd_name d) cs) /\
  ((exists d, In d ds /\ forall cs, ~ spells (pd_name d) cs) -> parse n (ports_wire xid flags ds) 0 = Err UnicodeError).
Proof. exact ports_exact. Qed.
Print Assumptions C118_one_name_refuted.

(** A text that the sixteen bytes cut in the middle of a character is such a
    name. *)
Theorem C118_cut_name_refuted : forall cs, Forall (fun c => code_point c /\ c <> 0) cs -> (16 <= length (text cs))%nat ->
  (forall a b, cs = a ++ b -> length (text a) <> 16%nat) -> forall cs', ~ spells (firstn 16 (text cs)) cs'.
Proof. intros cs F L N. exact (cut_unreadable cs _ F eq_refl L N). Qed.
Print Assumptions C118_cut_name_refuted.

(** Exactly what the builders of ports take and make: in 1.3 names are ASCII
    (so that a port with another name, once read, cannot be built), in 1.4 any
    bytes; the properties of 1.4 are counted and left out. *)
Theorem C118_build4 : forall o dx args b, M_Build4.call o dx "ofp_port" args = Ok b <-> port4_made args b.
Proof. exact port4_call. Qed.
Print Assumptions C118_build4.

Theorem C118_build5 : forall o dx args b,
  M_Build5.call o dx "ofp_port" args = Ok b <-> port5_made (many (fun v c => o v = Ok c)) args b.
Proof. exact port5_call. Qed.
Print Assumptions C118_build5.

(** A name with characters of one to four bytes, and fifteen bytes of it with
    the first of two. *)
Definition ex_name : list Z := [112; 233; 8364; 128512].
Example C118_example :
  text ex_name = [112; 195; 169; 226; 130; 172; 240; 159; 152; 128] /\
  spells (text ex_name ++ [0; 1; 2; 3; 4; 5]) ex_name /\
  parse 1 (status_wire 7 0 (mkPdesc 1 [0; 1; 2; 3; 4; 5] (text ex_name ++ [0; 1; 2; 3; 4; 5]) [0; 0; 0; 0; 0; 0; 0; 9])) 0 =
    Ok (VTup "ofp_port_status" [VTup "ofp_header" [VInt 4; VInt 12; VInt 80; VInt 7]; VInt 0;
          VTup "ofp_port" [VInt 1; VBytes [0; 1; 2; 3; 4; 5]; VText ex_name; VInt 0; VInt 0; VInt 0; VInt 0; VInt 0; VInt 0; VInt 0; VInt 9]], 80%nat) /\
  parse 1 (status_wire 7 0 (mkPdesc 1 [0; 1; 2; 3; 4; 5] (repeat 97 15 ++ [195]) [0; 0; 0; 0; 0; 0; 0; 9])) 0 = Err UnicodeError.
Proof.
  split; [reflexivity|]. split; [|split; vm_compute; reflexivity].
  split; [repeat constructor; discriminate|]. exists [0; 1; 2; 3; 4; 5]. split; [reflexivity|]. right. eexists. reflexivity.
Qed.

Example C118_cut_example : (forall a b, repeat 97 15 ++ [233] = a ++ b -> length (text a) <> 16%nat) /\
  firstn 16 (text (repeat 97 15 ++ [233])) = repeat 97 15 ++ [195].
Proof.
  split; [|reflexivity]. intros a b E.
  do 17 (destruct a as [|? a]; [cbn; discriminate|]; cbn [repeat Datatypes.app] in E; injection E as <- E || discriminate E).
Qed.
