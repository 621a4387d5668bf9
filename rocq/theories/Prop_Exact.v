(** Property C115: exactly what the builders of messages and of structures that
    hold others accept, and what they make of it. *)

From Coq Require Import String Lia.
From Verif Require Import Py Struct P_Struct S_Hello S_Head S_Wire4 S_Fixed S_Exact M_Build4 P_Fixed P_Exact P_Exact2.
From Verif Require M_Build5.
Local Open Scope Z_scope.
Local Open Scope list_scope.

(** A message of the list is built from exactly a header and the arguments its
    parts take, and into exactly that header and those parts; whatever else is
    written - another count, another kind of value, a number that does not fit,
    another version or type, more than 65535 bytes - is refused.  What is inside
    is built in turn, by the same function. *)
Theorem C115_messages4 : forall dx d cls types ps all b, In (cls, types, ps) messages4 ->
  M_Build4.obj dx (S d) (VTup cls all) = Ok b <->
  exists h args body, all = h :: args /\ made (fun v c => M_Build4.obj dx d v = Ok c) ps args body /\ framed dx 4 types h body b.
Proof.
  intros dx d cls types ps all b Hin.
  refine (proj1 (Forall_forall _ _) (all_messages4 (M_Build4.obj dx d) dx _) _ Hin all b). intros x. destruct d; reflexivity.
Qed.
Print Assumptions C115_messages4.

Theorem C115_messages5 : forall dx d cls types ps all b, In (cls, types, ps) messages5 ->
  M_Build5.obj dx (S d) (VTup cls all) = Ok b <->
  exists h args body, all = h :: args /\ made (fun v c => M_Build5.obj dx d v = Ok c) ps args body /\ framed dx 5 types h body b.
Proof.
  intros dx d cls types ps all b Hin.
  refine (proj1 (Forall_forall _ _) (all_messages5 (M_Build5.obj dx d) dx _) _ Hin all b). intros x. destruct d; reflexivity.
Qed.
Print Assumptions C115_messages5.

(** The same for the structures. *)
Theorem C115_structures4 : forall dx d cls ps args b, In (cls, ps) structures4 ->
  M_Build4.obj dx (S d) (VTup cls args) = Ok b <-> made (fun v c => M_Build4.obj dx d v = Ok c) ps args b.
Proof.
  intros dx d cls ps args b Hin.
  refine (proj1 (Forall_forall _ _) (all_structures4 (M_Build4.obj dx d) dx _) _ Hin args b). intros x. destruct d; reflexivity.
Qed.
Print Assumptions C115_structures4.

Theorem C115_structures5 : forall dx d cls ps args b, In (cls, ps) structures5 ->
  M_Build5.obj dx (S d) (VTup cls args) = Ok b <-> made (fun v c => M_Build5.obj dx d v = Ok c) ps args b.
Proof.
  intros dx d cls ps args b Hin.
  refine (proj1 (Forall_forall _ _) (all_structures5 (M_Build5.obj dx d) dx _) _ Hin args b). intros x. destruct d; reflexivity.
Qed.
Print Assumptions C115_structures5.

(** Every structure that is padded has a multiple of eight bytes. *)
Lemma gives_align o N P ps args b : gives o N P ps args b -> In Align ps -> (N mod 8 = 0)%nat.
Proof. induction 1; cbn [In]; intros Hi; try (destruct Hi as [E|Hi]; [discriminate|auto]); [destruct Hi|assumption]. Qed.

Theorem C115_padded : forall dx d cls ps args b, In Align ps ->
  (In (cls, ps) structures4 /\ M_Build4.obj dx (S d) (VTup cls args) = Ok b \/
   In (cls, ps) structures5 /\ M_Build5.obj dx (S d) (VTup cls args) = Ok b) -> (length b mod 8 = 0)%nat.
Proof.
  intros dx d cls ps args b Hi [[Hin E]|[Hin E]].
  - apply (C115_structures4 dx d cls ps args b Hin) in E. destruct E as (P & G). exact (gives_align _ _ _ _ _ _ G Hi).
  - apply (C115_structures5 dx d cls ps args b Hin) in E. destruct E as (P & G). exact (gives_align _ _ _ _ _ _ G Hi).
Qed.
Print Assumptions C115_padded.

(** Refuted: a flow update states its length - it states eight bytes more ... *)
Theorem C115_flow_update_refuted : forall dx d args b,
  M_Build5.obj dx (S d) (VTup "ofp_flow_update_full" args) = Ok b ->
  exists r, b = be 2 (Z.of_nat (length b) + 8) ++ r.
Proof.
  intros dx d args b E.
  assert (Hi : In ("ofp_flow_update_full"%string, [Total 2 (fun n _ => n + 8); Fields [Num 2; Num 1; Num 1; Num 2; Num 2; Num 2; Gap 4; Num 8]; One; Many]) structures5).
  { unfold structures5. apply in_or_app. right. cbn [In]. do 9 right. left. reflexivity. }
  apply (C115_structures5 dx d _ _ _ _ Hi) in E. destruct E as (P & G). remember (length b) as N eqn:EN. clear EN Hi.
  inversion G; subst. eexists. reflexivity.
Qed.
Print Assumptions C115_flow_update_refuted.

(** ... a table status has its reason in byte 8 and the table from byte 16 on -
    it is one byte later ... *)
Theorem C115_table_status_refuted : forall dx d all b,
  M_Build5.obj dx (S d) (VTup "ofp_table_status" all) = Ok b ->
  exists h reason table r t, all = [h; VInt reason; table] /\ M_Build5.obj dx d table = Ok t /\
    b = r ++ be 2 reason ++ repeat 0 7 ++ t /\ length r = 8%nat.
Proof.
  intros dx d all b E.
  assert (Hi : In ("ofp_table_status"%string, [31], [Fields [Num 2; Gap 7]; One]) messages5).
  { unfold messages5. apply in_or_app. right. cbn [In]. do 7 right. left. reflexivity. }
  apply (C115_messages5 dx d _ _ _ _ _ Hi) in E. clear Hi.
  destruct E as (h & args & body & -> & (P & G) & (v & t' & t & x & _ & _ & _ & _ & _ & _ & ->)).
  remember (length body) as N eqn:EN. clear EN.
  inversion G as [|cs ps a args' zs b' S G'| | | | | | | | | | |]; subst; clear G.
  inversion G' as [| | | | | | | |ps v0 c args0 b0 Hv G| | | |]; subst; clear G'.
  inversion G; subst; clear G.
  inversion S as [| |c0 cs a0 args z zs' M Hh S']; subst; clear S.
  inversion S' as [|n cs args1 zs S|c1 cs1 a1 args1 z1 zs1 M1]; subst; clear S'; [|destruct M1]. inversion S; subst; clear S.
  cbn [means] in M. subst. cbn [Datatypes.app] in *.
  exists h, z, v0, (be 1 5 ++ be 1 t ++ be 2 (8 + Z.of_nat N) ++ be 4 x), c.
  split; [reflexivity|]. split; [exact Hv|]. split; [|reflexivity].
  cbn [laid_out width]. cbn [holds width] in Hh. rewrite Z.mod_small by exact Hh. rewrite ?app_nil_r, <- ?app_assoc. reflexivity.
Qed.
Print Assumptions C115_table_status_refuted.

(** ... and an instruction with actions states its length in 1.4: it states the
    next multiple of eight, though nothing is padded. *)
Theorem C115_instruction_actions_refuted : forall dx d args b,
  M_Build5.obj dx (S d) (VTup "ofp_instruction_actions" args) = Ok b ->
  exists t r, b = be 2 t ++ be 2 ((Z.of_nat (length b) + 7) / 8 * 8) ++ r.
Proof.
  intros dx d args b E.
  assert (Hi : In ("ofp_instruction_actions"%string, [Fields [OneOf [3; 4; 5]]; Total 2 rounded; Fields [Gap 4]; Many]) structures5).
  { unfold structures5. apply in_or_app. right. left. reflexivity. }
  apply (C115_structures5 dx d _ _ _ _ Hi) in E. clear Hi. destruct E as (P & G). remember (length b) as N eqn:EN. clear EN.
  inversion G as [|cs ps a args' zs b' S G'| | | | | | | | | | |]; subst; clear G.
  inversion S as [| |c0 cs a0 args z zs' M Hh S']; subst; clear S. inversion S'; subst; clear S'.
  inversion G'; subst. eexists. eexists. cbn [laid_out width]. rewrite app_nil_r. reflexivity.
Qed.
Print Assumptions C115_instruction_actions_refuted.

Example C115_instruction_actions_witness :
  M_Build5.obj 0 1 (VTup "ofp_instruction_actions" [VInt 4; VNone; VBytes [0; 0; 0; 4]]) =
  Ok [0; 4; 0; 16; 0; 0; 0; 0; 0; 0; 0; 4].
Proof. vm_compute. reflexivity. Qed.

(** A flow modification with a match and an instruction, all given as objects:
    the length stated is 80 in the header, 4 in the match, 24 in the instruction. *)
Example C115_flow_mod :
  In ("ofp_flow_mod"%string, [14], [flow_mod_fields [Gap 2]; One; Many]) messages4 /\
  M_Build4.obj 7 3 (VTup "ofp_flow_mod" [VTup "ofp_header" [VInt 4; VNone; VNone; VInt 9];
     VInt 0; VInt 0; VInt 1; VInt 0; VInt 0; VInt 0; VInt 100; VNone; VNone; VNone; VInt 1;
     VTup "ofp_match" [VNone; VNone; VNone];
     VList [VTup "ofp_instruction_actions" [VInt 4; VNone;
       VList [VTup "ofp_action_output" [VNone; VNone; VInt 3; VInt 128]]]]]) =
  Ok ([4; 14; 0; 80; 0; 0; 0; 9] ++ repeat 0 16 ++ [1; 0; 0; 0; 0; 0; 0; 100] ++ repeat 255 12 ++ [0; 1; 0; 0] ++
      [0; 1; 0; 4; 0; 0; 0; 0] ++ [0; 4; 0; 24; 0; 0; 0; 0] ++ [0; 0; 0; 16; 0; 0; 0; 3; 0; 128; 0; 0; 0; 0; 0; 0]) /\
  M_Build4.obj 7 3 (VTup "ofp_flow_mod" [VTup "ofp_header" [VInt 5; VNone; VNone; VInt 9];
     VInt 0; VInt 0; VInt 1; VInt 0; VInt 0; VInt 0; VInt 100; VNone; VNone; VNone; VInt 1;
     VTup "ofp_match" [VNone; VNone; VNone]; VNone]) = Err AssertionError /\
  M_Build4.obj 7 3 (VTup "ofp_flow_mod" [VNone;
     VInt 0; VInt 0; VInt 256; VInt 0; VInt 0; VInt 0; VInt 100; VNone; VNone; VNone; VInt 1;
     VTup "ofp_match" [VNone; VNone; VNone]; VNone]) = Err StructError.
Proof.
  split.
  { unfold messages4. apply in_or_app. right. cbn [In]. do 2 right. left. reflexivity. }
  repeat split; vm_compute; reflexivity.
Qed.

(** A bucket whose actions have 12 bytes: padded to 32 bytes, and so stated. *)
Example C115_bucket :
  In ("ofp_bucket"%string, [Total 2 total; Fields [Num 2; Num 4; Num 4; Gap 4]; Many; Align]) structures5 /\
  M_Build5.obj 0 2 (VTup "ofp_bucket" [VInt 99; VInt 1; VInt 2; VInt 3; VBytes [0; 0; 0; 12; 0; 0; 0; 1; 0; 0; 0; 0]]) =
  Ok [0; 32; 0; 1; 0; 0; 0; 2; 0; 0; 0; 3; 0; 0; 0; 0; 0; 0; 0; 12; 0; 0; 0; 1; 0; 0; 0; 0; 0; 0; 0; 0] /\
  M_Build5.obj 0 2 (VTup "ofp_bucket" [VInt 99; VInt 1; VInt 2; VInt 3; VInt 0]) = Err ValueError.
Proof.
  split.
  { unfold structures5, structures. apply in_or_app. left. cbn [In]. do 3 right. left. reflexivity. }
  split; vm_compute; reflexivity.
Qed.

(** A flow update: 32 bytes, 40 stated; a table status: the reason in two bytes. *)
Example C115_flow_update :
  exists r, M_Build5.obj 0 2 (VTup "ofp_flow_update_full"
    [VNone; VInt 0; VInt 1; VInt 2; VInt 3; VInt 4; VInt 5; VInt 6; VTup "ofp_match" [VNone; VNone; VNone]; VNone]) =
    Ok ([0; 40] ++ r) /\ length r = 30%nat.
Proof. eexists. split; vm_compute; reflexivity. Qed.

Example C115_table_status :
  M_Build5.obj 1 2 (VTup "ofp_table_status" [VNone; VInt 3; VTup "ofp_table_desc" [VNone; VInt 7; VInt 0; VNone]]) =
  Ok ([5; 31; 0; 25; 0; 0; 0; 1] ++ [0; 3] ++ repeat 0 7 ++ [0; 8; 7; 0; 0; 0; 0; 0]).
Proof. vm_compute. reflexivity. Qed.
