(** C120: exactly which byte strings the parser of OpenFlow 1.4 messages takes,
    and what it returns for them. *)

From Coq Require Import String List ZArith Lia Bool.
From Verif Require Import Py Struct M_Parse5 P_Struct P_Fixed S_Accept4 P_Accept4 S_Accept5 P_Accept5.
Import ListNotations.
Local Open Scope Z_scope.
Local Open Scope list_scope.

(** The parser returns a value for a message exactly if the message is one of
    the grammar, and then what the grammar says; for every string of bytes and
    every offset.  (The fuel is that of the loops and of messages in messages:
    any numbers larger than the message.) *)
Theorem C120_message : forall m off d n v o, bytes_ok m -> (length m < d)%nat -> (length m < n)%nat ->
  parse d n m off = Ok (v, o) <-> a_message m off v o.
Proof. intros m off d n v o Hm. exact (parse_iff m Hm off d n v o). Qed.
Print Assumptions C120_message.

(** So the grammar is unambiguous. *)
Theorem C120_unambiguous : forall m off v o v' o', bytes_ok m -> a_message m off v o -> a_message m off v' o' -> v = v' /\ o = o'.
Proof.
  intros m off v o v' o' Hm A B. apply (C120_message m off (S (length m)) (S (length m)) _ _ Hm ltac:(lia) ltac:(lia)) in A. apply (C120_message m off (S (length m)) (S (length m)) _ _ Hm ltac:(lia) ltac:(lia)) in B.
  rewrite A in B. injection B as <- <-. auto.
Qed.
Print Assumptions C120_unambiguous.

(** A message of a known type. *)
Lemma of_type m off d n ty len h v o : bytes_ok m -> header m off ty len h -> parse d n m off = Ok (v, o) ->
  exists d', choose ty (bodies m h (end_ off len) (message d' m)) (other m h (end_ off len)) off v o.
Proof.
  intros Hm Hh E. apply (proj1 (message_mean m Hm d off) n (v, o)) in E. cbn [fst snd] in E. destruct d as [|d]; [destruct E|].
  destruct E as (ty' & len' & h' & Hh' & K). destruct (header_det m _ _ _ _ _ _ _ Hh Hh') as (-> & -> & ->). exists d. exact K.
Qed.
Ltac pick K := cbn [choose] in K; repeat (destruct K as [[HIn K]|[HNot K]]; [cbn [In] in HIn; try (exfalso; lia); clear HIn|try (exfalso; apply HNot; cbn [In]; tauto); clear HNot]).

(** Refuted: the port of a PORT_STATUS message is not returned, but its first
    property; a port without a property is refused. *)
Theorem C120_port_refuted : forall m off d n len h v o, bytes_ok m -> header m off 12 len h -> parse d n m off = Ok (v, o) ->
  exists r cls vs, v = VTup "ofp_port_status" [h; r; VTup cls vs] /\
    In cls ["ofp_port_desc_prop_ethernet"; "ofp_port_desc_prop_optical"; "ofp_port_desc_prop_experimenter"]%string.
Proof.
  intros m off d n len h v o Hm Hh E. destruct (of_type _ _ _ _ _ _ _ _ _ Hm Hh E) as (d' & K). unfold bodies in K. pick K.
  destruct K as (r & o1 & p & _ & (no & ln & vs & o' & _ & _ & ty & _ & K) & ->). exists r. cbn [choose] in K.
  destruct K as [[_ (ws & _ & ->)]|[_ [[_ (ws & _ & ->)]|[_ [[_ (ty' & l' & ws & o2 & _ & -> & _)]|[_ []]]]]]]; do 2 eexists; (split; [reflexivity|cbn [In]; tauto]).
Qed.
Print Assumptions C120_port_refuted.

Lemma choose_here ty tys (R : rel) l d off v o : In ty tys -> R off v o -> choose ty ((tys, R) :: l) d off v o.
Proof. intros I H. left. auto. Qed.
Lemma choose_next ty tys (R : rel) l d off v o : ~ In ty tys -> choose ty l d off v o -> choose ty ((tys, R) :: l) d off v o.
Proof. intros I H. right. auto. Qed.

(** Refuted: a forwarded request need not end where the message that forwards
    it does; the length of that message is not looked at. *)
Theorem C120_forward_refuted : forall m off d n len h v o, bytes_ok m -> header m off 32 len h -> (length m < d)%nat -> (length m < n)%nat ->
  parse d n m off = Ok (v, o) <-> exists v', parse d n m (off + 8) = Ok (v', o) /\ v = VTup "ofp_requestforward_" [h; v'].
Proof.
  intros m off d n len h v o Hm Hh Hd Hn. split.
  - intros E. destruct (of_type _ _ _ _ _ _ _ _ _ Hm Hh E) as (d' & K). unfold bodies in K. pick K. destruct K as (v' & K & ->). exists v'. split; [|reflexivity].
    apply C120_message; try assumption. exists d'. exact K.
  - intros (v' & K & ->). apply C120_message in K; try assumption. destruct K as (k & K). apply C120_message; try assumption. exists (S k).
    exists 32, len, h. split; [exact Hh|]. unfold bodies. repeat (apply choose_next; [cbn [In]; lia|]). apply choose_here; [cbn [In]; tauto|]. exists v'. auto.
Qed.
Print Assumptions C120_forward_refuted.

(** What is never taken: TABLE_STATUS; requests for statistics or configuration
    of meters; replies with statistics of tables, ports or queues or with
    descriptions of tables, if they are not empty; ROLE_STATUS and control of
    bundles with properties. *)
Definition hopeless (m : bytes) (off : nat) (ty len : Z) : Prop :=
  ty = 31 \/
  (exists k fl o, here m (off + 8) [N 2; N 2] [VInt k; VInt fl] o /\
     ((ty = 18 /\ In k [9; 10]) \/ (ty = 19 /\ In k [3; 4; 5; 14] /\ end_ off len <> (off + 16)%nat))) \/
  (ty = 30 /\ (off + 8 < end_ off len)%nat) \/ (ty = 33 /\ (off + 16 < end_ off len)%nat).
Lemma filling_nothing e off l : filling nothing e off l -> off = e.
Proof. intros F. inversion F as [|? ? ? ? ? ? []]; auto. Qed.
Lemma here_prefix m off ty fl o ty' fl' o' : here m off [N 2; N 2] [VInt ty; VInt fl] o -> here m off [N 2; N 2; G 4] [VInt ty'; VInt fl'] o' -> ty = ty' /\ o' = (off + 8)%nat.
Proof.
  intros H H'. split; [|exact (here_end _ _ _ _ _ H')]. apply (here_split m off [N 2; N 2] [G 4]) in H'. destruct H' as (v1 & v2 & o1 & E & H1 & H2).
  destruct (here_det _ _ _ _ _ _ _ H H1) as [<- _]. injection E as -> _ _. reflexivity.
Qed.
Theorem C120_refused : forall m off d n ty len h, bytes_ok m -> header m off ty len h -> hopeless m off ty len ->
  forall v o, parse d n m off <> Ok (v, o).
Proof.
  intros m off d n ty len h Hm Hh H v o E. destruct (of_type _ _ _ _ _ _ _ _ _ Hm Hh E) as (d' & K). unfold bodies in K.
  destruct H as [->|[(k & fl & o1 & H & [[-> Hk]|(-> & Hk & He)])|[[-> He]|[-> He]]]]; pick K.
  - exact K.
  - destruct K as (t & f & o2 & b & H2 & K & _). destruct (here_prefix _ _ _ _ _ _ _ _ H H2) as [<- _]. unfold requests in K.
    destruct Hk as [<-|[<-|[]]]; pick K; exact K.
  - destruct K as (t & f & o2 & b & H2 & K & _). destruct (here_prefix _ _ _ _ _ _ _ _ H H2) as [<- ->]. unfold replies in K.
    destruct Hk as [<-|[<-|[<-|[<-|[]]]]]; pick K; destruct K as (l & F & _); apply filling_nothing in F; lia.
  - destruct K as (vs & o1 & _ & L & _). lia.
  - destruct K as (vs & o1 & l & H & M & _). apply here_end in H. change (flen [N 4; N 2; N 2]) with 8%nat in H. inversion M as [? L|? ? ? ? ? ? []]; subst. lia.
Qed.
Print Assumptions C120_refused.

(** A forwarded group change with a bucket and an action; a port status with
    two properties, of which the first is returned and the cursor left before
    the second; features of a table with a name and three properties. *)
Example C120_example :
  let m := [5; 32; 0; 56] ++ be 4 7 ++ [5; 15; 0; 48] ++ be 4 8 ++ [0; 0; 1; 0; 0; 0; 0; 9] ++ [0; 32; 0; 1; 0; 0; 0; 2; 0; 0; 0; 3; 0; 0; 0; 0] ++
             [0; 0; 0; 16; 0; 0; 0; 2; 255; 255; 0; 0; 0; 0; 0; 0] in
  bytes_ok m /\
  a_message m 0%nat (VTup "ofp_requestforward_" [VTup "ofp_header" [VInt 5; VInt 32; VInt 56; VInt 7];
    VTup "ofp_group_mod" [VTup "ofp_header" [VInt 5; VInt 15; VInt 48; VInt 8]; VInt 0; VInt 1; VInt 9;
      VList [VTup "ofp_bucket" [VInt 32; VInt 1; VInt 2; VInt 3; VList [VTup "ofp_action_output" [VInt 0; VInt 16; VInt 2; VInt 65535]]]]]]) 56%nat /\
  parse 200 200 ([5; 12; 0; 72] ++ be 4 7 ++ [2; 0; 0; 0; 0; 0; 0; 0] ++ [0; 0; 0; 4; 0; 72; 0; 0] ++ zeros 32 ++ [0; 0; 0; 32; 0; 0; 0; 0] ++ zeros 24 ++ [0; 0; 0; 32; 0; 0; 0; 0] ++ zeros 24) 0 =
    Ok (VTup "ofp_port_status" [VTup "ofp_header" [VInt 5; VInt 12; VInt 72; VInt 7]; VInt 2; VTup "ofp_port_desc_prop_ethernet" ([VInt 0; VInt 32] ++ repeat (VInt 0) 6)], 88%nat) /\
  parse 200 200 ([5; 18; 0; 100] ++ be 4 7 ++ [0; 12; 0; 0; 0; 0; 0; 0] ++ [0; 84; 3; 0; 0; 0; 0; 0] ++ [116; 48] ++ zeros 30 ++ zeros 24 ++
      [0; 0; 0; 8; 0; 1; 0; 4] ++ [0; 8; 0; 8; 128; 0; 0; 4] ++ [0; 2; 0; 4]) 0 =
    Ok (VTup "ofp_multipart_request" [VTup "ofp_header" [VInt 5; VInt 18; VInt 100; VInt 7]; VInt 12; VInt 0;
      VList [VTup "ofp_table_feature_prop_header" [VInt 84; VInt 3; VBytes [116; 48]; VInt 0; VInt 0; VInt 0; VInt 0;
        VList [VTup "ofp_table_feature_prop_instructions" [VInt 0; VInt 8; VList [VTup "ofp_instruction_id" [VInt 1; VInt 4; VBytes []]]];
               VTup "ofp_table_feature_prop_oxm" [VInt 8; VInt 8; VTup "tuple" [VInt 2147483652]];
               VTup "ofp_table_feature_prop_tables" [VInt 2; VInt 4; VTup "tuple" []]]]]], 104%nat).
Proof.
  intros m. assert (Hm : bytes_ok m) by (unfold m; vm_compute; repeat constructor; discriminate).
  split; [exact Hm|]. split; [|split; vm_compute; reflexivity]. apply (C120_message m 0 100 100 _ _ Hm); [vm_compute; lia..|vm_compute; reflexivity].
Qed.
