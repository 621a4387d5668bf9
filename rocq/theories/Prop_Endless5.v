(** C123: exactly which byte strings the parser of OpenFlow 1.4 never comes back
    from. *)

From Coq Require Import String List ZArith Lia Bool.
From Verif Require Import Py Struct M_Parse4 M_Parse5 P_Struct P_Fixed P_Term5 S_Accept4 S_Accept5 P_Accept4 P_Accept5 S_Unused S_Endless4 P_Endless4 S_Endless5 P_Endless5.
Import ListNotations.
Local Open Scope Z_scope.
Local Open Scope list_scope.

(** However many rounds its loops are given beyond the number of bytes, and
    however deep messages may be held in messages, it is not done: exactly if
    the message, or one held in it, has a list with no end.  The conditions of
    C80_terminates_partial are sufficient only; these are necessary, too. *)
Theorem C123_endless : forall m off d n, bytes_ok m -> (length m < d)%nat -> (length m < n)%nat ->
  parse d n m off = Err OutOfFuel <-> message_endless m off.
Proof. intros m off d n Hm Hd Hn. apply parse_forever; [assumption..|lia]. Qed.
Print Assumptions C123_endless.

(** So every byte string is one of three: taken (C120), never done with, or
    refused by an exception. *)
Theorem C123_outcome : forall m off, bytes_ok m ->
  (exists v o, a_message m off v o /\ ~ message_endless m off /\ forall d n, (length m < d)%nat -> (length m < n)%nat -> parse d n m off = Ok (v, o)) \/
  (message_endless m off /\ (forall v o, ~ a_message m off v o) /\ forall d n, (length m < d)%nat -> (length m < n)%nat -> parse d n m off = Err OutOfFuel) \/
  (~ message_endless m off /\ (forall v o, ~ a_message m off v o) /\
     exists e, e <> OutOfFuel /\ forall d n, (length m < d)%nat -> (length m < n)%nat -> parse d n m off = Err e).
Proof.
  intros m off Hm. set (K := Datatypes.S (length m)). assert (HK : (length m < K)%nat) by (unfold K; lia).
  assert (C : forall d n, (length m < d)%nat -> (length m < n)%nat -> parse d n m off = parse K K m off).
  { intros d n Hd Hn. apply parse_const; lia. }
  destruct (parse K K m off) as [[v o]|e] eqn:E.
  - left. exists v, o. split; [apply (parse_iff m Hm off K K v o HK HK), E|]. split; [|exact C]. intros X. apply (C123_endless m off K K Hm HK HK) in X. congruence.
  - right. assert (X : forall v o, ~ a_message m off v o) by (intros v o A; apply (parse_iff m Hm off K K v o HK HK) in A; congruence).
    destruct (exn_fuel e) as [->|Ne].
    + left. split; [apply (C123_endless m off K K Hm HK HK), E|]. auto.
    + right. split; [|eauto]. intros Y. apply (C123_endless m off K K Hm HK HK) in Y. congruence.
Qed.
Print Assumptions C123_outcome.

(** Which elements end where they begin: actions to set a field and an
    experimenter's, instructions and properties of an experimenter, all of
    length zero; every band of an experimenter; no bucket and no element of a
    reply does. *)
Theorem C123_still : forall m off, bytes_ok m ->
  ((exists v, an_action m off v off) <-> zero_long m [] 25 off \/ zero_long m [N 4] 65535 off) /\
  ((exists v, an_instruction m off v off) <-> zero_long m [N 4] 65535 off) /\
  (forall R, In R [table_mod_prop; port_mod_prop; queue_desc_prop; port_stats_prop; queue_stats_prop] ->
     (exists v, R m off v off) <-> zero_long m [N 4; N 4] 65535 off) /\
  ((exists v, a_band m off v off) <-> exists len r s x o, here m off [N 2; N 2; N 4; N 4; N 4] [VInt 65535; VInt len; VInt r; VInt s; VInt x] o) /\
  (forall v, ~ a_bucket m off v off) /\
  (forall ty R D v, reply_endless m ty R D -> ~ R off v off).
Proof.
  intros m off Hm. split; [apply action_still|]. split; [apply (instruction_still m Hm)|]. split.
  { intros R I. cbn [In] in I. destruct I as [<-|[<-|[<-|[<-|[<-|[]]]]]];
      [apply table_mod_prop_still|apply port_mod_prop_still|apply queue_desc_prop_still|apply port_stats_prop_still|apply queue_stats_prop_still]. }
  split; [apply band_still|]. split.
  - intros v K. apply (bucket_up m Hm) in K. lia.
  - intros ty R D v A K. pose proof (reply_up m Hm ty R D off v off A K). lia.
Qed.
Print Assumptions C123_still.

(** Only eight types of message can be endless by themselves, and two by what
    they hold. *)
Theorem C123_types : forall m off, message_endless m off ->
  exists ty len h, header m off ty len h /\ In ty [13; 14; 15; 16; 17; 19; 29; 30; 32; 34].
Proof.
  intros m off K. inversion K as [o ty len h H B|o len h H B|o len h vs o' H _ B]; subst; [|exists 32, len, h|exists 34, len, h]; [|split; [exact H|cbn [In]; tauto]..].
  exists ty, len, h. split; [exact H|]. inversion B; cbn [In]; tauto.
Qed.
Print Assumptions C123_types.

(** A port modification with a property of a type that is not known; a role
    status with a property. *)
Definition unknown_prop : bytes := [5; 16; 0; 24; 0; 0; 0; 1] ++ [0; 7; 0; 8; 0; 0; 0; 0] ++ repeat 0 8.
Definition role_prop : bytes := [5; 30; 0; 24; 0; 0; 0; 1] ++ [255; 255; 0; 16; 0; 0; 0; 9] ++ repeat 0 8.
(** A request forwarded that holds a bundle's message that holds a flow mod
    whose instruction has actions of which the second is a set-field of length
    zero. *)
Definition endless_flow : bytes :=
  [5; 14; 0; 88; 0; 0; 0; 1] ++ repeat 0 40 ++ [0; 1; 0; 4; 0; 0; 0; 0] ++
  [0; 4; 0; 32; 0; 0; 0; 0] ++ [0; 24; 0; 8; 0; 0; 0; 0] ++ [0; 25; 0; 0; 0; 0; 0; 0] ++ repeat 0 8.
Definition held : bytes := [5; 32; 0; 112; 0; 0; 0; 3] ++ [5; 34; 0; 104; 0; 0; 0; 2] ++ [0; 0; 0; 7; 0; 0; 0; 0] ++ endless_flow.
(** A packet out, a group mod, a table mod, a meter mod, and the six replies. *)
Definition zero_action : bytes := [0; 25; 0; 0; 0; 0; 0; 0].
Definition zero_prop : bytes := [255; 255; 0; 0] ++ repeat 0 12.
Definition endless_all : list bytes :=
  [ unknown_prop; role_prop; endless_flow; held;
    [5; 13; 0; 32; 0; 0; 0; 1] ++ [0; 0; 0; 0; 0; 0; 0; 1; 0; 8; 0; 0; 0; 0; 0; 0] ++ zero_action;
    [5; 15; 0; 40; 0; 0; 0; 1] ++ repeat 0 8 ++ [0; 24] ++ repeat 0 14 ++ zero_action;
    [5; 17; 0; 32; 0; 0; 0; 1] ++ repeat 0 8 ++ zero_prop;
    [5; 29; 0; 32; 0; 0; 0; 1] ++ repeat 0 8 ++ [255; 255; 0; 16] ++ repeat 0 12;
    [5; 19; 0; 80; 0; 0; 0; 1] ++ [0; 1; 0; 0; 0; 0; 0; 0] ++ [0; 64] ++ repeat 0 46 ++ [0; 1; 0; 4; 0; 0; 0; 0] ++ [255; 255; 0; 0; 0; 0; 0; 0];
    [5; 19; 0; 152; 0; 0; 0; 1] ++ [0; 4; 0; 0; 0; 0; 0; 0] ++ [0; 136] ++ repeat 0 118 ++ zero_prop;
    [5; 19; 0; 80; 0; 0; 0; 1] ++ [0; 5; 0; 0; 0; 0; 0; 0] ++ [0; 64] ++ repeat 0 46 ++ zero_prop;
    [5; 19; 0; 48; 0; 0; 0; 1] ++ [0; 7; 0; 0; 0; 0; 0; 0] ++ [0; 32; 0; 0; 0; 0; 0; 0] ++ [0; 24] ++ repeat 0 14 ++ zero_action;
    [5; 19; 0; 40; 0; 0; 0; 1] ++ [0; 10; 0; 0; 0; 0; 0; 0] ++ [0; 24; 0; 0; 0; 0; 0; 0] ++ [255; 255; 0; 16] ++ repeat 0 12;
    [5; 19; 0; 48; 0; 0; 0; 1] ++ [0; 15; 0; 0; 0; 0; 0; 0] ++ repeat 0 8 ++ [0; 32; 0; 0; 0; 0; 0; 0] ++ zero_prop ].
Example C123_all_example : Forall (fun m => message_endless m 0) endless_all.
Proof.
  repeat apply Forall_cons; try apply Forall_nil;
    match goal with |- message_endless ?m 0 => apply (C123_endless m 0 (Datatypes.S (length m)) (Datatypes.S (length m))); [repeat constructor; lia|lia|lia|vm_compute; reflexivity] end.
Qed.
(** The same flow mod behind an action that sets the TTL of an MPLS label: there
    the reading ends before. *)
Definition refused_flow : bytes :=
  [5; 14; 0; 88; 0; 0; 0; 1] ++ repeat 0 40 ++ [0; 1; 0; 4; 0; 0; 0; 0] ++
  [0; 4; 0; 32; 0; 0; 0; 0] ++ [0; 15; 0; 8; 0; 0; 0; 0] ++ [0; 25; 0; 0; 0; 0; 0; 0] ++ repeat 0 8.
Example C123_refused_example : ~ message_endless refused_flow 0 /\ parse 200 200 refused_flow 0 = Err NameError.
Proof.
  split; [|vm_compute; reflexivity]. intros K.
  apply (C123_endless refused_flow 0 (Datatypes.S (length refused_flow)) (Datatypes.S (length refused_flow))) in K; [vm_compute in K; discriminate|repeat constructor; lia|lia|lia].
Qed.
