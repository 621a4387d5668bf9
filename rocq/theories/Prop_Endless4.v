(** C122: exactly which byte strings the parser of OpenFlow 1.3 never comes back
    from. *)

From Coq Require Import String List ZArith Lia Bool.
From Verif Require Import Py Struct M_Parse4 P_Struct P_Fixed P_Term4 S_Accept4 P_Accept4 S_Endless4 P_Endless4.
Import ListNotations.
Local Open Scope Z_scope.
Local Open Scope list_scope.

(** However many rounds its loops are given beyond the number of bytes, it is
    not done: exactly if the message has a list with no end.  The conditions of
    C47_terminates_partial are sufficient only; these are necessary, too. *)
Theorem C122_endless : forall m off n, bytes_ok m -> (length m < n)%nat ->
  parse n m off = Err OutOfFuel <-> message_endless m off.
Proof. intros m off n Hm Hn. apply parse_forever; assumption. Qed.
Print Assumptions C122_endless.

(** So every byte string is one of three: taken, refused by an exception, or
    never done with.  The first is C119's grammar, the third this one's, and
    they have no_inner in common. *)
Theorem C122_outcome : forall m off, bytes_ok m ->
  (exists v o, a_message m off v o /\ ~ message_endless m off /\ forall n, (length m < n)%nat -> parse n m off = Ok (v, o)) \/
  (message_endless m off /\ (forall v o, ~ a_message m off v o) /\ forall n, (length m < n)%nat -> parse n m off = Err OutOfFuel) \/
  (~ message_endless m off /\ (forall v o, ~ a_message m off v o) /\
     exists e, e <> OutOfFuel /\ forall n, (length m < n)%nat -> parse n m off = Err e).
Proof.
  intros m off Hm. set (N := Datatypes.S (length m)). assert (HN : (length m < N)%nat) by (unfold N; lia).
  assert (C : forall n, (length m < n)%nat -> parse n m off = parse N m off) by (intros n Hn; apply parse_const; assumption).
  destruct (parse N m off) as [[v o]|e] eqn:E.
  - left. exists v, o. split; [apply (parse_iff m Hm off N v o HN), E|]. split; [|exact C]. intros K. apply (parse_forever m Hm N HN off) in K. congruence.
  - right. assert (G : forall v o, ~ a_message m off v o) by (intros v o A; apply (parse_iff m Hm off N v o HN) in A; congruence).
    destruct (exn_fuel e) as [->|Ne].
    + left. split; [apply (parse_forever m Hm N HN off), E|]. auto.
    + right. split; [|eauto]. intros K. apply (parse_forever m Hm N HN off) in K. congruence.
Qed.
Print Assumptions C122_outcome.

(** Which elements end where they begin: actions to set a field and an
    experimenter's of length zero, instructions of an experimenter of length
    zero, every band of an experimenter; no bucket and no element of a reply
    does. *)
Theorem C122_still : forall m off, bytes_ok m ->
  ((exists v, an_action m off v off) <-> exists ty o, In ty [25; 65535] /\ here m off [N 2; N 2; G 4] [VInt ty; VInt 0] o) /\
  ((exists v, an_instruction m off v off) <-> exists x o, here m off [N 2; N 2; N 4] [VInt 65535; VInt 0; VInt x] o) /\
  ((exists v, a_band m off v off) <-> exists len r s x o, here m off [N 2; N 2; N 4; N 4; N 4] [VInt 65535; VInt len; VInt r; VInt s; VInt x] o) /\
  (forall v, ~ a_bucket m off v off) /\
  (forall ty R D v, reply_element m ty R -> reply_endless m ty D -> ~ R off v off).
Proof.
  intros m off Hm. split; [apply (action_still m Hm)|]. split; [apply (instruction_still m Hm)|]. split; [apply band_still|]. split.
  - intros v K. apply (bucket_up m Hm) in K. lia.
  - intros ty R D v A B K. pose proof (reply_up m Hm ty R D off v off A B K). lia.
Qed.
Print Assumptions C122_still.

(** Only five types of message can be endless. *)
Theorem C122_types : forall m off, message_endless m off -> exists ty len h, header m off ty len h /\ In ty [13; 14; 15; 19; 29].
Proof. intros m off (ty & len & h & H & B). exists ty, len, h. split; [exact H|]. inversion B; cbn [In]; tauto. Qed.
Print Assumptions C122_types.

(** A flow mod whose second instruction has actions of which the second is a
    set-field of length zero. *)
Definition endless_flow : bytes :=
  [4; 14; 0; 96; 0; 0; 0; 1] ++ repeat 0 40 ++ [0; 1; 0; 4; 0; 0; 0; 0] ++
  [0; 1; 0; 8; 3; 0; 0; 0] ++ [0; 4; 0; 32; 0; 0; 0; 0] ++ [0; 24; 0; 8; 0; 0; 0; 0] ++ [0; 25; 0; 0; 0; 0; 0; 0] ++ repeat 0 8.
Example C122_flow_example : message_endless endless_flow 0.
Proof. apply (C122_endless endless_flow 0 (Datatypes.S (length endless_flow))); [repeat constructor; lia|lia|vm_compute; reflexivity]. Qed.
(** The same behind an action that sets the TTL of an MPLS label: there the
    reading ends before. *)
Definition refused_flow : bytes :=
  [4; 14; 0; 96; 0; 0; 0; 1] ++ repeat 0 40 ++ [0; 1; 0; 4; 0; 0; 0; 0] ++
  [0; 1; 0; 8; 3; 0; 0; 0] ++ [0; 4; 0; 32; 0; 0; 0; 0] ++ [0; 15; 0; 8; 0; 0; 0; 0] ++ [0; 25; 0; 0; 0; 0; 0; 0] ++ repeat 0 8.
Example C122_refused_example : ~ message_endless refused_flow 0 /\ parse 200 refused_flow 0 = Err NameError.
Proof.
  split; [|vm_compute; reflexivity]. intros K. apply (C122_endless refused_flow 0 (Datatypes.S (length refused_flow))) in K; [vm_compute in K; discriminate|repeat constructor; lia|lia].
Qed.
(** A group mod, a meter mod, and the three replies. *)
Definition zero_action : bytes := [0; 25; 0; 0; 0; 0; 0; 0].
Definition endless_others : list bytes :=
  [ [4; 15; 0; 40; 0; 0; 0; 1] ++ repeat 0 8 ++ [0; 24] ++ repeat 0 14 ++ zero_action;
    [4; 29; 0; 32; 0; 0; 0; 1] ++ repeat 0 8 ++ [255; 255; 0; 16] ++ repeat 0 12;
    [4; 19; 0; 80; 0; 0; 0; 1] ++ [0; 1; 0; 0; 0; 0; 0; 0] ++ [0; 64] ++ repeat 0 46 ++ [0; 1; 0; 4; 0; 0; 0; 0] ++ [255; 255; 0; 0; 0; 0; 0; 0];
    [4; 19; 0; 48; 0; 0; 0; 1] ++ [0; 7; 0; 0; 0; 0; 0; 0] ++ [0; 32; 0; 0; 0; 0; 0; 0] ++ [0; 24] ++ repeat 0 14 ++ zero_action;
    [4; 19; 0; 40; 0; 0; 0; 1] ++ [0; 10; 0; 0; 0; 0; 0; 0] ++ [0; 24; 0; 0; 0; 0; 0; 0] ++ [255; 255; 0; 16] ++ repeat 0 12 ].
Example C122_others_example : Forall (fun m => message_endless m 0) endless_others.
Proof.
  repeat apply Forall_cons; try apply Forall_nil;
    match goal with |- message_endless ?m 0 => apply (C122_endless m 0 (Datatypes.S (length m))); [repeat constructor; lia|lia|vm_compute; reflexivity] end.
Qed.
