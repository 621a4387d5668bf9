(** Specification vocabulary for the BESS agent: the table of ports as the
    results of the manager's operations determine it, the flows as the messages
    received determine them, the replies. *)

From Coq Require Import Permutation.
From Verif Require Import Py Struct M_Bess S_Hello S_Ports S_Wire4 S_Msg4.
Local Open Scope Z_scope.
Local Open Scope list_scope.

(** *** Ports *)

(** A MAC address written with twelve hexadecimal digits (and anything after). *)
Definition hex_digits : list (Z * Z) :=
  combine (ascii_bytes "0123456789abcdefABCDEF") [0; 1; 2; 3; 4; 5; 6; 7; 8; 9; 10; 11; 12; 13; 14; 15; 10; 11; 12; 13; 14; 15].
Definition hex_value (c : Z) : Z :=
  match find (fun d => fst d =? c) hex_digits with Some d => snd d | None => 0 end.
Definition mac_ok (mac : bytes) : Prop :=
  (12 <= length mac)%nat /\ Forall (fun c => In c (map fst hex_digits)) (firstn 12 mac).
Definition mac_bytes (mac : bytes) : bytes :=
  map (fun i => 16 * hex_value (nth (2 * i) mac 0) + hex_value (nth (2 * i + 1) mac 0)) (seq 0 6).

(** A device name: ASCII, at most 16 characters, none of them NUL. *)
Definition name_ok (dev : bytes) : Prop := (length dev <= 16)%nat /\ Forall (fun c => 0 < c < 128) dev.

(** What the protocol knows of an entry of of_ports. *)
Definition port_of (p : oport) : sport := mkSport (o_no p) (o_hw p) (o_name p) [0; 0; o_curr p; 0; 0; 0; 0; 0].
Definition table (s : agent) : list sport := map (fun kp => port_of (snd kp)) (a_ports s).

(** The table after an operation with its result: a port was added if the caller
    was told so, deleted if the caller was told so. *)
Definition tab_step (t : list sport) (op : bop) (r : ares) : list sport :=
  match op, r with
  | BAdd dev mac _ _ _, RAdded n => t ++ [mkSport n (mac_bytes mac) dev [0; 0; 2050; 0; 0; 0; 0; 0]]
  | BDel _ _ _ _ _, RDeleted n => filter (fun p => negb (sp_no p =? n)) t
  | _, _ => t
  end.
Fixpoint tab_run (t : list sport) (os : list bop) (rs : list ares) : list sport :=
  match os, rs with op :: os', r :: rs' => tab_run (tab_step t op r) os' rs' | _, _ => t end.

(** The ports the agent starts with: the bridge itself, the tunnel, the physical one; nothing
    current, nothing advertised. *)
Definition initial_ports : list sport :=
  [ mkSport 4294967294 [0; 0; 222; 173; 190; 239] (ascii_bytes "br-int") (repeat 0 8);
    mkSport 1 [0; 0; 222; 173; 222; 173] (ascii_bytes "vxlan") (repeat 0 8);
    mkSport 2 [0; 0; 0; 0; 0; 1] (ascii_bytes "dpif") (repeat 0 8) ].

(** The results that fit a table. *)
Definition legit (t : list sport) (op : bop) (r : ares) : Prop :=
  match op, r with
  | BAdd _ _ _ _ _, RAdded n => ~ In n (map sp_no t)
  | BDel dev _ _ _ _, RDeleted n => exists p, In p t /\ sp_no p = n /\ sp_name p = dev
  | BDel dev _ _ _ _, RNone => Forall (fun p => sp_name p <> dev) t
  | _, _ => True
  end.
Fixpoint all_legit (t : list sport) (os : list bop) (rs : list ares) : Prop :=
  match os, rs with op :: os', r :: rs' => legit t op r /\ all_legit (tab_step t op r) os' rs' | _, _ => True end.

(** The numbers given to callers. *)
Definition added (rs : list ares) : list Z := flat_map (fun r => match r with RAdded n => [n] | _ => [] end) rs.

(** A dictionary is walked in some order of its keys. *)
Definition walked (s : agent) (op : bop) : Prop :=
  match op with BDel _ ks _ _ _ => Permutation ks (map fst (a_ports s)) | _ => True end.
(** Additions that cannot fail once the port is in the table. *)
Definition sane (op : bop) : Prop :=
  match op with BAdd dev mac _ _ o => name_ok dev /\ mac_ok mac /\ o = None | _ => True end.
(** Deletions in which nothing fails. *)
Definition clean (op : bop) : Prop :=
  match op with BDel _ _ o deinit destroy => o = None /\ deinit = Ok tt /\ destroy = Ok tt | _ => True end.

(** A condition that holds of every operation of a history in the state it meets. *)
Fixpoint throughout (Q : agent -> bop -> Prop) (s : agent) (os : list bop) : Prop :=
  match os with [] => True | op :: os' => Q s op /\ throughout Q (fst (bstep s op)) os' end.

(** The PORT_STATUS messages among those sent. *)
Definition statuses (ms : list bytes) : list bytes := filter (fun m => byte_at m 1 =? 12) ms.

(** *** Flows *)

(** A well-formed message with a transaction id. *)
Definition good (xm : Z * omsg) : Prop := u32 (fst xm) /\ msg_ok (snd xm) /\ msg_parsable (snd xm).

Definition cookie_of (m : omsg) : option Z :=
  match m with MFlowMod c _ _ _ _ _ _ _ _ _ _ _ _ => Some c | _ => None end.
(** The first FLOW_MOD of each cookie, in the order of arrival. *)
Fixpoint firsts (seen : list Z) (ms : list (Z * omsg)) : list (Z * omsg) :=
  match ms with
  | [] => []
  | xm :: ms' =>
      match cookie_of (snd xm) with
      | Some c => if existsb (Z.eqb c) seen then firsts seen ms' else xm :: firsts (c :: seen) ms'
      | None => firsts seen ms'
      end
  end.

(** Its entry in a FLOW reply: counters zero, duration constant. *)
Definition stat_of (m : omsg) : list flow_stat :=
  match m with MFlowMod c _ t _ i h p _ _ _ f mt is => [FlowStat t 1 2 p i h f c 0 0 mt is] | _ => [] end.

(** The messages of a history. *)
Definition received (os : list bop) : list bytes := flat_map (fun op => match op with BMsg m _ _ _ => [m] | _ => [] end) os.

(** *** Requests and replies *)

Definition desc_reply : S_Msg4.reply :=
  RpDesc (ascii_bytes "UC Berkeley") (ascii_bytes "Intel Xeon") (ascii_bytes "BESS") (ascii_bytes "commit-6e343") [].

(** The other messages sent. *)
Definition others (ms : list bytes) : list bytes := filter (fun m => negb (byte_at m 1 =? 12)) ms.

(** Requests whose answer is the same in every state. *)
Inductive constant_answer : omsg -> omsg -> Prop :=
| CA_features : constant_answer (MPlain 5 []) (MFeatures 1 2 3 0 15)
| CA_config : constant_answer (MPlain 7 []) (MConfig 8 0 65509)
| CA_role role gen : constant_answer (MRole 24 role gen) (MRole 25 role gen)
| CA_desc f : constant_answer (MRequest f (RqPlain 0)) (MReply 0 desc_reply).

(** A history in which the requests [qs] arrive, each with its answer, over a
    transport that works; ports may come and go in between. *)
Inductive requests : list (Z * omsg * omsg) -> list bop -> Prop :=
| requests_nil : requests [] []
| requests_add qs os dev mac c i o : requests qs os -> requests qs (BAdd dev mac c i o :: os)
| requests_del qs os dev ks o di de : requests qs os -> requests qs (BDel dev ks o di de :: os)
| requests_msg qs os xid m r ks po : good (xid, m) -> constant_answer m r -> requests qs os ->
    requests ((xid, m, r) :: qs) (BMsg (mwire xid m) ks None po :: os).

(** A name the builder of port descriptions does not take. *)
Definition name_bad (dev : bytes) : Prop := (16 < length dev)%nat \/ Exists (fun c => 128 <= c) dev.
