(** Specification vocabulary for the port table: the encodings of the
    OpenFlow specifications, and a table updated by events. *)

From Verif Require Import Py Struct M_Ports S_Hello.
Local Open Scope Z_scope.

(** A port of the switch: number, MAC address, name and the 32-bit words
    config, state, curr, advertised, supported, peer (and, from OpenFlow 1.1
    to 1.3, curr_speed and max_speed). *)
Record sport : Type := mkSport { sp_no : Z; sp_hw : bytes; sp_name : bytes; sp_words : list Z }.

Definition name16 (n : bytes) : bytes := n ++ zeros (16 - length n).
Definition words (l : list Z) : bytes := concat (map (be 4) l).

(** struct ofp_phy_port of OpenFlow 1.0 and struct ofp_port of 1.1 - 1.3. *)
Definition enc_port (v : Z) (p : sport) : bytes :=
  if v =? 1
  then be 2 (sp_no p) ++ sp_hw p ++ name16 (sp_name p) ++ words (sp_words p)
  else be 4 (sp_no p) ++ zeros 4 ++ sp_hw p ++ zeros 2 ++ name16 (sp_name p) ++ words (sp_words p).

Definition sport_ok (v : Z) (p : sport) : Prop :=
  0 <= sp_no p < (if v =? 1 then 65536 else 4294967296) /\
  length (sp_hw p) = 6%nat /\ (length (sp_name p) <= 16)%nat /\ ~ In 0 (sp_name p) /\
  length (sp_words p) = (if v =? 1 then 6%nat else 8%nat) /\
  Forall (fun w => 0 <= w < 4294967296) (sp_words p).

(** Messages. *)
Definition msg (v ty xid : Z) (body : bytes) : bytes :=
  [v; ty] ++ be 2 (8 + zlen body) ++ be 4 xid ++ body.
Definition port_status (v xid reason : Z) (p : sport) : bytes :=
  msg v 12 xid ([reason] ++ zeros 7 ++ enc_port v p).
(** [fixed]: datapath_id up to the last fixed word, 24 bytes. *)
Definition features_reply (v xid : Z) (fixed : bytes) (l : list sport) : bytes :=
  msg v 6 xid (fixed ++ concat (map (enc_port v) l)).
Definition port_desc (v xid flags : Z) (l : list sport) : bytes :=
  msg v 19 xid (be 2 13 ++ be 2 flags ++ zeros 4 ++ concat (map (enc_port v) l)).

(** What the application is to see. *)
Definition view (p : sport) : port :=
  mkPort ([VInt (sp_no p); VBytes (sp_hw p); VBytes (sp_name p)] ++ map VInt (sp_words p)) 2.

(** The switch's own table, and its events (reason 0: add, 1: delete,
    2: modify).  None: the event contradicts the table. *)
Definition same_no (p q : sport) : bool := sp_no p =? sp_no q.

Definition apply_event (l : list sport) (reason : Z) (p : sport) : option (list sport) :=
  let present := existsb (same_no p) l in
  match reason with
  | 0 => if present then None else Some (l ++ [p])
  | 1 => if present then Some (filter (fun q => negb (same_no p q)) l) else None
  | 2 => if present then Some (map (fun q => if same_no p q then p else q) l) else None
  | _ => None
  end.

(** Nobody waits for any port. *)
Definition no_waiters (s : pmon) : Prop := pm_attach s = [] /\ pm_detach s = [].

(** struct ofp_port of OpenFlow 1.4: the same words config and state, then
    properties, with the total length in front. *)
Definition enc_port14 (no : Z) (hw name : bytes) (config state : Z) (props : bytes) : bytes :=
  be 4 no ++ be 2 (40 + zlen props) ++ zeros 2 ++ hw ++ zeros 2 ++ name16 name ++
  be 4 config ++ be 4 state ++ props.

(** Histories: messages received one after the other (whatever recv() raises),
    and port events applied one after the other (contradicting ones ignored). *)
Fixpoint pm_run (s : pmon) (ms : list bytes) : pmon :=
  match ms with [] => s | m :: ms' => pm_run (fst (pm_recv s m)) ms' end.

Fixpoint table_run (l : list sport) (es : list (Z * Z * sport)) : list sport :=
  match es with
  | [] => l
  | (_, reason, p) :: es' => table_run (match apply_event l reason p with Some l' => l' | None => l end) es'
  end.

(** Several parts, with other messages in between. *)
Inductive parts (xid : Z) : list (Z * list sport) -> list bytes -> Prop :=
| parts_nil : parts xid [] []
| parts_part fl l ps ms : parts xid ps ms -> parts xid ((fl, l) :: ps) (port_desc 4 xid fl l :: ms)
| parts_other m ps ms : (8 <= length m)%nat -> byte_at m 1 <> 6 -> byte_at m 1 <> 12 -> byte_at m 1 <> 19 ->
    parts xid ps ms -> parts xid ps (m :: ms).
