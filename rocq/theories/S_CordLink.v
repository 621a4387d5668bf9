(** How a packet of an OpenFlow switch (S_Cord.v) and one in the pipeline
    (M_Cord.v) correspond, and when their fates do. *)

From Verif Require Import Py Struct M_Cord S_Cord.
Local Open Scope Z_scope.
Local Open Scope list_scope.

(** The port LOCAL is 101 in the pipeline (cord_softswitch_pipeline.bess:18). *)
Definition meta_port (n : Z) : Z := if n =? LOCAL then 101 else n.
Definition in_ok (n : Z) : Prop := n = LOCAL \/ (0 <= n < 256 /\ n <> 101).
Definition meta (p : opkt) : pkt := mkPkt (frame_wire (p_frame p)) (meta_port (p_in p)) (p_tun p) (p_tdst p).

Definition port_sink (n : Z) : string :=
  if n =? 1 then "OUT1"%string else if n =? 2 then "OUT2"%string else if n =? 3 then "OUT3"%string else "OUT4"%string.
Definition live : list string := ["OUT1"; "OUT2"; "OUT3"; "OUT4"; "LCL"; "CTL"]%string.
Definition dropped (f : fate) : Prop :=
  match f with Reach s _ => ~ In s live | Lost _ => True | NoFuel => False end.

(** What should come out is packet [q]. *)
Definition as_told (f : fate) (d : dest) : Prop :=
  match d with
  | Port n q => (n = 1 \/ n = 2 \/ n = 3 \/ n = 4) /\ f = Reach (port_sink n) (meta q)
  | Local q => f = Reach "LCL"%string (meta q)
  | Controller q => f = Reach "CTL"%string (meta q)
  | Dropped => dropped f
  end.

(** What comes out: where [q] has a new destination address, the pipeline writes its constant
    for that address (the text, as BESS reads it) over the source and keeps the destination of [p].
    New addresses come with outputs to 1, 3, 4, except from port 1 (table 5). *)
Definition crossed (conv : val -> bytes) (p q : opkt) : pkt :=
  mkPkt (f_dst (p_frame p) ++ conv (B (colon (f_dst (p_frame q)))) ++ skipn 12 (frame_wire (p_frame q)))
        (meta_port (p_in q)) (p_tun q) (p_tdst q).
Definition nearly (conv : val -> bytes) (p : opkt) (f : fate) (d : dest) : Prop :=
  match d with
  | Port n q =>
      (n = 1 \/ n = 2 \/ n = 3 \/ n = 4) /\
      f = Reach (port_sink n) (if (n =? 2) || (p_in p =? 1) then meta q else crossed conv p q)
  | _ => as_told f d
  end.

(** The frames for which that is proved: tagged ones whose drop eligible bit is set;
    untagged ones that carry IPv4 or ARP, or are for the controller, or need no
    address: from ports other than 2, 3 and 4, and not IPv6. *)
Definition plain (p : opkt) : Prop :=
  match f_tag (p_frame p) with
  | Some t => v_dei t = 1
  | None =>
      match f_net (p_frame p) with
      | Other ty _ => ty = 35020 \/ ty = 35138 \/ (ty <> 34525 /\ p_in p <> 2 /\ p_in p <> 3 /\ p_in p <> 4)
      | _ => True
      end
  end.
Definition bucket (lb : bytes -> bool) (p : opkt) : bool := lb (frame_wire (p_frame p)).

(** Two fates look the same from outside. *)
Definition alike (a b : fate) : Prop := a = b \/ (dropped a /\ dropped b).
