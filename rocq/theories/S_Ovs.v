(** Specification vocabulary for twink/ovs.py. *)

From Verif Require Import Py Struct M_Hello M_Loop M_Controller M_Ovs S_Hello S_Controller.
Local Open Scope Z_scope.
Local Open Scope list_scope.

(** *** PACKET_OUT *)

(** The PACKET_OUT that releases a buffer without actions: in OpenFlow 1.0 with
    a 16-bit port (none), later with a 32-bit port (controller) and padding. *)
Definition release (version xid buffer : Z) : bytes :=
  if version =? 1
  then [1; 13; 0; 16] ++ be 4 xid ++ be 4 buffer ++ [255; 255; 0; 0]
  else [version; 13; 0; 24] ++ be 4 xid ++ be 4 buffer ++ [255; 255; 255; 253; 0; 0; 0; 0; 0; 0; 0; 0].

Definition is_packet_out (m : bytes) : bool := byte_at m 1 =? 13.

(** What is to be sent for a received message. *)
Definition released (m : bytes) : list bytes :=
  if (byte_at m 1 =? 10) && (12 <=? length m)%nat && negb (u32_at m 8 =? 4294967295)
  then [release (byte_at m 0) (u32_at m 4) (u32_at m 8)] else [].

Definition released_op (o : aop) : list bytes :=
  match o with ARecv m _ => released m | AOp _ => [] end.

(** The application sends no PACKET_OUT of its own, the transport works,
    versions and transaction ids are in range, received messages have a header. *)
Definition aop_ok (o : aop) : Prop :=
  match o with
  | AOp (CSend _ m bxid o1 o2) => byte_at m 1 <> 13 /\ 0 <= bxid < 2 ^ 32 /\ o1 = None /\ o2 = None
  | AOp (CVersion v) => 0 <= v < 256
  | AOp _ => True
  | ARecv m bxid => bytes_ok m /\ (8 <= length m)%nat /\ 0 <= bxid < 2 ^ 32
  end.

(** *** Options of ovs-ofctl(8) *)

(** A one-letter option has one hyphen and its argument in a word of its own;
    a long option has two hyphens and "=" before its argument. *)
Definition hyphens (s : string) : string :=
  if (String.length s =? 1)%nat then "-" else "--".

Definition numeric : list string := ["t"; "timeout"]%string.
Definition flags : list string :=
  ["strict"; "readd"; "m"; "more"; "timestamp"; "h"; "help"; "detach"; "no_chdir"; "overwrite_pidfile";
   "monitor"; "service"; "service-monitor"; "V"; "version"]%string.
Definition with_text : list string :=
  ["F"; "flow_format"; "P"; "packet_in_format"; "sort"; "rsort"; "unixctl"; "pidfile"; "pipe_handle"; "O";
   "protocols"; "v"; "verbose"; "log_file"; "syslog_target"; "p"; "private_key"; "c"; "certificate"; "C"; "ca_cert"]%string.

(** Underscores of a keyword stand for hyphens. *)
Definition spelled (s : string) : string :=
  (hyphens s ++ string_of_list_ascii (map (fun a => if Ascii.eqb a "_" then "-"%char else a) (list_ascii_of_string s)))%string.

(** The words for an option with argument [a] (None: without). *)
Definition words (o : string) (a : option string) : list string :=
  match a with
  | None => [spelled o]
  | Some a => if (String.length o =? 1)%nat then [spelled o; a] else [(spelled o ++ "=" ++ a)%string]
  end.

(** Proper uses of an option, and the argument meant. *)
Inductive proper : string -> oval -> option string -> Prop :=
| PrFlag o : In o flags -> proper o (OBool true) None
| PrFlag_none o : In o flags -> proper o ONone None
| PrNum o z : In o numeric -> proper o (OInt z) (Some (str_z z))
| PrText o s : In o with_text -> s <> ""%string -> proper o (OStr s) (Some s)
| PrNoArg o : In o (numeric ++ with_text) -> proper o ONone None.
