(** Model of the two example programs: test/example_switch.py and
    test/example_controller_switchinghub.py. *)

From Coq Require Import DecimalString Decimal DecimalZ.
From Verif Require Export M_Bess M_Oxm.
Local Open Scope Z_scope.
Local Open Scope list_scope.

(** *** The switch *)

(** example_switch.py:21-27: the one flow it tells of; OFPIT_APPLY_ACTIONS is 4,
    OFPCML_MAX 0xffe5, OXM_OF_IN_PORT 0, OXM_OF_ETH_SRC 4. *)
Definition ex_flow : res bytes :=
  a <- oxm_build VNone (VInt 0) VNone VNone (VInt 222) VNone ;;
  b <- oxm_build VNone (VInt 4) VNone VNone (VBytes [0; 17; 34; 51]) VNone ;;
  m <- bld "ofp_match" [VNone; VNone; VBytes (a ++ b)] ;;
  o <- bld "ofp_action_output" [VNone; VNone; VInt 1111; VInt 65509] ;;
  i <- bld "ofp_instruction_actions" [VInt 4; VNone; VList [VBytes o]] ;;
  bld "ofp_flow_stats" [VNone; VInt 0; VInt 10; VInt 20; VInt 30; VInt 40; VInt 50; VInt 0; VInt 1; VInt 2; VInt 3;
                        VBytes m; VList [VBytes i]].

(** channel.send(f(b.ofp_header(4, ty, 0, xid), args)); [o]: the transport. *)
Definition ex_send (cls : string) (ty : Z) (xid : pyval) (args : res (list pyval)) (o : option exn) : list bytes * res unit :=
  match (h <- hdr ty xid ;; a <- args ;; bld cls (VBytes h :: a)) with
  | Err e => ([], Err e)
  | Ok m => match o with None => ([m], Ok tt) | Some e => ([], Err e) end
  end.

(** example_switch.py:11-28 [switch_proc]: what is sent. *)
Definition ex_proc (m : bytes) (o : option exn) : list bytes * res unit :=
  match parse (length m) m 0 with
  | Err e => ([], Err e)
  | Ok (VTup _ (VTup _ [_; VInt ty; _; xid] :: fs), _) =>
      if ty =? 5 then ex_send "ofp_switch_features" 6 xid (Ok [VInt 1; VInt 2; VInt 3; VInt 0; VInt 15]) o
      else if ty =? 7 then ex_send "ofp_switch_config" 8 xid (Ok [VInt 0; VInt 65509]) o
      else if ty =? 18 then
        match fs with
        | VInt mty :: _ =>
            if mty =? 1 then ex_send "ofp_multipart_reply" 19 xid (f <- ex_flow ;; Ok [VInt mty; VInt 0; VList [VBytes f]]) o
            else ([], Ok tt)
        | _ => ([], Err AttributeError)
        end
      else ([], Ok tt)
  | Ok _ => ([], Err AttributeError)
  end.

(** example_switch.py:35-42: the script itself.  A StreamServer is made (base.py:611-616: its socket
    is bound; it listens from start() on), then the module's function
    serve_forever is looked up and called with it.  twink/__init__.py takes every public name of
    base.py, which has no __all__. *)
Definition twink_names : list string :=
  [ "base"; "binascii"; "contextlib"; "logging"; "os"; "struct"; "types"; "weakref"; "datetime"; "namedtuple";
    "absolute_import"; "use_gevent"; "sched"; "default_wrapper"; "ReadWrapper"; "Channel"; "Error"; "ChannelClose";
    "OpenflowBaseChannel"; "LoggingChannel"; "OpenflowChannel"; "parse_ofp_header"; "ofp_header_only"; "hms_xid";
    "ofp_version_normalize"; "hello"; "parse_hello"; "OpenflowServerChannel"; "AutoEchoChannel"; "WeakCallbackCaller";
    "Barrier"; "Chunk"; "ControllerChannel"; "RateLimit"; "ParallelChannel"; "bound_socket"; "stream_socket";
    "dgram_socket"; "StreamServer"; "DgramServer"; "ParentChannel"; "JackinChannel"; "MonitorChannel"; "ChildChannel";
    "WeakCallback"; "JackinChildChannel"; "SyncTracker"; "SyncChannel"; "PortMonitorChannel" ]%string.
Inductive served : Type := NotStarted (e : exn) | Started.
Definition ex_main (names : list string) : served :=
  if existsb (String.eqb "serve_forever") names then Started else NotStarted AttributeError.

(** *** The learning hub *)

(** "%02x", "%d", ":".join *)
Definition hex_digit (d : Z) : Z := if d <? 10 then 48 + d else 87 + d.
Definition hex2 (b : Z) : bytes := [hex_digit (b / 16); hex_digit (b mod 16)].
Definition dec (z : Z) : bytes := ascii_bytes (NilZero.string_of_int (Z.to_int z)).
Fixpoint joins (sep : bytes) (l : list bytes) : bytes :=
  match l with [] => [] | [x] => x | x :: l' => x ++ sep ++ joins sep l' end.

(** What the hub asks of its channel: self.ofctl(action, args) (add_flow is one, ovs.py:45-46),
    channel.send(message).  Simplification: they return. *)
Inductive hcmd : Type := HOfctl (action : string) (args : list bytes) | HSend (m : bytes).

(** o.oxm_field, o.oxm_value of what oxm.parse_list gives (namedtuples oxm and stratos; nxm does
    not come out of parse_list). *)
Definition field_of (o : pyval) : res Z :=
  match o with VTup _ (_ :: VInt f :: _) => Ok f | _ => Err AttributeError end.
Definition value_of (o : pyval) : res pyval :=
  match o with
  | VTup cls [_; _; _; _; v; _] => Ok v
  | VTup cls [_; _; _; _; _; _; v; _] => Ok v
  | _ => Err AttributeError
  end.
(** example_controller_switchinghub.py:26: [o for o in ... if o.oxm_field==OXM_OF_IN_PORT][0].oxm_value. *)
Fixpoint in_ports (l : list pyval) : res (list pyval) :=
  match l with
  | [] => Ok []
  | o :: l' => f <- field_of o ;; r <- in_ports l' ;; Ok (if f =? 0 then o :: r else r)
  end.
Definition hub_in_port (oxms : bytes) : res pyval :=
  l <- parse_list oxms 0 ;; r <- in_ports l ;;
  match r with [] => Err IndexError | o :: _ => value_of o end.

(** example_controller_switchinghub.py:27: msg.data[6:12]. *)
Definition src_mac (data : bytes) : bytes := joins (ascii_bytes ":") (map hex2 (firstn 6 (skipn 6 data))).

(** example_controller_switchinghub.py:19-32 [handle_async]; [dx] is the transaction id drawn for
    the PACKET_OUT.  What is printed is left out. *)
Definition hub_async (init : bool) (dx : Z) (m : bytes) : list hcmd * res unit :=
  if negb init then ([], Ok tt)
  else
    match parse (length m) m 0 with
    | Err e => ([], Err e)
    | Ok (VTup _ (VTup _ [_; VInt ty; _; _] :: fs), _) =>
        if ty =? 10 then
          match fs with
          | [buffer_id; _; _; _; _; VTup _ [_; _; VBytes oxms]; VBytes data] =>
              match hub_in_port oxms with
              | Err e => ([], Err e)
              | Ok (VInt in_port) =>
                  let mac := src_mac data in
                  let flows :=
                    [ HOfctl "add-flow" [ascii_bytes "table=0,priority=2,idle_timeout=300,  dl_src=" ++ mac ++
                                         ascii_bytes ",in_port=" ++ dec in_port ++ ascii_bytes ",  actions=goto_table:1"];
                      HOfctl "add-flow" [ascii_bytes "table=1,priority=2,idle_timeout=300,  dl_dst=" ++ mac ++
                                         ascii_bytes ",  actions=output:" ++ dec in_port] ] in
                  match call (obj dx 8) dx "ofp_packet_out" [VNone; buffer_id; VInt in_port; VNone; VList []; VNone] with
                  | Err e => (flows, Err e)
                  | Ok p => (flows ++ [HSend p; HOfctl "dump-flows" []], Ok tt)
                  end
              | Ok _ => ([], Err TypeError)
              end
          | _ => ([], Err AttributeError)
          end
        else ([], Ok tt)
    | Ok _ => ([], Err AttributeError)
    end.

(** example_controller_switchinghub.py:34-41 [handle]; [ports]: the numbers of self.ports.  The
    result: commands, the new self.init. *)
Definition hub_handle (init : bool) (m : bytes) (ports : list Z) : list hcmd * bool * res unit :=
  match parse (length m) m 0 with
  | Err e => ([], init, Err e)
  | Ok (VTup _ (VTup _ [_; VInt ty; _; _] :: _), _) =>
      if ty =? 0 then
        ([ HOfctl "add-group" [ascii_bytes "group_id=1,type=all," ++
                               joins (ascii_bytes ",") (map (fun p => ascii_bytes "bucket=output:" ++ dec p) ports)];
           HOfctl "add-flow" [ascii_bytes "table=0,priority=1,  actions=controller,goto_table:1"];
           HOfctl "add-flow" [ascii_bytes "table=1,priority=3,  dl_dst=01:00:00:00:00:00/01:00:00:00:00:00,  actions=group:1"];
           HOfctl "add-flow" [ascii_bytes "table=1,priority=1,  actions=group:1"] ], true, Ok tt)
      else ([], init, Ok tt)
  | Ok _ => ([], init, Err AttributeError)
  end.
