(** Model of twink/ovs.py: AutoPacketOut, the options and the life cycle of
    OvsChannel.ofctl, the message handler of rule2ofp. *)

From Coq Require Export DecimalString Decimal DecimalZ.
From Verif Require Export M_Controller.
Local Open Scope Z_scope.
Local Open Scope list_scope.

(** *** AutoPacketOut (ovs.py:139-166) *)

(** ovs.py:146-166 [handle_async].  [enabled]: self.auto_packet_out; [parent]:
    super().handle_async, if there is one: what calling it does.  [bxid], [o1],
    [o2]: see [locked_send]. *)
Definition handle_async (enabled : bool) (parent : option (res unit)) (s : cch) (m : bytes) (bxid : Z)
    (o1 o2 : option exn) : cch * res unit :=
  match parent with
  | Some (Err e) => (s, Err e)
  | _ =>
      if negb enabled then (s, Ok tt)
      else
        match parse_ofp_header m with
        | Err e => (s, Err e)
        | Ok h =>
            if h_type h =? 10 then
              match unpacks "!I" m 8 with
              | Ok [VInt buffer_id] =>
                  if buffer_id =? 4294967295 then (s, Ok tt)
                  else
                    match
                      (if h_version h =? 1
                       then packs "!BBHIIHH" [VInt (h_version h); VInt 13; VInt 16; VInt (h_xid h);
                                              VInt buffer_id; VInt 65535; VInt 0]
                       else packs "!BBHIIIH6x" [VInt (h_version h); VInt 13; VInt 24; VInt (h_xid h);
                                                VInt buffer_id; VInt 4294967293; VInt 0])
                    with
                    | Ok p => locked_send s None p bxid o1 o2
                    | Err e => (s, Err e)
                    end
              | Ok _ => (s, Err ValueError)
              | Err e => (s, Err e)
              end
            else (s, Ok tt)
        end
  end.

(** A channel of class (AutoPacketOut, ...): an operation of the controller
    channel, or a received message (recv, then handle_proxy, base.py:423-471; the object
    has a handle_async, so that is where asynchronous messages go). *)
Inductive aop : Type :=
| AOp (o : cop)
| ARecv (m : bytes) (bxid : Z).

Inductive ares : Type :=
| AGot (o : outcome)         (* routed as by the controller channel *)
| AAsync (r : res unit)      (* handle_async was called *)
| AOther (r : cres).

Definition astep (enabled : bool) (parent : option (res unit)) (s : cch) (o : aop) : cch * ares :=
  match o with
  | AOp o => let '(s', r) := cstep true s o in (s', AOther r)
  | ARecv m bxid =>
      match ctl_recv s m with
      | (s1, Err e) => (s1, AGot (FailExn e))
      | (s1, Ok _) =>
          match intercept true s1 m with
          | (s2, ToAsync) => let '(s3, r) := handle_async enabled parent s2 m bxid None None in (s3, AAsync r)
          | (s2, r) => (s2, AGot r)
          end
      end
  end.

Fixpoint arun (enabled : bool) (parent : option (res unit)) (s : cch) (os : list aop) : cch * list ares :=
  match os with
  | [] => (s, [])
  | o :: os' =>
      let '(s1, r) := astep enabled parent s o in
      let '(s2, rs) := arun enabled parent s1 os' in (s2, r :: rs)
  end.

(** *** ovs-ofctl options *)

(** Values of options: None, a number, a string, a bool. *)
Inductive oval : Type := ONone | OInt (z : Z) | OStr (s : string) | OBool (b : bool).

Inductive argtype : Type := AInt | AStr | AFlag.

(** ovs.py:83-112: name, double hyphen, argument type, joined with "=". *)
Definition option_list : list (string * (bool * argtype * bool)) :=
  [ ("t", (false, AInt, false)); ("timeout", (true, AInt, true));
    ("strict", (true, AFlag, false));
    ("readd", (true, AFlag, false));
    ("F", (false, AStr, false)); ("flow_format", (true, AStr, true));
    ("P", (false, AStr, false)); ("packet_in_format", (true, AStr, true));
    ("m", (false, AFlag, false)); ("more", (true, AFlag, false));
    ("timestamp", (true, AFlag, false));
    ("sort", (true, AStr, true));
    ("rsort", (true, AStr, true));
    ("unixctl", (true, AStr, true));
    ("h", (false, AFlag, false)); ("help", (true, AFlag, false));
    ("detach", (true, AFlag, false));
    ("no_chdir", (true, AFlag, false));
    ("pidfile", (true, AStr, true));
    ("overwrite_pidfile", (true, AFlag, false));
    ("monitor", (true, AFlag, false));
    ("pipe_handle", (true, AStr, true));
    ("service", (true, AFlag, false));
    ("service-monitor", (true, AFlag, false));
    ("V", (false, AFlag, false)); ("version", (true, AFlag, false));
    ("O", (false, AStr, false)); ("protocols", (true, AStr, true));
    ("v", (false, AStr, false)); ("verbose", (true, AStr, true));
    ("log_file", (true, AStr, true));
    ("syslog_target", (true, AStr, true));
    ("p", (false, AStr, false)); ("private_key", (true, AStr, true));
    ("c", (false, AStr, false)); ("certificate", (true, AStr, true));
    ("C", (false, AStr, false)); ("ca_cert", (true, AStr, true)) ]%string.

Fixpoint lookup {A} (k : string) (l : list (string * A)) : option A :=
  match l with
  | [] => None
  | (x, a) :: l' => if (x =? k)%string then Some a else lookup k l'
  end.

(** [str(z)]. *)
Definition str_z (z : Z) : string := NilZero.string_of_int (Z.to_int z).

(** [str(int(v))], [str(str(v))].  Simplification: of the strings int() takes,
    only plain decimal numbers are modelled as numbers. *)
Definition str_int (v : oval) : res string :=
  match v with
  | OInt z => Ok (str_z z)
  | OBool b => Ok (if b then "1" else "0")%string
  | OStr s => match NilZero.int_of_string s with Some i => Ok (str_z (Z.of_int i)) | None => Err ValueError end
  | ONone => Err TypeError
  end.
Definition str_str (v : oval) : string :=
  match v with
  | OInt z => str_z z
  | OBool b => if b then "True" else "False"
  | OStr s => s
  | ONone => "None"
  end.

(** [s.replace("_", "-")]. *)
Fixpoint dashes (s : string) : string :=
  match s with
  | EmptyString => EmptyString
  | String a s' => String (if Ascii.eqb a "_" then "-"%char else a) (dashes s')
  end.

(** ovs.py:117-135, one option. *)
Definition option_words (o : string) (v : oval) : res (list string) :=
  match lookup o option_list with
  | None => Err AssertionError
  | Some (detail, at_, join) =>
      let tmp := ("-" ++ dashes o)%string in
      let tmp := if detail then ("-" ++ tmp)%string else tmp in
      match at_, v with
      | AFlag, _ | _, ONone => Ok [tmp]
      | _, _ =>
          sval <- (match at_ with AInt => str_int v | _ => Ok (str_str v) end) ;;
          if join && negb (sval =? "")%string then Ok [(tmp ++ "=" ++ sval)%string] else Ok [tmp; sval]
      end
  end.

(** ovs.py:79-136 [_make_ofctl_options]; the options in the order in which the
    dictionary is walked. *)
Fixpoint make_options (os : list (string * oval)) : res (list string) :=
  match os with
  | [] => Ok []
  | (o, v) :: os' => w <- option_words o v ;; r <- make_options os' ;; Ok (w ++ r)
  end.

(** *** ofctl (ovs.py:51-76) *)

Inductive oevent : Type := EStart | ERun (cmd : list string) | EHalt.

Definition protocols : list string := ["OpenFlow10"; "OpenFlow11"; "OpenFlow12"; "OpenFlow13"]%string.

(** [("OpenFlow10",...)[version - 1]]; index -1 is the last element. *)
Definition protocol_name (version : option Z) : res string :=
  match version with
  | None => Err TypeError
  | Some v =>
      let i := v - 1 in
      let i := if i <? 0 then i + 4 else i in
      if i <? 0 then Err IndexError
      else match nth_error protocols (Z.to_nat i) with Some p => Ok p | None => Err IndexError end
  end.

(** [has_temp]: the class has temp_server (only ParentChannel does);
    [start]: what starting the server does; [addr]: its address as ovs-ofctl takes it;
    [order]: the order of the option dictionary; [run]: what running the command
    returns (Popen and communicate may raise). *)
Definition ofctl (has_temp : bool) (version : option Z) (start : res unit) (addr : string)
    (order : list (string * oval) -> list (string * oval)) (run : list string -> res bytes)
    (action : string) (args : list string) (options : list (string * oval)) : list oevent * res bytes :=
  if negb has_temp then ([], Err AttributeError)
  else
    match start with
    | Err e => ([EStart], Err e)
    | Ok _ =>
        let options :=
          match version with
          | Some 1 => Ok options
          | _ =>
              match lookup "O" options, lookup "protocols" options with
              | None, None => p <- protocol_name version ;; Ok (options ++ [("O"%string, OStr p)])
              | _, _ => Ok options
              end
          end in
        let cmd :=
          os <- options ;; ws <- make_options (order os) ;;
          Ok (("ovs-ofctl"%string :: ws) ++ [action; addr] ++ args) in
        match cmd with
        | Err e => ([EStart; EHalt], Err e)
        | Ok cmd => ([EStart; ERun cmd; EHalt], run cmd)
        end
    end.

(** *** rule2ofp (ovs.py:11-22): the handler; what it sends, what it collects. *)
Definition rule_handle (m : bytes) : res (list bytes * list bytes) :=
  p <- parse_ofp_header m ;;
  if (h_version p =? 1) && (h_type p =? 18) then
    r <- packs "!BBHI" [VInt (h_version p); VInt 19; VInt 8; VInt (h_xid p)] ;; Ok ([r], [])
  else if negb (h_version p =? 1) && (h_type p =? 20) then
    r <- packs "!BBHI" [VInt (h_version p); VInt 21; VInt 8; VInt (h_xid p)] ;; Ok ([r], [])
  else if h_type p =? 14 then Ok ([], [m])
  else Ok ([], []).

Fixpoint rule_handles (ms : list bytes) : res (list bytes * list bytes) :=
  match ms with
  | [] => Ok ([], [])
  | m :: ms' =>
      ' (a, b) <- rule_handle m ;; ' (c, d) <- rule_handles ms' ;; Ok (a ++ c, b ++ d)
  end.
