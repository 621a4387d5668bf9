(** Model of bess_of_agent.py: the port table and its manager, the handler of
    OpenFlow messages.  The calls of the BESS API and of the sockets are
    parameters: what they return or raise.  Simplifications: an operation of the
    manager and the handling of one message do not interleave (the code has no
    lock, lines 126 and 185); what is printed is left out; strings that arrive over
    zerorpc are byte strings. *)

From Verif Require Export M_Build4 M_Parse4.
Local Open Scope Z_scope.
Local Open Scope list_scope.

(** *** Dictionaries: bindings in the order of insertion; the order in which
    Python walks them is an argument wherever it matters. *)
Section Dict.
Context {V : Type}.
Fixpoint dget (k : Z) (d : list (Z * V)) : option V :=
  match d with
  | [] => None
  | (k', v) :: d' => if k' =? k then Some v else dget k d'
  end.
Fixpoint dset (k : Z) (v : V) (d : list (Z * V)) : list (Z * V) :=
  match d with
  | [] => [(k, v)]
  | (k', v') :: d' => if k' =? k then (k, v) :: d' else (k', v') :: dset k v d'
  end.
Definition ddel (k : Z) (d : list (Z * V)) : list (Z * V) := filter (fun kv => negb (fst kv =? k)) d.
(** [itervalues()] when the keys come in the order [ks]. *)
Definition dvalues (ks : list Z) (d : list (Z * V)) : list V :=
  flat_map (fun k => match dget k d with Some v => [v] | None => [] end) ks.
End Dict.

(** *** State *)

(** bess_of_agent.py:23-29: the fields that differ from [default_port]; [o_sock] a
    socket. *)
Record oport : Type := mkOport { o_no : Z; o_hw : bytes; o_name : bytes; o_curr : Z; o_sock : option nat }.

Definition ascii_bytes (s : string) : bytes := map (fun a => Z.of_nat (Ascii.nat_of_ascii a)) (list_ascii_of_string s).

(** [a_ports], [a_num]: of_ports, PortManager.of_port_num; [a_flows]: flows;
    [a_wire]: what went over the channel, [a_out] over the ports' sockets. *)
Record agent : Type := mkAgent {
  a_ports : list (Z * oport); a_num : Z; a_flows : list (Z * pyval);
  a_wire : list bytes; a_out : list (nat * bytes) }.

(** bess_of_agent.py:30-36, 215-216, 293-296: the initial table, with the sockets made for its
    ports ([s1], [s2]; br-int has none). *)
Definition agent0 (s1 s2 : option nat) : agent :=
  mkAgent
    [(4294967294, mkOport 4294967294 [0; 0; 222; 173; 190; 239] (ascii_bytes "br-int") 0 None);
     (1, mkOport 1 [0; 0; 222; 173; 222; 173] (ascii_bytes "vxlan") 0 s1);
     (2, mkOport 2 [0; 0; 0; 0; 0; 1] (ascii_bytes "dpif") 0 s2)]
    2 [] [] [].

(** channel.send(m); [o]: what the transport raises. *)
Definition asend (s : agent) (m : bytes) (o : option exn) : agent * res unit :=
  match o with
  | Some e => (s, Err e)
  | None => (mkAgent (a_ports s) (a_num s) (a_flows s) (a_wire s ++ [m]) (a_out s), Ok tt)
  end.

(** The builders of twink.ofp4.build.  Every header is given, so that the
    transaction id [dx] drawn for a missing one is not used. *)
Definition bld (cls : string) (args : list pyval) : res bytes := call (obj 0 8) 0 cls args.

(** b.ofp_header(4, ty, 0, xid) *)
Definition hdr (ty : Z) (xid : pyval) : res bytes := ofp_header 0 (VInt 4) (VInt ty) (VInt 0) xid.

(** b.ofp_port(ofp.port_no, ofp.hw_addr, ...) as at lines 153-154, 232-233, 244-246. *)
Definition bport (p : oport) : res bytes :=
  bld "ofp_port"
    [VInt (o_no p); VBytes (o_hw p); VBytes (o_name p); VInt 0; VInt 0; VInt (o_curr p);
     VInt 0; VInt 0; VInt 0; VInt 0; VInt 0].

(** channel.send(f(b.ofp_header(4, ty, 0, xid), args)); arguments are evaluated
    before the call. *)
Definition respond (s : agent) (cls : string) (ty : Z) (xid : pyval) (args : res (list pyval)) (o : option exn) : agent * res unit :=
  match (h <- hdr ty xid ;; a <- args ;; bld cls (VBytes h :: a)) with
  | Err e => (s, Err e)
  | Ok m => asend s m o
  end.

(** *** The port manager *)

(** binascii.a2b_hex *)
Definition nibble (c : Z) : option Z :=
  if (48 <=? c) && (c <=? 57) then Some (c - 48)
  else if (97 <=? c) && (c <=? 102) then Some (c - 87)
  else if (65 <=? c) && (c <=? 70) then Some (c - 55)
  else None.
Fixpoint unhex (b : bytes) : res bytes :=
  match b with
  | [] => Ok []
  | h :: l :: b' =>
      match nibble h, nibble l with
      | Some x, Some y => r <- unhex b' ;; Ok (16 * x + y :: r)
      | _, _ => Err TypeError
      end
  | [_] => Err TypeError
  end.

Definition same (a b : bytes) : bool := if list_eq_dec Z.eq_dec a b then true else false.

(** bess_of_agent.py:76-98 [init_pktinout_port]: the socket; [r]: what making and
    connecting it comes to (errors of BESS and of the socket are caught and give
    None; errors of the modules made afterwards are not). *)
Definition init_sock (name : bytes) (r : res (option nat)) : res (option nat) :=
  if same name (ascii_bytes "br-int") then Ok None else r.
(** bess_of_agent.py:101-119 [deinit_pktinout_port]. *)
Definition deinit_sock (name : bytes) (r : res unit) : res unit :=
  if same name (ascii_bytes "br-int") then Ok tt else r.

Inductive ares : Type :=
| RAdded (n : Z)        (* "Successfully added ... as ofport n" *)
| RFull                 (* "Unable to add" *)
| RDeleted (n : Z)      (* "Successfully deleted ... which was ofport n" *)
| RNone                 (* "Unable to locate" *)
| RDone                 (* the handler returned *)
| RExn (e : exn).

(** bess_of_agent.py:227-234: port_status with the port's description. *)
Definition announce (s : agent) (reason : Z) (p : oport) (o : option exn) : agent * res unit :=
  respond s "ofp_port_status" 12 (VInt 0) (d <- bport p ;; Ok [VInt reason; VBytes d]) o.

(** bess_of_agent.py:218-237 [add_port]; [create]: dp.create_port, [init]: see
    [init_sock], [o]: the transport. *)
Definition add_port (s : agent) (dev mac : bytes) (create : res unit) (init : res (option nat)) (o : option exn) : agent * ares :=
  if a_num s + 1 =? 4294967294 then (s, RFull)
  else
    let n := a_num s + 1 in
    let s := mkAgent (a_ports s) n (a_flows s) (a_wire s) (a_out s) in
    match (create ;;; sock <- init_sock dev init ;; hw <- unhex (firstn 12 mac) ;; Ok (mkOport n hw dev 2050 sock)) with
    | Err e => (s, RExn e)
    | Ok p =>
        let s := mkAgent (dset n p (a_ports s)) n (a_flows s) (a_wire s) (a_out s) in
        match announce s 0 p o with
        | (s, Ok _) => (s, RAdded n)
        | (s, Err e) => (s, RExn e)
        end
    end.

(** bess_of_agent.py:239-254 [del_port]; [ks]: the order of of_ports. *)
Fixpoint find_dev (d : list (Z * oport)) (ks : list Z) (dev : bytes) : option (Z * oport) :=
  match ks with
  | [] => None
  | k :: ks' =>
      match dget k d with
      | Some p => if same (o_name p) dev then Some (k, p) else find_dev d ks' dev
      | None => find_dev d ks' dev
      end
  end.

Definition del_port (s : agent) (dev : bytes) (ks : list Z) (o : option exn) (deinit destroy : res unit) : agent * ares :=
  match find_dev (a_ports s) ks dev with
  | None => (s, RNone)
  | Some (k, p) =>
      match announce s 1 p o with
      | (s, Err e) => (s, RExn e)
      | (s, Ok _) =>
          match (deinit_sock (o_name p) deinit ;;; destroy) with
          | Err e => (s, RExn e)
          | Ok _ => (mkAgent (ddel k (a_ports s)) (a_num s) (a_flows s) (a_wire s) (a_out s), RDeleted k)
          end
      end
  end.

(** *** The handler *)

(** One flow of a FLOW reply (bess_of_agent.py:147-149). *)
Definition bflow (f : pyval) : res bytes :=
  match f with
  | VTup _ [_; cookie; _; table; _; idle; hard; prio; _; _; _; flags; mt; insts] =>
      bld "ofp_flow_stats" [VNone; table; VInt 1; VInt 2; prio; idle; hard; flags; cookie; VInt 0; VInt 0; mt; insts]
  | _ => Err AttributeError
  end.

(** ["".join(... for x in l)] *)
Definition joined {A} (f : A -> res bytes) (l : list A) : res pyval :=
  bs <- mapM f l ;; Ok (VList [VBytes (concat bs)]).

(** bess_of_agent.py:122-185 [switch_proc]; [ks]: the order of the dictionary walked,
    [o]: the transport, [po]: what the port's socket raises. *)
Definition switch_proc (s : agent) (m : bytes) (ks : list Z) (o po : option exn) : agent * res unit :=
  match parse (length m) m 0 with
  | Err e => (s, Err e)
  | Ok (VTup _ (VTup _ [_; VInt ty; _; xid] :: fs) as msg, _) =>
      if ty =? 5 then respond s "ofp_switch_features" 6 xid (Ok [VInt 1; VInt 2; VInt 3; VInt 0; VInt 15]) o
      else if ty =? 7 then respond s "ofp_switch_config" 8 xid (Ok [VInt 0; VInt 65509]) o
      else if ty =? 24 then
        match fs with
        | [role; gen] => respond s "ofp_role_request" 25 xid (Ok [role; gen]) o
        | _ => (s, Err AttributeError)
        end
      else if ty =? 14 then
        match fs with
        | VInt cookie :: _ =>
            match dget cookie (a_flows s) with
            | None =>
                (mkAgent (a_ports s) (a_num s) (dset cookie msg (a_flows s)) (a_wire s) (a_out s), Ok tt)
            (* oxm.parse_list(flows[msg.cookie].match): the match is a namedtuple of
               three, and struct.unpack_from takes no tuple *)
            | Some _ => (s, Err TypeError)
            end
        | _ => (s, Err AttributeError)
        end
      else if ty =? 18 then
        match fs with
        | VInt mty :: _ =>
            if mty =? 1 then
              respond s "ofp_multipart_reply" 19 xid
                (b <- joined bflow (dvalues ks (a_flows s)) ;; Ok [VInt mty; VInt 0; b]) o
            else if mty =? 13 then
              respond s "ofp_multipart_reply" 19 xid
                (b <- joined bport (dvalues ks (a_ports s)) ;; Ok [VInt mty; VInt 0; b]) o
            else if mty =? 0 then
              respond s "ofp_multipart_reply" 19 xid
                (b <- bld "ofp_desc" [VBytes (ascii_bytes "UC Berkeley"); VBytes (ascii_bytes "Intel Xeon");
                                      VBytes (ascii_bytes "BESS"); VBytes (ascii_bytes "commit-6e343"); VNone] ;;
                 Ok [VInt mty; VInt 0; VBytes b]) o
            else (s, Ok tt)
        | _ => (s, Err AttributeError)
        end
      else if ty =? 13 then
        match fs with
        | [_; _; _; VList acts; VBytes data] =>
            match acts with
            | [] => (s, Err IndexError)
            | VTup cls [_; _; VInt port; _] :: _ =>
                if negb (String.eqb cls "ofp_action_output") then (s, Err AttributeError)
                else
                  match dget port (a_ports s) with
                  | None => (s, Err KeyError)
                  | Some p =>
                      match o_sock p, po with
                      | None, _ => (s, Ok tt)
                      | Some _, Some e => (s, Err e)
                      | Some k, None => (mkAgent (a_ports s) (a_num s) (a_flows s) (a_wire s) (a_out s ++ [(k, data)]), Ok tt)
                      end
                  end
            | _ => (s, Err AttributeError)
            end
        | _ => (s, Err AttributeError)
        end
      else if (ty =? 0) || (ty =? 9) || (ty =? 20) then (s, Ok tt)
      else (s, Err AssertionError)
  | Ok _ => (s, Err AttributeError)
  end.

(** *** Histories *)

Inductive bop : Type :=
| BAdd (dev mac : bytes) (create : res unit) (init : res (option nat)) (o : option exn)
| BDel (dev : bytes) (ks : list Z) (o : option exn) (deinit destroy : res unit)
| BMsg (m : bytes) (ks : list Z) (o po : option exn).

Definition bstep (s : agent) (op : bop) : agent * ares :=
  match op with
  | BAdd dev mac create init o => add_port s dev mac create init o
  | BDel dev ks o deinit destroy => del_port s dev ks o deinit destroy
  | BMsg m ks o po =>
      match switch_proc s m ks o po with
      | (s, Ok _) => (s, RDone)
      | (s, Err e) => (s, RExn e)
      end
  end.

Fixpoint brun (s : agent) (os : list bop) : agent * list ares :=
  match os with
  | [] => (s, [])
  | op :: os' => let '(s, r) := bstep s op in let '(s, rs) := brun s os' in (s, r :: rs)
  end.
