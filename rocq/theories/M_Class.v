(** Model of the class hierarchy of twink/base.py and twink/ovs.py, and of what
    Python does with it: the method resolution order of a class, attribute
    lookup and super(). *)

From Coq Require Import String Bool Arith List.
Import ListNotations.
Local Open Scope string_scope.
Local Open Scope list_scope.

(** A class statement (or a call of type(), as in twink/__main__.py:15): its
    name, its bases in order, the names bound in its body, the calls
    super(K, self).n(...) in the code of its methods as (method, (K, n)), the
    attributes its __init__ assigns to self on every path, the attributes of
    self that its methods read.  A name stands for the class object. *)
Record cls : Type := mkCls {
  c_name : string;
  c_bases : list string;
  c_attrs : list string;
  c_supers : list (string * (string * string));
  c_inits : list string;
  c_uses : list string
}.

(** *** Python: the method resolution order (CPython 2.7 Objects/typeobject.c
    mro_implementation, pmerge) *)

Definition memb (x : string) (l : list string) : bool := existsb (String.eqb x) l.

(** pmerge: the first head that is in no tail ... *)
Fixpoint pick (ls all : list (list string)) : option string :=
  match ls with
  | [] => None
  | [] :: r => pick r all
  | (c :: _) :: r => if existsb (fun l => memb c (tl l)) all then pick r all else Some c
  end.

(** ... is taken off the lists it is the head of. *)
Definition behead (c : string) (l : list string) : list string :=
  match l with
  | [] => []
  | x :: r => if String.eqb x c then r else l
  end.

Definition is_nil (l : list string) : bool := match l with [] => true | _ => false end.

Fixpoint merge (fuel : nat) (ls : list (list string)) : option (list string) :=
  if forallb is_nil ls then Some []
  else
    match fuel with
    | O => None
    | S f =>
        match pick ls ls with
        | None => None
        | Some c => option_map (cons c) (merge f (map (behead c) ls))
        end
    end.

(** The classes there are, the latest first, each with its resolution order. *)
Definition ctab : Type := list (cls * list string).

Definition get (t : ctab) (n : string) : option (cls * list string) :=
  find (fun e => String.eqb (c_name (fst e)) n) t.
Definition mro (t : ctab) (n : string) : list string :=
  match get t n with Some (_, m) => m | None => [] end.

Fixpoint all_mros (t : ctab) (bs : list string) : option (list (list string)) :=
  match bs with
  | [] => Some []
  | b :: r =>
      match get t b, all_mros t r with
      | Some (_, m), Some ms => Some (m :: ms)
      | _, _ => None
      end
  end.

Fixpoint nodupb (l : list string) : bool :=
  match l with [] => true | x :: r => negb (memb x r) && nodupb r end.

(** A class statement.  [None]: NameError, "duplicate base class" or "Cannot
    create a consistent method resolution order"; classes without bases are not
    modelled (base.py has none). *)
Definition define (t : ctab) (c : cls) : option ctab :=
  if memb (c_name c) (map (fun e => c_name (fst e)) t) || is_nil (c_bases c) || negb (nodupb (c_bases c)) then None
  else
    match all_mros t (c_bases c) with
    | None => None
    | Some ms =>
        let ls := (ms ++ [c_bases c])%list in
        match merge (length (List.concat ls)) ls with
        | None => None
        | Some m => Some ((c, c_name c :: m) :: t)
        end
    end.

Fixpoint define_all (t : ctab) (l : list cls) : option ctab :=
  match l with
  | [] => Some t
  | c :: r => match define t c with None => None | Some t' => define_all t' r end
  end.

(** Attribute lookup on a class whose resolution order is [m]: the class whose
    body binds the name. *)
Definition defines (t : ctab) (n a : string) : bool :=
  match get t n with Some (c, _) => memb a (c_attrs c) | None => false end.
Definition lookup (t : ctab) (m : list string) (a : string) : option string := find (fun n => defines t n a) m.

Fixpoint after (k : string) (m : list string) : list string :=
  match m with
  | [] => []
  | x :: r => if String.eqb x k then r else after k r
  end.

(** super(K, self).a where type(self) is D (super_getattro): [None] = TypeError
    (self is no K) or AttributeError. *)
Definition super_get (t : ctab) (d k a : string) : option string :=
  if memb k (mro t d) then lookup t (after k (mro t d)) a else None.

(** The super() call for the name of the method itself in a method's code. *)
Definition supers_of (t : ctab) (n a : string) : option string :=
  match get t n with
  | Some (c, _) =>
      option_map (fun x => fst (snd x)) (find (fun x => String.eqb (fst x) a && String.eqb (snd (snd x)) a) (c_supers c))
  | None => None
  end.

(** The classes whose method [a] runs, in the order in which they are entered,
    from the class [n] on. *)
Fixpoint chain_from (fuel : nat) (t : ctab) (d a n : string) : list string :=
  n ::
  match fuel with
  | O => []
  | S f =>
      match supers_of t n a with
      | None => []
      | Some k => match super_get t d k a with None => [] | Some x => chain_from f t d a x end
      end
  end.

(** What a call of [a] on an instance of [d] runs. *)
Definition chain (t : ctab) (d a : string) : list string :=
  match lookup t (mro t d) a with None => [] | Some n => chain_from (length (mro t d)) t d a n end.

(** An attribute of a new instance of [d]: bound by a class, or by an __init__
    that was run. *)
Definition has_attr (t : ctab) (d a : string) : bool :=
  existsb (fun n => defines t n a) (mro t d) ||
  existsb (fun n => match get t n with Some (c, _) => memb a (c_inits c) | None => false end) (chain t d "__init__").

(** *** The classes of the repository

    ControllerChannel.send (base.py:383-385) is locked_send (387-421); a call that the code makes under a
    condition is listed (the barrier of 410; LoggingChannel.close, 201-203, calls only when open).
    [c_inits] lists what __init__ assigns on every path.  Classes that are not channels (ReadWrapper, RateLimit, the
    servers, SyncTracker, WeakCallback) inherit from object alone and use no super(). *)

(** Python's own *)
Definition c_object : cls := mkCls "object" [] ["__init__"] [] [] [].

(** twink/base.py:69-126 *)
Definition c_Channel : cls := mkCls "Channel" ["object"]
  ["__init__"; "attach"; "closed"; "close"; "send"; "_recv"]
  []
  ["_socket"; "_sendto"; "reader"; "read_wrap"; "remote_address"; "local_address"]
  ["_socket"; "remote_address"; "local_address"; "_sendto"; "reader"; "read_wrap"].

(** twink/base.py:137-176 *)
Definition c_OpenflowBaseChannel : cls := mkCls "OpenflowBaseChannel" ["Channel"]
  ["version"; "accept_versions"; "__init__"; "__iter__"; "recv"]
  [("__init__", ("OpenflowBaseChannel", "__init__")); ("recv", ("OpenflowBaseChannel", "_recv"))]
  ["buffer"]
  ["recv"; "buffer"].

(** twink/base.py:179-204 *)
Definition c_LoggingChannel : cls := mkCls "LoggingChannel" ["OpenflowBaseChannel"]
  ["channel_log_name"; "send_log_name"; "recv_log_name"; "remote"; "__init__"; "send"; "recv"; "close"]
  [("__init__", ("LoggingChannel", "__init__")); ("send", ("LoggingChannel", "send"));
   ("recv", ("LoggingChannel", "recv")); ("close", ("LoggingChannel", "close"))]
  []
  ["remote_address"; "channel_log_name"; "remote"; "send_log_name"; "recv_log_name"; "closed"].

(** twink/base.py:207-237 *)
Definition c_OpenflowChannel : cls := mkCls "OpenflowChannel" ["OpenflowBaseChannel"]
  ["_start"; "attach"; "start"; "recv"]
  [("attach", ("OpenflowBaseChannel", "attach")); ("recv", ("OpenflowChannel", "recv"))]
  []
  ["start"; "_start"; "send"; "accept_versions"].

(** twink/base.py:316-332 *)
Definition c_OpenflowServerChannel : cls := mkCls "OpenflowServerChannel" ["OpenflowChannel"]
  ["loop"; "handle_proxy"; "handle"]
  []
  []
  ["close"; "handle_proxy"; "handle"].

(** twink/base.py:334-346 *)
Definition c_AutoEchoChannel : cls := mkCls "AutoEchoChannel" ["OpenflowServerChannel"]
  ["handle_proxy"]
  [("handle_proxy", ("AutoEchoChannel", "handle_proxy"))]
  []
  ["send"; "version"].

(** twink/base.py:349-353 *)
Definition c_WeakCallbackCaller : cls := mkCls "WeakCallbackCaller" ["object"]
  ["callback"]
  []
  []
  ["cbref"].

(** twink/base.py:356-362 *)
Definition c_Barrier : cls := mkCls "Barrier" ["WeakCallbackCaller"]
  ["__init__"]
  []
  ["xid"; "cbref"]
  [].

(** twink/base.py:365-370 *)
Definition c_Chunk : cls := mkCls "Chunk" ["WeakCallbackCaller"]
  ["__init__"]
  []
  ["cbref"]
  [].

(** twink/base.py:373-471 *)
Definition c_ControllerChannel : cls := mkCls "ControllerChannel" ["OpenflowServerChannel"; "WeakCallbackCaller"]
  ["datapath"; "auxiliary"; "cbref"; "__init__"; "send"; "locked_send"; "recv"; "handle_proxy"]
  [("__init__", ("ControllerChannel", "__init__")); ("send", ("ControllerChannel", "send"));
   ("recv", ("ControllerChannel", "recv")); ("handle_proxy", ("ControllerChannel", "handle_proxy"))]
  ["seq_lock"; "seq"]
  ["seq_lock"; "locked_send"; "seq"; "callback"; "version"; "handle_async"].

(** twink/base.py:523-578 *)
Definition c_ParallelChannel : cls := mkCls "ParallelChannel" ["OpenflowServerChannel"]
  ["socket_dir"; "async_rate"; "__init__"; "close"; "handle_proxy"; "socket_path"; "helper_path"; "override_required"]
  [("__init__", ("ParallelChannel", "__init__")); ("close", ("ParallelChannel", "close"));
   ("handle_proxy", ("ParallelChannel", "handle_proxy"))]
  ["close_lock"; "async_pool"]
  ["async_rate"; "close_lock"; "async_pool"; "socket_dir"; "datapath"; "socket_path"].

(** twink/base.py:704-779 *)
Definition c_ParentChannel : cls := mkCls "ParentChannel" ["ControllerChannel"; "ParallelChannel"]
  ["jackin"; "monitor"; "jackin_shutdown"; "monitor_shutdown"; "monitors"; "close"; "recv"; "jackin_server";
   "monitor_server"; "temp_server"]
  [("close", ("ParentChannel", "close")); ("recv", ("ParentChannel", "recv"))]
  []
  ["jackin_shutdown"; "monitor_shutdown"; "helper_path"; "jackin"; "monitor"; "monitors"; "jackin_server";
   "monitor_server"; "version"].

(** twink/base.py:781-786 *)
Definition c_JackinChannel : cls := mkCls "JackinChannel" ["ParentChannel"]
  ["jackin"]
  []
  []
  [].

(** twink/base.py:789-793 *)
Definition c_MonitorChannel : cls := mkCls "MonitorChannel" ["ParentChannel"]
  ["monitor"]
  []
  []
  [].

(** twink/base.py:796-803 *)
Definition c_ChildChannel : cls := mkCls "ChildChannel" ["OpenflowChannel"]
  ["parent"; "send"; "handle"]
  [("send", ("ChildChannel", "send"))]
  []
  [].

(** twink/base.py:814-826 *)
Definition c_JackinChildChannel : cls := mkCls "JackinChildChannel" ["ChildChannel"]
  ["__init__"; "handle"; "close"]
  [("__init__", ("JackinChildChannel", "__init__")); ("close", ("JackinChildChannel", "close"))]
  ["cbfunc"]
  ["parent"; "cbfunc"].

(** twink/base.py:836-929 *)
Definition c_SyncChannel : cls := mkCls "SyncChannel" ["ParallelChannel"]
  ["__init__"; "recv"; "send_sync"; "_sync_simple"; "close"; "echo"; "feature"; "get_config"; "barrier"; "single";
   "multi"]
  [("__init__", ("SyncChannel", "__init__")); ("recv", ("SyncChannel", "recv")); ("close", ("SyncChannel", "close"))]
  ["syncs"; "syncs_lock"]
  ["syncs"; "syncs_lock"; "send"; "send_sync"; "version"; "_sync_simple"; "multi"; "barrier"].

(** twink/base.py:932-1131 *)
Definition c_PortMonitorChannel : cls := mkCls "PortMonitorChannel" ["ControllerChannel"; "ParallelChannel"]
  ["__init__"; "recv"; "_update_port"; "ports"; "_ports_replace"; "close"; "wait_attach"; "wait_detach"]
  [("__init__", ("PortMonitorChannel", "__init__")); ("recv", ("PortMonitorChannel", "recv"));
   ("close", ("PortMonitorChannel", "close"))]
  ["timeout"; "_ports_lock"; "_ports"; "_ports_init"; "_port_monitor_multi"; "_attach"; "_detach"]
  ["version"; "_port_monitor_multi"; "_ports_lock"; "_ports_replace"; "_update_port"; "_ports_init"; "_ports";
   "_attach"; "_detach"; "send"; "timeout"].

(** twink/ovs.py:44-135 *)
Definition c_OvsChannel : cls := mkCls "OvsChannel" ["ControllerChannel"; "ParallelChannel"]
  ["add_flow"; "mod_flows"; "ofctl"; "_make_ofctl_options"]
  []
  []
  ["ofctl"; "temp_server"; "version"; "_make_ofctl_options"].

(** twink/ovs.py:138-164 *)
Definition c_AutoPacketOut : cls := mkCls "AutoPacketOut" ["ControllerChannel"]
  ["auto_packet_out"; "handle_async"]
  []
  []
  ["auto_packet_out"; "send"].

(** In the order of definition. *)
Definition repo_classes : list cls :=
  [c_Channel; c_OpenflowBaseChannel; c_LoggingChannel; c_OpenflowChannel; c_OpenflowServerChannel;
   c_AutoEchoChannel; c_WeakCallbackCaller; c_Barrier; c_Chunk; c_ControllerChannel; c_ParallelChannel;
   c_ParentChannel; c_JackinChannel; c_MonitorChannel; c_ChildChannel; c_JackinChildChannel; c_SyncChannel;
   c_PortMonitorChannel; c_OvsChannel; c_AutoPacketOut].

(** After the import of twink and twink.ovs. *)
Definition object_tab : ctab := [(c_object, ["object"])].
Definition repo_tab : ctab :=
  match define_all object_tab repo_classes with Some t => t | None => [] end.
