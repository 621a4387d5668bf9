(** Model of PortMonitorChannel (twink/base.py:932-1131): the table of switch
    ports, its initial retrieval and its update by PORT_STATUS. *)

From Verif Require Export M_Sync.
Local Open Scope Z_scope.

(** A port as exposed: the values of the namedtuple "ofp_port" in order, and
    the position of the field called [name] in its class (base.py:950-963:
    2 up to version 4, 3 in the class of version 5).  [port_no] is the first
    field in each class. *)
Record port : Type := mkPort { p_vals : list pyval; p_nameix : nat }.

Definition p_no (p : port) : pyval := nth 0 (p_vals p) VNone.
Definition p_name (p : port) : pyval := nth (p_nameix p) (p_vals p) VNone.

(** Equality of the values that occur in port tuples and as keys. *)
Definition val_eqb (a b : pyval) : bool :=
  match a, b with
  | VNone, VNone => true
  | VInt x, VInt y => x =? y
  | VBytes x, VBytes y => if list_eq_dec Z.eq_dec x y then true else false
  | _, _ => false
  end.

Fixpoint vals_eqb (a b : list pyval) : bool :=
  match a, b with
  | [], [] => true
  | x :: a', y :: b' => val_eqb x y && vals_eqb a' b'
  | _, _ => false
  end.

(** [==] of two namedtuples compares the values. *)
Definition port_eqb (p q : port) : bool := vals_eqb (p_vals p) (p_vals q).

(** *** State *)

(** base.py:936-945.  [pm_multi]: [_port_monitor_multi]; [pm_attach],
    [pm_detach]: the keys under which a living Event is stored (the
    dictionaries are weak: an entry disappears with the last waiting caller). *)
Record pmon : Type := mkPmon {
  pm_version : option Z;
  pm_ports : list port;
  pm_init : bool;
  pm_multi : list (Z * list port);
  pm_attach : list pyval;
  pm_detach : list pyval
}.

Definition pm_new : pmon := mkPmon None [] false [] [] [].

Definition set_ports (s : pmon) (l : list port) : pmon :=
  mkPmon (pm_version s) l (pm_init s) (pm_multi s) (pm_attach s) (pm_detach s).
Definition set_init (s : pmon) (b : bool) : pmon :=
  mkPmon (pm_version s) (pm_ports s) b (pm_multi s) (pm_attach s) (pm_detach s).
Definition set_multi (s : pmon) (m : list (Z * list port)) : pmon :=
  mkPmon (pm_version s) (pm_ports s) (pm_init s) m (pm_attach s) (pm_detach s).

(** *** Decoding *)

(** base.py:950-963: the format (without its "!") and the position of [name]. *)
Definition port_fmt (v : option Z) : string :=
  match v with
  | Some 2 | Some 3 | Some 4 => "I4x6s2x16sIIIIIIII"
  | Some 5 => "IH2x6s2x6sII"
  | _ => "H6s16sIIIIII"
  end%string.

Definition name_index (v : option Z) : nat :=
  match v with Some 5 => 3%nat | _ => 2%nat end.

(** [port[2] = port[2].partition(b'\0')[0]] on the list of values. *)
Definition cut2 (l : list pyval) : res (list pyval) :=
  match l with
  | a :: b :: VBytes n :: l' => Ok (a :: b :: VBytes (before_nul n) :: l')
  | _ :: _ :: _ :: _ => Err AttributeError
  | _ => Err IndexError
  end.

(** base.py:973-975 and 989-991: one port at an offset. *)
Definition read_port (v : option Z) (m : bytes) (off : nat) : res port :=
  l <- unpacks (String "!"%char (port_fmt v)) m off ;;
  l' <- cut2 l ;;
  Ok (mkPort l' (name_index v)).

(** base.py:972-976 and 988-992: [while offset < length].  Returns the ports
    appended so far also when it fails. *)
Fixpoint read_ports (fuel : nat) (v : option Z) (m : bytes) (off : nat) (length : Z)
    (acc : list port) : list port * res unit :=
  if Z.of_nat off <? length then
    match fuel with
    | O => (acc, Err OutOfFuel)
    | S fuel' =>
        match read_port v m off with
        | Err e => (acc, Err e)
        | Ok p =>
            match sizes (String "!"%char (port_fmt v)) with
            | Err e => (acc ++ [p], Err e)
            | Ok n => read_ports fuel' v m (off + n) length (acc ++ [p])
            end
        end
    end
  else (acc, Ok tt).

(** *** Waiters *)

Definition has_key (l : list pyval) (k : pyval) : bool := existsb (val_eqb k) l.

(** [s = d.get(port_no, d.get(name)); if s: s.set(port); d.pop(s)]
    (base.py:1013-1016, 1024-1027, 1070-1092): set() takes no argument, so a
    living waiter makes it a TypeError. *)
Definition notify (l : list pyval) (keys : list pyval) : res unit :=
  if existsb (has_key l) keys then Err TypeError else Ok tt.

(** *** _update_port (base.py:1004-1041) *)

Fixpoint index_of (p : port) (l : list port) : option nat :=
  match l with
  | [] => None
  | q :: l' => if port_eqb q p then Some O else option_map S (index_of p l')
  end.

Fixpoint remove_first (p : port) (l : list port) : list port :=
  match l with
  | [] => []
  | q :: l' => if port_eqb q p then l' else q :: remove_first p l'
  end.

Definition insert_at (i : nat) (p : port) (l : list port) : list port :=
  firstn i l ++ p :: skipn i l.

Definition update_port (s : pmon) (reason : Z) (p : port) : pmon * res unit :=
  let ports := pm_ports s in
  let hit := filter (fun x => val_eqb (p_no x) (p_no p)) ports in
  let r :=
    if reason =? 0 then
      if pm_init s && negb (match hit with [] => true | _ => false end) then Err AssertionError
      else _ <- notify (pm_attach s) [p_no p; p_name p] ;; Ok (ports ++ [p])
    else if reason =? 1 then
      match hit with
      | [] => if pm_init s then Err AssertionError
              else _ <- notify (pm_detach s) [p_no p; p_name p] ;; Ok ports
      | [old] => _ <- notify (pm_detach s) [p_no p; p_name p] ;; Ok (remove_first old ports)
      | _ => Err AssertionError
      end
    else if reason =? 2 then
      match hit with
      | [] => if pm_init s then Err AssertionError else Ok (ports ++ [p])
      | [old] =>
          match index_of old ports with
          | Some idx => Ok (insert_at idx p (remove_first old ports))
          | None => Err ValueError
          end
      | _ => Err AssertionError
      end
    else Err AssertionError in
  match r with
  | Ok l => (set_ports s l, Ok tt)
  | Err e => (s, Err e)
  end.

(** *** _ports_replace (base.py:1062-1094) *)

Definition inb (l : list pyval) (k : pyval) : bool := has_key l k.

Fixpoint first_err {A} (f : A -> res unit) (l : list A) : res unit :=
  match l with [] => Ok tt | a :: l' => _ <- f a ;; first_err f l' end.

Definition ports_replace (s : pmon) (new : list port) : pmon * res unit :=
  let old := pm_ports s in
  let gone :=
    first_err (fun p =>
      _ <- (if negb (inb (map p_no new) (p_no p)) then notify (pm_detach s) [p_no p] else Ok tt) ;;
      (if negb (inb (map p_name new) (p_name p)) then notify (pm_detach s) [p_name p] else Ok tt)) old in
  let come :=
    first_err (fun p =>
      _ <- (if negb (inb (map p_no old) (p_no p)) then notify (pm_attach s) [p_no p] else Ok tt) ;;
      (if negb (inb (map p_name old) (p_name p)) then notify (pm_attach s) [p_name p] else Ok tt)) new in
  match (_ <- gone ;; come) with
  | Ok _ => (set_ports s new, Ok tt)
  | Err e => (s, Err e)
  end.

(** *** recv (base.py:947-1002) *)

Definition is_v45 (v : option Z) : bool :=
  match v with Some 4 | Some 5 => true | _ => false end.

Definition replace_and_set (s : pmon) (ports : list port) : pmon * res unit :=
  match ports_replace s ports with
  | (s', Ok _) => (set_init s' true, Ok tt)
  | r => r
  end.

(** A message received from super().recv(); the exceptions it raises leave
    recv() and end the loop of the channel. *)
Definition pm_recv (s : pmon) (m : bytes) : pmon * res unit :=
  match m with
  | [] => (s, Ok tt)
  | _ :: _ =>
  match parse_ofp_header m with
  | Err e => (s, Err e)
  | Ok h =>
      match dget (pm_multi s) (h_xid h), h_type h =? 19 with
      | Some ports, true =>
          if negb (is_v45 (pm_version s)) then (s, Err AssertionError)
          else
            match unpacks "!HH4x" m 8 with
            | Ok [VInt mptype; VInt flags] =>
                if mptype =? 13 then
                  let '(ports', r) := read_ports (length m) (pm_version s) m 16 (h_length h) ports in
                  let s1 := set_multi s (dput (pm_multi s) (h_xid h) ports') in
                  match r with
                  | Err e => (s1, Err e)
                  | Ok _ =>
                      if Z.odd flags then (s1, Ok tt)
                      else
                        match replace_and_set s1 ports' with
                        | (s2, Ok _) => (set_multi s2 (dpop (pm_multi s2) (h_xid h)), Ok tt)
                        | r => r
                        end
                  end
                else (s, Ok tt)
            | Ok _ => (s, Err ValueError)
            | Err e => (s, Err e)
            end
      | _, _ =>
          if (h_type h =? 6) && negb (match pm_version s with Some 4 => true | _ => false end) then
            match sizes "!BBHIQIB3xII" with
            | Err e => (s, Err e)
            | Ok off =>
                let '(ports, r) := read_ports (length m) (pm_version s) m off (h_length h) [] in
                match r with
                | Err e => (s, Err e)
                | Ok _ => replace_and_set s ports
                end
            end
          else if h_type h =? 12 then
            match unpacks (String.append "!B7x" (port_fmt (pm_version s))) m 8 with
            | Ok (VInt reason :: vals) =>
                match cut2 vals with
                | Ok l => update_port s reason (mkPort l (name_index (pm_version s)))
                | Err e => (s, Err e)
                end
            | Ok _ => (s, Err TypeError)
            | Err e => (s, Err e)
            end
          else (s, Ok tt)
      end
  end
  end.

(** *** Requests and waiting *)

(** base.py:1043-1060 [ports], up to the wait: [None] when the table is
    already there; otherwise the request sent and the new state.  [xid] is
    hms_xid()'s value, or the one ofp_header_only draws. *)
Definition ports_request (s : pmon) (xid : Z) : pmon * option (res bytes) :=
  if pm_init s then (s, None)
  else if is_v45 (pm_version s) then
    (set_multi s (dput (pm_multi s) xid []),
     Some (packs "!BBHIHH4x" [vint (pm_version s); VInt 18; VInt 16; VInt xid; VInt 13; VInt 0]))
  else (s, Some (ofp_header_only 5 (vint (pm_version s)) xid)).

Definition known (s : pmon) (k : pyval) : option port :=
  find (fun p => val_eqb (p_no p) k || val_eqb (p_name p) k) (pm_ports s).

(** base.py:1100-1114 [wait_attach] and 1116-1131 [wait_detach]: the value
    returned at once, or the state in which the caller waits. *)
Definition wait_attach (s : pmon) (k : pyval) : pmon * option port :=
  match known s k with
  | Some p => (s, Some p)
  | None =>
      (mkPmon (pm_version s) (pm_ports s) (pm_init s) (pm_multi s)
         (if has_key (pm_attach s) k then pm_attach s else k :: pm_attach s) (pm_detach s), None)
  end.

Definition wait_detach (s : pmon) (k : pyval) : pmon * option pyval :=
  match known s k with
  | None => (s, Some k)
  | Some _ =>
      (mkPmon (pm_version s) (pm_ports s) (pm_init s) (pm_multi s) (pm_attach s)
         (if has_key (pm_detach s) k then pm_detach s else k :: pm_detach s), None)
  end.
