(** Model of HELLO construction, parsing and version negotiation, and of the
    transaction id generator (twink/base.py:207-313). *)

From Verif Require Export Struct.
Local Open Scope Z_scope.

(** base.py:240-244 [parse_ofp_header]. *)
Record header : Type := mkHeader { h_version : Z; h_type : Z; h_length : Z; h_xid : Z }.

Definition parse_ofp_header (m : bytes) : res header :=
  vs <- unpacks "!BBHI" m 0 ;;
  match vs with
  | [VInt version; VInt oftype; VInt length; VInt xid] => Ok (mkHeader version oftype length xid)
  | _ => Err ValueError
  end.

(** base.py:247-250 [ofp_header_only]; the xid argument is the explicit one or
    the value hms_xid() returned.  [version] is a dynamic value because
    callers pass self.version, which may be None. *)
Definition ofp_header_only (oftype : Z) (version : pyval) (xid : Z) : res bytes :=
  packs "!BBHI" [version; VInt oftype; VInt 8; VInt xid].

(** base.py:253-261 [hms_xid].  [clock] is datetime.now() as (hour, minute,
    second, microsecond); the "%02d%02d%02d%04d" string is its digit list;
    microsecond/100 is floor division (Python 2).  The function attribute
    [dedup] is the state; [None] = not set yet. *)
Record clock : Type := mkClock { c_hour : Z; c_min : Z; c_sec : Z; c_us : Z }.

Definition digits2 (n : Z) : list Z := [n / 10; n mod 10].
Definition digits4 (n : Z) : list Z := [n / 1000; n / 100 mod 10; n / 10 mod 10; n mod 10].
Definition int_of_digits (ds : list Z) : Z := fold_left (fun a d => a * 10 + d) ds 0.

Definition candidate (t : clock) : Z :=
  int_of_digits (digits2 (c_hour t) ++ digits2 (c_min t) ++ digits2 (c_sec t)
                 ++ digits4 (c_us t / 100)).

Definition hms_xid (dedup : option Z) (t : clock) : option Z * Z :=
  let c := candidate t in
  let c := match dedup with
           | Some d => if d >=? c then d + 1 else c
           | None => c
           end in
  (Some c, c).

(** A run of sequential calls at given clock readings. *)
Fixpoint hms_xids (dedup : option Z) (ts : list clock) : list Z :=
  match ts with
  | [] => []
  | t :: ts' => match hms_xid dedup t with (d, x) => x :: hms_xids d ts' end
  end.

(** One element of an accept_versions list: an int (bool included), a float
    (in tenths when it is a multiple of 0.1), anything else. *)
Inductive ver : Type :=
| VI (z : Z)
| VF (tenths : option Z)
| VX.

(** The [versions] argument: None, a list/tuple/set, or another object with
    its truth value. *)
Inductive versions : Type :=
| VsNone
| VsSeq (l : list ver)
| VsOther (truthy : bool).

(** Python sets of ints as duplicate-free lists. *)
Definition set_mem (v : Z) (s : list Z) : bool := existsb (Z.eqb v) s.
Definition set_add (v : Z) (s : list Z) : list Z := if set_mem v s then s else s ++ [v].
Definition set_inter (a b : list Z) : list Z := filter (fun v => set_mem v b) a.

(** [max(s)]: ValueError on the empty set. *)
Definition set_max (s : list Z) : res Z :=
  match s with [] => Err ValueError | v :: s' => Ok (fold_left Z.max s' v) end.

(** base.py:264-275 [ofp_version_normalize]; [.index] raises ValueError for a
    float that is not in the list. *)
Definition norm_version (v : ver) : res Z :=
  match v with
  | VI z => Ok z
  | VF (Some t) => if (10 <=? t) && (t <=? 14) then Ok (t - 10 + 1) else Err ValueError
  | VF None => Err ValueError
  | VX => Err AssertionError
  end.

Fixpoint norm_versions (l : list ver) (vset : list Z) : res (list Z) :=
  match l with
  | [] => Ok vset
  | v :: l' => z <- norm_version v ;; norm_versions l' (set_add z vset)
  end.

Definition ofp_version_normalize (vs : versions) : res (list Z) :=
  match vs with
  | VsSeq l => norm_versions l []
  | VsNone => Ok []
  | VsOther _ => Err AssertionError
  end.

(** [bool(versions)]. *)
Definition vs_truthy (vs : versions) : bool :=
  match vs with
  | VsNone => false
  | VsSeq [] => false
  | VsSeq _ => true
  | VsOther b => b
  end.

(** Python list indexing: negative indices count from the end. *)
Definition py_index (n : nat) (i : Z) : res nat :=
  if (0 <=? i) && (i <? Z.of_nat n) then Ok (Z.to_nat i)
  else if (i <? 0) && (- Z.of_nat n <=? i) then Ok (Z.to_nat (i + Z.of_nat n))
  else Err IndexError.

Fixpoint update {A} (l : list A) (i : nat) (f : A -> A) : list A :=
  match l, i with
  | [], _ => []
  | x :: l', O => f x :: l'
  | x :: l', S i' => x :: update l' i' f
  end.

(** base.py:289-291: [units[v//32] |= 1<<(v%32)]. *)
Definition set_bit (units : list Z) (v : Z) : res (list Z) :=
  i <- py_index (length units) (v / 32) ;;
  Ok (update units i (fun u => Z.lor u (Z.shiftl 1 (v mod 32)))).

Fixpoint set_bits (units : list Z) (vs : list Z) : res (list Z) :=
  match vs with
  | [] => Ok units
  | v :: vs' => u <- set_bit units v ;; set_bits u vs'
  end.

(** base.py:294: the format "!BBHIHH%dI%dx" with its two numbers filled in. *)
Definition hello_fmt (n : nat) : list fitem :=
  [FU 1; FU 1; FU 2; FU 4; FU 2; FU 2] ++ repeat (FU 4) n ++ [FX (8 * ((n - 1) mod 2))].

(** base.py:278-296 [hello]; [xid] is kwargs["xid"] or the value hms_xid()
    returned (base.py:279 calls hms_xid in either case). *)
Definition hello (vs : versions) (xid : Z) : res bytes :=
  vset <- (if vs_truthy vs then ofp_version_normalize vs else Ok [1]) ;;
  version <- set_max vset ;;
  if version <? 4 then packs "!BBHI" [VInt version; VInt 0; VInt 8; VInt xid]
  else
    units <- set_bits (repeat 0 (Z.to_nat (1 + version / 32))) vset ;;
    let n := length units in
    pack (hello_fmt n)
      ([VInt version; VInt 0; VInt (Z.of_nat (calcsize (hello_fmt n))); VInt xid;
        VInt 1; VInt (4 + Z.of_nat n * 4)] ++ map VInt units).

(** base.py:309-312: the inner loops over units and bits. *)
Definition bits32 : list nat := seq 0 32.

Definition unit_versions (idx : nat) (unit_ : Z) : list Z :=
  map (fun s => Z.of_nat idx * 32 + Z.of_nat s)
    (filter (fun s => negb (Z.land unit_ (Z.shiftl 1 (Z.of_nat s)) =? 0)) bits32).

Fixpoint units_versions (idx : nat) (units : list Z) : list Z :=
  match units with
  | [] => []
  | u :: us => unit_versions idx u ++ units_versions (S idx) us
  end.

Definition ints (vs : list pyval) : list Z :=
  flat_map (fun v => match v with VInt z => [z] | _ => [] end) vs.

(** base.py:299-313 [parse_hello]; [sublength/4] is floor division.  A negative
    count gives the format "!-1I": struct.error. *)
Definition parse_hello (m : bytes) : res (list Z) :=
  h <- parse_ofp_header m ;;
  assert_ (h_type h =? 0) ;;;
  if h_length h =? 8 then Ok [h_version h]
  else
    vs <- unpacks "!HH" m 8 ;;
    match vs with
    | [VInt subtype; VInt sublength] =>
        assert_ (subtype =? 1) ;;;
        let n := sublength / 4 - 1 in
        if n <? 0 then Err StructError
        else us <- unpack_from (repeat (FU 4) (Z.to_nat n)) m 12 ;;
             Ok (units_versions 0 (ints us))
    | _ => Err ValueError
    end.

(** The part of a channel's state that negotiation touches: the negotiated
    version and the messages handed to send() so far. *)
Record och : Type := mkOch { o_version : option Z; o_sent : list bytes }.

Definition version_names : list string := ["-"; "1.0"; "1.1"; "1.2"; "1.3"; "1.4"]%string.

(** base.py:232: [names[x] for x in list(accept_versions)], printed with %s:
    the repr of a list of str. *)
Fixpoint map_names (l : list Z) : res (list string) :=
  match l with
  | [] => Ok []
  | x :: l' =>
      i <- py_index 6 x ;;
      r <- map_names l' ;;
      Ok (nth i version_names ""%string :: r)
  end.

Fixpoint join_repr (l : list string) : string :=
  match l with
  | [] => ""
  | [s] => "'" ++ s ++ "'"
  | s :: l' => "'" ++ s ++ "', " ++ join_repr l'
  end%string.

Definition ascii_txt (names : list string) : bytes :=
  bytes_of_string ("Accept versions: [" ++ join_repr names ++ "]")%string.

(** base.py:220-237 [OpenflowChannel.recv] after its super().recv() returned
    the non-empty [m].  [order] is the iteration order of the set (an oracle), [xid] what
    hms_xid() returns.  send() is assumed to succeed here. *)
Definition negotiate_msg (accept : versions) (order : list Z -> list Z) (xid : Z)
    (c : och) (m : bytes) : och * res bytes :=
    match parse_ofp_header m with
    | Err e => (c, Err e)
    | Ok h =>
      if h_type h =? 0 then
        match ofp_version_normalize accept with
        | Err e => (c, Err e)
        | Ok acc0 =>
          let acc := match acc0 with [] => [1] | _ => acc0 end in
          match parse_hello m with
          | Err e => (c, Err e)
          | Ok peer =>
            match set_inter peer acc with
            | (_ :: _) as cross =>
              match set_max cross with
              | Ok v => (mkOch (Some v) (o_sent c), Ok m)
              | Err e => (c, Err e)
              end
            | [] =>
              match (names <- map_names (order acc) ;;
                     mx <- set_max acc ;;
                     p <- packs "!BBHIHH" [VInt mx; VInt 1;
                            VInt (12 + zlen (ascii_txt names)); VInt xid; VInt 0; VInt 0] ;;
                     Ok (p ++ ascii_txt names)) with
              | Ok msg => (mkOch (o_version c) (o_sent c ++ [msg]), Err ChannelClose)
              | Err e => (c, Err e)
              end
            end
          end
        end
      else (c, Ok m)
    end.

(** base.py:222: nothing is done for b"". *)
Definition negotiate (accept : versions) (order : list Z -> list Z) (xid : Z)
    (c : och) (m : bytes) : och * res bytes :=
  match m with
  | [] => (c, Ok m)
  | _ :: _ => negotiate_msg accept order xid c m
  end.

(** *** hms_xid in several threads (base.py:253-261), one attribute access per
    step.  A thread about to call is [XIdle]; the attribute accesses are:
    hasattr, the read in the comparison, the read in [dedup+1], setattr. *)
Inductive xpc : Type :=
| XIdle                       (* between calls *)
| XTest (c : Z)               (* candidate computed, before hasattr *)
| XCmp (c : Z)                (* hasattr was true, before the comparison *)
| XInc (c : Z)                (* comparison was true, before reading dedup+1 *)
| XStore (c : Z).             (* before setattr and return *)

(** Shared attribute, program counters, ids returned so far with the thread
    that got them (latest first). *)
Record xst : Type := mkXst { x_dedup : option Z; x_pc : nat -> xpc; x_out : list (nat * Z) }.

Definition xset (f : nat -> xpc) (t : nat) (p : xpc) : nat -> xpc :=
  fun u => if Nat.eqb u t then p else f u.

(** One step of thread [t]; [now] is the clock, used when a call begins. *)
Definition xstep (s : xst) (t : nat) (now : clock) : xst :=
  match x_pc s t with
  | XIdle => mkXst (x_dedup s) (xset (x_pc s) t (XTest (candidate now))) (x_out s)
  | XTest c =>
      mkXst (x_dedup s)
        (xset (x_pc s) t (match x_dedup s with Some _ => XCmp c | None => XStore c end))
        (x_out s)
  | XCmp c =>
      mkXst (x_dedup s)
        (xset (x_pc s) t
          (match x_dedup s with
           | Some d => if d >=? c then XInc c else XStore c
           | None => XStore c end))
        (x_out s)
  | XInc c =>
      mkXst (x_dedup s)
        (xset (x_pc s) t (XStore (match x_dedup s with Some d => d + 1 | None => c end)))
        (x_out s)
  | XStore c => mkXst (Some c) (xset (x_pc s) t XIdle) ((t, c) :: x_out s)
  end.

Fixpoint xrun (s : xst) (sched : list (nat * clock)) : xst :=
  match sched with
  | [] => s
  | (t, now) :: r => xrun (xstep s t now) r
  end.

Definition xinit : xst := mkXst None (fun _ => XIdle) [].

(** A whole call of thread [t] without interruption: step until idle again. *)
Fixpoint xfinish (n : nat) (s : xst) (t : nat) (now : clock) : xst :=
  match n with
  | O => s
  | S n' => match x_pc s t with
            | XIdle => s
            | _ => xfinish n' (xstep s t now) t now
            end
  end.
Definition xcall (s : xst) (t : nat) (now : clock) : xst := xfinish 4 (xstep s t now) t now.

Fixpoint xcalls (s : xst) (calls : list (nat * clock)) : xst :=
  match calls with
  | [] => s
  | (t, now) :: r => xcalls (xcall s t now) r
  end.
