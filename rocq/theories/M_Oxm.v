(** Model of twink/ofp4/oxm.py: OXM match fields.

    Simplification: offsets are non-negative.  The namedtuples [oxm], [nxm] and
    [stratos] are [VTup] in field order. *)

From Verif Require Export Struct.
Local Open Scope Z_scope.
Local Open Scope list_scope.

(** Truth value of an object ([if x:]): None, 0 and empty sequences are
    false. *)
Definition truthy (v : pyval) : bool :=
  match v with
  | VNone => false
  | VInt z => negb (z =? 0)
  | VBytes [] | VText [] | VList [] | VTup _ [] => false
  | _ => true
  end.

(** oxm.py:6-28: the numbers are those the enumerations assign, OXM_OF_IN_PORT
    = 0 to OXM_OF_IPV6_EXTHDR = 39 in the order of the list.
    oxm.py:90-111 [_bits]. *)
Definition bits_ (f : pyval) : string :=
  if py_inz f [0; 1] then "I"
  else if py_inz f [2; 38] then "Q"
  else if py_inz f [3; 4; 24; 25; 32; 33] then "6s"
  else if py_inz f [5; 6; 13; 14; 15; 16; 17; 18; 21; 39] then "H"
  else if py_inz f [11; 12; 22; 23] then "4s"
  else if py_inz f [26; 27; 31] then "16s"
  else if py_inz f [37] then "3s"
  else "B".

(** oxm.py:113-115 [_nxm_basic_bits]. *)
Definition nxm_basic_bits (f : Z) : option string := if f =? 32 then Some "4s"%string else None.

(** oxm.py:117-119 [_stratos_basic_bits]; DOT11 = 1, DOT11_PUBLIC_ACTION = 9,
    DOT11_TAG = 10 (oxm.py:53-67). *)
Definition stratos_basic_bits (e : pyval) : option string :=
  if py_inz e [1; 9; 10] then Some "B"%string else None.

(** oxm.py:121-133 [_stratos_radiotap_bits]; numbers of oxm.py:69-88. *)
Definition stratos_radiotap_bits (e : pyval) : option string :=
  if py_inz e [1; 2; 11; 12; 13; 16; 17] then Some "B"%string
  else if py_inz e [5; 6; 10] then Some "b"%string
  else if py_inz e [7; 14; 15; 8; 9] then Some "H"%string
  else if py_inz e [0] then Some "Q"%string
  else None.

(** struct with "<": every number with its least significant byte first. *)
Fixpoint decode_le (fs : list fitem) (l : bytes) : list pyval :=
  match fs with
  | [] => []
  | f :: fs' =>
      let n := item_size f in
      decode [f] (match f with FU _ | FI _ => rev (firstn n l) | _ => firstn n l end)
        ++ decode_le fs' (skipn n l)
  end.

Definition unpacks_le (f : string) (m : bytes) (off : nat) : res (list pyval) :=
  fs <- fmt f ;;
  if (off + calcsize fs <=? length m)%nat then Ok (decode_le fs (skipn off m)) else Err StructError.

Fixpoint pack_le (fs : list fitem) (vs : list pyval) : res bytes :=
  match fs, vs with
  | [], [] => Ok []
  | f :: fs', v :: vs' =>
      b <- pack_item f v ;; r <- pack_le fs' vs' ;;
      Ok ((match f with FU _ | FI _ => rev b | _ => b end) ++ r)
  | _, _ => Err StructError
  end.

Definition packs_le (f : string) (vs : list pyval) : res bytes := fs <- fmt f ;; pack_le fs vs.

(** oxm.py:135-137. *)
Definition oxm_ (c f h n : Z) (v k : pyval) : pyval :=
  VTup "oxm" [VInt c; VInt f; VInt h; VInt n; v; k].
Definition nxm_ (c f h n : Z) (v k : pyval) : pyval :=
  VTup "nxm" [VInt c; VInt f; VInt h; VInt n; v; k].
Definition stratos_ (c f h n e t : Z) (v k : pyval) : pyval :=
  VTup "stratos" [VInt c; VInt f; VInt h; VInt n; VInt e; VInt t; v; k].

(** oxm.py:145-155 and 156-167: the value, and the mask when there is one; [t]
    is the namedtuple. *)
Definition value_mask (t : pyval -> pyval -> pyval) (bits : string) (h n : Z) (m : bytes) (off : nat) : res pyval :=
  if negb (h =? 0) then
    s <- sizes (bits ++ bits) ;;
    assert_ (n =? Z.of_nat s) ;;;
    vs <- unpacks (bits ++ bits) m off ;;
    match vs with [v; k] => Ok (t v k) | _ => Err TypeError end
  else
    s <- sizes bits ;;
    assert_ (n =? Z.of_nat s) ;;;
    vs <- unpacks bits m off ;;
    match vs with v :: _ => Ok (t v VNone) | [] => Err IndexError end.

(** oxm.py:45: STRATOS_EXPERIMENTER_ID. *)
Definition stratos_id : Z := 4278247501.

(** oxm.py:171-203: the stratos value; [n] is oxm_length.  Line 192 applies "/"
    to the formatted string: TypeError.  A negative count is no format. *)
Definition stratos_value (f h n : Z) (t : Z) (m : bytes) (off : nat) : res (list pyval) :=
  let twice (b : string) := if negb (h =? 0) then (b ++ b)%string else b in
  let rest :=
    if negb (h =? 0) then Err TypeError
    else if n - 6 <? 0 then Err StructError
    else unpack_from [FS (Z.to_nat (n - 6))] m off in
  if f =? 0 then
    match stratos_basic_bits (VInt t) with Some b => unpacks (twice b) m off | None => rest end
  else if f =? 1 then
    match stratos_radiotap_bits (VInt t) with Some b => unpacks_le (twice b) m off | None => rest end
  else rest.

(** oxm.py:139-207 [parse]. *)
Definition oxm_parse (m : bytes) (off : nat) : res pyval :=
  vs <- unpacks "HBB" m off ;;
  match vs with
  | [VInt c; VInt p; VInt n] =>
      let f := Z.shiftr p 1 in
      let h := Z.land p 1 in
      let off := (off + 4)%nat in
      if c =? 32768 then value_mask (oxm_ c f h n) (bits_ (VInt f)) h n m off
      else if c =? 1 then
        match nxm_basic_bits f with
        | None => Err TypeError
        | Some b => value_mask (nxm_ c f h n) b h n m off
        end
      else if c =? 65535 then
        es <- unpacks "I" m off ;;
        match es with
        | [VInt e] =>
            if e =? stratos_id then
              ts <- unpacks "H" m (off + 4) ;;
              match ts with
              | [VInt t] =>
                  vs <- stratos_value f h n t m (off + 6) ;;
                  let vs := if negb (h =? 0) then vs else vs ++ [VNone] in
                  match vs with [v; k] => Ok (stratos_ c f h n e t v k) | _ => Err TypeError end
              | _ => Err ValueError
              end
            else Err ValueError
        | _ => Err ValueError
        end
      else Err ValueError
  | _ => Err ValueError
  end.

(** [m.oxm_length] (oxm.py:214): the namedtuple nxm has no such field. *)
Definition oxm_length (v : pyval) : res Z :=
  match v with
  | VTup cls (_ :: _ :: _ :: VInt n :: _) =>
      if (cls =? "nxm")%string then Err AttributeError else Ok n
  | _ => Err AttributeError
  end.

(** oxm.py:209-215 [parse_list]; the while loop by fuel. *)
Fixpoint parse_list_ (fuel : nat) (m : bytes) (off : nat) : res (list pyval) :=
  match fuel with
  | O => Err OutOfFuel
  | S fuel =>
      if (off <? length m)%nat then
        x <- oxm_parse m off ;;
        n <- oxm_length x ;;
        r <- parse_list_ fuel m (off + 4 + Z.to_nat n) ;;
        Ok (x :: r)
      else Ok []
  end.

(** The loop with as much fuel as the message has bytes, and one. *)
Definition parse_list (m : bytes) (off : nat) : res (list pyval) := parse_list_ (S (length m)) m off.

(** oxm.py:217-240 [build]; oxm_length is recomputed. *)
Definition oxm_build (oxm_class oxm_field oxm_hasmask oxm_length oxm_value oxm_mask : pyval) : res bytes :=
  let c := default oxm_class 32768 in
  let h := if truthy oxm_hasmask then 1 else 0 in
  let '(h, k) := match oxm_mask with
                 | VNone => (h, if h =? 1 then VInt 0 else VNone)
                 | k => (1, k)
                 end in
  let b := bits_ oxm_field in
  if h =? 1 then
    n <- sizes (b ++ b) ;;
    match oxm_field with
    | VInt f => packs ("HBB" ++ b ++ b) [c; VInt (Z.shiftl f 1 + h); VInt (Z.of_nat n); oxm_value; k]
    | _ => Err TypeError
    end
  else
    n <- sizes b ;;
    match oxm_field with
    | VInt f => packs ("HBB" ++ b) [c; VInt (Z.shiftl f 1 + h); VInt (Z.of_nat n); oxm_value]
    | _ => Err TypeError
    end.

(** oxm.py:242-280 [build_stratos].  [packs] is never empty where it is tested
    (line 263), as "!" or "<" stands before the format; line 250 adds None to a string
    when there are no bits.  The last line adds oxm_hasmask as given. *)
Definition build_stratos (oxm_class oxm_field oxm_hasmask oxm_length exp exp_type oxm_value oxm_mask : pyval) : res bytes :=
  let c := default oxm_class 65535 in
  if py_eqz exp stratos_id then
    vm <- (if py_eqz oxm_field 0 then
             match stratos_basic_bits exp_type with
             | None => Err TypeError
             | Some b =>
                 if truthy oxm_hasmask then packs b [oxm_value; oxm_mask]
                 else packs (b ++ b) [oxm_value]
             end
           else if py_eqz oxm_field 1 then
             match stratos_radiotap_bits exp_type with
             | None => Err TypeError
             | Some b =>
                 if truthy oxm_hasmask then packs_le b [oxm_value; oxm_mask]
                 else packs_le (b ++ b) [oxm_value]
             end
           else Err ValueError) ;;
    match oxm_field, oxm_hasmask with
    | VInt f, VInt h =>
        p <- packs "HBBIH" [c; VInt (Z.shiftl f 1 + h); VInt (6 + zlen vm); exp; exp_type] ;;
        Ok (p ++ vm)
    | _, _ => Err TypeError
    end
  else Err ValueError.
