(** Model of twink/ofp5/oxm.py: OXM match fields of OpenFlow 1.4.

    Simplifications: offsets are non-negative; the namedtuple [oxm] is [VTup] in
    field order; [struct.calcsize(bits)] with native sizes (line 79) is
    that of standard sizes (equal for the formats of [_bits]). *)

From Verif Require Export Struct.
From Verif Require Import M_Oxm.
Local Open Scope Z_scope.
Local Open Scope list_scope.

(** oxm.py:15-28: IN_PORT = 0 to PBB_UCA = 40 in the order of the list
    (M_EnumData5.v).  oxm.py:40-61 [_bits]. *)
Definition bits5 (f : pyval) : string :=
  if py_inz f [0; 1] then "I"
  else if py_inz f [2; 38] then "Q"
  else if py_inz f [3; 4; 24; 25; 32; 33] then "6s"
  else if py_inz f [5; 6; 13; 14; 15; 16; 17; 18; 21; 39] then "H"
  else if py_inz f [11; 12; 22; 23] then "4s"
  else if py_inz f [26; 27; 31] then "16s"
  else if py_inz f [37] then "3s"
  else "B".

(** oxm.py:63-81 [parse]: six fields with a mask, five without. *)
Definition oxm5_parse (m : bytes) (off : nat) : res pyval :=
  vs <- unpacks "HBB" m off ;;
  match vs with
  | [VInt c; VInt p; VInt n] =>
      let f := Z.shiftr p 1 in
      let h := Z.land p 1 in
      let off := (off + 4)%nat in
      if negb (c =? 32768) then Err ValueError
      else
        let bits := bits5 (VInt f) in
        if negb (h =? 0) then
          s <- sizes (bits ++ bits) ;;
          assert_ (n =? Z.of_nat s) ;;;
          vs <- unpacks (bits ++ bits) m off ;;
          match vs with
          | [v; k] => Ok (VTup "oxm" [VInt c; VInt f; VInt h; VInt n; v; k])
          | _ => Err TypeError
          end
        else
          s <- sizes bits ;;
          assert_ (n =? Z.of_nat s) ;;;
          vs <- unpacks bits m off ;;
          match vs with
          | [v] => Ok (VTup "oxm" [VInt c; VInt f; VInt h; VInt n; v])
          | _ => Err TypeError
          end
  | _ => Err ValueError
  end.

(** [m.oxm_length] (oxm.py:88): the fourth field. *)
Definition oxm5_length (v : pyval) : res Z :=
  match v with VTup _ (_ :: _ :: _ :: VInt n :: _) => Ok n | _ => Err AttributeError end.

(** oxm.py:83-89 [parse_list]; the while loop by fuel. *)
Fixpoint parse_list5_ (fuel : nat) (m : bytes) (off : nat) : res (list pyval) :=
  match fuel with
  | O => Err OutOfFuel
  | S fuel =>
      if (off <? length m)%nat then
        x <- oxm5_parse m off ;;
        n <- oxm5_length x ;;
        r <- parse_list5_ fuel m (off + 4 + Z.to_nat n) ;;
        Ok (x :: r)
      else Ok []
  end.

(** The loop with as much fuel as the message has bytes, and one. *)
Definition parse_list5 (m : bytes) (off : nat) : res (list pyval) := parse_list5_ (S (length m)) m off.

(** oxm.py:91-114 [build]; oxm_length is recomputed. *)
Definition oxm5_build (oxm_class oxm_field oxm_hasmask oxm_length oxm_value oxm_mask : pyval) : res bytes :=
  let c := default oxm_class 32768 in
  assert_ (py_eqz c 32768) ;;;
  let b := bits5 oxm_field in
  let h := if truthy oxm_hasmask then 1 else 0 in
  let '(h, k) := match oxm_mask with
                 | VNone => (h, if h =? 1 then VInt 0 else VNone)
                 | k => (1, k)
                 end in
  if h =? 1 then
    n <- sizes (b ++ b) ;;
    match oxm_field with
    | VInt f => packs ("HBB" ++ b ++ b) [c; VInt (Z.shiftl f 1 + h); VInt (Z.of_nat n); oxm_value; k]
    | _ => Err TypeError
    end
  else
    n <- sizes b ;;
    match oxm_field with
    | VInt f => packs ("HBB" ++ b) [c; VInt (Z.shiftl f 1 + h); VInt (Z.of_nat n); oxm_value]
    | _ => Err TypeError
    end.

(** [oxm.build( *args)]: the mask may be left out. *)
Definition build5_args (args : list pyval) : res bytes :=
  match args with
  | [c; f; h; n; v; k] => oxm5_build c f h n v k
  | [c; f; h; n; v] => oxm5_build c f h n v VNone
  | _ => Err TypeError
  end.
