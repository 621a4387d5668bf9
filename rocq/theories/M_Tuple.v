(** Model of [ofptuple] (twink/ofp4/__init__.py:495-544 and the identical
    twink/ofp5/__init__.py:643-692): the OpenFlow 1.0 match of an Ethernet
    frame.

    Simplification: the namedtuple is [VTup] in field order. *)

From Verif Require Export Struct.
Local Open Scope Z_scope.
Local Open Scope list_scope.

Fixpoint bytes_eqb (a b : bytes) : bool :=
  match a, b with
  | [], [] => true
  | x :: a', y :: b' => (x =? y) && bytes_eqb a' b'
  | _, _ => false
  end.

(** line 514: the str "0x00"*3, twelve characters. *)
Definition zero_oui : bytes := bytes_of_string "0x000x000x00".

(** lines 512-516: [offset] becomes 8 (it is not added to the 4 of a VLAN
    tag); the header is looked for at 14 whatever [offset] is. *)
Definition llc (frame : bytes) (ethernet_type offset : Z) : res (Z * Z) :=
  if ethernet_type <? 1500 then
    vs <- unpacks "!BBB3sH" frame 14 ;;
    match vs with
    | [VInt dsap; VInt ssap; VInt ctl; VBytes oui; VInt snap_type] =>
        if (dsap =? 170) && (ssap =? 170) && bytes_eqb oui zero_oui
        then Ok (snap_type, 8) else Ok (ethernet_type, offset)
    | _ => Err StructError
    end
  else Ok (ethernet_type, offset).

(** lines 518-529: (ip_tos, ip_protocol, ip_src, ip_dst, tp_src, tp_dst). *)
Definition network (frame : bytes) (ethernet_type offset : Z) : res (list pyval) :=
  if ethernet_type =? 2048 then
    vs <- unpacks "!xB7xB2x4s4sHH" frame (Z.to_nat (14 + offset)) ;;
    match vs with
    | [VInt tos; VInt proto; src; dst; VInt sp; VInt dp] =>
        if proto =? 1 then
          Ok [VInt tos; VInt proto; src; dst; VInt (Z.shiftr sp 8); VInt (Z.land sp 255)]
        else if (proto =? 6) || (proto =? 17) then
          Ok [VInt tos; VInt proto; src; dst; VInt sp; VInt dp]
        else Ok [VInt tos; VInt proto; src; dst; VNone; VNone]
    | _ => Err StructError
    end
  else if ethernet_type =? 2054 then
    vs <- unpacks "!6xH6x4s6x4s" frame (Z.to_nat (14 + offset)) ;;
    match vs with
    | [proto; src; dst] => Ok [VNone; proto; src; dst; VNone; VNone]
    | _ => Err StructError
    end
  else Ok [VNone; VNone; VNone; VNone; VNone; VNone].

(** ofp4/__init__.py:495-544 [ofptuple]. *)
Definition ofptuple (frame : bytes) (in_port : pyval) : res pyval :=
  vs <- unpacks "!6s6sHHH" frame 0 ;;
  match vs with
  | [dst; src; VInt ty; VInt tci; VInt inner] =>
      let '(vid, pcp, ty1, off1) :=
        if ty =? 33024 then (VInt (Z.land tci 4095), VInt (Z.shiftr tci 13), inner, 4)
        else (VNone, VNone, ty, 0) in
      ' (ty2, off2) <- llc frame ty1 off1 ;;
      nw <- network frame ty2 off2 ;;
      match nw with
      | [tos; proto; nsrc; ndst; tsrc; tdst] =>
          Ok (VTup "ofptuple" [in_port; src; dst; VInt ty2; vid; pcp; nsrc; ndst; proto; tos; tsrc; tdst])
      | _ => Err StructError
      end
  | _ => Err StructError
  end.
