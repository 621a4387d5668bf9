(** Specification vocabulary for C118: the text of port names. *)

From Verif Require Import Py Struct S_Hello.
Local Open Scope Z_scope.
Local Open Scope list_scope.

(** UTF-8 (RFC 3629, without the exclusion of surrogates, which Python 2 does
    not make): a code point in one to four bytes. *)
Definition letter (c : Z) : bytes :=
  if c <? 128 then [c]
  else if c <? 2048 then [192 + c / 64; 128 + c mod 64]
  else if c <? 65536 then [224 + c / 4096; 128 + c / 64 mod 64; 128 + c mod 64]
  else [240 + c / 262144; 128 + c / 4096 mod 64; 128 + c / 64 mod 64; 128 + c mod 64].
Definition text (cs : list Z) : bytes := flat_map letter cs.
Definition code_point (c : Z) : Prop := 0 <= c < 1114112.

(** The sixteen bytes of a name field stand for this text: up to the first
    zero, if there is one. *)
Definition spells (nm : bytes) (cs : list Z) : Prop :=
  Forall (fun c => code_point c /\ c <> 0) cs /\
  exists r, nm = text cs ++ r /\ (r = [] \/ exists r', r = 0 :: r').

(** A port description of OpenFlow 1.3: number, address, the sixteen bytes of
    the name, eight words (7.2.1). *)
Record pdesc : Type := mkPdesc { pd_no : Z; pd_hw : bytes; pd_name : bytes; pd_words : list Z }.
Definition pdesc_ok (d : pdesc) : Prop :=
  0 <= pd_no d < 2 ^ 32 /\ length (pd_hw d) = 6%nat /\ length (pd_name d) = 16%nat /\ bytes_ok (pd_name d) /\
  length (pd_words d) = 8%nat /\ Forall (fun z => 0 <= z < 2 ^ 32) (pd_words d).
Definition pdesc_wire (d : pdesc) : bytes :=
  be 4 (pd_no d) ++ repeat 0 4 ++ pd_hw d ++ repeat 0 2 ++ pd_name d ++ flat_map (be 4) (pd_words d).

(** What the parser is to return for a text. *)
Definition pdesc_view (d : pdesc) (cs : list Z) : pyval :=
  VTup "ofp_port" ([VInt (pd_no d); VBytes (pd_hw d); VText cs] ++ map VInt (pd_words d)).

Definition status_wire (xid reason : Z) (d : pdesc) : bytes :=
  [4; 12; 0; 80] ++ be 4 xid ++ [reason] ++ repeat 0 7 ++ pdesc_wire d.
Definition ports_wire (xid flags : Z) (ds : list pdesc) : bytes :=
  [4; 19] ++ be 2 (16 + 64 * Z.of_nat (length ds)) ++ be 4 xid ++ [0; 13] ++ be 2 flags ++ repeat 0 4 ++ flat_map pdesc_wire ds.

(** What the builders of ports take and make: ASCII names, of at most sixteen
    bytes (1.3). *)
Definition port4_made (args : list pyval) (b : bytes) : Prop :=
  exists no hw nm ws, args = [VInt no; VBytes hw; VBytes nm] ++ map VInt ws /\
    0 <= no < 2 ^ 32 /\ length hw = 6%nat /\ (length nm <= 16)%nat /\ Forall (fun c => c < 128) nm /\
    length ws = 8%nat /\ Forall (fun z => 0 <= z < 2 ^ 32) ws /\
    b = pdesc_wire (mkPdesc no hw (nm ++ repeat 0 (16 - length nm)) ws).

(** 1.4: [props v p]: the properties argument [v] stands for the bytes [p],
    which are counted but not put in. *)
Definition port5_made (props : pyval -> bytes -> Prop) (args : list pyval) (b : bytes) : Prop :=
  exists no l hw nm cf st v p, args = [VInt no; l; VBytes hw; VBytes nm; VInt cf; VInt st; v] /\ props v p /\
    0 <= no < 2 ^ 32 /\ 40 + Z.of_nat (length p) < 65536 /\ length hw = 6%nat /\ (length nm <= 16)%nat /\ 0 <= cf < 2 ^ 32 /\ 0 <= st < 2 ^ 32 /\
    b = be 4 no ++ be 2 (40 + Z.of_nat (length p)) ++ repeat 0 2 ++ hw ++ repeat 0 2 ++ (nm ++ repeat 0 (16 - length nm)) ++ be 4 cf ++ be 4 st.
