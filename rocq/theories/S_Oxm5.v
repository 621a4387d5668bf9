(** Specification vocabulary for the OXM match fields of OpenFlow 1.4, beyond
    S_Oxm.v: the fields are those of 1.3 and PBB_UCA. *)

From Verif Require Import Py Struct S_Oxm.
Local Open Scope Z_scope.
Local Open Scope list_scope.

(** The namedtuple that stands for a field: no mask, no field for it. *)
Definition view5 (x : mfield) : pyval :=
  VTup "oxm" ([VInt 32768; VInt (mf_field x); VInt (if mf_mask x then 1 else 0);
               VInt (zlen (mf_payload x)); mf_value x] ++
              match mf_mask x with None => [] | Some k => [k] end).

(** The class of a TLV: its first two bytes. *)
Definition class_at (m : bytes) (off : nat) : Z := nth off m 0 * 256 + nth (S off) m 0.
