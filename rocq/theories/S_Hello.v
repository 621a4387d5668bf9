(** Specification vocabulary for HELLO and version negotiation. *)

From Verif Require Import Py M_Hello.
Local Open Scope Z_scope.

(** Big-endian numbers in a message, byte by byte. *)
Definition byte_at (m : bytes) (i : nat) : Z := nth i m 0.
Definition u16_at (m : bytes) (i : nat) : Z := byte_at m i * 256 + byte_at m (i + 1).
Definition u32_at (m : bytes) (i : nat) : Z :=
  ((byte_at m i * 256 + byte_at m (i + 1)) * 256 + byte_at m (i + 2)) * 256 + byte_at m (i + 3).

(** [x] is a spelling of the wire version [z]: the integer itself, or the
    protocol number 1.0 .. 1.4 for 1 .. 5. *)
Definition spells (x : ver) (z : Z) : Prop :=
  x = VI z \/ (x = VF (Some (z + 9)) /\ 1 <= z <= 5).

(** Versions a channel accepts: those listed, or OpenFlow 1.0 if none is. *)
Definition accepts (vs : versions) (z : Z) : Prop :=
  match vs with
  | VsSeq (x :: l) => exists y, In y (x :: l) /\ spells y z
  | VsSeq [] | VsNone => z = 1
  | VsOther _ => False
  end.

(** An accept list whose every element spells a version of 0 .. 255. *)
Definition versions_ok (vs : versions) : Prop :=
  match vs with
  | VsSeq l => Forall (fun x => exists z, spells x z /\ 0 <= z <= 255) l
  | VsNone => True
  | VsOther _ => False
  end.

(** A HELLO as OpenFlow 1.3 describes it: either the bare header, or a header
    followed by a version bitmap element (type 1) lying inside the message. *)
Definition hello_wf (m : bytes) : Prop :=
  (8 <= length m)%nat /\ byte_at m 1 = 0 /\
  (u16_at m 2 = 8 \/
   (u16_at m 2 <> 8 /\ (12 <= length m)%nat /\ u16_at m 8 = 1 /\ 4 <= u16_at m 10 /\
    12 + 4 * (u16_at m 10 / 4 - 1) <= zlen m)).

(** The versions a HELLO advertises: that of its header, or the bits of the
    bitmap: version v is bit (v mod 8) of the (v mod 32)/8-th byte from the
    right of the (v/32)-th 32-bit word. *)
Definition advertises (m : bytes) (v : Z) : Prop :=
  (u16_at m 2 = 8 /\ v = byte_at m 0) \/
  (u16_at m 2 <> 8 /\ 0 <= v < 32 * (u16_at m 10 / 4 - 1) /\
   Z.testbit (byte_at m (Z.to_nat (12 + 4 * (v / 32) + (3 - v mod 32 / 8)))) (v mod 8) = true).

Definition is_max (v : Z) (P : Z -> Prop) : Prop := P v /\ forall w, P w -> w <= v.

(** What a channel has agreed to after a message: a version, or nothing when it
    refused (raised). *)
Definition selected (cr : och * res bytes) : option Z :=
  match snd cr with Ok _ => o_version (fst cr) | Err _ => None end.

(** HELLO_FAILED (type 0) / INCOMPATIBLE (code 0) error message. *)
Definition hello_failed (mx xid : Z) (txt : bytes) : bytes :=
  be 1 mx ++ [1] ++ be 2 (12 + zlen txt) ++ be 4 xid ++ [0; 0; 0; 0] ++ txt.

Definition u32 (z : Z) : Prop := 0 <= z < 2 ^ 32.

Definition clock_ok (t : clock) : Prop :=
  0 <= c_hour t < 24 /\ 0 <= c_min t < 60 /\ 0 <= c_sec t < 60 /\ 0 <= c_us t < 1000000.
