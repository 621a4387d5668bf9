(** Specification for C114: the match fields of other organisations, stated
    without the functions of M_Oxm.v.  Radiotap fields have the sizes, the signs and
    the byte order (least significant first) of the radiotap header. *)

From Verif Require Import Py.
Local Open Scope Z_scope.
Local Open Scope list_scope.

Inductive shape : Type := Unsigned (n : nat) | Signed (n : nat).

Definition width (s : shape) : nat := match s with Unsigned n | Signed n => n end.

Definition within (s : shape) (z : Z) : Prop :=
  match s with
  | Unsigned n => 0 <= z < 2 ^ (8 * Z.of_nat n)
  | Signed n => - 2 ^ (8 * Z.of_nat n - 1) <= z < 2 ^ (8 * Z.of_nat n - 1)
  end.

(** A number of [n] bytes, least significant byte first; negative ones as two's
    complement. *)
Fixpoint le (n : nat) (z : Z) : bytes :=
  match n with O => [] | S n => z mod 256 :: le n (z / 256) end.

(** The 802.11 fields that hold one number: DOT11, DOT11_PUBLIC_ACTION and
    DOT11_TAG. *)
Definition dot11 : list (Z * shape) := [(1, Unsigned 1); (9, Unsigned 1); (10, Unsigned 1)].

Definition radiotap : list (Z * shape) :=
  [ (* TSFT *) (0, Unsigned 8); (* FLAGS *) (1, Unsigned 1); (* RATE *) (2, Unsigned 1);
    (* DBM_ANTSIGNAL *) (5, Signed 1); (* DBM_ANTNOISE *) (6, Signed 1); (* LOCK_QUALITY *) (7, Unsigned 2);
    (* TX_ATTENUATION *) (8, Unsigned 2); (* DB_TX_ATTENUATION *) (9, Unsigned 2); (* DBM_TX_POWER *) (10, Signed 1);
    (* ANTENNA *) (11, Unsigned 1); (* DB_ANTSIGNAL *) (12, Unsigned 1); (* DB_ANTNOISE *) (13, Unsigned 1);
    (* RX_FLAGS *) (14, Unsigned 2); (* TX_FLAGS *) (15, Unsigned 2);
    (* RTS_RETRIES *) (16, Unsigned 1); (* DATA_RETRIES *) (17, Unsigned 1) ].

(** Field [f] of type [t] holds a number of this shape; the fields CHANNEL,
    FHSS, MCS and AMPDU_STATUS, among others, hold none. *)
Inductive holds : Z -> Z -> shape -> Prop :=
| holds_dot11 t s : In (t, s) dot11 -> holds 0 t s
| holds_radiotap t s : In (t, s) radiotap -> holds 1 t s.

Definition flag (masked : bool) : Z := if masked then 1 else 0.

(** A field of an experimenter: class, field and mask bit, declared length,
    experimenter, type, payload. *)
Definition experimenter_tlv (f : Z) (masked : bool) (n e t : Z) (payload : bytes) : bytes :=
  [255; 255; 2 * f + flag masked; n; e / 2 ^ 24 mod 256; e / 2 ^ 16 mod 256; e / 2 ^ 8 mod 256; e mod 256;
   t / 256 mod 256; t mod 256] ++ payload.

(** 0xFF00E04D *)
Definition stratos_number : Z := 4278247501.

Definition stratos_view (f : Z) (masked : bool) (n t : Z) (v k : pyval) : pyval :=
  VTup "stratos" [VInt 65535; VInt f; VInt (flag masked); VInt n; VInt stratos_number; VInt t; v; k].

(** Any other field. *)
Definition class_tlv (c f : Z) (masked : bool) (n : Z) (payload : bytes) : bytes :=
  [c / 256 mod 256; c mod 256; 2 * f + flag masked; n] ++ payload.
