(** Specification vocabulary for C116: exactly what the multipart messages and
    the builders not in the tables of C115 accept.  Independent of the
    builders. *)

From Coq Require Import String.
From Verif Require Import Py Struct S_Hello S_Head S_Wire4 S_Fixed S_Exact.
Local Open Scope Z_scope.
Local Open Scope list_scope.

(** The multipart types (7.3.5): those whose request has no body, one
    structure, or several; those whose reply has one structure or several. *)
Definition asks_nothing : list Z := [0; 3; 7; 8; 11; 13].
Definition asks_one : list Z := [1; 2; 4; 5; 6; 9; 10].
Definition answers_one : list Z := [0; 2; 8; 11].
Definition answers_many : list Z := [1; 3; 4; 5; 6; 7; 9; 10; 12; 13].

(** The body of a request: none, whatever is written; one structure or none;
    table features: bytes or a list or tuple of structures; of every other type
    - also of those that do not exist -, the bytes themselves. *)
Inductive body_asked (o : pyval -> bytes -> Prop) : Z -> pyval -> bytes -> Prop :=
| ask_nothing ty v : In ty asks_nothing -> body_asked o ty v []
| ask_left_out ty : In ty asks_one -> body_asked o ty VNone []
| ask_one ty v c : In ty asks_one -> v <> VNone -> o v c -> body_asked o ty v c
| ask_tables v c : v <> VNone -> many o v c -> body_asked o 12 v c
| ask_other ty c : ~ In ty (12 :: asks_nothing ++ asks_one) -> body_asked o ty (VBytes c) c.

(** The body of a reply: one structure, bytes or tuple; a list or tuple of
    structures; the experimenter's bytes.  No other types. *)
Inductive body_answered (o : pyval -> bytes -> Prop) : Z -> pyval -> bytes -> Prop :=
| answer_none ty : In ty (answers_one ++ answers_many) -> body_answered o ty VNone []
| answer_bytes ty c : In ty answers_one -> body_answered o ty (VBytes c) c
| answer_one ty cls l c : In ty answers_one -> o (VTup cls l) c -> body_answered o ty (VTup cls l) c
| answer_list ty l bs : In ty answers_many -> Forall2 o l bs -> body_answered o ty (VList l) (concat bs)
| answer_tuple ty cls l bs : In ty answers_many -> Forall2 o l bs -> body_answered o ty (VTup cls l) (concat bs)
| answer_experimenter c : body_answered o 65535 (VBytes c) c.

(** The two messages: type, flags, four zeros and the body. *)
Definition multi (dx version t : Z) (body_of : Z -> pyval -> bytes -> Prop) (all : list pyval) (b : bytes) : Prop :=
  exists h ty f v body, all = [h; VInt ty; VInt f; v] /\ 0 <= ty < 65536 /\ 0 <= f < 65536 /\ body_of ty v body /\
    framed dx version [t] h (be 2 ty ++ be 2 f ++ repeat 0 4 ++ body) b.

(** A number of 32 bits. *)
Definition word (v : pyval) (c : bytes) : Prop := exists z, v = VInt z /\ 0 <= z < 2 ^ 32 /\ c = be 4 z.

(** Lists of such numbers: the versions of a HELLO, the ids of match fields. *)
Definition versions : list part := [Fields [Kind 1]; Total 2 unpadded; Many; Align].
Definition field_ids : list part := [Fields [OneOf [8; 9; 10; 11; 12; 13]]; Total 2 unpadded; Many; Align].

(** Four of them: bytes, list, tuple, or left out: zeros. *)
Inductive four : pyval -> bytes -> Prop :=
| four_none : four VNone (repeat 0 16)
| four_bytes b : length b = 16%nat -> four (VBytes b) b
| four_list l bs : length l = 4%nat -> Forall2 word l bs -> four (VList l) (concat bs)
| four_tuple c l bs : length l = 4%nat -> Forall2 word l bs -> four (VTup c l) (concat bs).

(** Three sequences of the same kind, joined. *)
Inductive joined : pyval -> pyval -> pyval -> list pyval -> Prop :=
| joined_lists x y z : joined (VList x) (VList y) (VList z) (x ++ y ++ z)
| joined_tuples c d e x y z : joined (VTup c x) (VTup d y) (VTup e z) (x ++ y ++ z).

(** A flow statistics request; a match left out matches everything. *)
Definition flow_request : list part :=
  [Fields [Opt 1 255; Gap 3; Opt 4 4294967295; Opt 4 4294967295; Gap 4; Opt 8 0; Opt 8 0]; One].
Definition or_all (o : pyval -> bytes -> Prop) (v : pyval) (c : bytes) : Prop :=
  v = VNone /\ c = [0; 1; 0; 4; 0; 0; 0; 0] \/ v <> VNone /\ o v c.

(** Group features: two words and four words twice. *)
Definition group_features_of (args : list pyval) (b : bytes) : Prop :=
  exists t c g a bg ba, args = [VInt t; VInt c; g; a] /\ 0 <= t < 2 ^ 32 /\ 0 <= c < 2 ^ 32 /\ four g bg /\ four a ba /\
    b = be 4 t ++ be 4 c ++ bg ++ ba.

(** The body may be left out of the arguments of a request. *)
Definition with_body (all : list pyval) : list pyval := match all with [h; t; f] => [h; t; f; VNone] | _ => all end.

(** A header of its own: the version may be left open, the length (8) and the
    transaction id ([dx]) too. *)
Definition header_made (dx k : Z) (args : list pyval) (b : bytes) : Prop :=
  exists v t l x lz xz, args = [v; VInt t; l; x] /\ (v = VNone \/ v = VInt k) /\ 0 <= t < 256 /\
    (l = VInt lz \/ l = VNone /\ lz = 8) /\ 0 <= lz < 65536 /\ (x = VInt xz \/ x = VNone /\ xz = dx) /\ 0 <= xz < 2 ^ 32 /\
    b = be 1 k ++ be 1 t ++ be 2 lz ++ be 4 xz.
