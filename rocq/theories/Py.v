(** Foundation: Python values, exceptions as values, byte strings.

    This file mirrors no function of /repo; it fixes how the Python 2.7
    run-time notions used by the model files are represented (DESIGN.md,
    section 1). *)

From Coq Require Export String Ascii.
From Coq Require Export List ZArith Lia Bool Arith.
From Coq Require Export ZifyBool ZifyNat.
Export ListNotations.

Ltac Zify.zify_post_hook ::= Z.div_mod_to_equations.

Arguments Z.add : simpl never.
Arguments Z.sub : simpl never.
Arguments Z.mul : simpl never.
Arguments Z.div : simpl never.
Arguments Z.modulo : simpl never.
Arguments Z.pow : simpl never.
Arguments Z.opp : simpl never.
Arguments Z.shiftl : simpl never.
Arguments Z.shiftr : simpl never.
Arguments Z.land : simpl never.
Arguments Z.lor : simpl never.
Arguments Z.testbit : simpl never.
Arguments Z.to_nat : simpl never.
Arguments Z.of_nat : simpl never.
Arguments Z.leb : simpl never.
Arguments Z.ltb : simpl never.
Arguments Z.eqb : simpl never.

(** The exceptions the modelled functions can raise.  [SocketError] carries
    the errno; [OutOfFuel] is not an exception of the code: it marks a loop
    that was still running when the fuel ended. *)
Inductive exn : Type :=
| StructError                 (* struct.error *)
| AssertionError
| ValueError
| UnicodeError                (* UnicodeDecodeError / UnicodeEncodeError *)
| TypeError
| NameError                   (* also UnboundLocalError *)
| AttributeError
| IndexError
| KeyError
| ChannelClose                (* twink.base.ChannelClose *)
| SocketError (errno : Z)     (* socket.error *)
| OtherError (tag : Z)        (* any other exception raised by user code *)
| OutOfFuel.

Inductive res (A : Type) : Type :=
| Ok (a : A)
| Err (e : exn).
Arguments Ok {A} a.
Arguments Err {A} e.

Definition bind {A B} (r : res A) (k : A -> res B) : res B :=
  match r with Ok a => k a | Err e => Err e end.

Notation "x <- e ;; k" := (bind e (fun x => k))
  (at level 61, e at next level, right associativity).
Notation "' p <- e ;; k" := (bind e (fun p => k))
  (at level 61, p pattern, e at next level, right associativity).
Notation "e ;;; k" := (bind e (fun _ => k))
  (at level 61, right associativity).

(** Python [assert b]. *)
Definition assert_ (b : bool) : res unit :=
  if b then Ok tt else Err AssertionError.

Definition is_ok {A} (r : res A) : bool :=
  match r with Ok _ => true | Err _ => false end.

Fixpoint mapM {A B} (f : A -> res B) (l : list A) : res (list B) :=
  match l with
  | [] => Ok []
  | a :: l' => b <- f a ;; bs <- mapM f l' ;; Ok (b :: bs)
  end.

(** A byte string ([str] of Python 2): a list of integers, each expected to
    satisfy [byte_ok]. *)
Definition bytes := list Z.
Definition byte_ok (b : Z) : Prop := (0 <= b < 256)%Z.
Definition bytes_ok (l : bytes) : Prop := Forall byte_ok l.
Definition byte_okb (b : Z) : bool := ((0 <=? b) && (b <? 256))%Z.

Definition zeros (n : nat) : bytes := repeat 0%Z n.

(** [message[a:b]] for non-negative bounds: clipped at the end, empty when
    [b <= a]. *)
Definition slice (m : bytes) (a b : nat) : bytes := firstn (b - a) (skipn a m).

(** [len(x)] as a Python integer. *)
Definition zlen {A} (l : list A) : Z := Z.of_nat (length l).

(** ASCII string literal as bytes. *)
Fixpoint bytes_of_string (s : string) : bytes :=
  match s with
  | EmptyString => []
  | String a s' => Z.of_nat (nat_of_ascii a) :: bytes_of_string s'
  end.

(** [b.partition(b"\0")[0]]: the bytes before the first NUL. *)
Fixpoint before_nul (b : bytes) : bytes :=
  match b with
  | [] => []
  | x :: b' => if (x =? 0)%Z then [] else x :: before_nul b'
  end.

(** Dynamic Python values as they occur as arguments and results of the
    codecs.  [VTup cls l] is an instance of the namedtuple class [cls]
    (or of the builtin tuple when [cls] is "tuple") in field order;
    [VText] is a unicode object, by code points. *)
Inductive pyval : Type :=
| VNone
| VInt (z : Z)
| VBytes (b : bytes)
| VText (cps : list Z)
| VList (l : list pyval)
| VTup (cls : string) (l : list pyval).

(** [v == z] for an int [z]; no other modelled value equals an int. *)
Definition py_eqz (v : pyval) (z : Z) : bool :=
  match v with VInt x => (x =? z)%Z | _ => false end.

(** [v in (z1, z2, ...)]. *)
Definition py_inz (v : pyval) (zs : list Z) : bool := existsb (py_eqz v) zs.

(** [if v is None: v = d]. *)
Definition default (v : pyval) (d : Z) : pyval :=
  match v with VNone => VInt d | _ => v end.

Definition dflt_bytes (v : pyval) (d : bytes) : pyval :=
  match v with VNone => VBytes d | _ => v end.

(** [(length+7)//8*8] (ofp4/parse.py:10-11, ofp4/build.py:34-35). *)
Definition align8 (n : nat) : nat := (n + 7) / 8 * 8.
