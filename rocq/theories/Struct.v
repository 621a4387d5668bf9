(** The Python [struct] module, as far as the code uses it: standard sizes,
    big-endian ("!"), codes B H I Q (unsigned), b h i q (signed), x (pad) and
    s (fixed-size string), with repeat counts. *)

From Verif Require Export Py.
Local Open Scope Z_scope.

Inductive fitem : Type :=
| FU (w : nat)      (* unsigned integer of w bytes: B H I Q *)
| FI (w : nat)      (* signed integer of w bytes: b h i q *)
| FS (n : nat)      (* "ns" *)
| FX (n : nat).     (* "nx" *)

(** Big-endian encoding of an integer on [w] bytes (taken modulo 256^w). *)
Fixpoint be (w : nat) (z : Z) : bytes :=
  match w with
  | O => []
  | S w' => be w' (z / 256) ++ [z mod 256]
  end.

(** Big-endian decoding. *)
Definition of_be (l : bytes) : Z := fold_left (fun acc b => acc * 256 + b) l 0.

Definition is_digit (a : ascii) : bool :=
  let n := nat_of_ascii a in (48 <=? n)%nat && (n <=? 57)%nat.

Definition digit_val (a : ascii) : nat := (nat_of_ascii a - 48)%nat.

Definition count1 (o : option nat) : nat := match o with None => 1%nat | Some n => n end.

(** Parse a format string.  The leading "!" is optional because the codecs
    add it themselves (ofp4/build.py:24-27, ofp4/parse.py:29-30). An unknown
    character is struct.error. *)
Fixpoint fmt_aux (s : string) (cnt : option nat) : res (list fitem) :=
  match s with
  | EmptyString => match cnt with None => Ok [] | Some _ => Err StructError end
  | String a s' =>
      if is_digit a then
        fmt_aux s' (Some (match cnt with None => 0 | Some c => c * 10 end + digit_val a)%nat)
      else
        let n := count1 cnt in
        let rep f := (rest <- fmt_aux s' None ;; Ok (repeat f n ++ rest)) in
        match a with
        | "B"%char => rep (FU 1)
        | "H"%char => rep (FU 2)
        | "I"%char => rep (FU 4)
        | "Q"%char => rep (FU 8)
        | "b"%char => rep (FI 1)
        | "h"%char => rep (FI 2)
        | "i"%char => rep (FI 4)
        | "q"%char => rep (FI 8)
        | "x"%char => (rest <- fmt_aux s' None ;; Ok (FX n :: rest))
        | "s"%char => (rest <- fmt_aux s' None ;; Ok (FS n :: rest))
        | _ => Err StructError
        end
  end.

Definition fmt (s : string) : res (list fitem) :=
  match s with
  | String "!"%char s' => fmt_aux s' None
  | _ => fmt_aux s None
  end.

Definition item_size (f : fitem) : nat :=
  match f with FU w | FI w => w | FS n | FX n => n end.

(** struct.calcsize *)
Fixpoint calcsize (fs : list fitem) : nat :=
  match fs with [] => 0%nat | f :: fs' => (item_size f + calcsize fs')%nat end.

(** Value range of unsigned/signed integers of [w] bytes. *)
Definition in_u (w : nat) (z : Z) : bool := (0 <=? z) && (z <? 256 ^ Z.of_nat w).
Definition in_i (w : nat) (z : Z) : bool :=
  (- (256 ^ Z.of_nat w / 2) <=? z) && (z <? 256 ^ Z.of_nat w / 2).

(** One argument.  Integers out of range, and arguments of the wrong type,
    are struct.error; "s" truncates or pads with NUL. *)
Definition pack_item (f : fitem) (v : pyval) : res bytes :=
  match f, v with
  | FU w, VInt z => if in_u w z then Ok (be w z) else Err StructError
  | FI w, VInt z => if in_i w z then Ok (be w z) else Err StructError
  | FS n, VBytes b => Ok (firstn n b ++ zeros (n - length b))
  | _, _ => Err StructError
  end.

(** struct.pack: the number of arguments must match the format. *)
Fixpoint pack (fs : list fitem) (vs : list pyval) : res bytes :=
  match fs, vs with
  | [], [] => Ok []
  | [], _ :: _ => Err StructError
  | FX n :: fs', _ => r <- pack fs' vs ;; Ok (zeros n ++ r)
  | _ :: _, [] => Err StructError
  | f :: fs', v :: vs' =>
      b <- pack_item f v ;; r <- pack fs' vs' ;; Ok (b ++ r)
  end.

(** Decoding of a buffer known to be long enough. *)
Fixpoint decode (fs : list fitem) (l : bytes) : list pyval :=
  match fs with
  | [] => []
  | FX n :: fs' => decode fs' (skipn n l)
  | FU w :: fs' => VInt (of_be (firstn w l)) :: decode fs' (skipn w l)
  | FI w :: fs' =>
      (let u := of_be (firstn w l) in
       VInt (if u <? 256 ^ Z.of_nat w / 2 then u else u - 256 ^ Z.of_nat w))
        :: decode fs' (skipn w l)
  | FS n :: fs' => VBytes (firstn n l) :: decode fs' (skipn n l)
  end.

(** struct.unpack_from(fmt, msg, off): struct.error when the buffer is too
    small. *)
Definition unpack_from (fs : list fitem) (msg : bytes) (off : nat) : res (list pyval) :=
  if (off + calcsize fs <=? length msg)%nat
  then Ok (decode fs (skipn off msg)) else Err StructError.

(** struct.pack / unpack_from with a format string. *)
Definition packs (f : string) (vs : list pyval) : res bytes :=
  fs <- fmt f ;; pack fs vs.
Definition unpacks (f : string) (msg : bytes) (off : nat) : res (list pyval) :=
  fs <- fmt f ;; unpack_from fs msg off.
Definition sizes (f : string) : res nat := fs <- fmt f ;; Ok (calcsize fs).

Arguments fmt : simpl never.
Arguments packs : simpl never.
Arguments unpacks : simpl never.
