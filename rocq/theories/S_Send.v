(** Specification vocabulary for sending, logging and read wrappers. *)

From Verif Require Import Py M_Channel M_Send.
Local Open Scope Z_scope.

(** Value of a lower-case hexadecimal digit. *)
Definition digit_val (c : Z) : option Z :=
  if (48 <=? c) && (c <=? 57) then Some (c - 48)
  else if (97 <=? c) && (c <=? 102) then Some (c - 87) else None.

(** Reading a hexadecimal text. *)
Fixpoint unhex (t : bytes) : option bytes :=
  match t with
  | [] => Some []
  | a :: b :: t' =>
      match digit_val a, digit_val b, unhex t' with
      | Some x, Some y, Some r => Some (16 * x + y :: r)
      | _, _, _ => None
      end
  | _ => None
  end.

(** What an operator reads off a log: the traffic, from the lines of the send
    and receive loggers after the channel's name and a blank. *)
Inductive traffic : Type := TSent (m : bytes) | TGot (m : bytes).
Definition of_line (rp : bytes) (l : logline) : option traffic :=
  match l with
  | (LgChannel, _) => None
  | (LgSend, t) => option_map TSent (unhex (skipn (S (length rp)) t))
  | (LgRecv, t) => option_map TGot (unhex (skipn (S (length rp)) t))
  end.
Fixpoint read_log (rp : bytes) (ls : list logline) : list traffic :=
  match ls with
  | [] => []
  | l :: ls' =>
      match of_line rp l with Some x => x :: read_log rp ls' | None => read_log rp ls' end
  end.

(** What the application did and got: its send() arguments and the messages
    recv() returned. *)
Fixpoint seen (os : list dop) (rs : list dres) : list traffic :=
  match os, rs with
  | DSend _ m :: os', _ :: rs' => TSent m :: seen os' rs'
  | DRecv :: os', RRecv (Got (x :: m)) :: rs' => TGot (x :: m) :: seen os' rs'
  | _ :: os', _ :: rs' => seen os' rs'
  | _, _ => []
  end.

(** Two channels that differ at most in how often close() reached the socket. *)
Definition same_but_closes (a b : dch) : Prop :=
  d_out a = d_out b /\ buf (d_in a) = buf (d_in b) /\ closed (d_in a) = closed (d_in b) /\
  envs (d_in a) = envs (d_in b) /\ nreads (d_in a) = nreads (d_in b).

(** A write that takes everything. *)
Definition full (w : wr * bytes) : Prop :=
  exists n, fst w = WAccept n /\ (length (snd w) <= n)%nat.

(** The ReadWrapper objects a program enters. *)
Fixpoint entered (p : wprog) : list nat :=
  match p with
  | PSeq a b => entered a ++ entered b
  | PWith i b => i :: entered b
  | _ => []
  end.

(** No object is entered again inside its own block. *)
Fixpoint not_reentered (p : wprog) : Prop :=
  match p with
  | PSeq a b => not_reentered a /\ not_reentered b
  | PWith i b => ~ In i (entered b) /\ not_reentered b
  | _ => True
  end.

(** The innermost block around each read, reading the program text from left
    to right; the flag tells whether the end is reached without exception. *)
Fixpoint scopes (p : wprog) (outer : wref) : list wref * bool :=
  match p with
  | PNop => ([], true)
  | PRaise _ => ([], false)
  | PRead => ([outer], true)
  | PSeq a b =>
      match scopes a outer with
      | (l, true) => match scopes b outer with (l2, ok) => (l ++ l2, ok) end
      | (l, false) => (l, false)
      end
  | PWith i b => scopes b (WObj i)
  end.
