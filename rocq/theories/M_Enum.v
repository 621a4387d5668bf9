(** Model of [_enum_base] (twink/ofp4/__init__.py:4-77 and the identical
    twink/ofp5/__init__.py:4-77): enumerations that define module constants.

    Simplifications: a dictionary is the list of its items in the order in
    which [.items()] yields them (the same at every call, since nothing ever
    changes these dictionaries); [numbers] and [bitshifts] are None, str or
    dict, so the branches raising ValueError (lines 19-20, 44-45) are left out;
    values are integers. *)

From Verif Require Export Py.
Local Open Scope Z_scope.
Local Open Scope list_scope.

(** What [numbers] or [bitshifts] may be: a str of words, or a dict from a str
    of words to the first value (lines 11, 14, 29, 36). *)
Inductive src : Type :=
| Words (s : string)
| Dict (l : list (string * Z)).

(** The class attributes (lines 5-6; [prefix] is given by each subclass). *)
Record enum : Type := {
  prefix : string;
  numbers : option src;
  bitshifts : option src }.

(** str.isspace of one character (C locale): what str.split() separates at. *)
Definition white (a : ascii) : bool :=
  let n := nat_of_ascii a in ((9 <=? n)%nat && (n <=? 13)%nat) || (n =? 32)%nat.

(** str.split() without argument; [cur] is the word being read. *)
Fixpoint split_go (cur s : string) : list string :=
  match s with
  | EmptyString => match cur with EmptyString => [] | _ => [cur] end
  | String a s' =>
      if white a then
        match cur with EmptyString => split_go EmptyString s' | _ => cur :: split_go EmptyString s' end
      else split_go (cur ++ String a EmptyString)%string s'
  end.
Definition split (s : string) : list string := split_go EmptyString s.

(** zip(ks, range(v, ...)): [for ki in ks: append((ki, v)); v += 1]
    (lines 12-13, 16-18). *)
Fixpoint count_from (v : Z) (ks : list string) : list (string * Z) :=
  match ks with
  | [] => []
  | k :: ks' => (k, v) :: count_from (v + 1) ks'
  end.

(** [0 if v < 0 else 1 << v] (lines 32-35, 39-42). *)
Definition bit_of (v : Z) : Z := if v <? 0 then 0 else Z.shiftl 1 v.

(** The pairs both functions enumerate before the shift is applied. *)
Definition src_items (s : option src) : list (string * Z) :=
  match s with
  | None => []
  | Some (Words s) => count_from 0 (split s)
  | Some (Dict l) => flat_map (fun kv => count_from (snd kv) (split (fst kv))) l
  end.

(** ofp4/__init__.py:26-47 [items_bitshifts]. *)
Definition items_bitshifts (e : enum) : list (string * Z) :=
  map (fun kv => (fst kv, bit_of (snd kv))) (src_items (bitshifts e)).

(** ofp4/__init__.py:7-24 [items]. *)
Definition items (e : enum) : list (string * Z) :=
  src_items (numbers e) ++ items_bitshifts e.

(** The global variables of a module, latest assignment first. *)
Definition scope := list (string * Z).

Fixpoint global (sc : scope) (n : string) : option Z :=
  match sc with
  | [] => None
  | (k, v) :: sc' => if String.eqb k n then Some v else global sc' n
  end.

(** [self.prefix+"_"+k] *)
Definition full (e : enum) (k : string) : string := (prefix e ++ "_" ++ k)%string.

(** ofp4/__init__.py:49-51 [__init__]. *)
Definition init (sc : scope) (e : enum) : scope :=
  fold_left (fun sc kv => (full e (fst kv), snd kv) :: sc) (items e) sc.

(** ofp4/__init__.py:53-56 [name]: None falls off the end. *)
Definition name (e : enum) (value : Z) : option string :=
  match find (fun kv => snd kv =? value) (items e) with
  | Some kv => Some (full e (fst kv))
  | None => None
  end.

(** str.endswith *)
Definition endswith (s t : string) : bool :=
  (String.length t <=? String.length s)%nat &&
  String.eqb (substring (String.length s - String.length t) (String.length t) s) t.

(** ofp4/__init__.py:58-70 [bitnames]: the loop carries [nohit] and [ret]. *)
Definition bitnames (e : enum) (value : Z) : list string :=
  let '(nohit, ret) :=
    fold_left (fun st kv =>
      let '(nohit, ret) := st in
      if endswith (fst kv) "_MASK" then (nohit, ret)
      else if negb (Z.land value (snd kv) =? 0) then (nohit, ret ++ [full e (fst kv)])
      else if snd kv =? 0 then (Some (full e (fst kv)), ret)
      else (nohit, ret)) (items_bitshifts e) (None, []) in
  match ret, nohit with
  | [], Some n => [n]      (* never the empty str: [full] contains "_" *)
  | _, _ => ret
  end.

(** ofp4/__init__.py:72-76 [values] and [keys]. *)
Definition values (e : enum) : list Z := map snd (items e).
Definition keys (e : enum) : list string := map fst (items e).

(** Loading a module: ofp4/__init__.py:79-492 runs [type(...)({...})(globals())]
    for each enumeration; [start] holds what was assigned before
    (OFP_NO_BUFFER, line 80). *)
Definition load (start : scope) (es : list enum) : scope := fold_left init es start.

(** ofp4/__init__.py:80 and ofp5/__init__.py:80. *)
Definition no_buffer : scope := [("OFP_NO_BUFFER"%string, 4294967295)].
