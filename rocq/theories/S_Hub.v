(** Specification for the learning hub: how ovs-ofctl reads the rules it is given, a switch with
    these rules, stations, and where their frames should go. *)

From Verif Require Import Py M_Example S_Hello S_Oxm S_Wire4 S_Msg4 S_Bess.
Local Open Scope Z_scope.
Local Open Scope list_scope.

Fixpoint beq (a b : bytes) : bool :=
  match a, b with
  | [], [] => true
  | x :: a', y :: b' => (x =? y) && beq a' b'
  | _, _ => false
  end.

(** *** Reading rules: words between commas and blanks, [key=value] each *)

Fixpoint words_ (cur : bytes) (l : bytes) : list bytes :=
  match l with
  | [] => match cur with [] => [] | _ => [cur] end
  | c :: l' =>
      if (c =? 44) || (c =? 32) then match cur with [] => words_ [] l' | _ => cur :: words_ [] l' end
      else words_ (cur ++ [c]) l'
  end.
Definition words (l : bytes) : list bytes := words_ [] l.
(** Before and after the first [c]. *)
Fixpoint cut (c : Z) (l : bytes) : option (bytes * bytes) :=
  match l with
  | [] => None
  | x :: l' => if x =? c then Some ([], l') else match cut c l' with Some (a, b) => Some (x :: a, b) | None => None end
  end.
Definition digit (c : Z) : option Z := if (48 <=? c) && (c <=? 57) then Some (c - 48) else None.
Fixpoint number_ (n : Z) (l : bytes) : option Z :=
  match l with
  | [] => Some n
  | c :: l' => match digit c with Some d => number_ (10 * n + d) l' | None => None end
  end.
Definition number (l : bytes) : option Z := match l with [] => None | _ => number_ 0 l end.
Definition hex_pair (a b : Z) : option Z :=
  if existsb (fun d => fst d =? a) hex_digits && existsb (fun d => fst d =? b) hex_digits
  then Some (16 * hex_value a + hex_value b) else None.
(** Pairs of hexadecimal digits with colons between. *)
Fixpoint address (l : bytes) : option bytes :=
  match l with
  | [a; b] => match hex_pair a b with Some x => Some [x] | None => None end
  | a :: b :: c :: l' =>
      if c =? 58 then match hex_pair a b, address l' with Some x, Some r => Some (x :: r) | _, _ => None end else None
  | _ => None
  end.
Definition six (o : option bytes) : option bytes := match o with Some [a; b; c; d; e; f] => o | _ => None end.

Inductive act : Type := ToController | Goto (t : Z) | Output (p : Z) | Group (g : Z).
Record flow : Type := mkFlow {
  f_table : Z; f_prio : Z; f_idle : Z; f_in : option Z; f_src : option bytes; f_dst : option (bytes * bytes); f_acts : list act }.
Definition read_act (w : bytes) : option act :=
  if beq w (ascii_bytes "controller") then Some ToController
  else match cut 58 w with
       | Some (k, v) =>
           match number v with
           | Some n =>
               if beq k (ascii_bytes "goto_table") then Some (Goto n)
               else if beq k (ascii_bytes "output") then Some (Output n)
               else if beq k (ascii_bytes "group") then Some (Group n)
               else None
           | None => None
           end
       | None => None
       end.
Fixpoint read_acts (ws : list bytes) : option (list act) :=
  match ws with
  | [] => Some []
  | w :: ws' => match read_act w, read_acts ws' with Some a, Some r => Some (a :: r) | _, _ => None end
  end.
Fixpoint read_words (f : flow) (ws : list bytes) : option flow :=
  match ws with
  | [] => None
  | w :: ws' =>
      match cut 61 w with
      | None => None
      | Some (k, v) =>
          let is s := beq k (ascii_bytes s) in
          let num (g : Z -> flow) := match number v with Some n => read_words (g n) ws' | None => None end in
          if is "table"%string then num (fun n => mkFlow n (f_prio f) (f_idle f) (f_in f) (f_src f) (f_dst f) [])
          else if is "priority"%string then num (fun n => mkFlow (f_table f) n (f_idle f) (f_in f) (f_src f) (f_dst f) [])
          else if is "idle_timeout"%string then num (fun n => mkFlow (f_table f) (f_prio f) n (f_in f) (f_src f) (f_dst f) [])
          else if is "in_port"%string then num (fun n => mkFlow (f_table f) (f_prio f) (f_idle f) (Some n) (f_src f) (f_dst f) [])
          else if is "dl_src"%string then
            match six (address v) with
            | Some a => read_words (mkFlow (f_table f) (f_prio f) (f_idle f) (f_in f) (Some a) (f_dst f) []) ws'
            | None => None
            end
          else if is "dl_dst"%string then
            match cut 47 v with
            | None =>
                match six (address v) with
                | Some a => read_words (mkFlow (f_table f) (f_prio f) (f_idle f) (f_in f) (f_src f) (Some (a, repeat 255 6)) []) ws'
                | None => None
                end
            | Some (a, m) =>
                match six (address a), six (address m) with
                | Some a, Some m => read_words (mkFlow (f_table f) (f_prio f) (f_idle f) (f_in f) (f_src f) (Some (a, m)) []) ws'
                | _, _ => None
                end
            end
          else if is "actions"%string then
            match read_acts (v :: ws') with
            | Some acts => Some (mkFlow (f_table f) (f_prio f) (f_idle f) (f_in f) (f_src f) (f_dst f) acts)
            | None => None
            end
          else None
      end
  end.
(** ovs-ofctl add-flow: priority 32768 unless told, no timeout, everything matches. *)
Definition read_rule (t : bytes) : option flow := read_words (mkFlow 0 32768 0 None None None []) (words t).

(** ovs-ofctl add-group with buckets of one output each: the ports of the group. *)
Fixpoint read_buckets (ws : list bytes) : option (list Z) :=
  match ws with
  | [] => Some []
  | w :: ws' =>
      match cut 61 w with
      | Some (k, v) =>
          if beq k (ascii_bytes "bucket") then
            match read_act v, read_buckets ws' with Some (Output p), Some r => Some (p :: r) | _, _ => None end
          else None
      | None => None
      end
  end.
Definition read_group (t : bytes) : option (Z * list Z) :=
  match words t with
  | w1 :: w2 :: ws =>
      match cut 61 w1 with
      | Some (k, v) =>
          if beq k (ascii_bytes "group_id") then
            if beq w2 (ascii_bytes "type=all") then
              match number v, read_buckets ws with Some n, Some l => Some (n, l) | _, _ => None end
            else None
          else None
      | None => None
      end
  | _ => None
  end.

(** *** The switch *)

Record frame : Type := mkFrame { fr_src : bytes; fr_dst : bytes; fr_port : Z }.
Fixpoint masked (a m x : bytes) : bool :=
  match a, m, x with
  | [], [], [] => true
  | a1 :: a', m1 :: m', x1 :: x' => (Z.land a1 m1 =? Z.land x1 m1) && masked a' m' x'
  | _, _, _ => false
  end.
Definition matches (f : flow) (x : frame) : bool :=
  match f_in f with None => true | Some p => p =? fr_port x end &&
  match f_src f with None => true | Some a => beq a (fr_src x) end &&
  match f_dst f with None => true | Some (a, m) => masked a m (fr_dst x) end.
(** The flow of the highest priority that matches. *)
Fixpoint best (l : list flow) (t : Z) (x : frame) : option flow :=
  match l with
  | [] => None
  | f :: l' =>
      if (f_table f =? t) && matches f x then
        match best l' t x with
        | Some g => if f_prio g <=? f_prio f then Some f else Some g
        | None => Some f
        end
      else best l' t x
  end.
Record switch : Type := mkSw { w_flows : list flow; w_groups : list (Z * list Z) }.
Definition same_flow (f g : flow) : bool :=
  (f_table f =? f_table g) && (f_prio f =? f_prio g) &&
  match f_in f, f_in g with None, None => true | Some a, Some b => a =? b | _, _ => false end &&
  match f_src f, f_src g with None, None => true | Some a, Some b => beq a b | _, _ => false end &&
  match f_dst f, f_dst g with None, None => true | Some (a, m), Some (b, n) => beq a b && beq m n | _, _ => false end.
(** A flow of the same table, priority and match is replaced. *)
Definition add_flow (w : switch) (f : flow) : switch :=
  mkSw (filter (fun g => negb (same_flow f g)) (w_flows w) ++ [f]) (w_groups w).
Definition add_group (w : switch) (g : Z * list Z) : switch := mkSw (w_flows w) (w_groups w ++ [g]).
(** A port does not get its own frame back. *)
Definition out (x : frame) (p : Z) : list Z := if p =? fr_port x then [] else [p].
Definition group_ports (w : switch) (g : Z) : list Z :=
  match find (fun e => fst e =? g) (w_groups w) with Some (_, l) => l | None => [] end.
(** Ports the frame leaves by, and whether the controller is told. *)
Fixpoint passes (n : nat) (w : switch) (t : Z) (x : frame) : list Z * bool :=
  match n with
  | O => ([], false)
  | S n' =>
      match best (w_flows w) t x with
      | None => ([], false)
      | Some f =>
          (fix go (l : list act) : list Z * bool :=
             match l with
             | [] => ([], false)
             | ToController :: l' => let '(o, _) := go l' in (o, true)
             | Output p :: l' => let '(o, c) := go l' in (out x p ++ o, c)
             | Group g :: l' => let '(o, c) := go l' in (flat_map (out x) (group_ports w g) ++ o, c)
             | Goto t' :: l' =>
                 let '(o, c) := go l' in
                 if t <? t' then let '(o', c') := passes n' w t' x in (o ++ o', c || c') else (o, c)
             end) (f_acts f)
      end
  end.
(** The flows of a learning bridge.  Table 0: a station at its port, everything else; table 1: group
    addresses, a station, everything else. *)
Definition L0 (a : bytes) (p : Z) : flow := mkFlow 0 2 300 (Some p) (Some a) None [Goto 1].
Definition L1 (a : bytes) (p : Z) : flow := mkFlow 1 2 300 None None (Some (a, repeat 255 6)) [Output p].
Definition mc : bytes := [1; 0; 0; 0; 0; 0].
Definition B0 : flow := mkFlow 0 1 0 None None None [ToController; Goto 1].
Definition B1 : flow := mkFlow 1 3 0 None None (Some (mc, mc)) [Group 1].
Definition B2 : flow := mkFlow 1 1 0 None None None [Group 1].

(** There are tables 0 to 254. *)
Definition switched (w : switch) (x : frame) : list Z * bool := passes 255 w 0 x.

(** What the hub's commands do. *)
Definition do_cmd (w : switch) (c : hcmd) : option switch :=
  match c with
  | HOfctl a [t] =>
      if String.eqb a "add-flow" then option_map (add_flow w) (read_rule t)
      else if String.eqb a "add-group" then option_map (add_group w) (read_group t)
      else None
  | HOfctl a [] => if String.eqb a "dump-flows" then Some w else None
  | HOfctl _ _ => None
  | HSend _ => Some w
  end.
Fixpoint do_cmds (w : switch) (cs : list hcmd) : option switch :=
  match cs with [] => Some w | c :: cs' => match do_cmd w c with Some w' => do_cmds w' cs' | None => None end end.

(** A PACKET_IN for frame [x]: its data are the frame, its match says the port. *)
Definition mac (a : bytes) : Prop := length a = 6%nat /\ Forall (fun b => 0 <= b < 256) a.
Definition frame_ok (x : frame) : Prop := mac (fr_src x) /\ mac (fr_dst x) /\ 0 <= fr_port x < 4294967296.
Definition carries (m : bytes) (x : frame) : Prop :=
  exists xid b t r i c ty pre post payload,
    m = mwire xid (MPacketIn b t r i c (Match ty (concat (map tlv (pre ++ MF 0 (VInt (fr_port x)) None :: post))))
                     (fr_dst x ++ fr_src x ++ payload)) /\
    good (xid, MPacketIn b t r i c (Match ty (concat (map tlv (pre ++ MF 0 (VInt (fr_port x)) None :: post))))
                     (fr_dst x ++ fr_src x ++ payload)) /\
    Forall mf_ok pre /\ Forall mf_ok post /\ Forall (fun f => mf_field f <> 0) pre.

(** *** The hub, its switch and the stations *)

(** Frames come in; PACKET_INs wait for the hub, which may take them in any order; learned flows
    (those with a timeout) may go. *)
Record world : Type := mkWorld { o_sw : switch; o_wait : list frame }.
Inductive label : Type := LFrame (x : frame) (outs : list Z) | LHandle (x : frame) | LExpire (f : flow).
Inductive step : world -> label -> world -> Prop :=
| st_frame s x outs told : frame_ok x -> switched (o_sw s) x = (outs, told) ->
    step s (LFrame x outs) (mkWorld (o_sw s) (o_wait s ++ if told then [x] else []))
| st_handle s x a b m dx cs w : o_wait s = a ++ x :: b -> carries m x -> 0 <= dx < 4294967296 ->
    hub_async true dx m = (cs, Ok tt) -> do_cmds (o_sw s) cs = Some w ->
    step s (LHandle x) (mkWorld w (a ++ b))
| st_expire s f a b : w_flows (o_sw s) = a ++ f :: b -> 0 < f_idle f ->
    step s (LExpire f) (mkWorld (mkSw (a ++ b) (w_groups (o_sw s))) (o_wait s)).
(** From the HELLO of a switch with these ports on. *)
Definition starts (ports : list Z) (s : world) : Prop :=
  exists xid es w, good (xid, MHello es) /\
    do_cmds (mkSw [] []) (fst (fst (hub_handle false (mwire xid (MHello es)) ports))) = Some w /\ s = mkWorld w [].
Inductive runs (ports : list Z) : list label -> world -> Prop :=
| runs_start s : starts ports s -> runs ports [] s
| runs_step ls s l s' : runs ports ls s -> step s l s' -> runs ports (ls ++ [l]) s'.

(** The ports a station has been seen at, in order. *)
Definition seen (a : bytes) (ls : list label) : list Z :=
  flat_map (fun l => match l with LFrame x _ => if beq (fr_src x) a then [fr_port x] else [] | _ => [] end) ls.
Definition group_address (a : bytes) : Prop := Z.odd (nth 0 a 0) = true.
Definition all_but (ports : list Z) (p : Z) : list Z := filter (fun q => negb (q =? p)) ports.
(** Every PACKET_IN is handled before the next frame comes; nothing expires. *)
Inductive prompt (ports : list Z) : list label -> world -> Prop :=
| prompt_start s : starts ports s -> prompt ports [] s
| prompt_quiet ls s x outs s' : prompt ports ls s -> step s (LFrame x outs) s' -> o_wait s' = [] ->
    prompt ports (ls ++ [LFrame x outs]) s'
| prompt_told ls s x outs s1 y s2 : prompt ports ls s -> step s (LFrame x outs) s1 -> step s1 (LHandle y) s2 ->
    prompt ports (ls ++ [LFrame x outs; LHandle y]) s2.
(** The last port a station came to that it had not been at before. *)
Fixpoint last_new (old : list Z) (r : option Z) (l : list Z) : option Z :=
  match l with
  | [] => r
  | p :: l' => if existsb (Z.eqb p) old then last_new old r l' else last_new (p :: old) (Some p) l'
  end.

(** *** The example switch *)

(** Its answers: datapath 1, no details; one flow matching in_port 222 and eth_src 00:11:22:33:00:00. *)
Definition ex_features : omsg := MFeatures 1 2 3 0 15.
Definition ex_config : omsg := MConfig 8 0 65509.
Definition ex_match : bytes := concat (map tlv [MF 0 (VInt 222) None; MF 4 (VBytes [0; 17; 34; 51; 0; 0]) None]).
Definition ex_flows : omsg :=
  MReply 0 (RpFlow [FlowStat 0 10 20 30 40 50 0 1 2 3 (Match 1 ex_match) [InActions 4 [AcOutput 1111 65509]]]).

Definition ex_answer (m : omsg) : option omsg :=
  match m with
  | MPlain ty _ => if ty =? 5 then Some ex_features else if ty =? 7 then Some ex_config else None
  | MRequest _ (RqFlow _ _ _ _ _ _) => Some ex_flows
  | _ => None
  end.
