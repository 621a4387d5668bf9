(** Specification for M_Lock.v: a channel on which every send() and every routing of a
    message happens in one step, one after the other. *)

From Verif Require Import Py M_Controller M_Lock.
Local Open Scope Z_scope.

Inductive aop : Type := ASend (i : nat) (q : snd_) | ARoute (i : nat) (m : bytes) | ADie (f : nat) | AVersion (v : Z).

Definition astep (ha : bool) (c : cch) (o : aop) : cch * list (nat * ent) :=
  match o with
  | ASend i q => let '(c', r) := locked_send c (q_h q) (q_m q) (q_bxid q) (q_o1 q) (q_o2 q) in (c', [(i, ESent q r)])
  | ARoute i m => let '(c', r) := intercept ha c m in (c', [(i, ERouted m r)])
  | ADie f => (k_die c f, [])
  | AVersion v => (k_ver c v, [])
  end.
Fixpoint arun (ha : bool) (c : cch) (os : list aop) : cch * list (nat * ent) :=
  match os with
  | [] => (c, [])
  | o :: os' => let '(c1, r) := astep ha c o in let '(c2, rs) := arun ha c1 os' in (c2, r ++ rs)
  end.

(** The results of sends and routings, without what was called. *)
Definition result (x : nat * ent) : bool :=
  match snd x with ESent _ _ | ERouted _ _ => true | _ => false end.

Definition op_deaths (os : list aop) : list nat := flat_map (fun o => match o with ADie f => [f] | _ => [] end) os.
Definition op_versions (os : list aop) : list Z := flat_map (fun o => match o with AVersion v => [v] | _ => [] end) os.
Definition ev_deaths (es : list ev) : list nat := flat_map (fun e => match e with Die f => [f] | _ => [] end) es.
Definition ev_versions (es : list ev) : list Z := flat_map (fun e => match e with Version v => [v] | _ => [] end) es.

(** What one thread did, told from its list of jobs: each job in its turn; a message
    is routed, then whoever it went to is called and sends what it sends, in order. *)
Section Told.
Variable body : who -> bytes -> list snd_.
Definition goes_to (o : outcome) : option who :=
  match o with ToCallback f => Some (WCb f) | ToDefault => Some WDefault | ToAsync => Some WAsync | _ => None end.
(** [l] tells of the sends [qs], all of them if [done], of which the last told may have raised. *)
Fixpoint sends_told (done : bool) (qs : list snd_) (l : list ent) {struct l} : Prop :=
  match l, qs with
  | [], _ => done = true -> qs = []
  | ESent q' (Ok _) :: l', q :: qs' => q' = q /\ sends_told done qs' l'
  | ESent q' (Err _) :: l', q :: qs' => q' = q /\ l' = []
  | _, _ => False
  end.
(** [l] tells of job [j], to its end if [done]. *)
Definition job_told (done : bool) (j : job) (l : list ent) : Prop :=
  match j, l with
  | _, [] => done = false
  | JSend q, [ESent q' _] => q' = q
  | JMsg m, ERouted m' o :: rest =>
      m' = m /\
      match goes_to o, rest with
      | None, [] => True
      | Some _, [] => done = false
      | Some (WCb f), [ENotCallable f' m''] => f' = f /\ m'' = m
      | Some w, ECalled w' m'' :: l' => w' = w /\ m'' = m /\ sends_told done (body w m) l'
      | _, _ => False
      end
  | _, _ => False
  end.
Inductive told : list job -> list ent -> Prop :=
| told_nil : told [] []
| told_job js l j x : told js l -> job_told true j x -> told (js ++ [j]) (l ++ x).
End Told.
Definition log_of (i : nat) (l : list (nat * ent)) : list ent :=
  map snd (filter (fun x => (fst x =? i)%nat) l).
