(** Model of RateLimit (twink/base.py:474-520) as an interleaving of the
    thread inside loop() with the threads of the submitted calls. *)

From Verif Require Export Py.

(** A submitted call (func, args, kwargs).  Simplification: submissions are
    distinct values, so that [hot.remove] and the comparison of [id]s agree. *)
Definition task := nat.

(** The local variables of one run of loop() that the closures [proxy] share
    with it (Python closures refer to variables, not to values):
    [task], [(func, args, kwargs)] and [hot]. *)
Record frame : Type := mkFrame {
  f_task : option task;
  f_call : option task;
  f_hot : list task
}.

Definition frame0 : frame := mkFrame None None [].

(** Where the thread inside loop() is:
    - [POuter]: line 491, [while len(self.cold) > 0];
    - [PInner]: line 495, the condition of the inner loop;
    - [PNone], [PPop], [PBind], [PAdd], [PSpawn]: lines 496, 498, 501, 506
      and 507;
    - [PFor]: line 509, the [for] loop, which looks at one child;
    - [PJoin]: line 516, waiting at most half a second. *)
Inductive pc : Type := POuter | PInner | PNone | PPop | PBind | PAdd | PSpawn | PFor | PJoin.

(** The thread of one call: spawned, inside the call of [t], back from it,
    finished. *)
Inductive jst : Type := JWait | JRun (t : task) | JRet | JDone.

Record rate : Type := mkRate {
  r_cold : list task;
  r_idle : nat;                     (* loop() threads waiting for loop_lock *)
  r_cur : option pc;                (* the one inside, if any *)
  r_children : list task;           (* keys of its dictionary [children] *)
  r_frame : nat;                    (* its frame *)
  r_frames : nat -> frame;
  r_jobs : list (nat * jst);        (* frame and state of every proxy thread *)
  r_log : list task                 (* calls made, latest first *)
}.

Definition rate_new : rate := mkRate [] 0 None [] 0 (fun _ => frame0) [] [].

Definition fset (f : nat -> frame) (n : nat) (x : frame) : nat -> frame :=
  fun k => if (k =? n)%nat then x else f k.

Fixpoint remove1 (t : task) (l : list task) : list task :=
  match l with
  | [] => []
  | x :: l' => if (x =? t)%nat then l' else x :: remove1 t l'
  end.

Definition last_opt (l : list task) (d : option task) : option task :=
  match rev l with [] => d | x :: _ => Some x end.

Fixpoint set_nth {A} (i : nat) (a : A) (l : list A) : list A :=
  match i, l with
  | _, [] => []
  | O, _ :: l' => a :: l'
  | S i', x :: l' => x :: set_nth i' a l'
  end.

(** What can happen next:
    - [RSubmit t]: spawn() (lines 483-487): appended, and a loop() thread;
    - [REnter]: a waiting loop() thread gets the lock;
    - [RLoop c]: the thread inside does its next step; [c] is the child the
      [for] loop happens to see first;
    - [RJob i]: the i-th proxy thread does its next step. *)
Inductive rev_ : Type :=
| RSubmit (t : task)
| REnter
| RLoop (c : task)
| RJob (i : nat).

Definition set_pc (s : rate) (p : option pc) : rate :=
  mkRate (r_cold s) (r_idle s) p (r_children s) (r_frame s) (r_frames s) (r_jobs s) (r_log s).

Definition set_frame (s : rate) (p : option pc) (x : frame) : rate :=
  mkRate (r_cold s) (r_idle s) p (r_children s) (r_frame s)
    (fset (r_frames s) (r_frame s) x) (r_jobs s) (r_log s).

(** base.py:489-520 [loop], one step. *)
Definition loop_step (size : nat) (s : rate) (p : pc) (c : task) : option rate :=
  let f := r_frames s (r_frame s) in
  match p with
  | POuter =>
      match r_cold s with
      | [] => Some (set_pc s None)
      | _ :: _ =>
          Some (mkRate (r_cold s) (r_idle s) (Some PInner) [] (r_frame s)
            (fset (r_frames s) (r_frame s) (mkFrame (f_task f) (f_call f) []))
            (r_jobs s) (r_log s))
      end
  | PInner =>
      match r_cold s with
      | _ :: _ => if (length (f_hot f) <? size)%nat then Some (set_pc s (Some PNone))
                  else Some (set_pc s (Some POuter))
      | [] => Some (set_pc s (Some POuter))
      end
  | PNone => Some (set_frame s (Some PPop) (mkFrame None (f_call f) (f_hot f)))
  | PPop =>
      match r_cold s with
      | t :: cold =>
          Some (mkRate cold (r_idle s) (Some PBind) (r_children s) (r_frame s)
            (fset (r_frames s) (r_frame s) (mkFrame (Some t) (f_call f) (f_hot f)))
            (r_jobs s) (r_log s))
      | [] => None
      end
  | PBind => Some (set_frame s (Some PAdd) (mkFrame (f_task f) (f_task f) (f_hot f)))
  | PAdd =>
      match f_task f with
      | Some t => Some (set_frame s (Some PSpawn) (mkFrame (f_task f) (f_call f) (f_hot f ++ [t])))
      | None => None
      end
  | PSpawn =>
      match f_task f with
      | Some t =>
          Some (mkRate (r_cold s) (r_idle s) (Some PFor) (r_children s ++ [t]) (r_frame s)
            (r_frames s) (r_jobs s ++ [(r_frame s, JWait)]) (r_log s))
      | None => None
      end
  | PFor =>
      (* the list comprehension of line 512 rebinds [task] (Python 2) *)
      let f' := mkFrame (last_opt (f_hot f) (f_task f)) (f_call f) (f_hot f) in
      if existsb (Nat.eqb c) (r_children s) then
        if existsb (Nat.eqb c) (f_hot f) then Some (set_frame s (Some PJoin) f')
        else (* line 518: [chilren] is not defined; NameError ends the thread *)
          Some (set_frame s None f')
      else None
  | PJoin => Some (set_pc s (Some PInner))
  end.

(** base.py:502-505 [proxy], one step; a failing [hot.remove] ends the thread
    with ValueError, which is logged by sched_basic.Threadlet. *)
Definition job_step (s : rate) (i : nat) : option rate :=
  match nth_error (r_jobs s) i with
  | Some (n, JWait) =>
      match f_call (r_frames s n) with
      | Some t =>
          Some (mkRate (r_cold s) (r_idle s) (r_cur s) (r_children s) (r_frame s) (r_frames s)
            (set_nth i (n, JRun t) (r_jobs s)) (t :: r_log s))
      | None => None
      end
  | Some (n, JRun _) =>
      Some (mkRate (r_cold s) (r_idle s) (r_cur s) (r_children s) (r_frame s) (r_frames s)
        (set_nth i (n, JRet) (r_jobs s)) (r_log s))
  | Some (n, JRet) =>
      let f := r_frames s n in
      let hot := match f_task f with Some t => remove1 t (f_hot f) | None => f_hot f end in
      Some (mkRate (r_cold s) (r_idle s) (r_cur s) (r_children s) (r_frame s)
        (fset (r_frames s) n (mkFrame (f_task f) (f_call f) hot))
        (set_nth i (n, JDone) (r_jobs s)) (r_log s))
  | Some (_, JDone) | None => None
  end.

Definition rstep (size : nat) (s : rate) (e : rev_) : option rate :=
  match e with
  | RSubmit t =>
      Some (mkRate (r_cold s ++ [t]) (S (r_idle s)) (r_cur s) (r_children s) (r_frame s)
        (r_frames s) (r_jobs s) (r_log s))
  | REnter =>
      match r_cur s, r_idle s with
      | None, S n =>
          Some (mkRate (r_cold s) n (Some POuter) [] (S (r_frame s))
            (r_frames s) (r_jobs s) (r_log s))
      | _, _ => None
      end
  | RLoop c => match r_cur s with Some p => loop_step size s p c | None => None end
  | RJob i => job_step s i
  end.

Fixpoint rsteps (size : nat) (s : rate) (es : list rev_) : option rate :=
  match es with
  | [] => Some s
  | e :: es' => match rstep size s e with Some s' => rsteps size s' es' | None => None end
  end.

(** Calls in progress. *)
Definition running (s : rate) : list task :=
  concat (map (fun j => match snd j with JRun t => [t] | _ => [] end) (r_jobs s)).

Definition submitted (es : list rev_) : list task :=
  concat (map (fun e => match e with RSubmit t => [t] | _ => [] end) es).
