(** C37: Threadlet.get(). *)

From Verif Require Import Py M_Threadlet P_Threadlet.

(** Full claim: once the function is finished every get() returns its value or
    re-raises its exception.

    What holds: get() calls that do not overlap give these answers, for every
    outcome and every number of calls: the value each time, or the exception
    the first time and None from then on. *)
Theorem C37_sequential_gets_partial : forall es s,
  tsteps thr_new es = Some s -> calm thr_new es -> forallb over (t_gets s) = true ->
  match did es with
  | Some (inl v) => t_gets s = repeat (GRet v) (length (t_gets s))
  | Some (inr x) =>
      t_gets s = match length (t_gets s) with O => [] | S k => GRaise x :: repeat (GRet VNone) k end
  | None => t_gets s = []
  end.
Proof.
  intros es s H Hc Ho. pose proof (sequential_gets es s H Hc Ho) as Hg.
  destruct (did es) as [[v|x]|]; [| |exact Hg]; rewrite Hg at 1; destruct (length (t_gets s)); reflexivity.
Qed.
Print Assumptions C37_sequential_gets_partial.

(** Refuted: the second get() after an exception returns None. *)
Theorem C37_second_get_refuted : forall x,
  option_map t_gets (tsteps thr_new
    [TSpawn; TFinish (inr x); TGet; TStep 0; TStep 0; TStep 0; TStep 0; TStep 0; TGet; TStep 1]) =
  Some [GRaise x; GRet VNone].
Proof. reflexivity. Qed.
Print Assumptions C37_second_get_refuted.

(** Refuted for a function that returned normally: of two overlapping calls
    one returns None (it reads self.value before it is stored) ... *)
Theorem C37_overlapping_none_refuted : forall v,
  option_map t_gets (tsteps thr_new
    [TSpawn; TFinish (inl v); TGet; TStep 0; TStep 0; TStep 0; TStep 0; TGet; TStep 1; TStep 0]) =
  Some [GRet v; GRet VNone].
Proof. reflexivity. Qed.
Print Assumptions C37_overlapping_none_refuted.

(** ... or fails with AttributeError ... *)
Theorem C37_overlapping_error_refuted : forall v,
  option_map t_gets (tsteps thr_new
    [TSpawn; TFinish (inl v); TGet; TStep 0; TStep 0; TStep 0; TGet; TStep 1; TStep 0; TStep 0; TStep 1]) =
  Some [GRet v; GRaise AttributeError].
Proof. reflexivity. Qed.
Print Assumptions C37_overlapping_error_refuted.

(** ... or waits for ever: whatever happens later, it is still waiting. *)
Theorem C37_overlapping_hangs_refuted : forall o, exists es s,
  tsteps thr_new es = Some s /\ did es = Some o /\ length (t_gets s) = 2%nat /\
  forall es' s', tsteps s es' = Some s' -> nth_error (t_gets s') 1 = Some GBlocked.
Proof.
  intros o. exists [TSpawn; TFinish o; TGet; TGet; TStep 0; TStep 1; TStep 0; TStep 1; TStep 0].
  eexists. split; [vm_compute; reflexivity|]. split; [reflexivity|]. split; [reflexivity|].
  intros es' s' H. apply (stuck_steps es' _ s' 1) in H; [apply H|]. repeat split.
Qed.
Print Assumptions C37_overlapping_hangs_refuted.

(** Three calls in a row, one started before the function ended. *)
Example C37_example :
  let es := [TGet; TStep 0; TStep 0; TFinish (inl (VInt 5)); TStep 0; TStep 0; TStep 0; TGet; TStep 1; TGet; TStep 2] in
  calm thr_new es /\ option_map t_gets (tsteps thr_new es) = Some [GRet (VInt 5); GRet (VInt 5); GRet (VInt 5)].
Proof. vm_compute. repeat split; auto; discriminate. Qed.
