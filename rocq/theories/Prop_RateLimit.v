(** C31: the rate limiter. *)

From Verif Require Import Py M_RateLimit P_RateLimit.

(** Full claim: at most [size] submitted calls run at the same time.  It is
    false: for every limit and every list of submitted calls there is a
    schedule in which all of them run at once. *)
Theorem C31_limit_refuted : forall size ts, (1 <= size)%nat ->
  exists es s, rsteps size rate_new es = Some s /\ submitted es = ts /\ running s = ts.
Proof. exact no_limit. Qed.

(** Limit 1, two calls running at once. *)
Example C31_limit_refuted_example :
  match rsteps 1 rate_new
    [RSubmit 7; RSubmit 8; REnter; RLoop 0; RLoop 0; RLoop 0; RLoop 0; RLoop 0; RLoop 0; RLoop 0; RJob 0;
     RLoop 7; RLoop 0; RLoop 0; RLoop 0; RLoop 0; RLoop 0; RLoop 0; RLoop 0; RLoop 0; RLoop 0; RJob 1] with
  | Some s => running s = [7; 8]%nat
  | None => False
  end.
Proof. vm_compute. reflexivity. Qed.

(** Full claim: every submitted call is made exactly once.  It is false: the
    closures share the variables of loop(), so that a thread which starts late
    makes the later call again and its own is never made.  Here all threads
    have finished. *)
Theorem C31_exactly_once_refuted : exists es s,
  rsteps 2 rate_new es = Some s /\ submitted es = [1; 2]%nat /\
  r_cur s = None /\ r_idle s = 0%nat /\ Forall (fun j => snd j = JDone) (r_jobs s) /\
  r_log s = [2; 2]%nat.
Proof.
  exists ([RSubmit 1; RSubmit 2; REnter; RLoop 0; RLoop 0; RLoop 0; RLoop 0; RLoop 0; RLoop 0; RLoop 0;
     RLoop 1; RLoop 0; RLoop 0; RLoop 0; RLoop 0; RLoop 0; RLoop 0; RLoop 0; RJob 0; RJob 1;
     RLoop 1; RLoop 0; RLoop 0; RLoop 0; RJob 0; RJob 0; RJob 1; RJob 1; REnter; RLoop 0]).
  eexists. split; [vm_compute; reflexivity|]. vm_compute.
  repeat (apply conj; [reflexivity|]). split; [repeat (apply Forall_cons; [reflexivity|]); apply Forall_nil|reflexivity].
Qed.

(** What holds: when no loop() thread is inside or waiting, no submitted call
    is left behind, and exactly one thread was started for each; once these
    have finished as many calls were made as were submitted. *)
Theorem C31_nothing_left_partial : forall size es s,
  rsteps size rate_new es = Some s -> r_cur s = None -> r_idle s = 0%nat ->
  r_cold s = [] /\ length (r_jobs s) = length (submitted es) /\
  (Forall (fun j => snd j = JDone) (r_jobs s) -> length (r_log s) = length (submitted es)).
Proof.
  intros size es s H Hc Hi. destruct (nothing_stuck size es s H Hc Hi) as [H1 H2].
  split; [exact H1|]. split; [exact H2|]. intros Hd. exact (all_called size es s H Hc Hi Hd).
Qed.

(** What holds: at every moment, only submitted calls have been made, and no
    more of them than submitted. *)
Theorem C31_only_submitted_partial : forall size es s,
  rsteps size rate_new es = Some s ->
  (forall t, In t (r_log s) -> In t (submitted es)) /\
  (length (r_log s) <= length (submitted es))%nat.
Proof. exact only_submitted. Qed.

(** Two calls, one after the other, limit 1. *)
Example C31_partial_example :
  match rsteps 1 rate_new
    [RSubmit 7; REnter; RLoop 0; RLoop 0; RLoop 0; RLoop 0; RLoop 0; RLoop 0; RLoop 0; RJob 0; RJob 0; RJob 0;
     RLoop 7; RSubmit 8; REnter; RLoop 0; RLoop 0; RLoop 0; RLoop 0; RLoop 0; RLoop 0; RLoop 0; RJob 1; RJob 1; RJob 1;
     RLoop 8] with
  | Some s => r_cur s = None /\ r_idle s = 0%nat /\ r_log s = [8; 7]%nat /\ Forall (fun j => snd j = JDone) (r_jobs s)
  | None => False
  end.
Proof. vm_compute. repeat (apply conj; [reflexivity|]). repeat (apply Forall_cons; [reflexivity|]). apply Forall_nil. Qed.

(** Full claim: the thread inside loop() goes on while there are calls to make.
    It is false: the name [chilren] (line 518) is not defined, so that the
    thread dies as soon as it finds one of its calls finished.  For every limit,
    every first call and every further list of calls: the first call has been
    made, all the others wait, and the thread ends at its next step. *)
Theorem C31_worker_goes_on_refuted : forall size t ts, (1 <= size)%nat ->
  exists es s, rsteps size rate_new es = Some s /\ submitted es = t :: ts /\ r_log s = [t] /\ r_cold s = ts /\
    r_cur s = Some PFor /\ exists s', rstep size s (RLoop t) = Some s' /\ r_cur s' = None /\ r_cold s' = ts /\ Forall (fun j => snd j = JDone) (r_jobs s').
Proof. exact loop_dies. Qed.
Print Assumptions C31_worker_goes_on_refuted.
Print Assumptions C31_limit_refuted.
Print Assumptions C31_exactly_once_refuted.
Print Assumptions C31_nothing_left_partial.
Print Assumptions C31_only_submitted_partial.
