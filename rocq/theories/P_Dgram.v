From Verif Require Import Py M_Dgram S_Dgram.
Local Open Scope Z_scope.

(** Invariant while serving: the dictionaries list the channels in order. *)
Definition numbered (l : list addr) : list (addr * nat) := combine l (seq 0 (length l)).

Lemma combine_app_one (l : list addr) (ns : list nat) a n : length l = length ns ->
  combine (l ++ [a]) (ns ++ [n]) = combine l ns ++ [(a, n)].
Proof.
  revert ns. induction l as [|x l IH]; intros [|y ns] H; cbn in *; try lia; [reflexivity|].
  f_equal. apply IH. lia.
Qed.

Lemma numbered_snoc l a : numbered (l ++ [a]) = numbered l ++ [(a, length l)].
Proof.
  unfold numbered. rewrite app_length. cbn [length]. rewrite Nat.add_1_r, seq_S.
  rewrite combine_app_one; [reflexivity|]. now rewrite seq_length.
Qed.

Lemma assoc_app a l m : assoc a (l ++ m) = match assoc a l with Some n => Some n | None => assoc a m end.
Proof. induction l as [|[b n] l IH]; [reflexivity|]. cbn. destruct (b =? a); auto. Qed.

Lemma assoc_numbered l a :
  match assoc a (numbered l) with
  | Some n => nth_error l n = Some a /\ In a l
  | None => ~ In a l
  end.
Proof.
  induction l as [|x l IH] using rev_ind; [intros []|].
  rewrite numbered_snoc, assoc_app.
  destruct (assoc a (numbered l)) as [n|].
  - destruct IH as [H1 H2]. split.
    + rewrite nth_error_app1; [exact H1|]. apply nth_error_Some. congruence.
    + apply in_app_iff. auto.
  - cbn. destruct (x =? a) eqn:E.
    + apply Z.eqb_eq in E. subst. split.
      * rewrite nth_error_app2, Nat.sub_diag by lia. reflexivity.
      * apply in_app_iff. right. left. reflexivity.
    + apply Z.eqb_neq in E. intros H. apply in_app_iff in H.
      destruct H as [H|[H|[]]]; congruence.
Qed.

Lemma length_numbered l : length (numbered l) = length l.
Proof. unfold numbered. rewrite combine_length, seq_length. lia. Qed.

Definition inv (s : dgs) (ds : list (bytes * addr)) : Prop :=
  g_accepting s = true /\ g_end s = Running /\ g_sock_open s = true /\
  g_remotes s = numbered (g_chans s) /\ g_locks s = numbered (g_chans s) /\
  g_hello s = g_chans s /\ NoDup (g_chans s) /\
  g_chans s = firsts [] (map snd ds) /\
  Forall2 (job_for (g_chans s)) (g_jobs s) ds /\
  Forall (fun j => j_lock j = j_ch j) (g_jobs s).

Lemma firsts_snoc seen l a : firsts seen (l ++ [a]) =
  let f := firsts seen l in if existsb (Z.eqb a) f then f else f ++ [a].
Proof.
  revert seen. induction l as [|x l IH]; intros seen; cbn.
  - destruct (existsb (Z.eqb a) seen); reflexivity.
  - destruct (existsb (Z.eqb x) seen); apply IH.
Qed.

Lemma existsb_in a l : existsb (Z.eqb a) l = true <-> In a l.
Proof.
  rewrite existsb_exists. split.
  - intros (x & I & E). apply Z.eqb_eq in E. congruence.
  - intros I. exists a. split; [exact I|apply Z.eqb_refl].
Qed.

Lemma job_for_more l a j d : job_for l j d -> job_for (l ++ [a]) j d.
Proof.
  intros [H1 H2]. split; [exact H1|]. rewrite nth_error_app1; [exact H2|].
  apply nth_error_Some. congruence.
Qed.

Lemma Forall2_snoc {A B} (P : A -> B -> Prop) l m x y :
  Forall2 P l m -> P x y -> Forall2 P (l ++ [x]) (m ++ [y]).
Proof. intros H1 H2. apply Forall2_app; auto. Qed.

Lemma Forall2_weaken {A B} (P Q : A -> B -> Prop) l m :
  (forall x y, P x y -> Q x y) -> Forall2 P l m -> Forall2 Q l m.
Proof. intros H F. induction F; constructor; auto. Qed.

Lemma nodup_snoc (l : list addr) a : NoDup l -> ~ In a l -> NoDup (l ++ [a]).
Proof.
  intros N H. induction l as [|x l IH]; cbn.
  - constructor; [intros []|constructor].
  - inversion N as [|? ? N1 N2]; subst. constructor.
    + intros I. apply in_app_iff in I. destruct I as [I|[I|[]]]; [contradiction|].
      subst. apply H. left. reflexivity.
    + apply IH; [exact N2|]. intros I. apply H. right. exact I.
Qed.

Lemma inv_step s ds v : inv s ds -> serving v ->
  inv (dg_step rcv_meant s v) (ds ++ grams [v]).
Proof.
  intros (A & E & O & R & L & He & N & C & J & K) V.
  destruct v as [|d a [e|]| |e]; cbn in V; try contradiction.
  - unfold dg_step, rcv_meant. rewrite E, A. cbn [dg_pass grams].
    pose proof (assoc_numbered (g_chans s) a) as Q. rewrite R, L.
    destruct (assoc a (numbered (g_chans s))) as [n|].
    + destruct Q as [Q1 Q2].
      assert (X : existsb (Z.eqb a) (g_chans s) = true) by now apply existsb_in.
      unfold inv. cbn [g_accepting g_end g_sock_open g_remotes g_locks g_chans g_hello g_jobs]. rewrite map_app. cbn [map snd]. rewrite firsts_snoc. cbv zeta.
      rewrite <- C, X.
      repeat split; auto.
      * apply Forall2_snoc; [exact J|]. split; [reflexivity|exact Q1].
      * apply Forall_app. split; [exact K|]. repeat constructor.
    + assert (X : existsb (Z.eqb a) (g_chans s) = false).
      { destruct (existsb (Z.eqb a) (g_chans s)) eqn:Y; [|reflexivity].
        apply existsb_in in Y. contradiction. }
      unfold inv. cbn [g_accepting g_end g_sock_open g_remotes g_locks g_chans g_hello g_jobs]. rewrite map_app. cbn [map snd]. rewrite firsts_snoc. cbv zeta.
      rewrite <- C, X, numbered_snoc, length_numbered.
      repeat split; auto.
      * now rewrite He.
      * now apply nodup_snoc.
      * apply Forall2_snoc.
        -- eapply Forall2_weaken; [|exact J]. intros; now apply job_for_more.
        -- split; [reflexivity|]. cbn.
           now rewrite nth_error_app2, Nat.sub_diag by lia.
      * apply Forall_app. split; [exact K|]. repeat constructor.
  - unfold dg_step, rcv_meant. rewrite E, A. cbn [dg_pass grams]. rewrite app_nil_r.
    unfold inv. auto 10.
Qed.

Lemma grams_app a b : grams (a ++ b) = grams a ++ grams b.
Proof. induction a as [|v a IH]; [reflexivity|]. destruct v; cbn; now rewrite ?IH. Qed.

Lemma inv_run vs : Forall serving vs -> inv (dg_run rcv_meant vs) (grams vs).
Proof.
  induction vs as [|v vs IH] using rev_ind; intros F.
  - unfold inv. cbn. repeat split; auto; constructor.
  - apply Forall_app in F. destruct F as [F1 F2]. inversion F2; subst.
    unfold dg_run. rewrite fold_left_app, grams_app. cbn [fold_left].
    apply inv_step; [exact (IH F1)|assumption].
Qed.

(** As written: nothing is ever received. *)
Lemma code_dead vs :
  let s := dg_run rcv_code vs in
  g_remotes s = [] /\ g_chans s = [] /\ g_jobs s = [] /\
  ((g_end s = Running /\ g_sock_open s = true) \/ (g_end s = Returned /\ g_sock_open s = false)
   \/ (g_end s = Died TypeError /\ g_sock_open s = true)).
Proof.
  cbv zeta. induction vs as [|v vs IH] using rev_ind.
  - cbn. auto 10.
  - unfold dg_run. rewrite fold_left_app. cbn [fold_left].
    fold (dg_run rcv_code vs). set (s := dg_run rcv_code vs) in *.
    destruct IH as (R & C & J & E). unfold dg_step.
    destruct E as [[E O]|[[E O]|[E O]]]; rewrite E.
    + destruct v; cbn; try (now auto 10).
      all: destruct (g_accepting s); cbn; auto 10.
    + destruct v; cbn; auto 10.
    + destruct v; cbn; auto 10.
Qed.

(** Once dead, dead for ever, with the socket open. *)
Lemma dead_stays rcv e vs : forall s, g_end s = Died e ->
  g_end (fold_left (dg_step rcv) vs s) = Died e /\
  g_sock_open (fold_left (dg_step rcv) vs s) = g_sock_open s /\
  g_jobs (fold_left (dg_step rcv) vs s) = g_jobs s.
Proof.
  induction vs as [|v vs IH]; intros s E; [auto|].
  cbn [fold_left]. destruct (IH (dg_step rcv s v)) as (A & B & C).
  - unfold dg_step. rewrite E. destruct v; auto.
  - rewrite A, B, C. unfold dg_step. rewrite E. destruct v; auto.
Qed.

Lemma firsts_in a l : forall seen, In a (firsts seen l) -> In a seen \/ In a l.
Proof.
  induction l as [|x l IH]; intros seen I; cbn in *; [auto|].
  destruct (existsb (Z.eqb x) seen).
  - destruct (IH _ I); auto.
  - destruct (IH _ I) as [J|J]; auto. apply in_app_iff in J. destruct J as [J|[J|[]]]; auto.
Qed.

Lemma f2_length {A B} {P : A -> B -> Prop} {l m} : Forall2 P l m -> length l = length m.
Proof. intros F. induction F; cbn; auto. Qed.
