(** Proofs for C119: the parser of OpenFlow 1.3 takes exactly the byte strings
    of the grammar in S_Accept4.v. *)

From Coq Require Import String List ZArith Lia Bool.
From Verif Require Import Py Struct M_Parse4 P_Struct P_Fixed S_Name P_Name P_Term4 S_Accept4.
Import ListNotations.
Local Open Scope Z_scope.
Local Open Scope list_scope.

Lemma Ok_inj {A} (a b : A) : Ok a = Ok b -> a = b.
Proof. intros E. injection E as E. exact E. Qed.

(** *** Fields *)

Definition item (f : fld) : fitem := match f with N w => FU w | T n => FS n | G n => FX n end.
Definition flen (fs : list fld) : nat := calcsize (map item fs).

Lemma decode_shows fs vs b : shows fs vs b -> forall l, decode (map item fs) (b ++ l) = vs /\ length b = flen fs.
Proof.
  intros H. induction H as [|w fs z vs b Hz H IH|n fs t vs b Ht H IH|n fs p vs b Hp H IH]; intros l;
    [split; reflexivity|..]; destruct (IH l) as [E L]; unfold flen in *; cbn [map item decode calcsize item_size]; rewrite <- app_assoc, app_length.
  - rewrite (firstn_app_l w (be w z)) by apply be_length. rewrite (skipn_app_l w (be w z)) by apply be_length.
    rewrite of_be_be by (apply in_u_iff; exact Hz). rewrite E, be_length, L. auto.
  - rewrite (firstn_app_l n t) by exact Ht. rewrite (skipn_app_l n t) by exact Ht. rewrite E, L, Ht. auto.
  - rewrite (skipn_app_l n p) by exact Hp. rewrite E, L, Hp. auto.
Qed.

Lemma shows_decode fs : forall b, bytes_ok b -> (flen fs <= length b)%nat ->
  shows fs (decode (map item fs) b) (firstn (flen fs) b).
Proof.
  unfold flen. induction fs as [|f fs IH]; intros b Hb Hl; [constructor|].
  cbn [map calcsize] in *.
  assert (E : firstn (item_size (item f) + calcsize (map item fs)) b =
              firstn (item_size (item f)) b ++ firstn (calcsize (map item fs)) (skipn (item_size (item f)) b)).
  { rewrite <- (firstn_skipn (item_size (item f)) b) at 1. rewrite firstn_app, firstn_length, Nat.min_l by lia.
    rewrite firstn_all2 by (rewrite firstn_length; lia). do 2 f_equal. lia. }
  rewrite E.
  assert (Hs : bytes_ok (skipn (item_size (item f)) b)) by (rewrite <- (firstn_skipn (item_size (item f)) b) in Hb; apply Forall_app in Hb; apply Hb).
  assert (Hf : bytes_ok (firstn (item_size (item f)) b)) by (rewrite <- (firstn_skipn (item_size (item f)) b) in Hb; apply Forall_app in Hb; apply Hb).
  specialize (IH _ Hs ltac:(rewrite skipn_length; lia)).
  destruct f as [w|n|n]; cbn [item decode item_size] in *.
  - pose proof (of_be_range _ Hf) as R. unfold zlen in R. rewrite firstn_length, Nat.min_l in R by lia.
    assert (B : be w (of_be (firstn w b)) = firstn w b).
    { rewrite <- (be_of_be _ Hf) at 2. rewrite firstn_length, Nat.min_l by lia. reflexivity. }
    rewrite <- B at 2. constructor; [rewrite pow8; exact R|exact IH].
  - constructor; [rewrite firstn_length; lia|exact IH].
  - constructor; [rewrite firstn_length; lia|exact IH].
Qed.

Lemma here_iff m off fs vs o : bytes_ok m ->
  here m off fs vs o <-> (off + flen fs <= length m)%nat /\ decode (map item fs) (skipn off m) = vs /\ o = (off + flen fs)%nat.
Proof.
  intros Hm. split.
  - intros (pre & b & post & -> & <- & S & ->). destruct (decode_shows _ _ _ S post) as [E L].
    rewrite skipn_app_l by reflexivity. rewrite E, L, !app_length. split; [lia|auto].
  - intros (Hl & <- & ->). exists (firstn off m), (firstn (flen fs) (skipn off m)), (skipn (flen fs) (skipn off m)).
    rewrite !firstn_skipn. split; [reflexivity|]. split; [rewrite firstn_length; lia|].
    split; [|rewrite firstn_length, skipn_length; lia].
    apply shows_decode; [rewrite <- (firstn_skipn off m) in Hm; apply Forall_app in Hm; apply Hm|rewrite skipn_length; lia].
Qed.

Lemma unp_here f fs m off vs o : bytes_ok m -> fmt f = Ok (map item fs) ->
  unp f m off = Ok (vs, o) <-> here m off fs vs o.
Proof.
  intros Hm Hf. rewrite (here_iff _ _ _ _ _ Hm). unfold unp, unpacks, sizes, unpack_from. rewrite Hf. cbn [bind].
  fold (flen fs). destruct (Nat.leb_spec (off + flen fs) (length m)) as [L|L]; cbn [bind].
  - split; [intros E; apply Ok_inj in E; injection E as E1 E2; auto|intros (_ & <- & ->); reflexivity].
  - split; [discriminate|intros (K & _); lia].
Qed.


Lemma unpacks_here f fs m off vs : bytes_ok m -> fmt f = Ok (map item fs) ->
  unpacks f m off = Ok vs <-> here m off fs vs (off + flen fs).
Proof.
  intros Hm Hf. rewrite <- (unp_here f fs m off vs _ Hm Hf). unfold unp, sizes. rewrite Hf. cbn [bind]. fold (flen fs).
  destruct (unpacks f m off) as [x|e]; cbn [bind]; split; intros E; try discriminate; [injection E as ->; reflexivity|].
  apply Ok_inj in E. injection E as ->. reflexivity.
Qed.

(** What values fields show. *)
Fixpoint shape (fs : list fld) (vs : list pyval) : Prop :=
  match fs with
  | [] => vs = []
  | N w :: fs' => exists z vs', vs = VInt z :: vs' /\ 0 <= z < 2 ^ (8 * Z.of_nat w) /\ shape fs' vs'
  | T n :: fs' => exists t vs', vs = VBytes t :: vs' /\ length t = n /\ shape fs' vs'
  | G _ :: fs' => shape fs' vs
  end.

Lemma shows_shape fs vs b : shows fs vs b -> shape fs vs.
Proof.
  induction 1 as [|w fs z vs b Hz H IH|n fs t vs b Ht H IH|n fs p vs b Hp H IH]; cbn [shape]; [reflexivity| | |exact IH].
  - exists z, vs. auto.
  - exists t, vs. auto.
Qed.
Lemma here_shape m off fs vs o : here m off fs vs o -> shape fs vs.
Proof. intros (pre & b & post & _ & _ & S & _). exact (shows_shape _ _ _ S). Qed.

Lemma here_end m off fs vs o : here m off fs vs o -> o = (off + flen fs)%nat.
Proof. intros (pre & b & post & _ & _ & S & ->). f_equal. exact (proj2 (decode_shows _ _ _ S [])). Qed.

Lemma here_det m off fs vs vs' o o' : here m off fs vs o -> here m off fs vs' o' -> vs = vs' /\ o = o'.
Proof.
  intros (p & b & q & E & L & S & O) (p' & b' & q' & E' & L' & S' & O').
  destruct (decode_shows _ _ _ S q) as [D B]. destruct (decode_shows _ _ _ S' q') as [D' B'].
  assert (X : b ++ q = b' ++ q') by (rewrite <- (skipn_app_l off p (b ++ q) L), <- (skipn_app_l off p' (b' ++ q') L'), <- E, <- E'; reflexivity).
  rewrite <- X in D'. split; [congruence|lia].
Qed.

(** A prefix of the fields. *)
Lemma shows_split fs gs : forall vs b, shows (fs ++ gs) vs b <-> exists v1 v2 b1 b2, vs = v1 ++ v2 /\ b = b1 ++ b2 /\ shows fs v1 b1 /\ shows gs v2 b2.
Proof.
  induction fs as [|f fs IH]; intros vs b; cbn [Datatypes.app].
  - split; [intros H; exists [], vs, [], b; repeat split; [constructor|exact H]|].
    intros (v1 & v2 & b1 & b2 & -> & -> & H1 & H2). inversion H1; subst. exact H2.
  - split.
    + intros H. inversion H as [|w fs' z vs' b' Hz H' |n fs' t vs' b' Ht H'|n fs' p vs' b' Hp H']; subst; apply IH in H';
        destruct H' as (v1 & v2 & b1 & b2 & -> & -> & H1 & H2).
      * exists (VInt z :: v1), v2, (be w z ++ b1), b2. repeat split; [apply app_assoc|constructor; assumption|exact H2].
      * exists (VBytes t :: v1), v2, (t ++ b1), b2. repeat split; [apply app_assoc|constructor; auto|exact H2].
      * exists v1, v2, (p ++ b1), b2. repeat split; [apply app_assoc|constructor; auto|exact H2].
    + intros (v1 & v2 & b1 & b2 & -> & -> & H1 & H2).
      inversion H1 as [|w fs' z vs' b' Hz H' |n fs' t vs' b' Ht H'|n fs' p vs' b' Hp H']; subst; cbn [Datatypes.app]; rewrite <- app_assoc;
        constructor; auto; apply IH; eauto 8.
Qed.

Lemma here_split m off fs gs vs o :
  here m off (fs ++ gs) vs o <-> exists v1 v2 o', vs = v1 ++ v2 /\ here m off fs v1 o' /\ here m o' gs v2 o.
Proof.
  split.
  - intros (p & b & q & -> & L & S & ->). apply shows_split in S. destruct S as (v1 & v2 & b1 & b2 & -> & -> & S1 & S2).
    exists v1, v2, (off + length b1)%nat. split; [reflexivity|]. split.
    + exists p, b1, (b2 ++ q). rewrite <- app_assoc. auto.
    + exists (p ++ b1), b2, q. rewrite <- !app_assoc, !app_length. repeat split; [lia|exact S2|lia].
  - intros (v1 & v2 & o' & -> & (p & b & q & E & L & S & ->) & (p' & b' & q' & E' & L' & S' & ->)).
    assert (X : b ++ q = b ++ b' ++ q').
    { rewrite <- (skipn_app_l off p (b ++ q) L), <- E, E'.
      assert (P : p' = p ++ b).
      { rewrite <- (firstn_app_l (off + length b) p' (b' ++ q') L'), <- E', E, app_assoc. apply firstn_app_l. rewrite app_length. lia. }
      rewrite P, <- app_assoc. apply skipn_app_l. exact L. }
    exists p, (b ++ b'), q'. rewrite <- app_assoc, <- X, app_length. split; [exact E|]. split; [exact L|]. split; [|lia].
    apply shows_split. eauto 8.
Qed.

(** *** Parsers with fuel and what they mean *)

Definition mean {A} (p : nat -> res A) (P : A -> Prop) : Prop :=
  (forall n a, p n = Ok a -> P a) /\ (forall a, P a -> exists k, forall n, (k <= n)%nat -> p n = Ok a).

Lemma mean_const {A} (r : res A) P : (forall a, r = Ok a <-> P a) -> mean (fun _ => r) P.
Proof. intros H. split; [intros n a E; apply H, E|]. intros a Pa. exists 0%nat. intros n _. apply H, Pa. Qed.
Lemma mean_ok {A} (x : A) : mean (fun _ => Ok x) (fun a => a = x).
Proof. apply mean_const. intros a. split; [intros E; apply Ok_inj in E; auto|intros ->; reflexivity]. Qed.
Lemma mean_err {A} e : mean (fun _ => @Err A e) (fun _ => False).
Proof. apply mean_const. intros a. split; [discriminate|intros []]. Qed.
Lemma mean_ext {A} (p : nat -> res A) P Q : mean p P -> (forall a, P a <-> Q a) -> mean p Q.
Proof. intros [H1 H2] E. split; [intros n a K; apply E, (H1 n a K)|intros a K; apply H2, E, K]. Qed.
Lemma mean_bind {A B} (p : nat -> res A) (q : A -> nat -> res B) P Q :
  mean p P -> (forall a, P a -> mean (q a) (Q a)) ->
  mean (fun n => x <- p n ;; q x n) (fun b => exists a, P a /\ Q a b).
Proof.
  intros [H1 H2] H. split.
  - intros n b E. apply bind_ok in E. destruct E as (a & Ea & E). exists a. specialize (H1 _ _ Ea). split; [exact H1|]. exact (proj1 (H a H1) n b E).
  - intros b (a & Pa & Qb). destruct (H2 a Pa) as (k & K). destruct (proj2 (H a Pa) b Qb) as (k' & K').
    exists (k + k')%nat. intros n Hn. rewrite K by lia. cbn [bind]. apply K'. lia.
Qed.
Lemma mean_if {A} (c : bool) (p q : nat -> res A) P Q :
  mean p P -> mean q Q -> mean (fun n => if c then p n else q n) (fun a => (c = true /\ P a) \/ (c = false /\ Q a)).
Proof.
  intros Hp Hq. destruct c; [refine (mean_ext _ _ _ Hp _)|refine (mean_ext _ _ _ Hq _)]; intros a; split; auto; intros [[E H]|[E H]]; auto; discriminate.
Qed.

(** Loops. *)
Lemma mean_while (f : nat -> nat -> res (pyval * nat)) (R : nat -> pyval -> nat -> Prop) e :
  (forall off, mean (fun n => f n off) (fun x => R off (fst x) (snd x))) ->
  forall off, mean (fun n => while_fetch n (f n) e off) (fun x => many R e off (fst x) (snd x)).
Proof.
  intros H off. split.
  - intros n. assert (G : forall k off x, while_fetch k (f n) e off = Ok x -> many R e off (fst x) (snd x)).
    { induction k as [|k IH]; intros o x E; cbn [while_fetch] in E; destruct (Nat.ltb_spec o e) as [L|L]; try discriminate.
      - injection E as <-. constructor. exact L.
      - apply bind_ok in E. destruct E as ([v o1] & Ev & E). apply bind_ok in E. destruct E as ([vs o2] & Es & E).
        apply Ok_inj in E. subst x. cbn [fst snd]. apply (proj1 (H o) n) in Ev. apply IH in Es. econstructor; eassumption.
      - injection E as <-. constructor. exact L. }
    intros x. apply G.
  - intros [vs o'] M. cbn [fst snd] in M.
    assert (G : exists k, forall n j, (k <= n)%nat -> (k <= j)%nat -> while_fetch j (f n) e off = Ok (vs, o')).
    { induction M as [off L|off v o vs o' L Rv M (k & IH)].
      - exists 0%nat. intros n j _ _. destruct j; cbn [while_fetch]; rewrite (proj2 (Nat.ltb_ge off e)) by lia; reflexivity.
      - destruct (proj2 (H off) (v, o) Rv) as (k' & K'). exists (S (k + k'))%nat. intros n j Hn Hj.
        destruct j as [|j]; [lia|]. cbn [while_fetch]. rewrite (proj2 (Nat.ltb_lt off e)) by lia.
        rewrite K' by lia. cbn [bind]. rewrite (IH n j) by lia. reflexivity. }
    destruct G as (k & K). exists k. intros n Hn. apply K; exact Hn.
Qed.

Lemma mean_list (f : nat -> nat -> res (pyval * nat)) (R : nat -> pyval -> nat -> Prop) e :
  (forall off, mean (fun n => f n off) (fun x => R off (fst x) (snd x))) ->
  forall off, mean (fun n => list_fetch n (f n) e off) (fun x => filling R e off (fst x) /\ snd x = e).
Proof.
  intros H off. unfold list_fetch.
  refine (mean_ext _ _ _ (mean_bind _ (fun (x : list pyval * nat) (_ : nat) => let (vs, o) := x in assert_ (o =? e)%nat ;;; Ok (vs, o)) _
           (fun (x y : list pyval * nat) => snd x = e /\ y = x) (mean_while f R e H off) _) _).
  - intros [vs o] _. apply mean_const. intros a. cbn [snd]. destruct (Nat.eqb_spec o e) as [E|E]; cbn [assert_ bind].
    + split; [intros K; apply Ok_inj in K; auto|intros [_ ->]; reflexivity].
    + split; [discriminate|intros [K _]; contradiction].
  - intros [vs o]. cbn [fst snd]. unfold filling. split.
    + intros ([vs' o1] & M & E & K). cbn [fst snd] in *. injection K as -> ->. subst. auto.
    + intros [M ->]. exists (vs, e). auto.
Qed.

Section message.
Variable m : bytes.
Hypothesis Hm : bytes_ok m.

Lemma fixed_iff cls f fs off v o : fmt f = Ok (map item fs) -> fixed cls f m off = Ok (v, o) <-> plain_struct cls fs m off v o.
Proof.
  intros Hf. unfold fixed, plain_struct. rewrite bind_iff. split.
  - intros ([vs o'] & E & K). apply Ok_inj in K. injection K as <- <-. apply (unp_here f fs m off vs o' Hm Hf) in E. eauto.
  - intros (vs & H & ->). exists (vs, o). split; [apply (unp_here f fs m off vs o Hm Hf), H|reflexivity].
Qed.

Lemma mean_fixed cls f fs off : fmt f = Ok (map item fs) ->
  mean (fun _ => fixed cls f m off) (fun x => plain_struct cls fs m off (fst x) (snd x)).
Proof. intros Hf. apply mean_const. intros [v o]. apply fixed_iff, Hf. Qed.

Ltac shp H := let S := fresh "S" in pose proof (here_shape _ _ _ _ _ H) as S; cbn [shape Datatypes.app repeat] in S.

(** Two readings that begin alike. *)
Lemma here_two fs gs off vs ws o o' : here m off (N 2 :: N 2 :: fs) vs o -> here m off (N 2 :: N 2 :: gs) ws o' ->
  exists a b vs' ws', vs = VInt a :: VInt b :: vs' /\ ws = VInt a :: VInt b :: ws'.
Proof.
  intros H1 H2. apply (here_split m off [N 2; N 2] fs) in H1. apply (here_split m off [N 2; N 2] gs) in H2.
  destruct H1 as (v1 & v2 & o1 & -> & A1 & _). destruct H2 as (w1 & w2 & o2 & -> & A2 & _).
  destruct (here_det _ _ _ _ _ _ _ A1 A2) as [-> _]. shp A2. destruct S as (a & x & -> & _ & b & y & -> & _ & ->).
  exists a, b, v2, w2. split; reflexivity.
Qed.

Lemma here_tail fs off a b vs o : here m off (N 2 :: N 2 :: fs) (VInt a :: VInt b :: vs) o ->
  shape [N 2; N 2] [VInt a; VInt b] /\ shape fs vs.
Proof.
  intros H. shp H. destruct S as (x & l & E & R & y & l' & E' & R' & S). injection E as <- <-. injection E' as <- <-.
  split; [|exact S]. cbn [shape]. exists a, [VInt b]. split; [reflexivity|]. split; [exact R|]. exists b, []. auto.
Qed.

(** The first fields, and some bytes more. *)
Lemma here_take fs gs n off v1 v2 o : (n <= flen gs)%nat -> shape fs v1 -> here m off (fs ++ gs) (v1 ++ v2) o ->
  here m off (fs ++ [G n]) v1 (off + flen fs + n).
Proof.
  intros Hn Hs H. apply here_split in H. destruct H as (a & b & o1 & E & H1 & H2).
  assert (a = v1).
  { pose proof (here_shape _ _ _ _ _ H1) as Sa. clear - Sa Hs E. revert a v1 Sa Hs E. induction fs as [|f fs IH]; intros a v1 Sa Hs E; cbn [shape] in *; [congruence|].
    destruct f as [w|k|k].
    - destruct Sa as (z & a' & -> & _ & Sa). destruct Hs as (y & v' & -> & _ & Hs). cbn in E. injection E as -> E. f_equal. apply IH; assumption.
    - destruct Sa as (z & a' & -> & _ & Sa). destruct Hs as (y & v' & -> & _ & Hs). cbn in E. injection E as -> E. f_equal. apply IH; assumption.
    - apply IH; assumption. }
  subst a. apply here_split. exists v1, [], o1. rewrite app_nil_r. split; [reflexivity|]. split; [exact H1|].
  apply here_end in H1 as E1. subst o1. apply (here_iff _ _ _ _ _ Hm) in H2. destruct H2 as (L & _ & _).
  apply (here_iff _ _ _ _ _ Hm). change (flen [G n]) with (n + 0)%nat. split; [lia|]. split; [reflexivity|lia].
Qed.

Definition no_match_types (ty : Z) (l : list Z) : Prop := ~ In ty l.

Lemma eqb_out ty k l : ~ In ty l -> In k l -> (ty =? k) = false.
Proof. intros H K. apply Z.eqb_neq. intros ->. exact (H K). Qed.
Lemma inz_out ty ks l : ~ In ty l -> incl ks l -> py_inz (VInt ty) ks = false.
Proof.
  intros H K. destruct (py_inz (VInt ty) ks) eqn:E; [|reflexivity]. apply inz_iff in E. elim H. exact (K _ E).
Qed.

Ltac inl := cbn [In]; tauto.
Ltac incs := let x := fresh in intros x; cbn [In]; tauto.
Ltac outs H := repeat first [rewrite (eqb_out _ _ _ H) by inl | rewrite (inz_out _ _ _ H) by incs].

Lemma action_iff off v o : p_action m off = Ok (v, o) <-> an_action m off v o.
Proof.
  unfold p_action. rewrite bind_iff. split.
  - intros ([h o8] & Eh & E). apply (fixed_iff _ "HH4x" [N 2; N 2; G 4] off h o8 eq_refl) in Eh. destruct Eh as (vs & Hh & ->).
    shp Hh. destruct S as (ty & x & -> & _ & len & y & -> & _ & ->).
    assert (K : forall cls f fs, fmt f = Ok (map item (N 2 :: N 2 :: fs)) -> In (ty, cls, fs) action_table ->
                fixed cls f m off = Ok (v, o) -> an_action m off v o).
    { intros cls f fs Hf Hin F. apply (fixed_iff _ _ _ _ _ _ Hf) in F. destruct F as (vs & Hv & ->).
      destruct (here_two _ _ _ _ _ _ _ Hh Hv) as (a & b & vs' & ws' & E1 & ->). injection E1 as -> -> _. eapply act_fixed; [exact Hin|exact Hv|reflexivity]. }
    destruct (Z.eqb_spec ty 0) as [->|N0]; [apply (K _ "HHIH6x"%string [N 4; N 2; G 6] eq_refl ltac:(cbn; tauto) E)|].
    destruct (Z.eqb_spec ty 22) as [->|N1]; [apply (K _ "HHI"%string [N 4] eq_refl ltac:(cbn; tauto) E)|].
    destruct (Z.eqb_spec ty 21) as [->|N2]; [apply (K _ "HHI"%string [N 4] eq_refl ltac:(cbn; tauto) E)|].
    destruct (Z.eqb_spec ty 15) as [->|N3]; [discriminate E|].
    destruct (Z.eqb_spec ty 23) as [->|N4]; [apply (K _ "HHB3x"%string [N 1; G 3] eq_refl ltac:(cbn; tauto) E)|].
    destruct (py_inz (VInt ty) [17; 19; 26]) eqn:N5.
    { apply inz_iff in N5. destruct N5 as [<-|[<-|[<-|[]]]]; apply (K _ "HHH2x"%string [N 2; G 2] eq_refl ltac:(cbn; tauto) E). }
    destruct (Z.eqb_spec ty 20) as [->|N6]; [apply (K _ "HHH2x"%string [N 2; G 2] eq_refl ltac:(cbn; tauto) E)|].
    destruct (Z.eqb_spec ty 25) as [->|N7].
    { unfold p_action_set_field in E. apply bind_ok in E. destruct E as ([vs o4] & E4 & E).
      apply (unp_here "HH" [N 2; N 2] m off vs o4 Hm eq_refl) in E4. destruct (here_two _ _ _ _ _ _ _ Hh E4) as (a & b & vs' & ws' & E1 & ->).
      injection E1 as <- <- _. pose proof (here_end _ _ _ _ _ E4) as E5. destruct (here_tail _ _ _ _ _ _ E4) as [_ S]. cbn [shape] in S. subst.
      apply Ok_inj in E. injection E as <- <-. cbn [Datatypes.app]. eapply act_set_field. exact Hh. }
    destruct (Z.eqb_spec ty 65535) as [->|N8].
    { unfold p_action_experimenter in E. apply bind_ok in E. destruct E as ([vs o4] & E4 & E).
      apply (unp_here "HHI" [N 2; N 2; N 4] m off vs o4 Hm eq_refl) in E4. destruct (here_two _ _ _ _ _ _ _ Hh E4) as (a & b & vs' & ws' & E1 & ->).
      injection E1 as <- <- _. pose proof (here_end _ _ _ _ _ E4) as E5. destruct (here_tail _ _ _ _ _ _ E4) as [_ (x & ? & -> & _ & S)]. cbn [shape] in S. subst.
      apply Ok_inj in E. injection E as <- <-. cbn [Datatypes.app]. eapply act_experimenter. exact E4. }
    apply (fixed_iff _ "HH4x" [N 2; N 2; G 4] off v o eq_refl) in E. destruct E as (vs & Hv & ->).
    destruct (here_det _ _ _ _ _ _ _ Hh Hv) as [<- <-]. apply act_bare; [|exact Hh].
    cbn [In]. assert (~ In ty [17; 19; 26]) as N9 by (rewrite <- inz_iff, N5; discriminate). cbn [In] in N9. intuition congruence.
  - intros A. destruct A as [ty cls fs v vs o Hin H ->|len o8 H|len x o8 H|ty len o H1 H].
    + shp H. assert (exists a vs', vs = VInt a :: vs') as (a & vs' & ->).
      { destruct S as (? & ? & E & _ & b & y & -> & _). injection E as _ ->. eauto. }
      assert (Hd : here m off [N 2; N 2; G 4] [VInt ty; VInt a] (off + 8)).
      { replace (off + 8)%nat with (off + flen [N 2; N 2] + 4)%nat by (cbn; lia). apply (here_take [N 2; N 2] fs 4 off [VInt ty; VInt a] vs' o); [|exact (proj1 (here_tail _ _ _ _ _ _ H))|exact H].
        cbn [In action_table] in Hin. intuition (match goal with E : (_, _, _) = _ |- _ => injection E as <- <- <- end); cbn; lia.
      }
      exists (VTup "ofp_action_header" [VInt ty; VInt a], (off + 8)%nat). split.
      { apply (fixed_iff _ "HH4x" [N 2; N 2; G 4] off _ _ eq_refl). eexists. split; [exact Hd|reflexivity]. }
      assert (F : forall f, fmt f = Ok (map item (N 2 :: N 2 :: fs)) -> fixed cls f m off = Ok (VTup cls (VInt ty :: VInt a :: vs'), o)).
      { intros f Hf. apply (fixed_iff _ _ _ _ _ _ Hf). eexists. split; [exact H|reflexivity]. }
      cbn [In action_table] in Hin. intuition (match goal with E : (_, _, _) = _ |- _ => injection E as <- <- <- end);
        (cbv beta iota; match goal with |- (if ?c then _ else _) = _ => let c' := eval vm_compute in c in change c with c' end; first [apply (F "HHIH6x"%string eq_refl)|apply (F "HHI"%string eq_refl)|apply (F "HHB3x"%string eq_refl)|apply (F "HHH2x"%string eq_refl)]).
    + exists (VTup "ofp_action_header" [VInt 25; VInt len], o8). split.
      { apply (fixed_iff _ "HH4x" [N 2; N 2; G 4] off _ _ eq_refl). eexists. split; [exact H|reflexivity]. }
      change (p_action_set_field m off = Ok (VTup "ofp_action_set_field" [VInt 25; VInt len; VBytes (slice m (off + 4) (end_ off len))], end_ off len)).
      unfold p_action_set_field. apply (here_split m off [N 2; N 2] [G 4]) in H. destruct H as (v1 & v2 & o4 & E & H & H2).
      pose proof (here_end _ _ _ _ _ H) as E4. shp H. destruct S as (a & x & -> & _ & b & y & -> & _ & ->).
      apply (unp_here "HH" [N 2; N 2] m off _ _ Hm eq_refl) in H. rewrite H. cbn [bind]. injection E as <- <- _. subst o4. reflexivity.
    + pose proof (here_end _ _ _ _ _ H) as E8.
      exists (VTup "ofp_action_header" [VInt 65535; VInt len], o8). split.
      { apply (fixed_iff _ "HH4x" [N 2; N 2; G 4] off _ _ eq_refl). eexists. split; [|reflexivity].
        replace o8 with (off + flen [N 2; N 2] + 4)%nat by (subst o8; cbn; lia).
        apply (here_take [N 2; N 2] [N 4] 4 off [VInt 65535; VInt len] [VInt x] o8); [cbn; lia|exact (proj1 (here_tail _ _ _ _ _ _ H))|exact H]. }
      change (p_action_experimenter m off = Ok (VTup "ofp_action_experimenter_" [VInt 65535; VInt len; VInt x; VBytes (slice m (off + 8) (end_ off len))], end_ off len)).
      unfold p_action_experimenter. apply (unp_here "HHI" [N 2; N 2; N 4] m off _ _ Hm eq_refl) in H. rewrite H. cbn [bind]. subst o8. reflexivity.
    + exists (VTup "ofp_action_header" [VInt ty; VInt len], o).
      assert (F : p_action_header m off = Ok (VTup "ofp_action_header" [VInt ty; VInt len], o)).
      { apply (fixed_iff _ "HH4x" [N 2; N 2; G 4] off _ _ eq_refl). eexists. split; [exact H|reflexivity]. }
      split; [exact F|]. outs H1. exact F.
Qed.

Lemma mean_unp f fs off : fmt f = Ok (map item fs) -> mean (fun _ => unp f m off) (fun x => here m off fs (fst x) (snd x)).
Proof. intros Hf. apply mean_const. intros [vs o]. apply unp_here; assumption. Qed.

Lemma mean_then {A B} (p : nat -> res A) (q : A -> nat -> res B) P R :
  mean p P -> (forall a, P a -> mean (q a) R) -> (forall b, R b -> exists a, P a) -> mean (fun n => x <- p n ;; q x n) R.
Proof.
  intros Hp Hq Hr. refine (mean_ext _ _ _ (mean_bind _ q _ (fun _ => R) Hp Hq) _).
  intros b. split; [intros (a & _ & Rb); exact Rb|intros Rb; destruct (Hr b Rb) as (a & Pa); exists a; auto].
Qed.

(** [H]: fields that begin with [Hh]'s two numbers. *)
Ltac alike H Hh :=
  let a := fresh "a" in let b := fresh "b" in let x := fresh "x" in let y := fresh "y" in let E1 := fresh "E" in let E2 := fresh "E" in
  destruct (here_two _ _ _ _ _ _ _ Hh H) as (a & b & x & y & E1 & E2);
  injection E1 as <- <- _; first [injection E2; clear E2; intros; subst | subst]; try discriminate; try congruence.

Lemma action_mean off : mean (fun _ => p_action m off) (fun x => an_action m off (fst x) (snd x)).
Proof. apply mean_const. intros [v o]. apply action_iff. Qed.

Lemma instruction_mean off : mean (fun n => p_instruction n m off) (fun x => an_instruction m off (fst x) (snd x)).
Proof.
  unfold p_instruction. eapply mean_then; [apply (mean_fixed "ofp_instruction" "HH" [N 2; N 2] off eq_refl)| |].
  - intros [h o4] (vs & Hh & Eh). cbn [fst snd] in *. subst h. shp Hh. destruct S as (ty & x & -> & _ & len & y & -> & _ & ->).
    destruct (Z.eqb_spec ty 1) as [->|N1].
    { refine (mean_ext _ _ _ (mean_fixed _ "HHB3x" [N 2; N 2; N 1; G 3] off eq_refl) _). intros [v o]. cbn [fst snd]. split.
      - intros (vs & H & ->). alike H Hh. destruct (here_tail _ _ _ _ _ _ H) as [_ (t & ? & -> & _ & S)]. cbn [shape] in S. subst. eapply ins_goto; [exact H|reflexivity].
      - intros A. destruct A as [v len' t o H ->|v len' aa bb o H ->|v ty len' acts o Ht H F ->|v len' xx o H ->|v len' xx o H ->]; alike H Hh; cbn [In] in *; try lia.
        eexists. split; [exact H|reflexivity]. }
    destruct (Z.eqb_spec ty 2) as [->|N2'].
    { refine (mean_ext _ _ _ (mean_fixed _ "HH4xQQ" [N 2; N 2; G 4; N 8; N 8] off eq_refl) _). intros [v o]. cbn [fst snd]. split.
      - intros (vs & H & ->). alike H Hh. destruct (here_tail _ _ _ _ _ _ H) as [_ (t & ? & -> & _ & u & ? & -> & _ & S)]. cbn [shape] in S. subst. eapply ins_metadata; [exact H|reflexivity].
      - intros A. destruct A as [v len' t o H ->|v len' aa bb o H ->|v ty len' acts o Ht H F ->|v len' xx o H ->|v len' xx o H ->]; alike H Hh; cbn [In] in *; try lia.
        eexists. split; [exact H|reflexivity]. }
    destruct (py_inz (VInt ty) [3; 4; 5]) eqn:N3.
    { apply inz_iff in N3. unfold p_instruction_actions.
      eapply mean_then; [apply (mean_unp "HH4x" [N 2; N 2; G 4] off eq_refl)| |].
      - intros [vs o8] H. cbn [fst snd] in H. alike H Hh. destruct (here_tail _ _ _ _ _ _ H) as [_ S]. cbn [shape] in S. subst.
        refine (mean_ext _ _ _ (mean_bind _ (fun (x : list pyval * nat) (_ : nat) => let (acts, o) := x in Ok (VTup "ofp_instruction_actions" ([VInt ty; VInt len] ++ [VList acts]), o))
                  _ (fun x y => y = (VTup "ofp_instruction_actions" [VInt ty; VInt len; VList (fst x)], snd x)) (mean_list (fun _ => p_action m) (an_action m) (end_ off len) action_mean o8) _) _).
        + intros [acts o'] _. apply mean_ok.
        + intros [v o]. cbn [fst snd]. split.
          * intros ([acts o'] & [F E] & K). cbn [fst snd] in *. subst o'. injection K as -> ->. eapply ins_actions; [exact N3|exact H|exact F|reflexivity].
          * intros A. destruct A as [v len' t o H' ->|v len' aa bb o H' ->|v ty' len' acts o Ht H' F ->|v len' xx o H' ->|v len' xx o H' ->]; alike H' Hh; cbn [In] in *; try lia.
            destruct (here_det _ _ _ _ _ _ _ H H') as [E ->]. eexists (acts, _). cbn [fst snd]. split; [split; [exact F|reflexivity]|reflexivity].
      - intros [v o] A. cbn [fst snd] in A. destruct A as [v len' t o H ->|v len' aa bb o H ->|v ty' len' acts o Ht H F ->|v len' xx o H ->|v len' xx o H ->]; alike H Hh; cbn [In] in *; try lia.
        eexists (_, _). exact H. }
    destruct (Z.eqb_spec ty 6) as [->|N6].
    { refine (mean_ext _ _ _ (mean_fixed _ "HHI" [N 2; N 2; N 4] off eq_refl) _). intros [v o]. cbn [fst snd]. split.
      - intros (vs & H & ->). alike H Hh. destruct (here_tail _ _ _ _ _ _ H) as [_ (t & ? & -> & _ & S)]. cbn [shape] in S. subst. eapply ins_meter; [exact H|reflexivity].
      - intros A. destruct A as [v len' t o H ->|v len' aa bb o H ->|v ty len' acts o Ht H F ->|v len' xx o H ->|v len' xx o H ->]; alike H Hh; cbn [In] in *; try lia.
        eexists. split; [exact H|reflexivity]. }
    destruct (Z.eqb_spec ty 65535) as [->|N7].
    { unfold p_instruction_experimenter. eapply mean_then; [apply (mean_unp "HHI" [N 2; N 2; N 4] off eq_refl)| |].
      - intros [vs o8] H. cbn [fst snd] in H. alike H Hh. destruct (here_tail _ _ _ _ _ _ H) as [_ (t & ? & -> & _ & S)]. cbn [shape] in S. subst.
        pose proof (here_end _ _ _ _ _ H) as E8. cbn [Datatypes.app].
        refine (mean_ext _ _ _ (mean_ok _) _). intros [v o]. cbn [fst snd]. split.
        + intros K. injection K as -> ->. eapply ins_experimenter; [exact H|subst o8; reflexivity].
        + intros A. destruct A as [v len' t' o H' ->|v len' aa bb o H' ->|v ty' len' acts o Ht H' F ->|v len' xx o H' ->|v len' xx o H' ->]; alike H' Hh; cbn [In] in *; try lia.
          apply here_end in H' as E8. destruct (here_det _ _ _ _ _ _ _ H H') as [E _]. injection E as ->. subst. reflexivity.
      - intros [v o] A. cbn [fst snd] in A. destruct A as [v len' t o H ->|v len' aa bb o H ->|v ty' len' acts o Ht H F ->|v len' xx o H ->|v len' xx o H ->]; alike H Hh; cbn [In] in *; try lia.
        eexists (_, _). exact H. }
    refine (mean_ext _ _ _ (mean_err _) _). intros [v o]. cbn [fst snd]. split; [intros []|].
    assert (~ In ty [3; 4; 5]) as N9 by (rewrite <- inz_iff, N3; discriminate).
    intros A. destruct A as [v len' t o H ->|v len' aa bb o H ->|v ty' len' acts o Ht H F ->|v len' xx o H ->|v len' xx o H ->]; alike H Hh.
  - intros [v o] A. cbn [fst snd] in A.
    assert (K : forall fs vs o, here m off ([N 2; N 2] ++ fs) vs o -> exists a, plain_struct "ofp_instruction" [N 2; N 2] m off (fst a) (snd a)).
    { intros fs vs o' H. apply here_split in H. destruct H as (v1 & v2 & o1 & -> & H & _). exists (VTup "ofp_instruction" v1, o1). eexists. split; [exact H|reflexivity]. }
    destruct A as [v len' t o H ->|v len' aa bb o H ->|v ty' len' acts o Ht H F ->|v len' xx o H ->|v len' xx o H ->]; eapply (K _ _ _ H).
Qed.

Lemma mean_pair {A B C} (p : nat -> res (A * B)) (q : A -> B -> nat -> res C) P Q :
  mean p (fun x => P (fst x) (snd x)) -> (forall a b, P a b -> mean (q a b) (Q a b)) ->
  mean (fun n => ' (a, b) <- p n ;; q a b n) (fun c => exists a b, P a b /\ Q a b c).
Proof.
  intros Hp Hq. refine (mean_ext _ _ _ (mean_bind p (fun x n => let (a, b) := x in q a b n) _ (fun x => Q (fst x) (snd x)) Hp _) _).
  - intros [a b] H. exact (Hq a b H).
  - intros c. split; [intros ([a b] & H1 & H2); eauto|intros (a & b & H1 & H2); exists (a, b); auto].
Qed.

Lemma match_iff off v o : p_match m off = Ok (v, o) <-> a_match m off v o.
Proof.
  unfold p_match. rewrite bind_iff. split.
  - intros ([vs o4] & H & E). apply (unp_here "HH" [N 2; N 2] m off vs o4 Hm eq_refl) in H. pose proof (here_end _ _ _ _ _ H) as E4.
    shp H. destruct S as (ty & x & -> & _ & len & y & -> & R & ->). apply Ok_inj in E. injection E as <- <-.
    exists ty, len, o4. split; [exact H|]. subst o4. split; [reflexivity|]. unfold end_. f_equal. unfold align8, up8.
    rewrite Z2Nat.inj_mul, Z2Nat.inj_div, Z2Nat.inj_add by (try apply Z.div_pos; lia). reflexivity.
  - intros (ty & len & o4 & H & -> & ->). pose proof (here_end _ _ _ _ _ H) as E4. shp H. destruct S as (? & ? & E1 & _ & ? & ? & E2 & R & _).
    injection E1 as <- <-. injection E2 as <- <-.
    exists ([VInt ty; VInt len], o4). split; [apply (unp_here "HH" [N 2; N 2] m off _ o4 Hm eq_refl), H|]. subst o4. cbn [Datatypes.app]. do 2 f_equal.
    unfold end_. f_equal. unfold align8, up8. rewrite Z2Nat.inj_mul, Z2Nat.inj_div, Z2Nat.inj_add by (try apply Z.div_pos; lia). reflexivity.
Qed.
Lemma match_mean off : mean (fun _ => p_match m off) (fun x => a_match m off (fst x) (snd x)).
Proof. apply mean_const. intros [v o]. apply match_iff. Qed.

Lemma bucket_mean off : mean (fun n => p_bucket n m off) (fun x => a_bucket m off (fst x) (snd x)).
Proof.
  unfold p_bucket. refine (mean_ext _ _ _ (mean_pair _ (fun vs o n => match vs with
      | VInt len :: _ => ' (acts, o) <- while_fetch n (p_action m) (off + Z.to_nat len) o ;; Ok (VTup "ofp_bucket" (vs ++ [VList acts]), o)
      | _ => Err ValueError end) _
    (fun vs o c => exists len r, vs = VInt len :: r /\ exists acts o', many (an_action m) (end_ off len) o acts o' /\ c = (VTup "ofp_bucket" (vs ++ [VList acts]), o'))
    (mean_unp "HHII4x" [N 2; N 2; N 4; N 4; G 4] off eq_refl) _) _).
  - intros vs o H. shp H. destruct S as (len & r & -> & _ & _). eapply mean_ext; [apply mean_pair with (Q := fun acts o' c => c = (VTup "ofp_bucket" ((VInt len :: r) ++ [VList acts]), o')); [apply (mean_while (fun _ => p_action m) (an_action m) _ action_mean)|intros; apply mean_ok]|].
    intros c. split; [intros K; exists len, r; auto|intros (l & r' & E & K); injection E as <- <-; exact K].
  - intros [v o]. cbn [fst snd]. unfold a_bucket. split.
    + intros (vs & o' & H & len & r & -> & acts & o2 & M & E). injection E as -> ->. shp H. destruct S as (? & ? & E & _ & w & ? & -> & _ & p & ? & -> & _ & g & ? & -> & _ & ->).
      injection E as <- ->. exists len, w, p, g, o', acts. auto.
    + intros (len & w & p & g & o' & acts & H & M & ->). eexists _, _. split; [exact H|]. eexists _, _. split; [reflexivity|]. eauto.
Qed.

Lemma band_iff off v o : p_meter_band m off = Ok (v, o) <-> a_band m off v o.
Proof.
  unfold p_meter_band. rewrite bind_iff. split.
  - intros ([h o8] & Eh & E). apply (fixed_iff _ "HHII" [N 2; N 2; N 4; N 4] off h o8 eq_refl) in Eh. destruct Eh as (vs & Hh & ->).
    shp Hh. destruct S as (ty & ? & -> & _ & len & ? & -> & _ & r & ? & -> & _ & s & ? & -> & _ & ->).
    destruct (Z.eqb_spec ty 1) as [Ey|N1].
    { subst ty. apply (fixed_iff _ "HHII4x" [N 2; N 2; N 4; N 4; G 4] off v o eq_refl) in E. destruct E as (vs & H & ->). alike H Hh.
      destruct (here_tail _ _ _ _ _ _ H) as [_ (? & ? & -> & _ & ? & ? & -> & _ & S)]. cbn [shape] in S. subst. eapply band_drop; [exact H|reflexivity]. }
    destruct (Z.eqb_spec ty 2) as [Ey|N2'].
    { subst ty. apply (fixed_iff _ "HHIIB3x" [N 2; N 2; N 4; N 4; N 1; G 3] off v o eq_refl) in E. destruct E as (vs & H & ->). alike H Hh.
      destruct (here_tail _ _ _ _ _ _ H) as [_ (? & ? & -> & _ & ? & ? & -> & _ & ? & ? & -> & _ & S)]. cbn [shape] in S. subst. eapply band_remark; [exact H|reflexivity]. }
    destruct (Z.eqb_spec ty 65535) as [Ey|N3]; [subst ty|discriminate].
    unfold p_meter_band_experimenter in E. apply bind_ok in E. destruct E as (vs & H & E).
    apply (unpacks_here "HH3I" [N 2; N 2; N 4; N 4; N 4] m off vs Hm eq_refl) in H. alike H Hh.
    destruct (here_tail _ _ _ _ _ _ H) as [_ (? & ? & -> & _ & ? & ? & -> & _ & ? & ? & -> & _ & S)]. cbn [shape] in S. subst.
    apply Ok_inj in E. injection E as <- <-. eapply band_experimenter; [exact H|reflexivity].
  - assert (K : forall gs vs o, here m off ([N 2; N 2; N 4; N 4] ++ gs) vs o -> exists v1 v2, vs = v1 ++ v2 /\ shape [N 2; N 2; N 4; N 4] v1 /\
        p_meter_band_header m off = Ok (VTup "ofp_meter_band_header" v1, (off + 12)%nat)).
    { intros gs vs o' H. apply here_split in H. destruct H as (v1 & v2 & o1 & -> & H & _). exists v1, v2. split; [reflexivity|]. split; [exact (here_shape _ _ _ _ _ H)|].
      apply (fixed_iff _ "HHII" [N 2; N 2; N 4; N 4] off _ _ eq_refl). eexists. split; [|reflexivity]. rewrite (here_end _ _ _ _ _ H) in H. exact H. }
    intros A. destruct A as [v len r s o H ->|v len r s p o H ->|v len r s x o H ->];
      (destruct (K _ _ _ H) as (v1 & v2 & E1 & (t1 & ? & -> & _ & t2 & ? & -> & _ & t3 & ? & -> & _ & t4 & ? & -> & _ & S) & E2); cbn [shape] in S; subst;
       injection E1 as <- <- <- <- <-; eexists; split; [exact E2|]).
    + cbv beta iota. change (1 =? 1) with true. cbv iota. apply (fixed_iff _ "HHII4x" [N 2; N 2; N 4; N 4; G 4] off _ _ eq_refl). eexists. split; [exact H|reflexivity].
    + change (p_meter_band_dscp_remark m off = Ok (VTup "ofp_meter_band_dscp_remark" [VInt 2; VInt len; VInt r; VInt s; VInt p], o)).
      apply (fixed_iff _ "HHIIB3x" [N 2; N 2; N 4; N 4; N 1; G 3] off _ _ eq_refl). eexists. split; [exact H|reflexivity].
    + change (p_meter_band_experimenter m off = Ok (VTup "ofp_meter_band_experimenter" [VInt 65535; VInt len; VInt r; VInt s; VInt x; VBytes (slice m off (end_ off len))], off)).
      unfold p_meter_band_experimenter. rewrite (here_end _ _ _ _ _ H) in H. apply (unpacks_here "HH3I" [N 2; N 2; N 4; N 4; N 4] m off _ Hm eq_refl) in H. rewrite H. reflexivity.
Qed.
Lemma band_mean off : mean (fun _ => p_meter_band m off) (fun x => a_band m off (fst x) (snd x)).
Proof. apply mean_const. intros [v o]. apply band_iff. Qed.

Lemma here_bytes off pre n post vs1 t vs2 o : here m off (pre ++ T n :: post) (vs1 ++ VBytes t :: vs2) o -> shape pre vs1 -> bytes_ok t.
Proof.
  intros H Hs. apply here_split in H. destruct H as (a & b & o1 & E & H1 & H2).
  assert (a = vs1 /\ b = VBytes t :: vs2) as [-> ->].
  { pose proof (here_shape _ _ _ _ _ H1) as Sa. clear - Sa Hs E. revert a vs1 Sa Hs E. induction pre as [|f fs IH]; intros a v1 Sa Hs E; cbn [shape] in *; [subst; auto|].
    destruct f as [w|k|k].
    - destruct Sa as (z & a' & -> & _ & Sa). destruct Hs as (y & v' & -> & _ & Hs). cbn in E. injection E as -> E. destruct (IH _ _ Sa Hs E) as [-> ->]. auto.
    - destruct Sa as (z & a' & -> & _ & Sa). destruct Hs as (y & v' & -> & _ & Hs). cbn in E. injection E as -> E. destruct (IH _ _ Sa Hs E) as [-> ->]. auto.
    - apply IH; assumption. }
  destruct H2 as (p & q & r & E2 & _ & S & _). pose proof Hm as K. rewrite E2 in K. clear E2.
  inversion S as [| |n' fs' t' vs' b' Ht S'|]; subst. apply Forall_app in K. destruct K as [_ K]. apply Forall_app in K. destruct K as [K _]. apply Forall_app in K. apply K.
Qed.

Definition port_fields : list fld := [N 4; G 4; T 6; G 2; T 16] ++ repeat (N 4) 8.
Lemma port_iff off v o : p_port m off = Ok (v, o) <-> a_port m off v o.
Proof.
  unfold p_port, a_port. rewrite bind_iff. split.
  - intros ([vs o'] & H & E). apply (unp_here "I4x6s2x16sII6I" port_fields m off vs o' Hm eq_refl) in H.
    pose proof (here_shape _ _ _ _ _ H) as S. cbn [port_fields Datatypes.app shape] in S. destruct S as (no & ? & -> & R1 & hw & ? & -> & R2 & nm & ws & -> & R3 & _).
    apply bind_ok in E. destruct E as (cs & Ec & E). apply Ok_inj in E. injection E as <- <-. exists no, hw, nm, cs, ws. split; [exact H|]. split; [|reflexivity].
    apply spells_iff; [|exact Ec]. apply (here_bytes off [N 4; G 4; T 6; G 2] 16 (repeat (N 4) 8) [VInt no; VBytes hw] nm ws o' H).
    cbn [shape]. exists no, [VBytes hw]. split; [reflexivity|]. split; [exact R1|]. exists hw, []. auto.
  - intros (no & hw & nm & cs & ws & H & Hs & ->). exists ([VInt no; VBytes hw; VBytes nm] ++ ws, o). split; [apply (unp_here "I4x6s2x16sII6I" port_fields m off _ o Hm eq_refl), H|].
    cbn [Datatypes.app]. apply spells_iff in Hs; [rewrite Hs; reflexivity|]. pose proof (here_shape _ _ _ _ _ H) as S. cbn [Datatypes.app shape] in S.
    destruct S as (? & ? & E1 & R1 & ? & ? & E2 & R2 & _). injection E1 as <- <-. injection E2 as <- <-.
    apply (here_bytes off [N 4; G 4; T 6; G 2] 16 (repeat (N 4) 8) [VInt no; VBytes hw] nm ws o H).
    cbn [shape]. exists no, [VBytes hw]. split; [reflexivity|]. split; [exact R1|]. exists hw, []. auto.
Qed.
Lemma port_mean off : mean (fun _ => p_port m off) (fun x => a_port m off (fst x) (snd x)).
Proof. apply mean_const. intros [v o]. apply port_iff. Qed.

Lemma queue_iff off v o : p_packet_queue m off = Ok (v, o) <-> a_queue m off v o.
Proof.
  unfold p_packet_queue, a_queue. rewrite bind_iff. split.
  - intros ([vs o'] & H & E). apply (unp_here "IIH6x" [N 4; N 4; N 2; G 6] m off vs o' Hm eq_refl) in H. pose proof (here_end _ _ _ _ _ H) as Eo. cbn in Eo.
    shp H. destruct S as (q & ? & -> & _ & p & ? & -> & _ & len & ? & -> & R & ->). cbv beta iota zeta in E.
    destruct (Nat.ltb_spec o' (off + Z.to_nat len)) as [L|L].
    { destruct (p_queue_prop_header m o'); discriminate E. }
    destruct (Nat.eqb_spec o' (off + Z.to_nat len)) as [L'|L']; [|discriminate E]. cbn [assert_ bind] in E. apply Ok_inj in E. injection E as <- <-.
    assert (len = 16) by lia. subst len. exists q, p. auto.
  - intros (q & p & H & ->). pose proof (here_end _ _ _ _ _ H) as Eo. cbn in Eo. exists ([VInt q; VInt p; VInt 16], o). split; [apply (unp_here "IIH6x" [N 4; N 4; N 2; G 6] m off _ o Hm eq_refl), H|].
    cbv beta iota zeta. rewrite (proj2 (Nat.ltb_ge _ _)) by lia. rewrite (proj2 (Nat.eqb_eq _ _)) by lia. reflexivity.
Qed.
Lemma queue_mean off : mean (fun _ => p_packet_queue m off) (fun x => a_queue m off (fst x) (snd x)).
Proof. apply mean_const. intros [v o]. apply queue_iff. Qed.

Lemma request_mean cls off : mean (fun _ => flow_request cls m off) (fun x => match_request cls m off (fst x) (snd x)).
Proof.
  unfold flow_request. eapply mean_ext.
  - eapply mean_pair; [apply (mean_unp "B3xII4xQQ" [N 1; G 3; N 4; N 4; G 4; N 8; N 8] off eq_refl)|]. intros vs o H.
    eapply mean_pair; [apply match_mean|]. intros mt o' H'. apply mean_ok.
  - intros [v o]. cbn [fst snd]. unfold match_request. split.
    + intros (vs & o1 & H & mt & o2 & M & E). injection E as -> ->. eauto 6.
    + intros (vs & o1 & mt & H & M & ->). eauto 8.
Qed.

Lemma flow_stats_mean off : mean (fun n => p_flow_stats n m off) (fun x => flow_stats m off (fst x) (snd x)).
Proof.
  unfold p_flow_stats. refine (mean_ext _ _ _ (mean_pair _ (fun vs o n => match vs with
      | VInt len :: _ => ' (mt, o) <- p_match m o ;; ' (insts, o) <- list_fetch n (p_instruction n m) (off + Z.to_nat len) o ;;
          Ok (VTup "ofp_flow_stats" (vs ++ [mt; VList insts]), o)
      | _ => Err ValueError end) _
    (fun vs o c => exists len r, vs = VInt len :: r /\ exists mt o1, a_match m o mt o1 /\ exists is o2, (filling (an_instruction m) (end_ off len) o1 is /\ o2 = end_ off len) /\
        c = (VTup "ofp_flow_stats" (vs ++ [mt; VList is]), o2))
    (mean_unp "HBxII4H4x3Q" [N 2; N 1; G 1; N 4; N 4; N 2; N 2; N 2; N 2; G 4; N 8; N 8; N 8] off eq_refl) _) _).
  - intros vs o H. shp H. destruct S as (len & r & -> & _ & _). eapply mean_ext.
    + eapply mean_pair; [apply match_mean|]. intros mt o1 _.
      eapply mean_pair with (P := fun is o2 => filling (an_instruction m) (end_ off len) o1 is /\ o2 = end_ off len);
        [apply (mean_list (fun n => p_instruction n m) (an_instruction m) _ instruction_mean)|intros is o2 _; apply mean_ok].
    + intros c. split; [intros K; exists len, r; auto|intros (l & r' & E & K); injection E as <- <-; exact K].
  - intros [v o]. cbn [fst snd]. unfold flow_stats. split.
    + intros (vs & o' & H & len & r & -> & mt & o1 & M & is & o2 & (F & ->) & E). injection E as -> ->. exists len, r, o', mt, o1, is. auto.
    + intros (len & r & o' & mt & o1 & is & H & M & -> & F & ->). eexists _, _. split; [exact H|]. exists len, r. split; [reflexivity|]. exists mt, o1. split; [exact M|].
      exists is, (end_ off len). auto.
Qed.

Lemma with_list0_mean cls f fs (p : nat -> nat -> res (pyval * nat)) R off : fmt f = Ok (map item fs) -> match fs with N _ :: _ => True | _ => False end ->
  (forall off, mean (fun n => p n off) (fun x => R off (fst x) (snd x))) ->
  mean (fun n => ' (vs, o) <- unp f m off ;; match vs with
      | VInt len :: _ => ' (l, o) <- list_fetch n (p n) (off + Z.to_nat len) o ;; Ok (VTup cls (vs ++ [VList l]), o)
      | _ => Err ValueError end)
    (fun x => with_list cls fs 0 R m off (fst x) (snd x)).
Proof.
  intros Hf Hn Hp. refine (mean_ext _ _ _ (mean_pair _ (fun vs o n => match vs with
      | VInt len :: _ => ' (l, o) <- list_fetch n (p n) (off + Z.to_nat len) o ;; Ok (VTup cls (vs ++ [VList l]), o)
      | _ => Err ValueError end) _
    (fun vs o c => exists len r, vs = VInt len :: r /\ exists l o2, (filling R (end_ off len) o l /\ o2 = end_ off len) /\ c = (VTup cls (vs ++ [VList l]), o2))
    (mean_unp f fs off Hf) _) _).
  - intros vs o H. apply here_shape in H. destruct fs as [|[w|w|w] fs]; try contradiction. destruct H as (len & r & -> & _ & _). eapply mean_ext.
    + eapply mean_pair with (P := fun l o2 => filling R (end_ off len) o l /\ o2 = end_ off len); [apply (mean_list p R _ Hp)|intros l o2 _; apply mean_ok].
    + intros c. split; [intros K; exists len, r; auto|intros (l & r' & E & K); injection E as <- <-; exact K].
  - intros [v o]. cbn [fst snd]. unfold with_list. split.
    + intros (vs & o' & H & len & r & -> & l & o2 & (F & ->) & E). injection E as -> ->. exists len, (VInt len :: r), o', l. auto.
    + intros (len & vs & o' & l & H & E & -> & F & ->). destruct vs as [|v1 r]; [discriminate|]. injection E as ->. eexists _, _. split; [exact H|]. exists len, r. split; [reflexivity|].
      exists l, (end_ off len). auto.
Qed.

Lemma with_list1_mean cls f w1 w2 fs (p : nat -> nat -> res (pyval * nat)) R off : fmt f = Ok (map item (N w1 :: N w2 :: fs)) ->
  (forall off, mean (fun n => p n off) (fun x => R off (fst x) (snd x))) ->
  mean (fun n => ' (vs, o) <- unp f m off ;; match vs with
      | _ :: VInt len :: _ => ' (l, o) <- list_fetch n (p n) (off + Z.to_nat len) o ;; Ok (VTup cls (vs ++ [VList l]), o)
      | _ => Err ValueError end)
    (fun x => with_list cls (N w1 :: N w2 :: fs) 1 R m off (fst x) (snd x)).
Proof.
  intros Hf Hp. refine (mean_ext _ _ _ (mean_pair _ (fun vs o n => match vs with
      | _ :: VInt len :: _ => ' (l, o) <- list_fetch n (p n) (off + Z.to_nat len) o ;; Ok (VTup cls (vs ++ [VList l]), o)
      | _ => Err ValueError end) _
    (fun vs o c => exists x len r, vs = x :: VInt len :: r /\ exists l o2, (filling R (end_ off len) o l /\ o2 = end_ off len) /\ c = (VTup cls (vs ++ [VList l]), o2))
    (mean_unp f _ off Hf) _) _).
  - intros vs o H. apply here_shape in H. destruct H as (x & ? & -> & _ & len & r & -> & _ & _). eapply mean_ext.
    + eapply mean_pair with (P := fun l o2 => filling R (end_ off len) o l /\ o2 = end_ off len); [apply (mean_list p R _ Hp)|intros l o2 _; apply mean_ok].
    + intros c. split; [intros K; exists (VInt x), len, r; auto|intros (x' & l & r' & E & K); injection E as <- <- <-; exact K].
  - intros [v o]. cbn [fst snd]. unfold with_list. split.
    + intros (vs & o' & H & x & len & r & -> & l & o2 & (F & ->) & E). injection E as -> ->. exists len, (x :: VInt len :: r), o', l. auto.
    + intros (len & vs & o' & l & H & E & -> & F & ->). destruct vs as [|v1 [|v2 r]]; try discriminate. injection E as ->. eexists _, _. split; [exact H|]. exists v1, len, r. split; [reflexivity|].
      exists l, (end_ off len). auto.
Qed.

Ltac ext_vo := let v := fresh "v" in let o := fresh "o" in intros [v o]; cbn [fst snd].
Ltac not_in := match goal with H : ~ In _ _ |- _ => exfalso; apply H; cbn [In]; tauto end.
Ltac inv A := inversion A; clear A; subst; cbn [In] in *; try lia; try not_in.

Lemma body_request_mean e off ty :
  mean (fun n => if py_inz (VInt ty) [0; 3; 7; 8; 11; 13] then Ok (VBytes [], off)
         else if ty =? 1 then p_flow_stats_request m off
         else if ty =? 2 then p_aggregate_stats_request m off
         else if ty =? 4 then p_port_stats_request m off
         else if ty =? 5 then p_queue_stats_request m off
         else if ty =? 6 then p_group_stats_request m off
         else if py_inz (VInt ty) [9; 10] then p_meter_multipart_request m off
         else if ty =? 12 then
           ' (fs, o) <- while_fetch n (p_table_features m) e off ;; Ok (VList fs, o)
         else if ty =? 65535 then Ok (VBytes (slice m off e), e)
         else Err ValueError)
    (fun x => a_request m e off ty (fst x) (snd x)).
Proof.
  destruct (py_inz (VInt ty) [0; 3; 7; 8; 11; 13]) eqn:D0.
  { apply inz_iff in D0. refine (mean_ext _ _ _ (mean_ok _) _). ext_vo. split; [intros E; injection E as -> ->; constructor; exact D0|].
    intros A. inv A. reflexivity. }
  destruct (Z.eqb_spec ty 1) as [Ey|N1]; [subst ty|].
  { refine (mean_ext _ _ _ (request_mean _ off) _). ext_vo. split; [apply req_flow|]. intros A. inv A. assumption. }
  destruct (Z.eqb_spec ty 2) as [Ey|N2']; [subst ty|].
  { refine (mean_ext _ _ _ (request_mean _ off) _). ext_vo. split; [apply req_aggregate|]. intros A. inv A. assumption. }
  destruct (Z.eqb_spec ty 4) as [Ey|N4]; [subst ty|].
  { refine (mean_ext _ _ _ (mean_fixed _ "I4x" [N 4; G 4] off eq_refl) _). ext_vo. split; [apply req_port|]. intros A. inv A. assumption. }
  destruct (Z.eqb_spec ty 5) as [Ey|N5]; [subst ty|].
  { refine (mean_ext _ _ _ (mean_fixed _ "II" [N 4; N 4] off eq_refl) _). ext_vo. split; [apply req_queue|]. intros A. inv A. assumption. }
  destruct (Z.eqb_spec ty 6) as [Ey|N6]; [subst ty|].
  { refine (mean_ext _ _ _ (mean_fixed _ "I4x" [N 4; G 4] off eq_refl) _). ext_vo. split; [apply req_group|]. intros A. inv A. assumption. }
  assert (~ In ty [0; 3; 7; 8; 11; 13]) as K0 by (rewrite <- inz_iff, D0; discriminate). cbn [In] in K0.
  destruct (py_inz (VInt ty) [9; 10]) eqn:D9.
  { apply inz_iff in D9. refine (mean_ext _ _ _ (mean_fixed _ "I4x" [N 4; G 4] off eq_refl) _). ext_vo. split; [apply req_meter; exact D9|].
    intros A. inv A. assumption. }
  assert (~ In ty [9; 10]) as K9 by (rewrite <- inz_iff, D9; discriminate). cbn [In] in K9.
  destruct (Z.eqb_spec ty 12) as [Ey|N12]; [subst ty|].
  { eapply mean_ext.
    - eapply mean_pair; [apply (mean_while (fun _ => p_table_features m) (fun _ _ _ => False))|intros a b _; apply mean_ok].
      intros o. refine (mean_ext _ _ (fun _ => False) (mean_const _ (fun _ => False) _) (fun _ => conj (fun x => x) (fun x => x))). intros a. unfold p_table_features.
      destruct (unp _ m o); cbn [bind]; split; [discriminate|intros []|discriminate|intros []].
    - ext_vo. split.
      + intros (vs & o' & M & E). injection E as -> ->. inversion M as [? L|? ? ? ? ? ? F]; [subst; apply req_features; exact L|contradiction].
      + intros A. inv A. eexists [], _. split; [constructor; assumption|reflexivity]. }
  destruct (Z.eqb_spec ty 65535) as [Ey|N65]; [subst ty|].
  { refine (mean_ext _ _ _ (mean_ok _) _). ext_vo. split; [intros E; injection E as -> ->; apply req_experimenter|]. intros A. inv A. reflexivity. }
  refine (mean_ext _ _ _ (mean_err _) _). ext_vo. split; [intros []|]. intros A. inv A; intuition congruence.
Qed.

Lemma fetch_mean (f : nat -> nat -> res (pyval * nat)) R e off ty : reply_element m ty R ->
  (forall off, mean (fun n => f n off) (fun x => R off (fst x) (snd x))) ->
  (forall R', reply_element m ty R' -> R' = R) -> ~ In ty [0; 8; 11; 65535] ->
  mean (fun n => ' (l, o) <- list_fetch n (f n) e off ;; Ok (VList l, o)) (fun x => a_reply m e off ty (fst x) (snd x)).
Proof.
  intros Hr Hf Hu Hn. eapply mean_ext.
  - eapply mean_pair with (P := fun l o => filling R e off l /\ o = e); [apply (mean_list f R e Hf)|intros l o _; apply mean_ok].
  - ext_vo. split.
    + intros (l & o' & (F & ->) & E). injection E as -> ->. econstructor; eassumption.
    + intros A. inv A. match goal with H : reply_element _ _ ?R' |- _ => rewrite (Hu _ H) in * end. eauto 6.
Qed.

Lemma body_reply_mean e off ty :
  mean (fun n => let fetch f := (' (l, o) <- list_fetch n f e off ;; Ok (VList l, o)) in
        (if ty =? 0 then p_desc m off
         else if ty =? 1 then fetch (p_flow_stats n m)
         else if ty =? 2 then fetch (p_aggregate_stats_reply m)
         else if ty =? 3 then fetch (p_table_stats m)
         else if ty =? 4 then fetch (p_port_stats m)
         else if ty =? 5 then fetch (p_queue_stats m)
         else if ty =? 6 then fetch (p_group_stats n m)
         else if ty =? 7 then fetch (p_group_desc n m)
         else if ty =? 8 then p_group_features m off
         else if ty =? 9 then fetch (p_meter_stats n m)
         else if ty =? 10 then fetch (p_meter_config n m)
         else if ty =? 11 then p_meter_features m off
         else if ty =? 12 then fetch (p_table_features m)
         else if ty =? 13 then fetch (p_port m)
         else if ty =? 65535 then p_experimenter_multipart m off e
         else Err ValueError))
    (fun x => a_reply m e off ty (fst x) (snd x)).
Proof.
  cbv zeta.
  Ltac fix_case f fs := apply (fun H K => fetch_mean (fun _ => fixed _ f m) _ _ _ _ H (fun o => mean_fixed _ f fs o eq_refl) K);
    [constructor|let K := fresh in intros ? K; inversion K; subst; reflexivity|cbn [In]; lia].
  Ltac gen_case p := eapply (fetch_mean p); [constructor| |let K := fresh in intros ? K; inversion K; subst; reflexivity|cbn [In]; lia].
  destruct (Z.eqb_spec ty 0) as [Ey|N0]; [subst ty|].
  { refine (mean_ext _ _ _ (mean_fixed _ "256s256s256s32s256s" [T 256; T 256; T 256; T 32; T 256] off eq_refl) _). ext_vo. split; [apply rep_desc|]. intros A. inv A; [assumption|].
    match goal with H : reply_element _ _ _ |- _ => inversion H end. }
  destruct (Z.eqb_spec ty 1) as [Ey|N1]; [subst ty; gen_case (fun n => p_flow_stats n m); apply flow_stats_mean|].
  destruct (Z.eqb_spec ty 2) as [Ey|N2']; [subst ty; gen_case (fun _ : nat => p_aggregate_stats_reply m); intros o; apply (mean_fixed _ "QQI4x"); reflexivity|].
  destruct (Z.eqb_spec ty 3) as [Ey|N3]; [subst ty; gen_case (fun _ : nat => p_table_stats m); intros o; apply (mean_fixed _ "B3xIQQ"); reflexivity|].
  destruct (Z.eqb_spec ty 4) as [Ey|N4]; [subst ty; gen_case (fun _ : nat => p_port_stats m); intros o; apply (mean_fixed _ "I3x12Q2I"); reflexivity|].
  destruct (Z.eqb_spec ty 5) as [Ey|N5]; [subst ty; gen_case (fun _ : nat => p_queue_stats m); intros o; apply (mean_fixed _ "2I3Q2I"); reflexivity|].
  destruct (Z.eqb_spec ty 6) as [Ey|N6].
  { subst ty; gen_case (fun n => p_group_stats n m). intros o.
    apply (with_list0_mean "ofp_group_stats" "H2xII4xQQII" _ (fun _ => p_bucket_counter m)); [reflexivity|exact Logic.I|]. intros o'. apply (mean_fixed _ "QQ"); reflexivity. }
  destruct (Z.eqb_spec ty 7) as [Ey|N7].
  { subst ty; gen_case (fun n => p_group_desc n m). intros o.
    apply (with_list0_mean "ofp_group_desc" "HBxI" _ (fun n => p_bucket n m)); [reflexivity|exact Logic.I|]. apply bucket_mean. }
  destruct (Z.eqb_spec ty 8) as [Ey|N8]; [subst ty|].
  { unfold p_group_features. eapply mean_ext.
    - eapply mean_pair; [apply (mean_unp "II" [N 4; N 4] off eq_refl)|]. intros vs o _.
      eapply mean_pair; [apply (mean_unp "4I" [N 4; N 4; N 4; N 4] o eq_refl)|]. intros g o1 _.
      eapply mean_pair; [apply (mean_unp "4I" [N 4; N 4; N 4; N 4] o1 eq_refl)|]. intros a o2 _. apply mean_ok.
    - ext_vo. split.
      + intros (vs & o1 & H1 & g & o2 & H2 & a & o3 & H3 & E). injection E as -> ->.
        pose proof (here_shape _ _ _ _ _ H1) as (t & ? & -> & _ & c & ? & -> & _ & S1). cbn [shape] in S1. subst.
        pose proof (here_shape _ _ _ _ _ H2) as (g1 & ? & -> & _ & g2 & ? & -> & _ & g3 & ? & -> & _ & g4 & ? & -> & _ & S1). cbn [shape] in S1. subst.
        pose proof (here_shape _ _ _ _ _ H3) as (a1 & ? & -> & _ & a2 & ? & -> & _ & a3 & ? & -> & _ & a4 & ? & -> & _ & S1). cbn [shape] in S1. subst.
        eapply rep_group_features; [|reflexivity].
        apply (here_split m off [N 4; N 4] (repeat (N 4) 8)). eexists [_; _], [_; _; _; _; _; _; _; _], _. split; [reflexivity|]. split; [exact H1|].
        apply (here_split m _ [N 4; N 4; N 4; N 4] [N 4; N 4; N 4; N 4]). eexists [_; _; _; _], [_; _; _; _], _. split; [reflexivity|]. split; [exact H2|exact H3].
      + intros A. inv A; [match goal with H : reply_element _ _ _ |- _ => inversion H end|].
        match goal with H : here _ _ _ _ _ |- _ => apply (here_split m off [N 4; N 4] (repeat (N 4) 8)) in H; destruct H as (x1 & x2 & o1 & E1 & H1 & H2) end.
        apply (here_split m _ [N 4; N 4; N 4; N 4] [N 4; N 4; N 4; N 4]) in H2. destruct H2 as (x3 & x4 & o2 & E2 & H2 & H3). subst x2.
        pose proof (here_shape _ _ _ _ _ H1) as (? & ? & -> & _ & ? & ? & -> & _ & S1). cbn [shape] in S1. subst.
        pose proof (here_shape _ _ _ _ _ H2) as (? & ? & -> & _ & ? & ? & -> & _ & ? & ? & -> & _ & ? & ? & -> & _ & S1). cbn [shape] in S1. subst.
        injection E1; intros; subst. eexists _, _. split; [exact H1|]. eexists _, _. split; [exact H2|]. eexists _, _. split; [exact H3|reflexivity]. }
  destruct (Z.eqb_spec ty 9) as [Ey|N9].
  { subst ty; gen_case (fun n => p_meter_stats n m). intros o.
    apply (with_list1_mean "ofp_meter_stats" "IH6xIQQII" _ _ _ (fun _ => p_meter_band_stats m)); [reflexivity|]. intros o'. apply (mean_fixed _ "QQ"); reflexivity. }
  destruct (Z.eqb_spec ty 10) as [Ey|N10].
  { subst ty; gen_case (fun n => p_meter_config n m). intros o.
    apply (with_list0_mean "ofp_meter_config" "HHI" _ (fun _ => p_meter_band m)); [reflexivity|exact Logic.I|]. apply band_mean. }
  destruct (Z.eqb_spec ty 11) as [Ey|N11]; [subst ty|].
  { refine (mean_ext _ _ _ (mean_fixed _ "3IBB2x" [N 4; N 4; N 4; N 1; N 1; G 2] off eq_refl) _). ext_vo. split; [apply rep_meter_features|]. intros A. inv A; [|assumption].
    match goal with H : reply_element _ _ _ |- _ => inversion H end. }
  destruct (Z.eqb_spec ty 12) as [Ey|N12].
  { subst ty; gen_case (fun _ : nat => p_table_features m). intros o.
    apply mean_const. intros a. unfold p_table_features. destruct (unp _ m o); cbn [bind]; split; try discriminate; intros []. }
  destruct (Z.eqb_spec ty 13) as [Ey|N13]; [subst ty; gen_case (fun _ : nat => p_port m); apply port_mean|].
  destruct (Z.eqb_spec ty 65535) as [Ey|N65]; [subst ty|].
  { unfold p_experimenter_multipart. eapply mean_ext; [eapply mean_pair; [apply (mean_unp "II" [N 4; N 4] off eq_refl)|intros vs o _; apply mean_ok]|].
    ext_vo. split.
    - intros (vs & o' & H & E). injection E as -> ->. pose proof (here_shape _ _ _ _ _ H) as (x & ? & -> & _ & t & ? & -> & _ & S1). cbn [shape] in S1. subst.
      eapply rep_experimenter; [exact H|reflexivity].
    - intros A. inv A; [match goal with H : reply_element _ _ _ |- _ => inversion H end|]. eauto 6. }
  refine (mean_ext _ _ _ (mean_err _) _). ext_vo. split; [intros []|]. intros A. inv A; try congruence.
  match goal with H : reply_element _ _ _ |- _ => inversion H end; congruence.
Qed.

Lemma here_nums k : forall off vs o, here m off (repeat (N 4) k) vs o <->
  unpack_from (repeat (FU 4) k) m off = Ok vs /\ o = (off + calcsize (repeat (FU 4) k))%nat.
Proof.
  intros off vs o. rewrite (here_iff _ _ _ _ _ Hm). unfold flen, unpack_from.
  assert (E : map item (repeat (N 4) k) = repeat (FU 4) k) by (induction k as [|k IH]; [reflexivity|cbn [repeat map]; rewrite IH; reflexivity]).
  rewrite E. destruct (Nat.leb_spec (off + calcsize (repeat (FU 4) k)) (length m)) as [L|L]; split.
  - intros (_ & <- & ->). auto.
  - intros (K & ->). apply Ok_inj in K. auto.
  - intros (K & _). lia.
  - intros (K & _). discriminate.
Qed.

Lemma hello_iff off v o : p_hello_elem m off = Ok (v, o) <-> hello_element m off v o.
Proof.
  assert (Q : forall len, 4 <= len -> len / 4 - 1 = (len - 4) / 4 /\ 0 <= (len - 4) / 4).
  { intros len L. replace len with ((len - 4) + 1 * 4) at 1 by lia. rewrite Z.div_add by lia. pose proof (Z.div_pos (len - 4) 4 ltac:(lia) ltac:(lia)). lia. }
  assert (P : forall len o, 0 <= len -> Z.of_nat (o + (align8 (Z.to_nat len) - Z.to_nat len)) = Z.of_nat o + up8 len - len).
  { intros len o' L. assert (E : Z.of_nat (align8 (Z.to_nat len)) = up8 len).
    { unfold align8, up8. rewrite Nat2Z.inj_mul, Nat2Z.inj_div, Nat2Z.inj_add, Z2Nat.id by lia. reflexivity. }
    assert (len <= up8 len) by (unfold up8; pose proof (Z.div_mod (len + 7) 8 ltac:(lia)); pose proof (Z.mod_pos_bound (len + 7) 8 ltac:(lia)); lia).
    rewrite Nat2Z.inj_add, Nat2Z.inj_sub, E, Z2Nat.id by lia. lia. }
  unfold p_hello_elem. rewrite bind_iff. split.
  - intros ([h o4] & Eh & E). apply (fixed_iff _ "HH" [N 2; N 2] off h o4 eq_refl) in Eh. destruct Eh as (vs & Hh & ->).
    shp Hh. destruct S as (ty & ? & -> & _ & len & ? & -> & R & ->). destruct (Z.eqb_spec ty 1) as [Ey|N1]; [subst ty|discriminate].
    unfold p_hello_elem_versionbitmap in E. pose proof Hh as Hh'. apply (unp_here "HH" [N 2; N 2] m off _ _ Hm eq_refl) in Hh'. rewrite Hh' in E. cbn [bind] in E.
    change (1 =? 1) with true in E. cbn [assert_ bind] in E. cbv zeta in E. apply bind_ok in E. destruct E as ([ws o'] & Ew & E). apply Ok_inj in E. injection E as <- <-.
    unfold unp_count in Ew. destruct (Z.ltb_spec ((len - 4) / 4) 0) as [L|L]; [discriminate|]. cbv zeta in Ew. apply bind_ok in Ew. destruct Ew as (ws' & Ew & E). apply Ok_inj in E. injection E as <- <-.
    assert (L4 : 4 <= len). { destruct (Z_lt_le_dec len 4) as [K|K]; [|exact K]. pose proof (Z.div_lt_upper_bound (len - 4) 4 0 ltac:(lia) ltac:(lia)). lia. }
    destruct (Q len L4) as [Q1 Q2]. exists len, ws', (o4 + calcsize (repeat (FU 4) (Z.to_nat ((len - 4) / 4))))%nat. split; [exact L4|]. split.
    { apply here_split. exists [VInt 1; VInt len], ws', o4. split; [reflexivity|]. split; [exact Hh|]. rewrite Q1. apply here_nums. auto. }
    split; [reflexivity|]. apply P. lia.
  - intros (len & ws & o' & L4 & H & -> & Eo). destruct (Q len L4) as [Q1 Q2]. apply here_split in H. destruct H as (v1 & v2 & o4 & E & H1 & H2).
    shp H1. destruct S as (ty & ? & -> & _ & len' & ? & -> & R & ->). injection E as <- <- <-. rewrite Q1 in H2. apply here_nums in H2. destruct H2 as [H2 ->].
    exists (VTup "ofp_hello_elem_header" [VInt 1; VInt len], o4). split; [apply (fixed_iff _ "HH" [N 2; N 2] off _ _ eq_refl); eexists; split; [exact H1|reflexivity]|].
    cbv beta iota. change (1 =? 1) with true. cbv iota. unfold p_hello_elem_versionbitmap. apply (unp_here "HH" [N 2; N 2] m off _ _ Hm eq_refl) in H1. rewrite H1. cbn [bind].
    change (1 =? 1) with true. cbn [assert_ bind]. cbv zeta. unfold unp_count. rewrite (proj2 (Z.ltb_ge _ _)) by lia. cbv zeta. rewrite H2. cbn [bind]. cbn [Datatypes.app]. do 2 f_equal.
    apply Nat2Z.inj. rewrite P by lia. lia.
Qed.
Lemma hello_mean off : mean (fun _ => p_hello_elem m off) (fun x => hello_element m off (fst x) (snd x)).
Proof. apply mean_const. intros [v o]. apply hello_iff. Qed.

Lemma header_iff off h ty l o : p_header m off = Ok (h, ty, l, o) <-> exists len, header m off ty len h /\ l = Z.to_nat len /\ o = (off + 8)%nat.
Proof.
  unfold p_header, header. rewrite bind_iff. split.
  - intros ([vs o'] & H & E). apply (unp_here "BBHI" [N 1; N 1; N 2; N 4] m off vs o' Hm eq_refl) in H. pose proof (here_end _ _ _ _ _ H) as Eo. cbn in Eo.
    shp H. destruct S as (a & ? & -> & _ & b & ? & -> & _ & c & ? & -> & _ & d & ? & -> & _ & ->). cbv beta iota in E.
    destruct (Z.eqb_spec a 4) as [->|N4]; [|discriminate]. cbn [assert_ bind] in E. apply Ok_inj in E. injection E as <- <- <- <-.
    exists c. split; [|auto]. exists d, o'. auto.
  - intros (len & (xid & o' & H & ->) & -> & ->). exists ([VInt 4; VInt ty; VInt len; VInt xid], o'). split; [apply (unp_here "BBHI" [N 1; N 1; N 2; N 4] m off _ o' Hm eq_refl), H|].
    apply here_end in H. subst o'. reflexivity.
Qed.

Lemma header_det off ty ty' len len' h h' : header m off ty len h -> header m off ty' len' h' -> ty = ty' /\ len = len' /\ h = h'.
Proof.
  intros (x & o & H & ->) (x' & o' & H' & ->). destruct (here_det _ _ _ _ _ _ _ H H') as [E _]. injection E as <- <- <-. auto.
Qed.

(** A message whose header is known. *)
Definition bodyP (off : nat) (h : pyval) (ty len : Z) (x : pyval * nat) : Prop :=
  exists cls vs, a_body m (end_ off len) (off + 8) ty cls vs (snd x) /\ fst x = VTup cls (h :: vs).

Ltac bodies := let A := fresh "A" in intros (? & ? & A & ->); inv A.
Ltac ext_b := let v := fresh "v" in let o := fresh "o" in intros [v o]; unfold bodyP; cbn [fst snd].
Ltac take cls := eexists cls, _; split; [|reflexivity].

Lemma parse_mean off : mean (fun n => parse n m off) (fun x => a_message m off (fst x) (snd x)).
Proof.
  unfold parse.
  refine (mean_then (fun _ => p_header m off) _ (fun y => match y with (h, ty, l, o) => exists len, header m off ty len h /\ l = Z.to_nat len /\ o = (off + 8)%nat end) _ _ _ _).
  { apply mean_const. intros [[[h ty] l] o]. apply header_iff. }
  2:{ intros [v o] (ty & len & h & cls & vs & H & _). exists (h, ty, Z.to_nat len, (off + 8)%nat). eauto. }
  intros [[[h ty] l] o8] (len & Hh & -> & ->).
  assert (Eh : p_header m off = Ok (h, ty, Z.to_nat len, (off + 8)%nat)) by (apply header_iff; eauto).
  apply (mean_ext _ (bodyP off h ty len)).
  2:{ intros [v o]. unfold bodyP, a_message. cbn [fst snd]. split.
      - intros (cls & vs & B & E). exists ty, len, h, cls, vs. auto.
      - intros (ty' & len' & h' & cls & vs & H & B & E). destruct (header_det _ _ _ _ _ _ _ Hh H) as (-> & -> & ->). eauto. }
  fold (end_ off len).
  destruct (Z.eqb_spec ty 0) as [Ey|N0]; [subst ty|].
  { unfold p_hello. rewrite Eh. cbn [bind]. eapply mean_ext.
    - eapply mean_pair with (P := fun l o => filling (hello_element m) (end_ off len) (off + 8) l /\ o = end_ off len); [apply (mean_list (fun _ => p_hello_elem m) _ _ hello_mean)|intros l o _; apply mean_ok].
    - ext_b. split.
      + intros (l & o' & (F & ->) & E). injection E as -> ->. take "ofp_hello"%string. constructor. exact F.
      + bodies. eauto 6. }
  destruct (Z.eqb_spec ty 1) as [Ey|N1]; [subst ty|].
  { unfold p_error_msg. rewrite Eh. cbn [bind]. eapply mean_ext.
    - eapply mean_pair; [apply (mean_unp "HH" [N 2; N 2]); reflexivity|intros vs o _; apply mean_ok].
    - ext_b. split.
      + intros (vs & o' & H & E). injection E as -> ->. shp H. destruct S as (a & ? & -> & _ & b & ? & -> & _ & ->). take "ofp_error_msg"%string. econstructor. exact H.
      + bodies. eauto 6. }
  destruct (Z.eqb_spec ty 6) as [Ey|N6]; [subst ty|].
  { unfold p_switch_features. rewrite Eh. cbn [bind].
    refine (mean_ext _ _ _ (mean_pair _ (fun vs o (_ : nat) => match vs with [a; b; c; d; e; _] => Ok (VTup "ofp_switch_features" [h; a; b; c; d; e], o) | _ => Err ValueError end) _
      (fun vs o y => exists a b c d e f, vs = [a; b; c; d; e; f] /\ y = (VTup "ofp_switch_features" [h; a; b; c; d; e], o))
      (mean_unp "QIBB2xII" [N 8; N 4; N 1; N 1; G 2; N 4; N 4] _ eq_refl) _) _).
    - intros vs o H. shp H. destruct S as (a & ? & -> & _ & b & ? & -> & _ & c & ? & -> & _ & d & ? & -> & _ & e & ? & -> & _ & f & ? & -> & _ & ->).
      refine (mean_ext _ _ _ (mean_ok _) _). intros y. split; [intros ->; eauto 10|]. intros (? & ? & ? & ? & ? & ? & E & ->). injection E as <- <- <- <- <- <-. reflexivity.
    - ext_b. split.
      + intros (vs & o' & H & a & b & c & d & e & f & -> & E). injection E as -> ->. take "ofp_switch_features"%string. econstructor. exact H.
      + bodies. eexists _, _. split; [eassumption|]. eauto 10. }
  destruct (py_inz (VInt ty) [9; 8]) eqn:D9.
  { apply inz_iff in D9. unfold p_switch_config, simple_message. rewrite Eh. cbn [bind]. eapply mean_ext.
    - eapply mean_pair; [apply (mean_unp "HH" [N 2; N 2]); reflexivity|intros vs o _; apply mean_ok].
    - ext_b. split.
      + intros (vs & o' & H & E). injection E as -> ->. take "ofp_switch_config"%string. constructor; [cbn [In] in *; tauto|exact H].
      + bodies. eauto 6. }
  assert (K9 : ~ In ty [9; 8]) by (rewrite <- inz_iff, D9; discriminate).
  destruct (Z.eqb_spec ty 10) as [Ey|N10]; [subst ty|].
  { unfold p_packet_in. rewrite Eh. cbn [bind]. eapply mean_ext.
    - eapply mean_pair; [apply (mean_unp "IHBBQ" [N 4; N 2; N 1; N 1; N 8]); reflexivity|intros vs o _].
      eapply mean_pair; [apply match_mean|intros mt o1 _].
      eapply mean_pair; [apply (mean_unp "2x" [G 2]); reflexivity|intros ws o2 _; apply mean_ok].
    - ext_b. split.
      + intros (vs & o' & H & mt & o1 & M & ws & o2 & H2 & E). injection E as -> ->. shp H2. subst ws. take "ofp_packet_in"%string. eapply body_packet_in; eassumption.
      + bodies. eauto 12. }
  destruct (Z.eqb_spec ty 11) as [Ey|N11]; [subst ty|].
  { unfold p_flow_removed. rewrite Eh. cbn [bind]. eapply mean_ext.
    - eapply mean_pair; [apply (mean_unp "QHBBIIHHQQ" [N 8; N 2; N 1; N 1; N 4; N 4; N 2; N 2; N 8; N 8]); reflexivity|intros vs o _].
      eapply mean_pair; [apply match_mean|intros mt o1 _; apply mean_ok].
    - ext_b. split.
      + intros (vs & o' & H & mt & o1 & M & E). injection E as -> ->. take "ofp_flow_removed"%string. eapply body_flow_removed; eassumption.
      + bodies. eauto 10. }
  destruct (Z.eqb_spec ty 12) as [Ey|N12]; [subst ty|].
  { unfold p_port_status. rewrite Eh. cbn [bind]. eapply mean_ext.
    - eapply mean_pair; [apply (mean_unp "B7x" [N 1; G 7]); reflexivity|intros vs o _].
      eapply mean_pair; [apply port_mean|intros mt o1 _; apply mean_ok].
    - ext_b. split.
      + intros (vs & o' & H & mt & o1 & M & E). injection E as -> ->. shp H. destruct S as (a & ? & -> & _ & ->). take "ofp_port_status"%string. eapply body_port_status; eassumption.
      + bodies. eauto 10. }
  destruct (Z.eqb_spec ty 13) as [Ey|N13]; [subst ty|].
  { unfold p_packet_out. rewrite Eh. cbn [bind].
    refine (mean_ext _ _ _ (mean_pair _ (fun vs o n => match vs with
        | [_; _; VInt alen] => ' (acts, o) <- while_fetch n (p_action m) (o + Z.to_nat alen) o ;;
            Ok (VTup "ofp_packet_out" (h :: vs ++ [VList acts; VBytes (slice m o (end_ off len))]), o) | _ => Err ValueError end) _
      (fun vs o y => exists a b c, vs = [a; b; VInt c] /\ exists acts o', many (an_action m) (end_ o c) o acts o' /\
         y = (VTup "ofp_packet_out" (h :: vs ++ [VList acts; VBytes (slice m o' (end_ off len))]), o'))
      (mean_unp "IIH6x" [N 4; N 4; N 2; G 6] _ eq_refl) _) _).
    - intros vs o H. shp H. destruct S as (a & ? & -> & _ & b & ? & -> & _ & c & ? & -> & _ & ->). eapply mean_ext.
      + eapply mean_pair; [apply (mean_while (fun _ => p_action m) (an_action m) _ action_mean)|intros acts o1 _; apply mean_ok].
      + intros y. split; [intros K; exists (VInt a), (VInt b), c; auto|]. intros (? & ? & ? & E & K). injection E as <- <- <-. exact K.
    - ext_b. split.
      + intros (vs & o' & H & a & b & c & -> & acts & o1 & M & E). injection E as -> ->. take "ofp_packet_out"%string. eapply body_packet_out; eassumption.
      + bodies. eexists _, _. split; [eassumption|]. eauto 10. }
  destruct (Z.eqb_spec ty 14) as [Ey|N14]; [subst ty|].
  { unfold p_flow_mod. rewrite Eh. cbn [bind]. eapply mean_ext.
    - eapply mean_pair; [apply (mean_unp "QQBB3H3IH2x" [N 8; N 8; N 1; N 1; N 2; N 2; N 2; N 4; N 4; N 4; N 2; G 2]); reflexivity|intros vs o _].
      eapply mean_pair; [apply match_mean|intros mt o1 _].
      eapply mean_pair with (P := fun is o2 => filling (an_instruction m) (end_ off len) o1 is /\ o2 = end_ off len);
        [apply (mean_list (fun n => p_instruction n m) (an_instruction m) _ instruction_mean)|intros is o2 _; apply mean_ok].
    - ext_b. split.
      + intros (vs & o' & H & mt & o1 & M & is & o2 & (F & ->) & E). injection E as -> ->. take "ofp_flow_mod"%string. eapply body_flow_mod; eassumption.
      + bodies. eexists _, _. split; [eassumption|]. eauto 10. }
  destruct (Z.eqb_spec ty 15) as [Ey|N15]; [subst ty|].
  { unfold p_group_mod. rewrite Eh. cbn [bind]. eapply mean_ext.
    - eapply mean_pair; [apply (mean_unp "HBxI" [N 2; N 1; G 1; N 4]); reflexivity|intros vs o _].
      eapply mean_pair; [apply (mean_while (fun n => p_bucket n m) (a_bucket m) _ bucket_mean)|intros bs o1 _; apply mean_ok].
    - ext_b. split.
      + intros (vs & o' & H & bs & o1 & M & E). injection E as -> ->. take "ofp_group_mod"%string. eapply body_group_mod; eassumption.
      + bodies. eauto 10. }
  destruct (Z.eqb_spec ty 16) as [Ey|N16]; [subst ty|].
  { unfold p_port_mod. rewrite Eh. cbn [bind]. refine (mean_ext _ _ _ (mean_const _ (fun _ => False) _) _).
    - intros a. destruct (unpacks _ m off); cbn [bind]; split; try discriminate; intros [].
    - ext_b. split; [intros []|bodies]. }
  destruct (Z.eqb_spec ty 17) as [Ey|N17]; [subst ty|].
  { unfold p_table_mod, simple_message. rewrite Eh. cbn [bind]. eapply mean_ext.
    - eapply mean_pair; [apply (mean_unp "B3xI" [N 1; G 3; N 4]); reflexivity|intros vs o _; apply mean_ok].
    - ext_b. split.
      + intros (vs & o' & H & E). injection E as -> ->. take "ofp_table_mod"%string. constructor. exact H.
      + bodies. eauto 6. }
  destruct (Z.eqb_spec ty 18) as [Ey|N18]; [subst ty|].
  { unfold p_multipart_request. rewrite Eh. cbn [bind]. eapply mean_ext.
    - eapply mean_pair with (Q := fun vs o y => exists t f, vs = [VInt t; f] /\ exists v o', a_request m (end_ off len) o t v o' /\ y = (VTup "ofp_multipart_request" (h :: vs ++ [v]), o'));
        [apply (mean_unp "HH4x" [N 2; N 2; G 4]); reflexivity|intros vs o H].
      shp H. destruct S as (a & ? & -> & _ & b & ? & -> & _ & ->). eapply mean_ext.
      + eapply mean_pair; [apply (body_request_mean (end_ off len) o a)|intros v o1 _; apply mean_ok].
      + intros y. split; [intros K; exists a, (VInt b); auto|]. intros (? & ? & E & K). injection E as <- <-. exact K.
    - ext_b. split.
      + intros (vs & o' & H & a & b & -> & v1 & o1 & M & E). injection E as -> ->. shp H. destruct S as (? & ? & E & _ & f & ? & E' & _ & _). injection E as <- <-. injection E' as -> _. take "ofp_multipart_request"%string. eapply body_request; eassumption.
      + bodies. eexists _, _. split; [eassumption|]. eauto 10. }
  destruct (Z.eqb_spec ty 19) as [Ey|N19]; [subst ty|].
  { unfold p_multipart_reply. rewrite Eh. cbn [bind]. eapply mean_ext.
    - eapply mean_pair with (Q := fun vs o y => exists t f, vs = [VInt t; f] /\ exists v o', a_reply m (end_ off len) o t v o' /\ y = (VTup "ofp_multipart_reply" (h :: vs ++ [v]), o'));
        [apply (mean_unp "HH4x" [N 2; N 2; G 4]); reflexivity|intros vs o H].
      shp H. destruct S as (a & ? & -> & _ & b & ? & -> & _ & ->). eapply mean_ext.
      + eapply mean_pair; [apply (body_reply_mean (end_ off len) o a)|intros v o1 _; apply mean_ok].
      + intros y. split; [intros K; exists a, (VInt b); auto|]. intros (? & ? & E & K). injection E as <- <-. exact K.
    - ext_b. split.
      + intros (vs & o' & H & a & b & -> & v1 & o1 & M & E). injection E as -> ->. shp H. destruct S as (? & ? & E & _ & f & ? & E' & _ & _). injection E as <- <-. injection E' as -> _. take "ofp_multipart_reply"%string. eapply body_reply; eassumption.
      + bodies. eexists _, _. split; [eassumption|]. eauto 10. }
  destruct (Z.eqb_spec ty 4) as [Ey|N4]; [subst ty|].
  { unfold p_experimenter. refine (mean_ext _ _ _ (mean_const _ (fun _ => False) _) _).
    - intros a. destruct (p_experimenter_header m off); cbn [bind]; split; try discriminate; intros [].
    - ext_b. split; [intros []|bodies]. }
  destruct (Z.eqb_spec ty 22) as [Ey|N22]; [subst ty|].
  { unfold p_queue_get_config_request, simple_message. rewrite Eh. cbn [bind]. eapply mean_ext.
    - eapply mean_pair; [apply (mean_unp "I4x" [N 4; G 4]); reflexivity|intros vs o _; apply mean_ok].
    - ext_b. split.
      + intros (vs & o' & H & E). injection E as -> ->. take "ofp_queue_get_config_request"%string. constructor. exact H.
      + bodies. eauto 6. }
  destruct (Z.eqb_spec ty 23) as [Ey|N23]; [subst ty|].
  { unfold p_queue_get_config_reply. rewrite Eh. cbn [bind]. eapply mean_ext.
    - eapply mean_pair; [apply (mean_unp "I4x" [N 4; G 4]); reflexivity|intros vs o _].
      eapply mean_pair with (P := fun is o2 => filling (a_queue m) (end_ off len) o is /\ o2 = end_ off len);
        [apply (mean_list (fun _ => p_packet_queue m) (a_queue m) _ queue_mean)|intros is o2 _; apply mean_ok].
    - ext_b. split.
      + intros (vs & o' & H & is & o2 & (F & ->) & E). injection E as -> ->. shp H. destruct S as (a & ? & -> & _ & ->). take "ofp_queue_get_config_reply"%string. eapply body_queue_reply; eassumption.
      + bodies. eexists _, _. split; [eassumption|]. eauto 10. }
  destruct (Z.eqb_spec ty 24) as [Ey|N24]; [subst ty|].
  { unfold p_role_request, simple_message. rewrite Eh. cbn [bind]. eapply mean_ext.
    - eapply mean_pair; [apply (mean_unp "I4xQ" [N 4; G 4; N 8]); reflexivity|intros vs o _; apply mean_ok].
    - ext_b. split.
      + intros (vs & o' & H & E). injection E as -> ->. take "ofp_role_request"%string. constructor. exact H.
      + bodies. eauto 6. }
  destruct (py_inz (VInt ty) [28; 27]) eqn:D28.
  { apply inz_iff in D28. unfold p_async_config. rewrite Eh. cbn [bind]. eapply mean_ext.
    - eapply mean_pair; [apply (mean_unp "6I" [N 4; N 4; N 4; N 4; N 4; N 4]); reflexivity|intros vs o _; apply mean_ok].
    - ext_b. split.
      + intros (vs & o' & H & E). injection E as -> ->. shp H.
        destruct S as (a & ? & -> & _ & b & ? & -> & _ & c & ? & -> & _ & d & ? & -> & _ & e & ? & -> & _ & f & ? & -> & _ & ->).
        take "ofp_async_config"%string. constructor; [cbn [In] in *; tauto|exact H].
      + bodies. eexists _, _. split; [eassumption|reflexivity]. }
  assert (K28 : ~ In ty [28; 27]) by (rewrite <- inz_iff, D28; discriminate).
  destruct (Z.eqb_spec ty 29) as [Ey|N29]; [subst ty|].
  { unfold p_meter_mod. rewrite Eh. cbn [bind]. eapply mean_ext.
    - eapply mean_pair; [apply (mean_unp "HHI" [N 2; N 2; N 4]); reflexivity|intros vs o _].
      eapply mean_pair; [apply (mean_while (fun _ => p_meter_band m) (a_band m) _ band_mean)|intros bs o1 _; apply mean_ok].
    - ext_b. split.
      + intros (vs & o' & H & bs & o1 & M & E). injection E as -> ->. take "ofp_meter_mod"%string. eapply body_meter_mod; eassumption.
      + bodies. eauto 10. }
  unfold p_ofp. rewrite Eh. cbn [bind]. refine (mean_ext _ _ _ (mean_ok _) _). ext_b. split.
  - intros E. injection E as -> ->. take "ofp_"%string. apply body_other. cbn [In] in *. intuition congruence.
  - cbn [In] in K9, K28. intros (? & ? & A & ->). inversion A; clear A; subst; cbn [In] in *; try congruence; try (exfalso; tauto). reflexivity.
Qed.

Theorem parse_iff off n v o : (length m < n)%nat -> parse n m off = Ok (v, o) <-> a_message m off v o.
Proof.
  intros Hn. destruct (parse_mean off) as [H1 H2]. split; [apply H1|]. intros A. destruct (H2 (v, o) A) as (k & K).
  rewrite (parse_const m n (k + S (length m)) off Hn ltac:(lia)). apply K. lia.
Qed.

End message.
