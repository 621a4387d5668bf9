(** Proofs about what builders accept (C115). *)

From Coq Require Import String Lia.
From Verif Require Import Py Struct P_Struct S_Hello S_Ports S_Head S_Wire4 S_Fixed S_Exact M_Build4 P_Fixed P_Head.
From Verif Require M_Build5.
Local Open Scope Z_scope.
Local Open Scope list_scope.

(** *** The specification as a function *)

Fixpoint run (o : pyval -> res bytes) (N P : nat) (ps : list part) (args : list pyval) : res bytes :=
  match ps with
  | [] => match args with [] => Ok [] | _ => Err TypeError end
  | Fields cs :: ps' =>
      let a := firstn (nargs cs) args in
      if (length a =? nargs cs)%nat then
        if kinds_ok cs a then
          x <- pack (items cs) (fill cs a) ;; r <- run o N P ps' (skipn (nargs cs) args) ;; Ok (x ++ r)
        else Err TypeError
      else Err TypeError
  | Text n :: ps' =>
      match args with a :: args' => x <- pack_item (FS n) a ;; r <- run o N P ps' args' ;; Ok (x ++ r) | [] => Err TypeError end
  | OptText n :: ps' =>
      match args with a :: args' => x <- pack_item (FS n) (dflt_bytes a []) ;; r <- run o N P ps' args' ;; Ok (x ++ r) | [] => Err TypeError end
  | Data :: ps' =>
      match args with a :: args' => x <- as_bytes a ;; r <- run o N P ps' args' ;; Ok (x ++ r) | [] => Err TypeError end
  | OptData :: ps' =>
      match args with a :: args' => x <- as_bytes (dflt_bytes a []) ;; r <- run o N P ps' args' ;; Ok (x ++ r) | [] => Err TypeError end
  | One :: ps' =>
      match args with a :: args' => x <- o a ;; r <- run o N P ps' args' ;; Ok (x ++ r) | [] => Err TypeError end
  | Many :: ps' =>
      match args with a :: args' => x <- seqarg o a ;; r <- run o N P ps' args' ;; Ok (x ++ r) | [] => Err TypeError end
  | Total w k :: ps' =>
      match args with a :: args' => x <- pack_item (FU w) (VInt (k (Z.of_nat N) (Z.of_nat P))) ;; r <- run o N P ps' args' ;; Ok (x ++ r) | [] => Err TypeError end
  | Actions :: ps' =>
      match args with
      | _ :: a :: args' =>
          c <- seqarg o a ;; x <- pack_item (FU 2) (VInt (zlen c)) ;; r <- run o N P ps' args' ;; Ok (x ++ zeros 6 ++ c ++ r)
      | _ => Err TypeError
      end
  | Align :: ps' =>
      if (P <? 8)%nat then if (N mod 8 =? 0)%nat then r <- run o N P ps' args ;; Ok (zeros P ++ r) else Err TypeError else Err TypeError
  end.

Definition good_part (p : part) : bool := match p with Fields cs => good cs | _ => true end.
Definition good_parts (ps : list part) : bool := forallb good_part ps.

Definition arity1 (p : part) : nat := match p with Fields cs => nargs cs | Align => 0 | Actions => 2 | _ => 1 end.
Definition arity_of (ps : list part) : nat := fold_right (fun p n => (arity1 p + n)%nat) 0%nat ps.

Definition made_by (o : pyval -> res bytes) : pyval -> bytes -> Prop := fun v c => o v = Ok c.

Lemma mapM_iff o l bs : mapM o l = Ok bs <-> Forall2 (made_by o) l bs.
Proof.
  revert bs. induction l as [|v l IH]; intros bs; cbn [mapM].
  - split; [intros E; inversion E; constructor|intros F; inversion F; reflexivity].
  - split.
    + intros E. apply bind_iff in E. destruct E as (x & Ex & E). apply bind_iff in E. destruct E as (xs & Exs & E).
      injection E as <-. constructor; [exact Ex|apply IH; exact Exs].
    + intros F. inversion F as [|v' x l' xs Hx Hxs]. subst. rewrite Hx. cbn [bind]. rewrite (proj2 (IH xs) Hxs). reflexivity.
Qed.

Lemma seqarg_iff o v b : seqarg o v = Ok b <-> many (made_by o) v b.
Proof.
  assert (J : forall l b, join o l = Ok b <-> exists bs, Forall2 (made_by o) l bs /\ b = concat bs).
  { intros l c. unfold join. rewrite bind_iff. split.
    - intros (bs & E & F). injection F as <-. exists bs. split; [apply mapM_iff; exact E|reflexivity].
    - intros (bs & F & ->). exists bs. split; [apply mapM_iff; exact F|reflexivity]. }
  destruct v as [|z|s|t|l|c l]; cbn [seqarg].
  - split; [intros E; injection E as <-; constructor|intros M; inversion M; reflexivity].
  - split; [discriminate|intros M; inversion M].
  - split; [intros E; injection E as <-; constructor|intros M; inversion M; reflexivity].
  - split; [discriminate|intros M; inversion M].
  - rewrite J. split; [intros (bs & F & ->); constructor; exact F|intros M; inversion M; subst; eauto].
  - rewrite J. split; [intros (bs & F & ->); constructor; exact F|intros M; inversion M; subst; eauto].
Qed.

Lemma text_iff n v b : pack_item (FS n) v = Ok b <-> exists s, v = VBytes s /\ b = cut n s.
Proof.
  destruct v; cbn; split; try discriminate; try (intros (s & E & _); discriminate).
  - intros E. injection E as <-. eexists. split; reflexivity.
  - intros (s & E & ->). injection E as <-. reflexivity.
Qed.

Lemma bytes_iff v b : as_bytes v = Ok b <-> v = VBytes b.
Proof. destruct v; cbn; split; congruence. Qed.

Lemma word_iff w z b : pack_item (FU w) (VInt z) = Ok b <-> 0 <= z < 2 ^ (8 * Z.of_nat w) /\ b = be w z.
Proof.
  cbn [pack_item]. rewrite <- in_u_iff. destruct (in_u w z); split; try discriminate.
  - intros E. injection E as <-. auto.
  - intros (_ & ->). reflexivity.
  - intros (E & _). discriminate.
Qed.

Lemma run_iff o N P ps : good_parts ps = true -> forall args b,
  run o N P ps args = Ok b <-> gives (made_by o) N P ps args b.
Proof.
  induction ps as [|p ps IH]; intros G args b.
  - cbn [run]. destruct args; split; try discriminate; intros H; [injection H as <-; constructor|inversion H; reflexivity|inversion H].
  - cbn [good_parts forallb] in G. apply andb_true_iff in G. destruct G as [G1 G]. specialize (IH G).
    destruct p as [cs|n|n| | | | |w k| |]; cbn [run].
    + set (a := firstn (nargs cs) args). destruct (length a =? nargs cs)%nat eqn:L.
      * apply Nat.eqb_eq in L. cbn [good_part] in G1. pose proof (packs_says cs G1 a) as S.
        split.
        -- destruct (kinds_ok cs a) eqn:K; [|discriminate]. intros E. apply bind_iff in E. destruct E as (x & Ex & E).
           apply bind_iff in E. destruct E as (r & Er & E). injection E as <-.
           destruct (proj1 (S x L) (conj eq_refl Ex)) as (zs & Sy & ->).
           rewrite <- (firstn_skipn (nargs cs) args). fold a. constructor; [exact Sy|apply IH; exact Er].
        -- intros H. inversion H as [|cs' ps' a' args' zs r Sy Hr E1 E2 E3| | | | | | | | | | |]. subst cs' ps' args b.
           pose proof (says_len _ _ _ Sy) as L'.
           assert (Ea : a = a') by (unfold a; rewrite firstn_app_l by exact L'; reflexivity). clearbody a. subst a.
           destruct (proj2 (S _ L) (ex_intro _ zs (conj Sy eq_refl))) as (K & Ex). rewrite K, Ex. cbn [bind].
           rewrite skipn_app_l by exact L'. rewrite (proj2 (IH _ _) Hr). reflexivity.
      * split; [discriminate|]. intros H. inversion H as [|cs' ps' a' args' zs r Sy Hr E1 E2 E3| | | | | | | | | | |]. subst cs' ps' args b.
        pose proof (says_len _ _ _ Sy) as L'. unfold a in L. rewrite firstn_app_l in L by exact L'. rewrite L', Nat.eqb_refl in L. discriminate.
    + destruct args as [|a args]; [split; [discriminate|intros H; inversion H]|]. rewrite bind_iff. split.
      * intros (x & Ex & E). apply text_iff in Ex. destruct Ex as (s & -> & ->). apply bind_iff in E. destruct E as (r & Er & E). injection E as <-.
        constructor. apply IH. exact Er.
      * intros H. inversion H; subst. eexists. split; [apply text_iff; eauto|]. apply bind_iff. eexists. split; [apply IH; eassumption|reflexivity].
    + destruct args as [|a args]; [split; [discriminate|intros H; inversion H]|]. rewrite bind_iff. split.
      * intros (x & Ex & E). apply text_iff in Ex. destruct Ex as (s & Es & ->). apply bind_iff in E. destruct E as (r & Er & E). injection E as <-.
        apply IH in Er. destruct a; cbn [dflt_bytes] in Es; try discriminate; injection Es as <-.
        -- assert (C : cut n [] = repeat 0 n) by (unfold cut; rewrite firstn_nil, Nat.sub_0_r; reflexivity). rewrite C. constructor. exact Er.
        -- constructor. exact Er.
      * intros H. inversion H; subst; (eexists; split; [apply text_iff; cbn [dflt_bytes]; eauto|]); apply bind_iff; (eexists; split; [apply IH; eassumption|]).
        -- reflexivity.
        -- unfold cut. rewrite firstn_nil, Nat.sub_0_r. reflexivity.
    + destruct args as [|a args]; [split; [discriminate|intros H; inversion H]|]. rewrite bind_iff. split.
      * intros (x & Ex & E). apply bytes_iff in Ex. subst a. apply bind_iff in E. destruct E as (r & Er & E). injection E as <-.
        constructor. apply IH. exact Er.
      * intros H. inversion H; subst. eexists. split; [apply bytes_iff; reflexivity|]. apply bind_iff. eexists. split; [apply IH; eassumption|reflexivity].
    + destruct args as [|a args]; [split; [discriminate|intros H; inversion H]|]. rewrite bind_iff. split.
      * intros (x & Ex & E). apply bytes_iff in Ex. apply bind_iff in E. destruct E as (r & Er & E). injection E as <-.
        apply IH in Er. destruct a; cbn [dflt_bytes] in Ex; try discriminate; injection Ex as <-; constructor; exact Er.
      * intros H. inversion H; subst; (eexists; split; [apply bytes_iff; cbn [dflt_bytes]; reflexivity|]); apply bind_iff; (eexists; split; [apply IH; eassumption|]); reflexivity.
    + destruct args as [|a args]; [split; [discriminate|intros H; inversion H]|]. rewrite bind_iff. split.
      * intros (x & Ex & E). apply bind_iff in E. destruct E as (r & Er & E). injection E as <-.
        constructor; [exact Ex|]. apply IH. exact Er.
      * intros H. inversion H; subst. eexists. split; [eassumption|]. apply bind_iff. eexists. split; [apply IH; eassumption|reflexivity].
    + destruct args as [|a args]; [split; [discriminate|intros H; inversion H]|]. rewrite bind_iff. split.
      * intros (x & Ex & E). apply bind_iff in E. destruct E as (r & Er & E). injection E as <-.
        constructor; [apply seqarg_iff; exact Ex|]. apply IH. exact Er.
      * intros H. inversion H; subst. eexists. split; [apply seqarg_iff; eassumption|]. apply bind_iff. eexists. split; [apply IH; eassumption|reflexivity].
    + destruct args as [|a args]; [split; [discriminate|intros H; inversion H]|]. rewrite bind_iff. split.
      * intros (x & Ex & E). apply word_iff in Ex. destruct Ex as (Hz & ->). apply bind_iff in E. destruct E as (r & Er & E). injection E as <-.
        constructor; [exact Hz|]. apply IH. exact Er.
      * intros H. inversion H; subst. eexists. split; [apply word_iff; split; [eassumption|reflexivity]|]. apply bind_iff. eexists. split; [apply IH; eassumption|reflexivity].
    + destruct args as [|l [|a args]]; [split; [discriminate|intros H; inversion H]|split; [discriminate|intros H; inversion H]|]. rewrite bind_iff. split.
      * intros (c & Ec & E). apply bind_iff in E. destruct E as (x & Ex & E). apply word_iff in Ex. destruct Ex as (Hz & ->). apply bind_iff in E. destruct E as (r & Er & E). injection E as <-.
        change (2 ^ (8 * Z.of_nat 2)) with 65536 in Hz. unfold zlen in *.
        change (zeros 6) with (repeat 0 6). constructor; [apply seqarg_iff; exact Ec|lia|]. apply IH. exact Er.
      * intros H. inversion H; subst. eexists. split; [apply seqarg_iff; eassumption|]. apply bind_iff. eexists. split; [apply word_iff; split; [|reflexivity]|].
        { change (2 ^ (8 * Z.of_nat 2)) with 65536. unfold zlen. lia. }
        apply bind_iff. eexists. split; [apply IH; eassumption|reflexivity].
    + destruct (P <? 8)%nat eqn:E8.
      * destruct (N mod 8 =? 0)%nat eqn:E0.
        -- apply Nat.ltb_lt in E8. apply Nat.eqb_eq in E0. rewrite bind_iff. split.
           ++ intros (r & Er & E). injection E as <-. constructor; [exact E8|exact E0|apply IH; exact Er].
           ++ intros H. inversion H; subst. eexists. split; [apply IH; eassumption|reflexivity].
        -- split; [discriminate|]. intros H. inversion H; subst. apply Nat.eqb_neq in E0. contradiction.
      * split; [discriminate|]. intros H. inversion H; subst. apply Nat.ltb_ge in E8. lia.
Qed.

Lemma run_arity o N P ps : forall args b, run o N P ps args = Ok b -> length args = arity_of ps.
Proof.
  induction ps as [|p ps IH]; intros args b.
  - destruct args; [reflexivity|discriminate].
  - cbn [arity_of fold_right]. fold (arity_of ps).
    destruct p as [cs|n|n| | | | |w k| |]; cbn [run arity1].
    1: { set (a := firstn (nargs cs) args). destruct (length a =? nargs cs)%nat eqn:L; [|discriminate]. apply Nat.eqb_eq in L.
         destruct (kinds_ok cs a); [|discriminate]. intros E. apply bind_iff in E. destruct E as (x & Ex & E).
         apply bind_iff in E. destruct E as (r & Er & E). apply IH in Er. rewrite skipn_length in Er. unfold a in L. rewrite firstn_length in L. lia. }
    1-7: destruct args as [|a args]; [discriminate|]; intros E; apply bind_iff in E; destruct E as (x & Ex & E);
         apply bind_iff in E; destruct E as (r & Er & E); apply IH in Er; cbn [length]; lia.
    + destruct args as [|l [|a args]]; [discriminate|discriminate|]. intros E. apply bind_iff in E. destruct E as (c & Ec & E). apply bind_iff in E. destruct E as (x & Ex & E).
      apply bind_iff in E. destruct E as (r & Er & E). apply IH in Er. cbn [length]. lia.
    + destruct (P <? 8)%nat; [|discriminate]. destruct (N mod 8 =? 0)%nat; [|discriminate]. intros E. apply bind_iff in E.
      destruct E as (r & Er & E). apply IH in Er. lia.
Qed.

Lemma made_iff o ps : good_parts ps = true -> forall args b,
  made (made_by o) ps args b <-> exists P, run o (length b) P ps args = Ok b.
Proof. intros G args b. unfold made. split; intros (P & H); exists P; apply run_iff; assumption. Qed.

(** *** The header *)

Definition types_for (ty : pyval) (types : list Z) : Prop :=
  (exists z, ty = VInt z /\ types = [z]) \/ (exists l, ty = tup l /\ (forall z, In z l <-> In z types) /\ (2 <= length types)%nat).

(** The part of [ofp_] before the data. *)
Definition header_of (dx k : Z) (h ty : pyval) : res (pyval * pyval * pyval) :=
  match h with
  | VBytes h =>
      vs <- unpacks "BBHI" h 0 ;;
      match vs with
      | [version; oftype; _; xid] => check_type oftype ty ;;; Ok (version, oftype, xid)
      | _ => Err ValueError
      end
  | VTup _ [version; oftype; _; xid] => oftype <- fill_type oftype ty ;; Ok (version, oftype, xid)
  | VTup _ _ => Err ValueError
  | VNone => match ty with VInt z => Ok (VInt k, VInt z, VInt dx) | _ => Err ValueError end
  | _ => Err ValueError
  end.

Definition ofp_of (dx k : Z) (h ty : pyval) (body : bytes) : res bytes :=
  ' (version, oftype, xid) <- header_of dx k h ty ;;
  hd <- (assert_ (py_eqz (default version k) k) ;;;
         packs "BBHI" [default version k; oftype; VInt (8 + zlen body); default xid dx]) ;;
  Ok (hd ++ body).

Lemma header_read h : (8 <= length h)%nat ->
  unpacks "BBHI" h 0 = Ok [VInt (byte_at h 0); VInt (byte_at h 1); VInt (u16_at h 2); VInt (u32_at h 4)].
Proof.
  intros L. destruct (unpacks "BBHI" h 0) as [vs|e] eqn:E.
  - apply header_bytes in E. destruct E as (_ & ->). reflexivity.
  - unfold unpacks in E. change (fmt "BBHI") with (Ok [FU 1; FU 1; FU 2; FU 4]) in E. cbn [bind] in E. unfold unpack_from in E.
    change (calcsize [FU 1; FU 1; FU 2; FU 4]) with 8%nat in E. rewrite (proj2 (Nat.leb_le _ _)) in E by lia. discriminate.
Qed.

Lemma py_in_tup z l : py_in (VInt z) (map VInt l) = true <-> In z l.
Proof.
  unfold py_in. rewrite existsb_exists. split.
  - intros (x & Hx & E). apply in_map_iff in Hx. destruct Hx as (y & <- & Hy). cbn in E. apply Z.eqb_eq in E. subst. exact Hy.
  - intros H. exists (VInt z). split; [apply in_map; exact H|apply Z.eqb_refl].
Qed.

Lemma py_in_none l : py_in VNone (map VInt l) = false.
Proof. unfold py_in. induction l as [|z l IH]; [reflexivity|exact IH]. Qed.

(** What the header argument is turned into, both ways. *)
Lemma header_of_iff dx k h ty types : types_for ty types -> forall v' t' x',
  (exists v0 x0, header_of dx k h ty = Ok (v0, VInt t', x0) /\ default v0 k = VInt k /\ v' = k /\ default x0 dx = VInt x') <->
  v' = k /\ exists v ot, header_says dx h v ot x' /\ (v = None \/ v = Some k) /\ In t' types /\ (ot = Some t' \/ ot = None /\ types = [t']).
Proof.
  intros T v' t' x'. split.
  - intros (v0 & x0 & E & Ev & -> & Ex). split; [reflexivity|].
    destruct h as [| |h| | |c l]; try discriminate.
    + destruct ty as [|y| | | |]; try discriminate. injection E as <- <- <-. cbn in Ex. injection Ex as <-.
      destruct T as [(z & E & ->)|(l & E & _)]; [injection E as <-|discriminate].
      exists None, None. split; [constructor|]. split; [auto|]. split; [left; reflexivity|]. right. auto.
    + cbn [header_of] in E. apply bind_ok in E. destruct E as (vs & Eu & E). apply header_bytes in Eu. destruct Eu as [L8 ->].
      apply bind_ok in E. destruct E as (u & Ec & E). injection E as <- Et <-. cbn in Ev, Ex. injection Ev as Ev. injection Ex as <-.
      exists (Some (byte_at h 0)), (Some (byte_at h 1)). split; [constructor; exact L8|]. split; [right; congruence|].
      destruct T as [(z & -> & ->)|(l & -> & Hl & H2)].
      * cbn in Ec. apply assert_true, Z.eqb_eq in Ec. split; [left; congruence|left; congruence].
      * cbn [check_type tup] in Ec. apply assert_true, py_in_tup in Ec. rewrite <- Et. split; [apply Hl; exact Ec|auto].
    + destruct l as [|v1 [|t1 [|l1 [|x1 [|? ?]]]]]; try discriminate. cbn [header_of] in E.
      apply bind_ok in E. destruct E as (r & Ef & E). injection E as <- -> <-.
      destruct (default_says _ _ Ev) as (ov & Hv & Hk). destruct (xid_says _ _ _ Ex) as (ox & Hx & Hz).
      destruct T as [(z & -> & ->)|(l & -> & Hl & H2)].
      * cbn [fill_type] in Ef. destruct t1; try (apply bind_ok in Ef; destruct Ef as (u & Ea & Ef); apply assert_true in Ea; try discriminate Ea).
        -- injection Ef as <-. exists ov, None. split; [rewrite <- Hz; constructor; [exact Hv|constructor|exact Hx]|]. split; [exact Hk|]. split; [left; reflexivity|auto].
        -- injection Ef as ->. cbn in Ea. apply Z.eqb_eq in Ea. subst z.
           exists ov, (Some t'). split; [rewrite <- Hz; constructor; [exact Hv|constructor|exact Hx]|]. split; [exact Hk|]. split; [left; reflexivity|auto].
      * cbn [fill_type tup] in Ef. apply bind_ok in Ef. destruct Ef as (u & Ea & Ef). injection Ef as ->. apply assert_true, py_in_tup in Ea.
        exists ov, (Some t'). split; [rewrite <- Hz; constructor; [exact Hv|constructor|exact Hx]|]. split; [exact Hk|]. split; [apply Hl; exact Ea|auto].
  - intros (-> & v & ot & H & Hv & Ht & Ho).
    assert (Hm : forall l, ty = tup l -> ot = Some t').
    { intros l El. destruct Ho as [Ho|(_ & Ho)]; [exact Ho|]. destruct T as [(z & E & _)|(l' & _ & _ & H2)]; [rewrite El in E; discriminate|].
      rewrite Ho in H2. cbn in H2. lia. }
    destruct H as [|h L|c v0 t0 l0 x0 ov ot0 ox Fv Ft Fx].
    + destruct T as [(z & -> & ->)|(l & -> & _)]; [|discriminate (Hm l eq_refl)].
      destruct Ht as [<-|[]]. exists (VInt k), (VInt dx). repeat split.
    + destruct Ho as [Ho|(Ho & _)]; [|discriminate]. injection Ho as Et. destruct Hv as [Hv|Hv]; [discriminate|]. injection Hv as Ek.
      exists (VInt (byte_at h 0)), (VInt (u32_at h 4)). cbn [header_of]. rewrite header_read by exact L. cbn [bind].
      destruct T as [(z & -> & ->)|(l & -> & Hl & _)].
      * cbn [check_type py_eqz]. destruct Ht as [<-|[]]. rewrite Et, Z.eqb_refl. cbn [assert_ bind default]. rewrite Ek. auto.
      * cbn [check_type tup]. rewrite Et. rewrite (proj2 (py_in_tup t' l)) by (apply Hl; exact Ht). cbn [assert_ bind default]. rewrite Ek. auto.
    + exists v0, x0. cbn [header_of].
      assert (Ef : fill_type t0 ty = Ok (VInt t')).
      { destruct T as [(z & -> & ->)|(l & -> & Hl & _)].
        - destruct Ht as [<-|[]]. inversion Ft; subst; cbn [fill_type]; [reflexivity|].
          destruct Ho as [Ho|(Ho & _)]; [|discriminate]. injection Ho as ->. cbn [py_eqz]. rewrite Z.eqb_refl. reflexivity.
        - pose proof (Hm l eq_refl) as Eo. subst ot0. inversion Ft; subst. cbn [fill_type tup].
          rewrite (proj2 (py_in_tup t' l)) by (apply Hl; exact Ht). reflexivity. }
      rewrite Ef. cbn [bind]. split; [reflexivity|]. split; [|split; [reflexivity|]].
      * inversion Fv; subst; cbn; [reflexivity|]. destruct Hv as [Hv|Hv]; [discriminate|]. injection Hv as ->. reflexivity.
      * inversion Fx; subst; reflexivity.
Qed.

Lemma ofp_iff dx k h ty types body b : 0 <= k < 256 -> types_for ty types -> (forall z, In z types -> 0 <= z < 256) ->
  ofp_of dx k h ty body = Ok b <-> framed dx k types h body b.
Proof.
  intros Hk T Ht. unfold ofp_of, framed. rewrite bind_iff. split.
  - intros ([[v0 t0] x0] & Eh & E). apply bind_iff in E. destruct E as (hd & E & Eb). injection Eb as <-.
    apply bind_iff in E. destruct E as (u & Ea & E). apply assert_true in Ea.
    assert (Ev : default v0 k = VInt k) by (destruct (default v0 k); try discriminate; cbn in Ea; apply Z.eqb_eq in Ea; congruence).
    rewrite Ev in E. apply (plain "BBHI" [FU 1; FU 1; FU 2; FU 4] _ _ eq_refl) in E.
    cbn [pack] in E. apply bind_iff in E. destruct E as (a1 & E1 & E). apply bind_iff in E. destruct E as (r1 & E' & F1). injection F1 as <-.
    apply bind_iff in E'. destruct E' as (a2 & E2 & E). apply bind_iff in E. destruct E as (r2 & E' & F2). injection F2 as <-.
    apply bind_iff in E'. destruct E' as (a3 & E3 & E). apply bind_iff in E. destruct E as (r3 & E' & F3). injection F3 as <-.
    apply bind_iff in E'. destruct E' as (a4 & E4 & E). apply bind_iff in E. destruct E as (r4 & E' & F4). injection F4 as <-. injection E' as <-.
    apply word_iff in E1, E3. destruct E1 as (_ & ->), E3 as (L & ->).
    destruct t0 as [|t| | | |]; try discriminate E2. apply word_iff in E2. destruct E2 as (_ & ->).
    destruct (default x0 dx) as [|x| | | |] eqn:Ex; try discriminate E4. apply word_iff in E4. destruct E4 as (X & ->).
    destruct (proj1 (header_of_iff dx k h ty types T k t x)) as (_ & v & ot & H & Hv & Hi & Ho).
    { exists v0, x0. auto. }
    exists v, ot, t, x. change (2 ^ (8 * Z.of_nat 4)) with (2 ^ 32) in X. change (2 ^ (8 * Z.of_nat 2)) with 65536 in L. unfold zlen in L.
    split; [exact H|]. split; [exact Hv|]. split; [exact Hi|]. split; [exact Ho|]. split; [exact X|]. split; [lia|].
    unfold zlen. rewrite app_nil_r, <- !app_assoc. reflexivity.
  - intros (v & ot & t & x & H & Hv & Hi & Ho & X & L & ->).
    destruct (proj2 (header_of_iff dx k h ty types T k t x)) as (v0 & x0 & Eh & Ev & _ & Ex).
    { split; [reflexivity|]. exists v, ot. auto. }
    exists (v0, VInt t, x0). split; [exact Eh|]. rewrite Ev. cbn [py_eqz]. rewrite Z.eqb_refl. cbn [assert_ bind].
    apply bind_iff. exists (be 1 k ++ be 1 t ++ be 2 (8 + Z.of_nat (length body)) ++ be 4 x). split; [|rewrite <- !app_assoc; reflexivity].
    apply (plain "BBHI" [FU 1; FU 1; FU 2; FU 4] _ _ eq_refl). rewrite Ex. cbn [pack].
    rewrite (proj2 (word_iff 1 k (be 1 k))) by (split; [exact Hk|reflexivity]). cbn [bind].
    rewrite (proj2 (word_iff 1 t (be 1 t))) by (split; [exact (Ht t Hi)|reflexivity]). cbn [bind].
    rewrite (proj2 (word_iff 2 (8 + zlen body) (be 2 (8 + zlen body)))) by (split; [change (2 ^ (8 * Z.of_nat 2)) with 65536; unfold zlen; lia|reflexivity]). cbn [bind].
    rewrite (proj2 (word_iff 4 x (be 4 x))) by (split; [exact X|reflexivity]). cbn [bind]. rewrite app_nil_r. reflexivity.
Qed.

Lemma ofp_length dx k h ty body b : ofp_of dx k h ty body = Ok b -> length b = (8 + length body)%nat.
Proof.
  unfold ofp_of. intros E. apply bind_iff in E. destruct E as ([[v t] x] & _ & E). apply bind_iff in E. destruct E as (hd & E & F). injection F as <-.
  apply bind_iff in E. destruct E as (u & _ & E). apply (plain "BBHI" [FU 1; FU 1; FU 2; FU 4] _ _ eq_refl) in E.
  rewrite app_length, (pack_length _ _ _ E). reflexivity.
Qed.

Lemma sized_ofp n dx k h ty body : n = (8 + length body)%nat -> sized n (ofp_of dx k h ty body) = ofp_of dx k h ty body.
Proof.
  intros ->. unfold sized. destruct (ofp_of dx k h ty body) as [b|e] eqn:E; [|reflexivity].
  cbn [bind]. rewrite (ofp_length _ _ _ _ _ _ E), Nat.eqb_refl. reflexivity.
Qed.

Lemma ofp_4 o dx h ty body : (forall d, o (VBytes d) = Ok d) -> M_Build4.ofp_ o dx h (VBytes body) ty = ofp_of dx 4 h ty body.
Proof.
  intros Ho. unfold M_Build4.ofp_, ofp_of, M_Build4.header_fields, header_of.
  match goal with |- bind ?r _ = bind ?r _ => destruct r as [[[v t] x]|e]; [|reflexivity] end.
  cbn [bind]. rewrite Ho. reflexivity.
Qed.

Lemma ofp_5 o dx h ty body : (forall d, o (VBytes d) = Ok d) -> M_Build5.ofp_ o dx h (VBytes body) ty = ofp_of dx 5 h ty body.
Proof.
  intros Ho. unfold M_Build5.ofp_, ofp_of, M_Build5.header_fields, header_of.
  match goal with |- bind ?r _ = bind ?r _ => destruct r as [[[v t] x]|e]; [|reflexivity] end.
  cbn [bind]. rewrite Ho. reflexivity.
Qed.

(** *** The messages *)

Definition plain_part (p : part) : bool := match p with Total _ _ | Align => false | _ => true end.

Lemma run_plain o N P ps : forallb plain_part ps = true -> forall args, run o N P ps args = run o 0 0 ps args.
Proof.
  induction ps as [|p ps IH]; intros H args; [reflexivity|].
  cbn [forallb] in H. apply andb_true_iff in H. destruct H as [Hp H]. specialize (IH H).
  destruct p; cbn in Hp; try discriminate; cbn [run]; destruct args as [|a args]; try reflexivity; try (rewrite IH; reflexivity).
  destruct args as [|a' args]; [reflexivity|]. rewrite IH. reflexivity.
Qed.

Definition exact_msg (k dx : Z) (o : pyval -> res bytes) (f : list pyval -> res bytes) (types : list Z) (ps : list part) : Prop :=
  forall all b, f all = Ok b <->
    exists h args body, all = h :: args /\ made (made_by o) ps args body /\ framed dx k types h body b.

Lemma exact_msg_of k dx o f ty types ps :
  0 <= k < 256 -> types_for ty types -> (forall z, In z types -> 0 <= z < 256) ->
  good_parts ps = true -> forallb plain_part ps = true ->
  (forall all b, f all = Ok b -> length all = S (arity_of ps)) ->
  (forall h args b, length args = arity_of ps ->
     f (h :: args) = Ok b <-> exists body, run o 0 0 ps args = Ok body /\ ofp_of dx k h ty body = Ok b) ->
  exact_msg k dx o f types ps.
Proof.
  intros Hk T Ht G Pl L H all b. split.
  - intros E. pose proof (L all b E) as Hl. destruct all as [|h args]; [discriminate|]. injection Hl as Hl.
    apply (H h args b Hl) in E. destruct E as (body & Er & E). exists h, args, body. split; [reflexivity|].
    split; [|apply (ofp_iff dx k h ty types body b Hk T Ht); exact E].
    apply (made_iff o ps G). exists 0%nat. rewrite run_plain by exact Pl. exact Er.
  - intros (h & args & body & -> & M & F). apply (made_iff o ps G) in M. destruct M as (P & M). rewrite run_plain in M by exact Pl.
    apply (H h args b (run_arity _ _ _ _ _ _ M)). exists body. split; [exact M|].
    apply (ofp_iff dx k h ty types body b Hk T Ht). exact F.
Qed.

Ltac unwind :=
  repeat match goal with H : bind _ _ = Ok _ |- _ => apply bind_iff in H; destruct H as (? & ? & H) end.
Ltac refuse :=
  split; [let Q := fresh in intros Q | let Q := fresh in intros (? & Q & _)]; unfold sized in *; unwind; discriminate.

Ltac packed_all :=
  repeat match goal with |- context [packs ?f ?vs] =>
    let r := eval vm_compute in (fmt f) in
    match r with Ok ?fs => change (packs f vs) with (pack fs vs) end
  end.
Ltac redo := cbn [run nargs firstn skipn length Nat.eqb kinds_ok items map item fill Datatypes.app pack bind].

Ltac msg_step o :=
  match goal with
  | |- context [packs ?f ?v] => packed_all; redo
  | |- context [seqarg o ?v] => destruct (seqarg o v); redo; [|refuse]
  | |- context [pack_item ?f ?v] => let E := fresh "E" in destruct (pack_item f v) eqn:E; [apply pack_item_length in E; redo|refuse]
  | |- context [o ?v] => destruct (o v); redo; [|refuse]
  | |- context [as_bytes (dflt_bytes ?v ?d)] => is_var v; destruct v; cbn [dflt_bytes as_bytes]; redo; try refuse
  | |- context [as_bytes ?v] => is_var v; destruct v; cbn [as_bytes]; redo; try refuse
  | |- context [match ?v with VBytes _ => _ | VNone => _ | _ => _ end] => is_var v; destruct v; cbn [dflt_bytes as_bytes]; redo; try refuse
  end.
Ltac msg_end :=
  rewrite ?app_nil_r;
  let Q := fresh in let B := fresh in let F := fresh in
  split; [intros Q; eexists; split; [reflexivity|]; rewrite <- ?app_assoc in *; exact Q
         |intros (? & B & F); injection B as <-; rewrite <- ?app_assoc in *; exact F].

Ltac lengths := rewrite ?app_length, ?zeros_length in *; cbn [item_size Datatypes.length] in *; lia.

Ltac spread_msg :=
  let h := fresh "h" in let args := fresh "args" in let b := fresh "b" in let Hl := fresh "Hl" in
  intros h args b Hl; cbn [arity_of arity1 nargs fold_right Nat.add Datatypes.app flow_mod_fields] in Hl;
  repeat (destruct args as [|? args]; [discriminate|]; cbn [length] in Hl; injection Hl as Hl);
  destruct args as [|? args]; [clear Hl|discriminate].
Ltac one_type := left; eexists; split; reflexivity.
Ltac two_types := right; eexists; split; [reflexivity|split; [cbn; intuition|cbn; lia]].
Ltac small := cbn; intuition lia.
Ltac body_msg o Ho lem :=
  packed_all; unfold flow_mod_fields; redo;
  change (pack_item (FU 4) (VInt 0)) with (Ok (zeros 4));
  repeat msg_step o;
  rewrite ?lem by exact Ho; rewrite ?sized_ofp by lengths; msg_end.

Tactic Notation "msg4" ident(o) hyp(Ho) constr(ty) reference(f) :=
  apply (exact_msg_of 4 _ o _ ty); [lia|first [one_type|two_types]|small|reflexivity|reflexivity|arity step4|];
  spread_msg; step4; unfold f, M_Build4.message, M_Build4.pack_app; body_msg o Ho ofp_4.
Tactic Notation "msg5" ident(o) hyp(Ho) constr(ty) reference(f) :=
  apply (exact_msg_of 5 _ o _ ty); [lia|first [one_type|two_types]|small|reflexivity|reflexivity|arity step5|];
  spread_msg; step5; unfold f, M_Build5.message, M_Build4.pack_app; body_msg o Ho ofp_5.

Lemma all_messages4 o dx : (forall d, o (VBytes d) = Ok d) ->
  Forall (fun e => exact_msg 4 dx o (M_Build4.call o dx (fst (fst e))) (snd (fst e)) (snd e)) messages4.
Proof.
  intros Ho. unfold messages4, messages. cbn [Datatypes.app]. each.
  - msg4 o Ho (VInt 0) ofp_hello.
  - msg4 o Ho (VInt 1) ofp_error_msg.
  - msg4 o Ho (VInt 6) ofp_switch_features.
  - msg4 o Ho (tup [9; 8]) ofp_switch_config.
  - msg4 o Ho (VInt 10) ofp_packet_in.
  - msg4 o Ho (VInt 11) ofp_flow_removed.
  - msg4 o Ho (VInt 13) ofp_packet_out.
  - msg4 o Ho (VInt 15) ofp_group_mod.
  - msg4 o Ho (tup [24; 25]) ofp_role_request.
  - msg4 o Ho (VInt 4) ofp_experimenter_header.
  - msg4 o Ho (VInt 12) ofp_port_status.
  - msg4 o Ho (VInt 14) ofp_flow_mod.
  - msg4 o Ho (VInt 16) ofp_port_mod.
  - msg4 o Ho (VInt 17) ofp_table_mod.
  - msg4 o Ho (VInt 22) ofp_queue_get_config_request.
  - msg4 o Ho (VInt 23) ofp_queue_get_config_reply.
  - msg4 o Ho (VInt 29) ofp_meter_mod.
Qed.

Lemma all_messages5 o dx : (forall d, o (VBytes d) = Ok d) ->
  Forall (fun e => exact_msg 5 dx o (M_Build5.call o dx (fst (fst e))) (snd (fst e)) (snd e)) messages5.
Proof.
  intros Ho. unfold messages5, messages. cbn [Datatypes.app]. each.
  - msg5 o Ho (VInt 0) M_Build5.ofp_hello.
  - msg5 o Ho (VInt 1) M_Build5.ofp_error_msg.
  - msg5 o Ho (VInt 6) M_Build5.ofp_switch_features.
  - msg5 o Ho (tup [9; 8]) M_Build5.ofp_switch_config.
  - msg5 o Ho (VInt 10) M_Build5.ofp_packet_in.
  - msg5 o Ho (VInt 11) M_Build5.ofp_flow_removed.
  - msg5 o Ho (VInt 13) M_Build5.ofp_packet_out.
  - msg5 o Ho (VInt 15) M_Build5.ofp_group_mod.
  - msg5 o Ho (tup [24; 25]) M_Build5.ofp_role_request.
  - msg5 o Ho (VInt 1) M_Build5.ofp_error_experimenter_msg.
  - msg5 o Ho (VInt 4) M_Build5.ofp_experimenter_msg.
  - msg5 o Ho (VInt 14) M_Build5.ofp_flow_mod.
  - msg5 o Ho (VInt 16) M_Build5.ofp_port_mod.
  - msg5 o Ho (VInt 17) M_Build5.ofp_table_mod.
  - msg5 o Ho (tup [27; 28]) M_Build5.ofp_async_config.
  - msg5 o Ho (tup [24; 25]) M_Build5.ofp_role_status.
  - msg5 o Ho (VInt 31) M_Build5.ofp_table_status.
  - msg5 o Ho (VInt 32) M_Build5.ofp_requestforward_header.
  - msg5 o Ho (VInt 33) M_Build5.ofp_bundle_ctrl_msg.
  - msg5 o Ho (VInt 34) M_Build5.ofp_bundle_add_msg.
Qed.
