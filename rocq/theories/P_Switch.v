(** The controller channel against a barrier-respecting switch. *)

From Verif Require Import Py Struct P_Struct M_Hello M_Loop M_Controller S_Hello S_Controller P_Hello P_Controller.
Local Open Scope Z_scope.

(** *** How [seq] describes the unanswered part of the wire *)

Definition chunk (c : option (option nat)) : list sel :=
  match c with None => [] | Some cb => [SChunk cb] end.

Definition cb_of (x : item) : option nat := match x with WReq cb _ | WBar cb _ => cb end.

(** A segment (requests between two barriers) and its chunk: every request
    has the chunk's callback or none; if the callback is alive the last
    request is one of its own. *)
Definition seg_ok (dead : list nat) (c : option (option nat)) (seg : list item) : Prop :=
  Forall (fun x => is_bar x = false) seg /\
  match c with
  | None => Forall (fun x => cb_of x = None) seg
  | Some cb =>
      Forall (fun x => cb_of x = None \/ cb_of x = cb) seg /\
      (forall f, cb = Some f -> ~ In f dead -> exists seg0 m, seg = seg0 ++ [WReq (Some f) m])
  end.

Inductive desc (dead : list nat) : list sel -> list item -> Prop :=
| D_last c seg : seg_ok dead c seg -> desc dead (chunk c) seg
| D_bar c seg x cb m q w :
    seg_ok dead c seg -> xid_of m = x -> desc dead q w ->
    desc dead (chunk c ++ SBarrier x cb :: q) (seg ++ WBar cb m :: w).

Lemma seg_ok_dead dead f c seg : seg_ok dead c seg -> seg_ok (f :: dead) c seg.
Proof.
  intros [H1 H2]. split; [exact H1|]. destruct c as [cb|]; [|exact H2].
  destruct H2 as [H2 H3]. split; [exact H2|]. intros g Hg Hn. apply H3; [exact Hg|].
  intros Hi. apply Hn. right. exact Hi.
Qed.

Lemma desc_dead dead f q w : desc dead q w -> desc (f :: dead) q w.
Proof. induction 1; constructor; auto using seg_ok_dead. Qed.

(** The last segment can be replaced. *)
Lemma desc_split dead q w : desc dead q w ->
  exists q0 w0 c seg, q = q0 ++ chunk c /\ w = w0 ++ seg /\ seg_ok dead c seg /\
    (q0 = [] \/ exists q1 x cb, q0 = q1 ++ [SBarrier x cb]) /\
    (forall q' w', desc dead q' w' -> desc dead (q0 ++ q') (w0 ++ w')).
Proof.
  induction 1 as [c seg Hs|c seg x cb m q w Hs Hx Hd IH].
  - exists [], [], c, seg. repeat split; auto; apply Hs.
  - destruct IH as (q0 & w0 & c' & seg' & -> & -> & Hs' & Hq & Hr).
    exists (chunk c ++ SBarrier x cb :: q0), (seg ++ WBar cb m :: w0), c', seg'.
    split; [rewrite <- app_assoc; reflexivity|]. split; [rewrite <- app_assoc; reflexivity|].
    split; [exact Hs'|]. split.
    + right. destruct Hq as [->|(q1 & x1 & cb1 & ->)].
      * exists (chunk c), x, cb. reflexivity.
      * exists (chunk c ++ SBarrier x cb :: q1), x1, cb1. rewrite <- app_assoc. reflexivity.
    + intros q' w' Hd'. rewrite <- !app_assoc. cbn. apply D_bar; auto.
Qed.

Lemma seg_ok_nil dead : seg_ok dead None [].
Proof. split; constructor. Qed.

Lemma seg_ok_chunk dead h m : seg_ok dead (Some h) [WReq h m].
Proof.
  split; [constructor; [reflexivity|constructor]|].
  split; [constructor; [cbn; auto|constructor]|].
  intros f Hf _. subst h. exists [], m. reflexivity.
Qed.

Lemma seg_ok_grow dead cb h m seg :
  seg_ok dead (Some cb) seg -> owner dead cb = h -> seg_ok dead (Some cb) (seg ++ [WReq h m]).
Proof.
  intros [H1 [H2 H3]] Ho. split.
  - apply Forall_app. split; [exact H1|repeat constructor].
  - split.
    + apply Forall_app. split; [exact H2|]. constructor; [|constructor]. cbn.
      destruct cb as [f|]; cbn in Ho; [|auto]. destruct (in_dec Nat.eq_dec f dead); subst; auto.
    + intros f -> Hn. cbn in Ho. destruct (in_dec Nat.eq_dec f dead); [contradiction|]. subst. eauto.
Qed.

Lemma seg_ok_start dead h m seg : seg_ok dead None seg -> seg_ok dead (Some h) (seg ++ [WReq h m]).
Proof.
  intros [H1 H2]. split.
  - apply Forall_app. split; [exact H1|repeat constructor].
  - split.
    + apply Forall_app. split.
      * eapply Forall_impl; [|exact H2]. cbn. auto.
      * constructor; [cbn; auto|constructor].
    + intros f Hf _. subst h. eauto.
Qed.

Lemma seg_ok_none dead m seg : seg_ok dead None seg -> seg_ok dead None (seg ++ [WReq None m]).
Proof.
  intros [H1 H2]. split; apply Forall_app; split; auto; repeat constructor.
Qed.

(** What one successful send adds. *)
Lemma desc_send dead s h m bxid w :
  k_dead s = dead -> desc dead (k_seq s) w ->
  let c := fst (locked_send s h m bxid None None) in
  k_dead c = dead /\
  desc dead (k_seq c) (w ++ tag_new h (skipn (length (k_wire s)) (k_wire c))).
Proof.
  intros Hd H. rewrite locked_send_spec. unfold do_send.
  assert (Hnew : forall l, skipn (length (k_wire s)) (k_wire s ++ l) = l).
  { intros l. rewrite skipn_app, Nat.sub_diag, skipn_all. reflexivity. }
  assert (Hnil : skipn (length (k_wire s)) (k_wire s) = []) by apply skipn_all.
  destruct (length m <? 8)%nat.
  { cbn. rewrite Hnil. cbn. rewrite app_nil_r. auto. }
  destruct (desc_split _ _ _ H) as (q0 & w0 & c & seg & Eq & Ew & Hs & Hq & Hr).
  destruct (barrier_request m) eqn:Eb.
  { cbn. rewrite Hnew. cbn. unfold to_item. rewrite Eb. split; [exact Hd|].
    rewrite Eq, Ew, <- !app_assoc. apply Hr. apply D_bar; [exact Hs|reflexivity|].
    apply (D_last _ None []). apply seg_ok_nil. }
  destruct (last_of (k_seq s)) as [[cb|x cb]|] eqn:El.
  - assert (Ec : c = Some cb).
    { rewrite Eq in El. destruct c as [cb'|]; cbn in El.
      - rewrite last_of_app in El. congruence.
      - rewrite app_nil_r in El. destruct Hq as [->|(q1 & x & cb' & ->)]; [discriminate|].
        rewrite last_of_app in El. discriminate. }
    subst c. destruct (same (owner (k_dead s) cb) h) eqn:Es.
    + apply same_eq in Es. cbn. rewrite Hnew. cbn. unfold to_item. rewrite Eb. split; [exact Hd|].
      rewrite Eq, Ew, <- app_assoc. apply Hr. apply (D_last _ (Some cb)). apply seg_ok_grow; [exact Hs|congruence].
    + destruct (separator (k_version s) bxid) as [b|] eqn:Esep.
      * destruct (separator_facts _ _ _ Esep) as (_ & Hb & Hx & _).
        cbn. rewrite <- app_assoc, Hnew. cbn. unfold to_item. rewrite Eb, Hb. split; [exact Hd|].
        rewrite Eq, Ew, <- !app_assoc. apply Hr. apply (D_bar _ (Some cb)); [exact Hs|exact Hx|].
        apply (D_last _ (Some h)). apply seg_ok_chunk.
      * cbn. rewrite Hnil. cbn. rewrite app_nil_r. auto.
  - assert (Ec : c = None).
    { rewrite Eq in El. destruct c as [cb'|]; [|reflexivity]. cbn in El. rewrite last_of_app in El. discriminate. }
    subst c. cbn. rewrite Hnew. cbn. unfold to_item. rewrite Eb. split; [exact Hd|].
    rewrite Eq, Ew. cbn. rewrite app_nil_r, <- app_assoc. apply Hr. apply (D_last _ (Some h)). apply seg_ok_start. exact Hs.
  - apply last_of_none in El. rewrite El in Eq.
    assert (E0 : q0 = [] /\ c = None).
    { destruct q0; [|discriminate]. destruct c; [discriminate|]. auto. }
    destruct E0 as [-> ->].
    destruct h as [f|]; cbn; rewrite Hnew; cbn; unfold to_item; rewrite Eb; (split; [exact Hd|]);
      rewrite Ew, <- app_assoc.
    + apply (Hr [SChunk (Some f)]). apply (D_last _ (Some (Some f))). apply seg_ok_start. exact Hs.
    + rewrite El. apply (Hr []). apply (D_last _ None). apply seg_ok_none. exact Hs.
Qed.

(** *** Positions *)

Lemma bars_app a b : bars (a ++ b) = bars a ++ bars b.
Proof. apply filter_app. Qed.

Lemma bars_before_le w i : (bars_before w i <= length (bars w))%nat.
Proof.
  unfold bars_before. rewrite <- (firstn_skipn i w) at 2. rewrite bars_app, app_length. lia.
Qed.

Lemma bars_before_in a b i : (i <= length a)%nat -> bars_before (a ++ b) i = bars_before a i.
Proof.
  intros H. unfold bars_before. rewrite firstn_app.
  replace (i - length a)%nat with 0%nat by lia. rewrite firstn_O, app_nil_r. reflexivity.
Qed.

Lemma bars_before_out a b i : (length a <= i)%nat ->
  bars_before (a ++ b) i = (length (bars a) + bars_before b (i - length a))%nat.
Proof.
  intros H. unfold bars_before. rewrite firstn_app, firstn_all2 by lia. rewrite bars_app, app_length. reflexivity.
Qed.

Lemma bars_before_stable w l i x : nth_error w i = Some x -> bars_before (w ++ l) i = bars_before w i.
Proof.
  intros H. apply bars_before_in. apply Nat.lt_le_incl. apply nth_error_Some. congruence.
Qed.

Lemma nth_error_stable {A} (w l : list A) i x : nth_error w i = Some x -> nth_error (w ++ l) i = Some x.
Proof. intros H. rewrite nth_error_app1; [exact H|]. apply nth_error_Some. congruence. Qed.

(** [w = pre ++ rest] where [pre] ends with the [k]-th barrier. *)
Definition cut (k : nat) (w pre rest : list item) : Prop :=
  w = pre ++ rest /\ length (bars pre) = k /\
  (pre = [] \/ exists p cb m, pre = p ++ [WBar cb m]).

Lemma cut_pos k w pre rest i : cut k w pre rest -> bars_before w i = k -> (length pre <= i)%nat.
Proof.
  intros (-> & Hk & Hp) Hb. destruct Hp as [->|(p & cb & m & ->)]; [cbn; lia|].
  destruct (Nat.lt_ge_cases i (length (p ++ [WBar cb m]))) as [Hi|Hi]; [|exact Hi]. exfalso.
  rewrite app_length in Hi. cbn in Hi. rewrite <- app_assoc in Hb.
  rewrite bars_before_in in Hb by lia. pose proof (bars_before_le p i).
  rewrite bars_app, app_length in Hk. cbn in Hk. lia.
Qed.

(** *** Log entries *)

Definition log_ok (w : list item) (dead : list nat) (e : frame * outcome) : Prop :=
  match e with
  | (FReply i _, out) =>
      exists cb m, nth_error w i = Some (WReq cb m) /\
      match cb with
      | Some f => out = ToCallback f \/ (out = ToDefault /\ In f dead)
      | None => out = ToDefault \/
          exists f j m', out = ToCallback f /\ (i < j)%nat /\ nth_error w j = Some (WReq (Some f) m') /\
                         bars_before w j = bars_before w i
      end
  | (FBar n _, out) =>
      exists cb m, nth_error (bars w) n = Some (WBar cb m) /\
      match cb with
      | Some f => out = ToCallback f \/ (out = Swallowed /\ In f dead)
      | None => out = Swallowed
      end
  | (FAsync _, out) => out = ToAsync \/ out = ToDefault \/ exists f, out = ToCallback f
  end.

Lemma log_ok_grow w l dead e : log_ok w dead e -> log_ok (w ++ l) dead e.
Proof.
  destruct e as [[i r|n r|r] out]; cbn; auto.
  - intros (cb & m & Hn & H). exists cb, m. split; [apply nth_error_stable; exact Hn|].
    destruct cb as [f|]; [exact H|]. destruct H as [H|(f & j & m' & Ho & Hj & Hw & Hb)]; [auto|].
    right. exists f, j, m'. repeat split; auto; [apply nth_error_stable; exact Hw|].
    rewrite (bars_before_stable _ _ _ _ Hw), (bars_before_stable _ _ _ _ Hn). exact Hb.
  - intros (cb & m & Hn & H). exists cb, m. split; [|exact H]. rewrite bars_app. apply nth_error_stable. exact Hn.
Qed.

Lemma log_ok_dead w f dead e : log_ok w dead e -> log_ok w (f :: dead) e.
Proof.
  destruct e as [[i r|n r|r] out]; cbn; auto; intros (cb & m & Hn & H); exists cb, m; (split; [exact Hn|]);
    destruct cb as [g|]; auto; destruct H as [H|[H1 H2]]; auto.
Qed.

(** *** The way back: each frame belongs to the segment current when it will
    be delivered. *)
Fixpoint fifo_ok (w : list item) (k ans : nat) (fs : list frame) : Prop :=
  match fs with
  | [] => k = ans
  | FReply i r :: fs' =>
      (exists cb m, nth_error w i = Some (WReq cb m)) /\ bars_before w i = k /\
      frame_ok r = true /\ barrier_reply r = false /\ async_type r = false /\ fifo_ok w k ans fs'
  | FBar n r :: fs' =>
      n = k /\ (exists cb m, nth_error (bars w) k = Some (WBar cb m) /\ answers_barrier r m = true) /\
      fifo_ok w (S k) ans fs'
  | FAsync r :: fs' => frame_ok r = true /\ barrier_reply r = false /\ fifo_ok w k ans fs'
  end.

Lemma fifo_ok_grow w l fs : forall k ans, fifo_ok w k ans fs -> fifo_ok (w ++ l) k ans fs.
Proof.
  induction fs as [|[i r|n r|r] fs IH]; intros k ans H; cbn in *; auto.
  - destruct H as ((cb & m & Hn) & Hb & H). split; [exists cb, m; apply nth_error_stable; exact Hn|].
    split; [rewrite (bars_before_stable _ _ _ _ Hn); exact Hb|]. intuition auto.
  - destruct H as (-> & (cb & m & Hn & Ha) & H). split; [reflexivity|]. split; [|auto].
    exists cb, m. split; [|exact Ha]. rewrite bars_app. apply nth_error_stable. exact Hn.
  - intuition auto.
Qed.

Lemma fifo_ok_snoc w fs f ans' : forall k ans,
  fifo_ok w k ans fs -> fifo_ok w ans ans' [f] -> fifo_ok w k ans' (fs ++ [f]).
Proof.
  induction fs as [|[i r|n r|r] fs IH]; intros k ans H Hf; cbn [Datatypes.app].
  - cbn in H. subst. exact Hf.
  - cbn in *. intuition eauto.
  - cbn in *. intuition eauto.
  - cbn in *. intuition eauto.
Qed.

Definition wire_ok (w : list item) : Prop :=
  Forall (fun x => match x with WBar _ m => barrier_request m = true | WReq _ _ => True end) w.

Lemma tag_new_ok h new : wire_ok (tag_new h new).
Proof.
  assert (Hi : forall h m, match to_item h m with WBar _ m => barrier_request m = true | WReq _ _ => True end).
  { intros h' m. unfold to_item. destruct (barrier_request m) eqn:E; [exact E|exact I]. }
  induction new as [|a new IH]; [constructor|]. destruct new as [|b new].
  - constructor; [apply Hi|constructor].
  - cbn [tag_new]. constructor; [apply Hi|exact IH].
Qed.

Definition inv (s : sys) : Prop :=
  wire_ok (y_wire s) /\
  exists k pre rest,
    cut k (y_wire s) pre rest /\
    desc (k_dead (y_ctl s)) (k_seq (y_ctl s)) rest /\
    fifo_ok (y_wire s) k (y_ans s) (y_fifo s) /\
    Forall (log_ok (y_wire s) (k_dead (y_ctl s))) (y_log s) /\
    map fst (y_log s) ++ y_fifo s = y_emit s.

(** *** Delivery *)

Lemma frame_recv s r : frame_ok r = true ->
  exists s1, ctl_recv s r = (s1, Ok tt) /\ k_seq s1 = k_seq s /\ k_dead s1 = k_dead s.
Proof.
  intros H. unfold frame_ok in H. assert (Hl : (8 <= length r)%nat) by lia.
  rewrite features by exact Hl. destruct (byte_at r 1 =? 6) eqn:E6.
  - assert (H24 : (24 <= length r)%nat) by lia.
    destruct (match k_version s with Some v => 4 <=? v | None => false end).
    + assert (E : (22 <=? length r)%nat = true) by lia. rewrite E. eexists. split; [reflexivity|]. auto.
    + assert (E : (16 <=? length r)%nat = true) by lia. rewrite E. eexists. split; [reflexivity|]. auto.
  - exists s. auto.
Qed.

(** The routing of a frame that is not a barrier reply. *)
Lemma intercept_plain a s r : (8 <= length r)%nat -> barrier_reply r = false ->
  intercept a s r =
  (s, if a && async_type r then ToAsync
      else match k_seq s with
           | SChunk cb :: _ => match owner (k_dead s) cb with Some f => ToCallback f | None => ToDefault end
           | _ => ToDefault
           end).
Proof.
  intros Hl Hb. unfold intercept. rewrite parse_header_spec by exact Hl. cbn [h_type].
  fold (async_type r). destruct (a && async_type r); [reflexivity|].
  rewrite is_barrier_rep_spec, Hb. destruct (k_seq s) as [|[cb|x cb] q]; cbn; [reflexivity| |reflexivity].
  rewrite live_owner. destruct (owner (k_dead s) cb); reflexivity.
Qed.

Lemma nth_error_seg c dead seg w i x :
  seg_ok dead c seg -> nth_error (seg ++ w) i = Some x -> bars_before (seg ++ w) i = 0%nat ->
  match w with [] => True | y :: _ => is_bar y = true end -> is_bar x = false ->
  (i < length seg)%nat /\ nth_error seg i = Some x.
Proof.
  intros [Hs _] Hn Hb Hw Hx.
  destruct (Nat.lt_ge_cases i (length seg)) as [Hi|Hi].
  - split; [exact Hi|]. rewrite nth_error_app1 in Hn by exact Hi. exact Hn.
  - exfalso. rewrite nth_error_app2 in Hn by exact Hi. rewrite bars_before_out in Hb by exact Hi.
    destruct w as [|y w]; [destruct (i - length seg)%nat; discriminate|].
    destruct (i - length seg)%nat as [|j] eqn:Ei.
    + cbn in Hn. inversion Hn; subst. congruence.
    + unfold bars_before in Hb. cbn [firstn bars filter] in Hb. rewrite Hw in Hb. cbn in Hb. lia.
Qed.

Lemma seg_lookup dead c seg i x : seg_ok dead c seg -> nth_error seg i = Some x ->
  exists cb m, x = WReq cb m /\
  match c with
  | None => cb = None
  | Some cc => (cb = None \/ cb = cc) /\
     forall f, cc = Some f -> ~ In f dead -> cb = None ->
       exists j m', (i < j < length seg)%nat /\ nth_error seg j = Some (WReq (Some f) m')
  end.
Proof.
  intros [H1 H2] Hn. pose proof (nth_error_In _ _ Hn) as Hin.
  pose proof (proj1 (Forall_forall _ _) H1 _ Hin) as Hb. destruct x as [cb m|cb m]; [|discriminate].
  exists cb, m. split; [reflexivity|]. destruct c as [cc|].
  - destruct H2 as [H2 H3]. split; [exact (proj1 (Forall_forall _ _) H2 _ Hin)|].
    intros f -> Hd ->. destruct (H3 f eq_refl Hd) as (seg0 & m' & ->).
    exists (length seg0), m'. rewrite app_length. cbn [length].
    assert (Hi : (i < length (seg0 ++ [WReq (Some f) m']))%nat) by (apply nth_error_Some; congruence).
    rewrite app_length in Hi. cbn [length] in Hi.
    assert (Hne : i <> length seg0).
    { intros ->. rewrite nth_error_app2, Nat.sub_diag in Hn by lia. cbn in Hn. congruence. }
    split; [lia|]. rewrite nth_error_app2, Nat.sub_diag by lia. reflexivity.
  - exact (proj1 (Forall_forall _ _) H2 _ Hin).
Qed.

(** The first segment and its chunk. *)
Lemma desc_first dead q rest : desc dead q rest ->
  exists c seg q' w', q = chunk c ++ q' /\ rest = seg ++ w' /\ seg_ok dead c seg /\
    match w' with
    | [] => q' = []
    | x :: w'' => exists cb m q'', x = WBar cb m /\ q' = SBarrier (xid_of m) cb :: q'' /\ desc dead q'' w''
    end.
Proof.
  destruct 1 as [c seg Hs|c seg x cb m q w Hs Hx Hd].
  - exists c, seg, [], []. rewrite !app_nil_r. auto.
  - exists c, seg, (SBarrier x cb :: q), (WBar cb m :: w). subst x.
    split; [reflexivity|]. split; [reflexivity|]. split; [exact Hs|]. eauto 10.
Qed.

Lemma deliver_inv a s f fs :
  inv s -> y_fifo s = f :: fs ->
  exists c out, cstep a (y_ctl s) (CRecv (frame_bytes f)) = (c, CGot out) /\
    inv (mkSys c (y_wire s) (y_ans s) fs (y_log s ++ [(f, out)]) (y_emit s)).
Proof.
  intros (Hwok & k & pre & rest & Hc & Hd & Hf & Hl & He) Ef. rewrite Ef in Hf, He.
  assert (He' : forall out, map fst (y_log s ++ [(f, out)]) ++ fs = y_emit s).
  { intros out. rewrite map_app, <- app_assoc. exact He. }
  destruct (desc_first _ _ _ Hd) as (c & seg & q' & w' & Eq & Er & Hs & Hw).
  destruct f as [i r|n r|r]; cbn [frame_bytes fifo_ok] in *.
  - destruct Hf as ((cb & m & Hn) & Hb & Hok & Hnb & Hna & Hf').
    destruct (frame_recv (y_ctl s) r Hok) as (s1 & R1 & Q1 & D1).
    assert (H8 : (8 <= length r)%nat) by (unfold frame_ok in Hok; lia).
    cbn [cstep]. rewrite R1, intercept_plain by assumption. rewrite Hna, andb_false_r, Q1, D1.
    eexists. eexists. split; [reflexivity|].
    split; [exact Hwok|]. exists k, pre, rest. cbn [y_wire y_ctl y_ans y_fifo y_log y_emit]. rewrite Q1, D1.
    split; [exact Hc|]. split; [exact Hd|]. split; [exact Hf'|]. split; [|apply He'].
    apply Forall_app. split; [exact Hl|]. constructor; [|constructor]. cbn [log_ok].
    exists cb, m. split; [exact Hn|].
    pose proof (cut_pos _ _ _ _ _ Hc Hb) as Hi. destruct Hc as (Ew & Hk & Hp).
    assert (Hn' : nth_error rest (i - length pre) = Some (WReq cb m)).
    { rewrite Ew, nth_error_app2 in Hn by exact Hi. exact Hn. }
    assert (Hb' : bars_before rest (i - length pre) = 0%nat).
    { rewrite Ew, bars_before_out in Hb by exact Hi. lia. }
    rewrite Er in Hn', Hb'.
    destruct (nth_error_seg c _ seg w' _ _ Hs Hn' Hb') as [Hi' Hn''].
    { destruct w' as [|x w'']; [exact I|]. destruct Hw as (? & ? & ? & -> & _). reflexivity. }
    { reflexivity. }
    destruct (seg_lookup _ _ _ _ _ Hs Hn'') as (cb0 & m0 & E0 & Hcase).
    inversion E0; subst cb0 m0. rewrite Eq.
    destruct c as [cc|].
    + cbn [chunk Datatypes.app]. destruct Hcase as [Hcb Hlater].
      destruct cc as [f|]; cbn [owner].
      * destruct (in_dec Nat.eq_dec f (k_dead (y_ctl s))) as [Hdead|Halive].
        -- destruct cb as [g|]; [|left; reflexivity]. right. split; [reflexivity|].
           destruct Hcb as [Hcb|Hcb]; [discriminate|]. inversion Hcb; subst. exact Hdead.
        -- destruct cb as [g|].
           ++ left. destruct Hcb as [Hcb|Hcb]; [discriminate|]. congruence.
           ++ right. destruct (Hlater f eq_refl Halive eq_refl) as (j & m' & Hj & Hnj).
              exists f, (length pre + j)%nat, m'.
              split; [reflexivity|]. split; [lia|].
              assert (Hnj' : nth_error (y_wire s) (length pre + j) = Some (WReq (Some f) m')).
              { rewrite Ew, nth_error_app2 by lia. replace (length pre + j - length pre)%nat with j by lia.
                rewrite Er. apply nth_error_stable. exact Hnj. }
              split; [exact Hnj'|].
              rewrite Hb, Ew, bars_before_out by lia. replace (length pre + j - length pre)%nat with j by lia.
              rewrite Er, bars_before_in by lia.
              assert (Hz : bars_before seg j = 0%nat).
              { unfold bars_before. destruct Hs as [Hs _]. clear - Hs. revert j.
                induction Hs as [|x seg Hx Hs IH]; intros [|j]; cbn; auto. rewrite Hx. apply IH. }
              lia.
      * destruct Hcb as [->| ->]; left; reflexivity.
    + rewrite Hcase. left. destruct q' as [|y q'']; [reflexivity|].
      destruct w' as [|x w'']; [discriminate|]. destruct Hw as (? & ? & ? & _ & Eqq & _).
      inversion Eqq; subst. reflexivity.
  - destruct Hf as (-> & (cb & m & Hn & Ha) & Hf').
    assert (Hr8 : (8 <= length r)%nat) by (unfold answers_barrier in Ha; lia).
    assert (Hx : xid_of r = xid_of m) by (unfold answers_barrier in Ha; lia).
    destruct Hc as (Ew & Hk & Hp).
    (* the barrier is the one that ends the first segment *)
    assert (Hbars : bars (y_wire s) = bars pre ++ bars w').
    { rewrite Ew, Er, !bars_app. replace (bars seg) with (@nil item); [reflexivity|].
      destruct Hs as [Hs _]. clear - Hs. induction Hs as [|x seg Hx Hs IH]; cbn; [reflexivity|].
      rewrite Hx. exact IH. }
    assert (Hn' : nth_error (bars w') 0 = Some (WBar cb m)).
    { rewrite Hbars, nth_error_app2 in Hn by lia. rewrite Hk, Nat.sub_diag in Hn. exact Hn. }
    destruct w' as [|x w'']; [discriminate|].
    destruct Hw as (cb1 & m1 & q'' & -> & -> & Hd'').
    cbn in Hn'. inversion Hn'; subst cb1 m1. clear Hn'.
    assert (Hreq : barrier_request m = true).
    { unfold wire_ok in Hwok. rewrite Forall_forall in Hwok. apply (Hwok (WBar cb m)).
      rewrite Ew, Er. apply in_or_app. right. apply in_or_app. right. left. reflexivity. }
    assert (Hrep : barrier_reply r = true /\ byte_at r 1 <> 6 /\ async_type r = false).
    { unfold answers_barrier in Ha. unfold barrier_request in Hreq. unfold barrier_reply, async_type.
      destruct (byte_at m 0 =? 1) eqn:E1, (byte_at r 0 =? 1) eqn:E2; lia. }
    destruct Hrep as (Hrep & H6 & Hasy).
    assert (Hfr : frame_ok r = true) by (unfold frame_ok; lia).
    destruct (frame_recv (y_ctl s) r Hfr) as (s1 & R1 & Q1 & D1).
    set (out := match owner (k_dead (y_ctl s)) cb with Some f => ToCallback f | None => Swallowed end).
    assert (Hi : intercept a s1 r = (with_seq s1 q'', out)).
    { unfold intercept. rewrite parse_header_spec by exact Hr8. cbn [h_type h_xid].
      fold (async_type r). rewrite Hasy, andb_false_r, is_barrier_rep_spec, Hrep, Q1, D1, Eq.
      fold (xid_of r). rewrite Hx.
      destruct c as [cc|]; cbn [chunk Datatypes.app walk]; rewrite Z.eqb_refl, live_owner; reflexivity. }
    cbn [cstep]. rewrite R1, Hi. eexists. eexists. split; [reflexivity|].
    split; [exact Hwok|]. exists (S k), (pre ++ seg ++ [WBar cb m]), w''.
    cbn [y_wire y_ctl y_ans y_fifo y_log y_emit with_seq k_seq k_dead]. rewrite D1.
    split; [|split; [exact Hd''|split; [exact Hf'|split; [|apply He']]]].
    + split; [|split].
      * rewrite Ew, Er, <- !app_assoc. reflexivity.
      * rewrite !bars_app, !app_length. replace (bars seg) with (@nil item); [cbn; lia|].
        destruct Hs as [Hs _]. clear - Hs. induction Hs as [|x seg Hx Hs IH]; cbn; [reflexivity|].
        rewrite Hx. exact IH.
      * right. exists (pre ++ seg), cb, m. rewrite <- app_assoc. reflexivity.
    + apply Forall_app. split; [exact Hl|]. constructor; [|constructor]. cbn [log_ok].
      exists cb, m. split; [exact Hn|]. unfold out. destruct cb as [f|]; cbn [owner]; [|reflexivity].
      destruct (in_dec Nat.eq_dec f (k_dead (y_ctl s))); auto.
  - destruct Hf as (Hok & Hnb & Hf').
    destruct (frame_recv (y_ctl s) r Hok) as (s1 & R1 & Q1 & D1).
    assert (H8 : (8 <= length r)%nat) by (unfold frame_ok in Hok; lia).
    cbn [cstep]. rewrite R1, intercept_plain by assumption. rewrite Q1, D1.
    eexists. eexists. split; [reflexivity|].
    split; [exact Hwok|]. exists k, pre, rest. cbn [y_wire y_ctl y_ans y_fifo y_log y_emit]. rewrite Q1, D1.
    split; [exact Hc|]. split; [exact Hd|]. split; [exact Hf'|]. split; [|apply He'].
    apply Forall_app. split; [exact Hl|]. constructor; [|constructor]. cbn [log_ok].
    destruct (a && async_type r); [auto|]. destruct (k_seq (y_ctl s)) as [|[cb|x cb] q]; auto.
    destruct (owner (k_dead (y_ctl s)) cb); eauto.
Qed.

Lemma step_inv a s o s' : inv s -> sstep a s o = Some s' -> inv s'.
Proof.
  intros Hi Hs. destruct o as [h m bxid|i r|r|r| |f|v]; cbn [sstep] in Hs.
  - destruct (match h with Some f => existsb (Nat.eqb f) (k_dead (y_ctl s)) | None => false end); [discriminate|].
    inversion Hs; subst; clear Hs.
    destruct Hi as (Hwok & k & pre & rest & Hc & Hd & Hf & Hl & He).
    destruct (desc_send _ (y_ctl s) h m bxid rest eq_refl Hd) as [Dd Hd'].
    set (c := fst (locked_send (y_ctl s) h m bxid None None)) in *.
    set (new := tag_new h (skipn (length (k_wire (y_ctl s))) (k_wire c))) in *.
    split; [cbn; apply Forall_app; split; [exact Hwok|apply tag_new_ok]|].
    exists k, pre, (rest ++ new). cbn [y_wire y_ctl y_ans y_fifo y_log y_emit]. rewrite Dd.
    split.
    { destruct Hc as (Ew & Hk & Hp). split; [rewrite Ew, app_assoc; reflexivity|]. auto. }
    split; [exact Hd'|]. split; [apply fifo_ok_grow; exact Hf|]. split; [|exact He].
    eapply Forall_impl; [|exact Hl]. intros e. apply log_ok_grow.
  - destruct (nth_error (y_wire s) i) as [[cb m|cb m]|] eqn:En; try discriminate.
    destruct ((bars_before (y_wire s) i =? y_ans s)%nat && frame_ok r && negb (barrier_reply r)
              && negb (async_type r)) eqn:Eg; [|discriminate].
    inversion Hs; subst; clear Hs.
    destruct Hi as (Hwok & k & pre & rest & Hc & Hd & Hf & Hl & He).
    split; [exact Hwok|]. exists k, pre, rest. cbn [y_wire y_ctl y_ans y_fifo y_log y_emit].
    split; [exact Hc|]. split; [exact Hd|]. split; [|split; [exact Hl|rewrite app_assoc, He; reflexivity]].
    apply (fifo_ok_snoc _ _ _ _ k (y_ans s) Hf). cbn.
    apply andb_true_iff in Eg. destruct Eg as [Eg E4]. apply andb_true_iff in Eg. destruct Eg as [Eg E3].
    apply andb_true_iff in Eg. destruct Eg as [E1 E2]. apply Nat.eqb_eq in E1.
    apply negb_true_iff in E3, E4. repeat split; eauto.
  - destruct (nth_error (bars (y_wire s)) (y_ans s)) as [[cb m|cb m]|] eqn:En; try discriminate.
    destruct (answers_barrier r m) eqn:Eg; [|discriminate].
    inversion Hs; subst; clear Hs.
    destruct Hi as (Hwok & k & pre & rest & Hc & Hd & Hf & Hl & He).
    split; [exact Hwok|]. exists k, pre, rest. cbn [y_wire y_ctl y_ans y_fifo y_log y_emit].
    split; [exact Hc|]. split; [exact Hd|]. split; [|split; [exact Hl|rewrite app_assoc, He; reflexivity]].
    apply (fifo_ok_snoc _ _ _ _ k (y_ans s) Hf). cbn. repeat split; eauto.
  - destruct (frame_ok r && negb (barrier_reply r)) eqn:Eg; [|discriminate].
    inversion Hs; subst; clear Hs.
    destruct Hi as (Hwok & k & pre & rest & Hc & Hd & Hf & Hl & He).
    split; [exact Hwok|]. exists k, pre, rest. cbn [y_wire y_ctl y_ans y_fifo y_log y_emit].
    split; [exact Hc|]. split; [exact Hd|]. split; [|split; [exact Hl|rewrite app_assoc, He; reflexivity]].
    apply (fifo_ok_snoc _ _ _ _ k (y_ans s) Hf). cbn.
    apply andb_true_iff in Eg. destruct Eg as [E1 E2]. apply negb_true_iff in E2. auto.
  - destruct (y_fifo s) as [|f fs] eqn:Ef; [discriminate|].
    destruct (deliver_inv a s f fs Hi Ef) as (c & out & Hc & Hinv). rewrite Hc in Hs.
    inversion Hs; subst. exact Hinv.
  - inversion Hs; subst; clear Hs. destruct Hi as (Hwok & k & pre & rest & Hc & Hd & Hf & Hl & He).
    split; [exact Hwok|]. exists k, pre, rest. cbn.
    split; [exact Hc|]. split; [apply desc_dead; exact Hd|]. split; [exact Hf|]. split; [|exact He].
    eapply Forall_impl; [|exact Hl]. intros e. apply log_ok_dead.
  - inversion Hs; subst; clear Hs. destruct Hi as (Hwok & k & pre & rest & Hc & Hd & Hf & Hl & He).
    split; [exact Hwok|]. exists k, pre, rest. cbn. auto.
Qed.

Theorem run_inv a os : forall s s', inv s -> srun a s os = Some s' -> inv s'.
Proof.
  induction os as [|o os IH]; intros s s' Hi Hr; cbn in Hr; [inversion Hr; subst; exact Hi|].
  destruct (sstep a s o) as [s1|] eqn:E; [|discriminate]. eapply IH; [eapply step_inv; eauto|exact Hr].
Qed.

Lemma inv_new : inv y_new.
Proof.
  split; [constructor|]. exists 0%nat, [], []. split; [unfold cut; cbn; auto|].
  split; [apply (D_last _ None []); apply seg_ok_nil|]. split; [reflexivity|]. split; [constructor|reflexivity].
Qed.

Theorem routed a os s : srun a y_new os = Some s ->
  Forall (log_ok (y_wire s) (k_dead (y_ctl s))) (y_log s) /\ map fst (y_log s) ++ y_fifo s = y_emit s.
Proof.
  intros H. destruct (run_inv a os _ _ inv_new H) as (_ & k & pre & rest & _ & _ & _ & Hl & He). auto.
Qed.

(** Every frame in transit can be delivered: reception never gets stuck. *)
Theorem deliverable a os s f fs : srun a y_new os = Some s -> y_fifo s = f :: fs ->
  exists s', sstep a s YDeliver = Some s'.
Proof.
  intros H Ef. pose proof (run_inv a os _ _ inv_new H) as Hi.
  destruct (deliver_inv a s f fs Hi Ef) as (c & out & Hc & _). cbn [sstep]. rewrite Ef, Hc. eauto.
Qed.
