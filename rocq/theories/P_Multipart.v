(** Proofs about the multipart messages and the remaining builders (C116). *)

From Coq Require Import String Lia.
From Verif Require Import Py Struct P_Struct S_Hello S_Ports S_Head S_Wire4 S_Fixed S_Exact S_Multipart M_Build4 P_Fixed P_Head P_Exact P_Exact2.
From Verif Require M_Build5.
Local Open Scope Z_scope.
Local Open Scope list_scope.

(** *** What is inside may be described in another way *)

Lemma Forall2_mono {A B} (p q : A -> B -> Prop) l m : (forall a b, p a b -> q a b) -> Forall2 p l m -> Forall2 q l m.
Proof. intros H. induction 1; constructor; auto. Qed.

Lemma many_mono (o o' : pyval -> bytes -> Prop) v c : (forall v c, o v c -> o' v c) -> many o v c -> many o' v c.
Proof. intros H M. destruct M; constructor; eapply Forall2_mono; eauto. Qed.

Lemma gives_mono (o o' : pyval -> bytes -> Prop) N P ps args b : (forall v c, o v c -> o' v c) ->
  gives o N P ps args b -> gives o' N P ps args b.
Proof. intros H. induction 1; constructor; auto; eapply many_mono; eauto. Qed.

Lemma made_same (o o' : pyval -> bytes -> Prop) ps args b : (forall v c, o v c <-> o' v c) ->
  made o ps args b <-> made o' ps args b.
Proof. intros H. split; intros (P & G); exists P; (eapply gives_mono; [|exact G]); intros v c; apply H. Qed.

(** *** Words *)

Definition pw (v : pyval) : res bytes := packs "I" [v].

Lemma pw_word v c : pw v = Ok c <-> word v c.
Proof.
  unfold pw. rewrite (plain "I" [FU 4] [v] c eq_refl). cbn [pack]. unfold word. split.
  - intros E. apply bind_iff in E. destruct E as (x & E & F). cbn [bind] in F. injection F as <-. rewrite app_nil_r.
    destruct v as [|z| | | |]; try discriminate. apply word_iff in E. destruct E as [R ->]. exists z. split; [reflexivity|]. split; [exact R|reflexivity].
  - intros (z & -> & R & ->). rewrite (proj2 (word_iff 4 z (be 4 z)) (conj R eq_refl)). cbn [bind]. rewrite app_nil_r. reflexivity.
Qed.

Lemma pack_words l : pack (repeat (FU 4) (length l)) l = join pw l.
Proof.
  unfold join. induction l as [|v l IH]; [reflexivity|]. cbn [length repeat pack mapM]. unfold pw at 1.
  change (packs "I" [v]) with (pack [FU 4] [v]). cbn [pack]. destruct (pack_item (FU 4) v); [|reflexivity]. cbn [bind]. rewrite app_nil_r.
  rewrite IH. destruct (mapM pw l); reflexivity.
Qed.

Lemma join_iff o l b : join o l = Ok b <-> exists bs, Forall2 (made_by o) l bs /\ b = concat bs.
Proof.
  unfold join. rewrite bind_iff. split.
  - intros (bs & E & F). injection F as <-. exists bs. split; [apply mapM_iff; exact E|reflexivity].
  - intros (bs & F & ->). exists bs. split; [apply mapM_iff; exact F|reflexivity].
Qed.

Lemma words_iff l b : join pw l = Ok b <-> exists bs, Forall2 word l bs /\ b = concat bs.
Proof.
  rewrite join_iff. split; intros (bs & F & E); exists bs; (split; [|exact E]); (eapply Forall2_mono; [|exact F]); intros v c; apply pw_word.
Qed.

(** The number of arguments must be that of the format. *)
Lemma pack_count n l b : pack (repeat (FU 4) n) l = Ok b -> length l = n.
Proof.
  revert l b. induction n as [|n IH]; intros [|v l] b E; try reflexivity; try discriminate.
  cbn [repeat pack] in E. apply bind_iff in E. destruct E as (x & _ & E). apply bind_iff in E. destruct E as (r & E & _).
  cbn [length]. f_equal. exact (IH _ _ E).
Qed.

Lemma packs_words f n l b : fmt f = Ok (repeat (FU 4) n) ->
  packs f l = Ok b <-> length l = n /\ exists bs, Forall2 word l bs /\ b = concat bs.
Proof.
  intros Hf. rewrite (plain f _ l b Hf). split.
  - intros E. pose proof (pack_count _ _ _ E) as L. split; [exact L|]. subst n. rewrite pack_words in E. apply words_iff. exact E.
  - intros (<- & H). rewrite pack_words. apply words_iff. exact H.
Qed.

Lemma versions_arg v :
  match v with VBytes b => Ok b | VList l | VTup _ l => bs <- mapM (fun e => packs "I" [e]) l ;; Ok (concat bs) | VNone => Ok [] | _ => Err ValueError end =
  seqarg pw v.
Proof. destruct v; reflexivity. Qed.

Lemma versions4 o dx : exact_str pw (M_Build4.call o dx "ofp_hello_elem_versionbitmap") versions.
Proof. unfold versions. str4 pw ofp_hello_elem_versionbitmap. rewrite versions_arg. repeat str_step pw. end_align. Qed.
Lemma versions5 o dx : exact_str pw (M_Build5.call o dx "ofp_hello_elem_versionbitmap") versions.
Proof. unfold versions. str5 pw M_Build5.ofp_hello_elem_versionbitmap. rewrite versions_arg. repeat str_step pw. end_align. Qed.

Lemma ids_arg v :
  match v with VList l | VTup _ l => pack (repeat (FU 4) (length l)) l | VBytes b => Ok b | VNone => Ok [] | _ => Err ValueError end =
  seqarg pw v.
Proof. destruct v; try reflexivity; apply pack_words. Qed.

Lemma field_ids4 o dx : exact_str pw (M_Build4.call o dx "ofp_table_feature_prop_oxm") field_ids.
Proof. unfold field_ids. str4 pw ofp_table_feature_prop_oxm. rewrite ids_arg. repeat str_step pw. end_align. Qed.
Lemma field_ids5 o dx : exact_str pw (M_Build5.call o dx "ofp_table_feature_prop_oxm") field_ids.
Proof. unfold field_ids. str5 pw M_Build5.ofp_table_feature_prop_oxm. rewrite ids_arg. repeat str_step pw. end_align. Qed.

(** *** Flow statistics requests *)

(** What is built where the match is body_asked for. *)
Definition oall (o : pyval -> res bytes) (v : pyval) : res bytes := match v with VNone => Ok [0; 1; 0; 4; 0; 0; 0; 0] | _ => o v end.

Lemma oall_iff o v c : oall o v = Ok c <-> or_all (made_by o) v c.
Proof.
  unfold or_all. destruct v; cbn [oall]; (split; [intros E; try (right; split; [discriminate|exact E])|intros [[E H]|[E H]]; try discriminate; try exact H]).
  - injection E as <-. left. split; reflexivity.
  - rewrite H. reflexivity.
  - contradiction.
Qed.

Lemma flow_request4 o dx : (forall d, o (VBytes d) = Ok d) ->
  exact_str (oall o) (M_Build4.call o dx "ofp_flow_stats_request") flow_request.
Proof.
  intros Ho. unfold flow_request. str4 o ofp_flow_stats_request.
  change (ofp_match o VNone VNone (VList [])) with (Ok [0; 1; 0; 4; 0; 0; 0; 0]).
  destruct p4; cbn [oall bind]; rewrite ?Ho; checked_len; redo_s; repeat str_step o; end_plain.
Qed.
Lemma flow_request5 o dx : (forall d, o (VBytes d) = Ok d) ->
  exact_str (oall o) (M_Build5.call o dx "ofp_flow_stats_request") flow_request.
Proof.
  intros Ho. unfold flow_request. str5 o M_Build5.ofp_flow_stats_request.
  change (M_Build5.ofp_match o VNone VNone (VList [])) with (Ok [0; 1; 0; 4; 0; 0; 0; 0]).
  destruct p4; cbn [oall bind]; rewrite ?Ho; checked_len; redo_s; repeat str_step o; end_plain.
Qed.

(** *** Group features *)

Lemma four_iff v b : four_words v = Ok b <-> four v b.
Proof.
  destruct v as [|z|s|t|l|c l]; cbn [four_words].
  - split; [intros E; apply Ok_inj in E; subst; exact four_none|intros F; inversion F; reflexivity].
  - split; [discriminate|intros F; inversion F].
  - destruct (length s =? 16)%nat eqn:L; cbn [assert_ bind].
    + split; [intros E; injection E as <-; constructor; apply Nat.eqb_eq; exact L|intros F; inversion F; reflexivity].
    + split; [discriminate|intros F; inversion F; subst]. apply Nat.eqb_neq in L. contradiction.
  - split; [discriminate|intros F; inversion F].
  - rewrite (packs_words "4I" 4 l b eq_refl). split; [intros (L & bs & F & ->); constructor; assumption|intros F; inversion F; subst; eauto].
  - rewrite (packs_words "4I" 4 l b eq_refl). split; [intros (L & bs & F & ->); constructor; assumption|intros F; inversion F; subst; eauto].
Qed.

Lemma two_words x y b : packs "II" [x; y] = Ok b <-> exists t c, x = VInt t /\ y = VInt c /\ 0 <= t < 2 ^ 32 /\ 0 <= c < 2 ^ 32 /\ b = be 4 t ++ be 4 c.
Proof.
  rewrite (packs_words "II" 2 [x; y] b eq_refl). split.
  - intros (_ & bs & F & ->). inversion F as [|? ? ? ? (t & -> & Ht & ->) F']; subst. inversion F' as [|? ? ? ? (c & -> & Hc & ->) F2]; subst.
    inversion F2; subst. exists t, c. cbn [concat]. rewrite app_nil_r. split; [reflexivity|]. split; [reflexivity|]. split; [exact Ht|]. split; [exact Hc|reflexivity].
  - intros (t & c & -> & -> & Ht & Hc & ->). split; [reflexivity|]. exists [be 4 t; be 4 c]. split; [|cbn [concat]; rewrite app_nil_r; reflexivity].
    constructor; [exists t; auto|]. constructor; [exists c; auto|]. constructor.
Qed.

Lemma features_made x y g a b :
  (bg <- four_words g ;; ba <- four_words a ;; pack_app "II" [x; y] (bg ++ ba)) = Ok b <-> group_features_of [x; y; g; a] b.
Proof.
  unfold group_features_of. split.
  - intros E. apply bind_iff in E. destruct E as (bg & Eg & E). apply bind_iff in E. destruct E as (ba & Ea & E).
    unfold pack_app in E. apply bind_iff in E. destruct E as (p & Ep & E). apply Ok_inj in E. subst b.
    apply two_words in Ep. destruct Ep as (t & c & -> & -> & Ht & Hc & ->). apply four_iff in Eg. apply four_iff in Ea.
    exists t, c, g, a, bg, ba. rewrite <- ?app_assoc. repeat split; try reflexivity; try assumption; lia.
  - intros (t & c & g' & a' & bg & ba & E & Ht & Hc & Fg & Fa & ->). injection E as -> -> <- <-.
    apply four_iff in Fg. apply four_iff in Fa. rewrite Fg, Fa. cbn [bind]. unfold pack_app.
    rewrite (proj2 (two_words (VInt t) (VInt c) _)) by (exists t, c; auto). cbn [bind]. rewrite <- app_assoc. reflexivity.
Qed.

Lemma group_features4 o dx args b : M_Build4.call o dx "ofp_group_features" args = Ok b <-> group_features_of args b.
Proof.
  destruct args as [|x [|y [|g [|a [|e args]]]]];
    try (split; [discriminate|intros (? & ? & ? & ? & ? & ? & E & _); discriminate]).
  exact (features_made x y g a b).
Qed.
Lemma group_features5 o dx args b : M_Build5.call o dx "ofp_group_features" args = Ok b <-> group_features_of args b.
Proof.
  destruct args as [|x [|y [|g [|a [|e args]]]]];
    try (split; [discriminate|intros (? & ? & ? & ? & ? & ? & E & _); discriminate]).
  exact (features_made x y g a b).
Qed.

(** *** Multipart messages *)

Lemma four_zeros x y b : packs "HH4x" [x; y] = Ok b <->
  exists t f, x = VInt t /\ y = VInt f /\ 0 <= t < 65536 /\ 0 <= f < 65536 /\ b = be 2 t ++ be 2 f ++ repeat 0 4.
Proof.
  rewrite (plain "HH4x" [FU 2; FU 2; FX 4] [x; y] b eq_refl). cbn [pack bind]. split.
  - intros E. apply bind_iff in E. destruct E as (p & Ep & E). apply bind_iff in E. destruct E as (r & E & Eb). apply Ok_inj in Eb. subst b.
    apply bind_iff in E. destruct E as (q & Eq & E). cbn [bind] in E. apply Ok_inj in E. subst r.
    destruct x as [|t| | | |]; try discriminate. destruct y as [|f| | | |]; try discriminate.
    apply word_iff in Ep. apply word_iff in Eq. destruct Ep as [Ht ->], Eq as [Hf ->]. exists t, f.
    change (2 ^ (8 * Z.of_nat 2)) with 65536 in *. repeat split; try reflexivity; lia.
  - intros (t & f & -> & -> & Ht & Hf & ->).
    rewrite (proj2 (word_iff 2 t (be 2 t)) (conj Ht eq_refl)). cbn [bind].
    rewrite (proj2 (word_iff 2 f (be 2 f)) (conj Hf eq_refl)). reflexivity.
Qed.

Lemma inz_iff z l : py_inz (VInt z) l = true <-> In z l.
Proof.
  unfold py_inz. rewrite existsb_exists. split.
  - intros (x & Hx & E). cbn in E. apply Z.eqb_eq in E. subst. exact Hx.
  - intros H. exists z. split; [exact H|cbn; apply Z.eqb_refl].
Qed.

(** The body of a request and of a reply, as the builders make them. *)
Definition req_body (o : pyval -> res bytes) (type_ body : pyval) : res pyval :=
  if py_inz type_ [0; 3; 7; 8; 11; 13] then Ok (VBytes [])
  else if py_inz type_ [1; 2; 4; 5; 6; 9; 10] then
    match body with VNone => Ok (VBytes []) | _ => b <- o body ;; Ok (VBytes b) end
  else if py_eqz type_ 12 then
    match body with
    | VList l | VTup _ l => b <- join o l ;; Ok (VBytes b)
    | VNone => Ok (VList [])
    | _ => Ok body
    end
  else Ok body.

Definition rep_body (o : pyval -> res bytes) (type_ body : pyval) : res bytes :=
  if py_inz type_ [0; 2; 8; 11] then
    match body with VTup _ _ | VBytes _ => o body | VNone => Ok [] | _ => Err ValueError end
  else if py_inz type_ [1; 3; 4; 5; 6; 7; 9; 10; 12; 13] then
    match body with VList l | VTup _ l => join o l | VNone => Ok [] | _ => Err ValueError end
  else if py_eqz type_ 65535 then match body with VBytes b => Ok b | _ => Err ValueError end
  else Err ValueError.

Lemma as_bytes_iff v c : as_bytes v = Ok c <-> v = VBytes c.
Proof. destruct v; cbn [as_bytes]; split; intros E; try discriminate; inversion E; reflexivity. Qed.

Lemma in_or_not (z : Z) (l : list Z) : In z l \/ ~ In z l.
Proof. destruct (py_inz (VInt z) l) eqn:E; [left; apply inz_iff; exact E|right; intros H; apply inz_iff in H; congruence]. Qed.

Lemma inz_no (z : Z) (l : list Z) : ~ In z l -> py_inz (VInt z) l = false.
Proof. intros H. destruct (py_inz (VInt z) l) eqn:E; [apply inz_iff in E; contradiction|reflexivity]. Qed.

Lemma request_iff o ty v c :
  req_body o (VInt ty) v = Ok (VBytes c) <-> body_asked (made_by o) ty v c.
Proof.
  unfold req_body. change [0; 3; 7; 8; 11; 13] with asks_nothing. change [1; 2; 4; 5; 6; 9; 10] with asks_one. cbn [py_eqz].
  destruct (in_or_not ty asks_nothing) as [H1|H1].
  { rewrite (proj2 (inz_iff ty asks_nothing) H1). split; [intros E; injection E as <-; constructor; exact H1|].
    intros A. inversion A; subst; try reflexivity; exfalso; cbn in *; intuition lia. }
  rewrite (inz_no _ _ H1).
  destruct (in_or_not ty asks_one) as [H2|H2].
  { rewrite (proj2 (inz_iff ty asks_one) H2). split.
    - intros E. destruct v as [|z|s|t|l|cl l]; [injection E as <-; apply ask_left_out; exact H2|..];
        apply bind_iff in E; destruct E as (x & Ex & E); injection E as <-; (apply ask_one; [exact H2|discriminate|exact Ex]).
    - intros A. inversion A as [ty' v' K|ty' K|ty' v' c' K N O|v' c' N M|ty' c' K]; subst.
      + contradiction.
      + reflexivity.
      + unfold made_by in O. rewrite O. destruct v; try reflexivity. contradiction.
      + exfalso. cbn in H2. intuition lia.
      + exfalso. apply K. right. apply in_or_app. right. exact H2. }
  rewrite (inz_no _ _ H2).
  destruct (ty =? 12) eqn:H3.
  { apply Z.eqb_eq in H3. subst ty. split.
    - intros E. apply ask_tables; destruct v as [|z|s|t|l|cl l]; try discriminate.
      + injection E as <-. constructor.
      + apply bind_iff in E. destruct E as (x & Ex & E). injection E as <-. apply join_iff in Ex. destruct Ex as (bs & F & ->). constructor. exact F.
      + apply bind_iff in E. destruct E as (x & Ex & E). injection E as <-. apply join_iff in Ex. destruct Ex as (bs & F & ->). constructor. exact F.
    - intros A. inversion A as [ty' v' K|ty' K|ty' v' c' K N O|v' c' N M|ty' c' K]; subst.
      + contradiction.
      + contradiction.
      + contradiction.
      + inversion M as [b0|E0|l bs F|cl l bs F]; subst; [reflexivity|contradiction|..];
          rewrite (proj2 (join_iff o l (concat bs)) (ex_intro _ bs (conj F eq_refl))); reflexivity.
      + exfalso. apply K. left. reflexivity. }
  apply Z.eqb_neq in H3. split.
  - intros E. injection E as ->. apply ask_other. intros [K|K]; [congruence|]. apply in_app_or in K. destruct K; contradiction.
  - intros A. inversion A as [ty' v' K|ty' K|ty' v' c' K N O|v' c' N M|ty' c' K]; subst; try contradiction. reflexivity.
Qed.

Lemma reply_iff o ty v c : (forall d, o (VBytes d) = Ok d) -> rep_body o (VInt ty) v = Ok c <-> body_answered (made_by o) ty v c.
Proof.
  intros Ho. unfold rep_body. change [0; 2; 8; 11] with answers_one. change [1; 3; 4; 5; 6; 7; 9; 10; 12; 13] with answers_many. cbn [py_eqz].
  assert (D : forall z, In z answers_one -> In z answers_many -> False) by (intros z; cbn; intuition lia).
  destruct (in_or_not ty answers_one) as [H1|H1].
  { rewrite (proj2 (inz_iff ty answers_one) H1). split.
    - intros E. destruct v as [|z|s|t|l|cl l]; try discriminate.
      + injection E as <-. apply answer_none. apply in_or_app. left. exact H1.
      + rewrite Ho in E. injection E as <-. apply answer_bytes. exact H1.
      + apply answer_one; [exact H1|exact E].
    - intros A. inversion A as [ty' K|ty' c' K|ty' cl l c' K O|ty' l bs K F|ty' cl l bs K F|c']; subst.
      + reflexivity.
      + apply Ho.
      + exact O.
      + destruct (D _ H1 K).
      + destruct (D _ H1 K).
      + exfalso. cbn in H1. intuition lia. }
  rewrite (inz_no _ _ H1).
  destruct (in_or_not ty answers_many) as [H2|H2].
  { rewrite (proj2 (inz_iff ty answers_many) H2). split.
    - intros E. destruct v as [|z|s|t|l|cl l]; try discriminate.
      + injection E as <-. apply answer_none. apply in_or_app. right. exact H2.
      + apply join_iff in E. destruct E as (bs & F & ->). apply answer_list; assumption.
      + apply join_iff in E. destruct E as (bs & F & ->). apply answer_tuple; assumption.
    - intros A. inversion A as [ty' K|ty' c' K|ty' cl l c' K O|ty' l bs K F|ty' cl l bs K F|c']; subst; try contradiction.
      + reflexivity.
      + apply join_iff. eauto.
      + apply join_iff. eauto.
      + exfalso. cbn in H2. intuition lia. }
  rewrite (inz_no _ _ H2).
  destruct (ty =? 65535) eqn:H3.
  - apply Z.eqb_eq in H3. subst ty. split.
    + intros E. destruct v; try discriminate. injection E as <-. apply answer_experimenter.
    + intros A. inversion A as [ty' K|ty' c' K|ty' cl l c' K O|ty' l bs K F|ty' cl l bs K F|c']; subst; try contradiction; [|reflexivity].
      apply in_app_or in K. destruct K; contradiction.
  - apply Z.eqb_neq in H3. split; [discriminate|].
    intros A. inversion A as [ty' K|ty' c' K|ty' cl l c' K O|ty' l bs K F|ty' cl l bs K F|c']; subst; try contradiction.
    apply in_app_or in K. destruct K; contradiction.
Qed.

(** The two messages. *)
Lemma multi_request o dx k h ty f v b : 0 <= k < 256 ->
  (body <- req_body o ty v ;; data <- (p <- packs "HH4x" [ty; f] ;; c <- as_bytes body ;; Ok (p ++ c)) ;; ofp_of dx k h (VInt 18) data) = Ok b <->
  multi dx k 18 (body_asked (made_by o)) [h; ty; f; v] b.
Proof.
  intros Hk. assert (T : types_for (VInt 18) [18]) by one_type.
  assert (R : forall z, In z [18] -> 0 <= z < 256) by (cbn; intuition lia). unfold multi. split.
  - intros E. apply bind_iff in E. destruct E as (body & Eb & E). apply bind_iff in E. destruct E as (data & Ed & E).
    apply bind_iff in Ed. destruct Ed as (p & Ep & Ed). apply bind_iff in Ed. destruct Ed as (c & Ec & Ed). apply Ok_inj in Ed. subst data.
    apply four_zeros in Ep. destruct Ep as (t & fl & -> & -> & Ht & Hf & ->). apply as_bytes_iff in Ec. subst body. apply request_iff in Eb.
    exists h, t, fl, v, c. split; [reflexivity|]. split; [exact Ht|]. split; [exact Hf|]. split; [exact Eb|].
    apply (ofp_iff dx k h (VInt 18) [18] _ b Hk T R) in E. rewrite <- ?app_assoc in E. exact E.
  - intros (h' & t & fl & v' & c & E & Ht & Hf & A & F). injection E as <- -> -> <-.
    apply request_iff in A. rewrite A. cbn [bind].
    rewrite (proj2 (four_zeros (VInt t) (VInt fl) _)) by (exists t, fl; split; [reflexivity|split; [reflexivity|split; [exact Ht|split; [exact Hf|reflexivity]]]]).
    cbn [bind as_bytes]. apply (ofp_iff dx k h (VInt 18) [18] _ b Hk T R). rewrite <- ?app_assoc. exact F.
Qed.

Lemma multi_reply o dx k h ty f v b : 0 <= k < 256 -> (forall d, o (VBytes d) = Ok d) ->
  (c <- rep_body o ty v ;; data <- pack_app "HH4x" [ty; f] c ;; ofp_of dx k h (VInt 19) data) = Ok b <->
  multi dx k 19 (body_answered (made_by o)) [h; ty; f; v] b.
Proof.
  intros Hk Ho. assert (T : types_for (VInt 19) [19]) by one_type.
  assert (R : forall z, In z [19] -> 0 <= z < 256) by (cbn; intuition lia). unfold multi, pack_app. split.
  - intros E. apply bind_iff in E. destruct E as (c & Ec & E). apply bind_iff in E. destruct E as (data & Ed & E).
    apply bind_iff in Ed. destruct Ed as (p & Ep & Ed). apply Ok_inj in Ed. subst data.
    apply four_zeros in Ep. destruct Ep as (t & fl & -> & -> & Ht & Hf & ->). apply (reply_iff o t v c Ho) in Ec.
    exists h, t, fl, v, c. split; [reflexivity|]. split; [exact Ht|]. split; [exact Hf|]. split; [exact Ec|].
    apply (ofp_iff dx k h (VInt 19) [19] _ b Hk T R) in E. rewrite <- ?app_assoc in E. exact E.
  - intros (h' & t & fl & v' & c & E & Ht & Hf & A & F). injection E as <- -> -> <-.
    apply (reply_iff o t v c Ho) in A. rewrite A. cbn [bind].
    rewrite (proj2 (four_zeros (VInt t) (VInt fl) _)) by (exists t, fl; split; [reflexivity|split; [reflexivity|split; [exact Ht|split; [exact Hf|reflexivity]]]]).
    cbn [bind]. apply (ofp_iff dx k h (VInt 19) [19] _ b Hk T R). rewrite <- ?app_assoc. exact F.
Qed.

Lemma request4 o dx all b : (forall d, o (VBytes d) = Ok d) ->
  M_Build4.call o dx "ofp_multipart_request" all = Ok b <-> multi dx 4 18 (body_asked (made_by o)) (with_body all) b.
Proof.
  intros Ho. destruct all as [|h [|t [|f [|v [|e all]]]]]; try (split; [discriminate|intros (? & ? & ? & ? & ? & E & _); discriminate]).
  - cbn [with_body]. rewrite <- (multi_request o dx 4 h t f VNone b ltac:(lia)).
    change (M_Build4.call o dx "ofp_multipart_request" [h; t; f]) with (M_Build4.ofp_multipart_request o dx h t f VNone).
    unfold M_Build4.ofp_multipart_request, M_Build4.message. fold (req_body o t VNone).
    destruct (req_body o t VNone) as [body|]; [|reflexivity]. cbn [bind].
    destruct (packs "HH4x" [t; f]); [|reflexivity]. cbn [bind]. destruct (as_bytes body); [|reflexivity]. cbn [bind]. rewrite ofp_4 by exact Ho. reflexivity.
  - cbn [with_body]. rewrite <- (multi_request o dx 4 h t f v b ltac:(lia)).
    change (M_Build4.call o dx "ofp_multipart_request" [h; t; f; v]) with (M_Build4.ofp_multipart_request o dx h t f v).
    unfold M_Build4.ofp_multipart_request, M_Build4.message. fold (req_body o t v).
    destruct (req_body o t v) as [body|]; [|reflexivity]. cbn [bind].
    destruct (packs "HH4x" [t; f]); [|reflexivity]. cbn [bind]. destruct (as_bytes body); [|reflexivity]. cbn [bind]. rewrite ofp_4 by exact Ho. reflexivity.
Qed.

Lemma request5 o dx all b : (forall d, o (VBytes d) = Ok d) ->
  M_Build5.call o dx "ofp_multipart_request" all = Ok b <-> multi dx 5 18 (body_asked (made_by o)) (with_body all) b.
Proof.
  intros Ho. destruct all as [|h [|t [|f [|v [|e all]]]]]; try (split; [discriminate|intros (? & ? & ? & ? & ? & E & _); discriminate]).
  - cbn [with_body]. rewrite <- (multi_request o dx 5 h t f VNone b ltac:(lia)).
    change (M_Build5.call o dx "ofp_multipart_request" [h; t; f]) with (M_Build5.ofp_multipart_request o dx h t f VNone).
    unfold M_Build5.ofp_multipart_request, M_Build5.message. fold (req_body o t VNone).
    destruct (req_body o t VNone) as [body|]; [|reflexivity]. cbn [bind].
    destruct (packs "HH4x" [t; f]); [|reflexivity]. cbn [bind]. destruct (as_bytes body); [|reflexivity]. cbn [bind]. rewrite ofp_5 by exact Ho. reflexivity.
  - cbn [with_body]. rewrite <- (multi_request o dx 5 h t f v b ltac:(lia)).
    change (M_Build5.call o dx "ofp_multipart_request" [h; t; f; v]) with (M_Build5.ofp_multipart_request o dx h t f v).
    unfold M_Build5.ofp_multipart_request, M_Build5.message. fold (req_body o t v).
    destruct (req_body o t v) as [body|]; [|reflexivity]. cbn [bind].
    destruct (packs "HH4x" [t; f]); [|reflexivity]. cbn [bind]. destruct (as_bytes body); [|reflexivity]. cbn [bind]. rewrite ofp_5 by exact Ho. reflexivity.
Qed.

Lemma reply4 o dx all b : (forall d, o (VBytes d) = Ok d) ->
  M_Build4.call o dx "ofp_multipart_reply" all = Ok b <-> multi dx 4 19 (body_answered (made_by o)) all b.
Proof.
  intros Ho. destruct all as [|h [|t [|f [|v [|e all]]]]]; try (split; [discriminate|intros (? & ? & ? & ? & ? & E & _); discriminate]).
  rewrite <- (multi_reply o dx 4 h t f v b ltac:(lia) Ho).
  change (M_Build4.call o dx "ofp_multipart_reply" [h; t; f; v]) with
    (c <- rep_body o t v ;; M_Build4.message o dx h (VInt 19) (pack_app "HH4x" [t; f] c)).
  unfold M_Build4.message.
  destruct (rep_body o t v) as [c|]; [|reflexivity]. cbn [bind].
  destruct (pack_app "HH4x" [t; f] c); [|reflexivity]. cbn [bind]. rewrite ofp_4 by exact Ho. reflexivity.
Qed.

Lemma reply5 o dx all b : (forall d, o (VBytes d) = Ok d) ->
  M_Build5.call o dx "ofp_multipart_reply" all = Ok b <-> multi dx 5 19 (body_answered (made_by o)) all b.
Proof.
  intros Ho. destruct all as [|h [|t [|f [|v [|e all]]]]]; try (split; [discriminate|intros (? & ? & ? & ? & ? & E & _); discriminate]).
  rewrite <- (multi_reply o dx 5 h t f v b ltac:(lia) Ho).
  change (M_Build5.call o dx "ofp_multipart_reply" [h; t; f; v]) with
    (c <- rep_body o t v ;; M_Build5.message o dx h (VInt 19) (pack_app "HH4x" [t; f] c)).
  unfold M_Build5.message.
  destruct (rep_body o t v) as [c|]; [|reflexivity]. cbn [bind].
  destruct (pack_app "HH4x" [t; f] c); [|reflexivity]. cbn [bind]. rewrite ofp_5 by exact Ho. reflexivity.
Qed.

(** *** Asynchronous configuration (1.3), meters (1.4), headers *)

Lemma async4 o dx all b : (forall d, o (VBytes d) = Ok d) ->
  M_Build4.call o dx "ofp_async_config" all = Ok b <->
  exists h x y z l bs, all = [h; x; y; z] /\ joined x y z l /\ length l = 6%nat /\ Forall2 word l bs /\ framed dx 4 [27; 28] h (concat bs) b.
Proof.
  intros Ho. assert (T : types_for (tup [27; 28]) [27; 28]) by two_types.
  assert (R : forall z, In z [27; 28] -> 0 <= z < 256) by (cbn; intuition lia).
  destruct all as [|h [|x [|y [|z [|e all]]]]]; try (split; [discriminate|intros (? & ? & ? & ? & ? & ? & E & _); discriminate]).
  change (M_Build4.call o dx "ofp_async_config" [h; x; y; z]) with (M_Build4.ofp_async_config o dx h x y z).
  unfold M_Build4.ofp_async_config, M_Build4.message. split.
  - intros E. apply bind_iff in E. destruct E as (data & Ed & E). rewrite ofp_4 in E by exact Ho.
    apply (ofp_iff dx 4 h (tup [27; 28]) [27; 28] data b ltac:(lia) T R) in E.
    assert (J : exists l, joined x y z l /\ packs "6I" l = Ok data).
    { destruct x as [|?|?|?|x|cx x], y as [|?|?|?|y|cy y]; try discriminate; destruct z as [|?|?|?|z|cz z]; try discriminate;
        cbn [add_seq bind] in Ed; rewrite <- app_assoc in Ed; (eexists; split; [|exact Ed]); constructor. }
    destruct J as (l & J & Ep). apply (packs_words "6I" 6 l data eq_refl) in Ep. destruct Ep as (L & bs & F & ->).
    exists h, x, y, z, l, bs. auto.
  - intros (h' & x' & y' & z' & l & bs & E & J & L & F & Fr). injection E as <- <- <- <-.
    assert (Ep : packs "6I" l = Ok (concat bs)) by (apply (packs_words "6I" 6 l _ eq_refl); eauto).
    apply (ofp_iff dx 4 h (tup [27; 28]) [27; 28] _ b ltac:(lia) T R) in Fr.
    destruct J; cbn [add_seq bind]; rewrite <- app_assoc, Ep; cbn [bind]; rewrite ofp_4 by exact Ho; exact Fr.
Qed.

Lemma meter5 o dx all b :
  M_Build5.call o dx "ofp_meter_mod" all = Ok b <->
  exists h bh body args, all = h :: args /\ o h = Ok bh /\ made (made_by o) [Fields [Num 2; Num 2; Num 4]; Many] args body /\ b = cut 8 bh ++ body.
Proof.
  assert (G : good_parts [Fields [Num 2; Num 2; Num 4]; Many] = true) by reflexivity.
  destruct all as [|h [|c [|f [|i [|v [|e all]]]]]];
    try (split; [discriminate|intros (h' & bh & body & args & E & _ & M & _); injection E as <- <-; apply (made_iff o _ G) in M; destruct M as (P & M); apply run_arity in M; discriminate M]).
  { split; [discriminate|intros (h' & bh & body & args & E & _); discriminate]. }
  change (M_Build5.call o dx "ofp_meter_mod" [h; c; f; i; v]) with (M_Build5.ofp_meter_mod o h c f i v).
  unfold M_Build5.ofp_meter_mod, pack_app. split.
  - intros E. apply bind_iff in E. destruct E as (bs & Es & E). apply bind_iff in E. destruct E as (bh & Eh & E).
    apply bind_iff in E. destruct E as (p & Ep & E). apply Ok_inj in E. subst b.
    apply (plain "8sHHI" [FS 8; FU 2; FU 2; FU 4] _ p eq_refl) in Ep.
    change (pack [FS 8; FU 2; FU 2; FU 4] [VBytes bh; c; f; i]) with (x <- pack_item (FS 8) (VBytes bh) ;; r <- pack [FU 2; FU 2; FU 4] [c; f; i] ;; Ok (x ++ r)) in Ep.
    apply bind_iff in Ep. destruct Ep as (x & Ex & Ep). apply bind_iff in Ep. destruct Ep as (r & Er & Ep). apply Ok_inj in Ep. subst p.
    apply text_iff in Ex. destruct Ex as (s & Es' & ->). injection Es' as <-.
    exists h, bh, (r ++ bs), [c; f; i; v]. split; [reflexivity|]. split; [exact Eh|]. split; [|rewrite app_assoc; reflexivity].
    apply (made_iff o _ G). exists 0%nat. redo. cbn [pack] in Er.
    cbn [kinds_ok items map item fill Datatypes.app pack bind nargs firstn skipn length Nat.eqb] in *.
    rewrite Er. cbn [bind]. rewrite Es. cbn [bind]. rewrite app_nil_r. reflexivity.
  - intros (h' & bh & body & args & E & Eh & M & ->). injection E as <- <-. apply (made_iff o _ G) in M. destruct M as (P & M).
    cbn [run nargs firstn skipn length Nat.eqb kinds_ok items map item fill Datatypes.app pack bind] in M.
    apply bind_iff in M. destruct M as (r & Er & M). apply bind_iff in M. destruct M as (q & Eq & M). apply Ok_inj in M. subst body.
    apply bind_iff in Eq. destruct Eq as (bs & Es & Eq). apply Ok_inj in Eq. subst q.
    rewrite Es. cbn [bind]. rewrite Eh. cbn [bind].
    change (packs "8sHHI" [VBytes bh; c; f; i]) with (x <- pack_item (FS 8) (VBytes bh) ;; r <- pack [FU 2; FU 2; FU 4] [c; f; i] ;; Ok (x ++ r)).
    rewrite (proj2 (text_iff 8 (VBytes bh) (cut 8 bh)) (ex_intro _ bh (conj eq_refl eq_refl))). cbn [pack bind].
    cbn [pack bind] in Er. rewrite Er. cbn [bind]. rewrite app_nil_r, <- app_assoc. reflexivity.
Qed.

Lemma byte_word w z : 0 <= z < 2 ^ (8 * Z.of_nat w) -> pack_item (FU w) (VInt z) = Ok (be w z).
Proof. intros H. apply word_iff. split; [exact H|reflexivity]. Qed.

Lemma header_iff dx k v t l x b : 0 <= k < 256 ->
  (assert_ (py_eqz (default v k) k) ;;; packs "BBHI" [default v k; t; default l 8; default x dx]) = Ok b <-> header_made dx k [v; t; l; x] b.
Proof.
  intros Hk. unfold header_made. split.
  - intros E. apply bind_iff in E. destruct E as (u & Ea & E). apply assert_true in Ea.
    assert (Ev : (v = VNone \/ v = VInt k) /\ default v k = VInt k).
    { destruct v; try discriminate; cbn [default py_eqz] in *; [split; [left|]; reflexivity|]. apply Z.eqb_eq in Ea. subst. split; [right|]; reflexivity. }
    destruct Ev as [Ev Ed]. rewrite Ed in E. apply (plain "BBHI" [FU 1; FU 1; FU 2; FU 4] _ b eq_refl) in E. cbn [pack] in E.
    unwind. repeat match goal with H : Ok _ = Ok _ |- _ => apply Ok_inj in H; subst end.
    match goal with H : pack_item (FU 1) t = _ |- _ => destruct t as [|tz| | | |]; try discriminate; apply word_iff in H; destruct H as [Ht ->] end.
    match goal with H : pack_item (FU 1) (VInt k) = _ |- _ => apply word_iff in H; destruct H as [_ ->] end.
    assert (El : exists lz, (l = VInt lz \/ l = VNone /\ lz = 8) /\ default l 8 = VInt lz).
    { destruct l; try discriminate; eexists; (split; [|reflexivity]); auto. }
    destruct El as (lz & Hl & El). rewrite El in *.
    assert (Ex : exists xz, (x = VInt xz \/ x = VNone /\ xz = dx) /\ default x dx = VInt xz).
    { destruct x; try discriminate; eexists; (split; [|reflexivity]); auto. }
    destruct Ex as (xz & Hx & Ex). rewrite Ex in *.
    repeat match goal with H : pack_item (FU _) (VInt _) = _ |- _ => apply word_iff in H; destruct H as [? ->] end.
    exists v, tz, l, x, lz, xz. rewrite app_nil_r. auto 12.
  - intros (v' & tz & l' & x' & lz & xz & E & Hv & Ht & Hl & Rl & Hx & Rx & ->). injection E as <- -> <- <-.
    assert (Ed : default v k = VInt k) by (destruct Hv as [->| ->]; reflexivity).
    assert (El : default l 8 = VInt lz) by (destruct Hl as [->|[-> ->]]; reflexivity).
    assert (Ex : default x dx = VInt xz) by (destruct Hx as [->|[-> ->]]; reflexivity).
    rewrite Ed, El, Ex. cbn [py_eqz]. rewrite Z.eqb_refl. cbn [assert_ bind].
    apply (plain "BBHI" [FU 1; FU 1; FU 2; FU 4] _ _ eq_refl). cbn [pack].
    rewrite (byte_word 1 k Hk). cbn [bind]. rewrite (byte_word 1 tz Ht). cbn [bind]. rewrite (byte_word 2 lz Rl). cbn [bind].
    rewrite (byte_word 4 xz Rx). cbn [bind]. rewrite app_nil_r. reflexivity.
Qed.

Lemma header4 o dx args b : M_Build4.call o dx "ofp_header" args = Ok b <-> header_made dx 4 args b.
Proof.
  destruct args as [|v [|t [|l [|x [|e args]]]]]; try (split; [discriminate|intros (? & ? & ? & ? & ? & ? & E & _); discriminate]).
  exact (header_iff dx 4 v t l x b ltac:(lia)).
Qed.
Lemma header5 o dx args b : M_Build5.call o dx "ofp_header" args = Ok b <-> header_made dx 5 args b.
Proof.
  destruct args as [|v [|t [|l [|x [|e args]]]]]; try (split; [discriminate|intros (? & ? & ? & ? & ? & ? & E & _); discriminate]).
  exact (header_iff dx 5 v t l x b ltac:(lia)).
Qed.
