(** Property C111: structures of fixed size. *)

From Coq Require Import String Lia.
From Verif Require Import Py Struct P_Struct S_Wire4 S_Fixed M_Build4 M_Parse4 P_Fixed.
From Verif Require M_Build5 M_Parse5.
Local Open Scope Z_scope.
Local Open Scope list_scope.

(** A structure of the list is built from exactly the arguments that say
    numbers its fields can hold, and into exactly its layout; whatever else is
    written - another count, another kind of value, a number that does not fit,
    the type of another structure - is refused. *)
Theorem C111_built4 : forall dx d cls cs args b, In (cls, cs) built4 ->
  M_Build4.obj dx (S d) (VTup cls args) = Ok b <-> exists zs, says cs args zs /\ b = laid_out cs zs.
Proof.
  intros dx d cls cs args b Hin.
  exact (proj1 (Forall_forall _ _) (all_built4 (M_Build4.obj dx d) dx) _ Hin args b).
Qed.
Print Assumptions C111_built4.

Theorem C111_built5 : forall dx d cls cs args b, In (cls, cs) built5 ->
  M_Build5.obj dx (S d) (VTup cls args) = Ok b <-> exists zs, says cs args zs /\ b = laid_out cs zs.
Proof.
  intros dx d cls cs args b Hin.
  exact (proj1 (Forall_forall _ _) (all_built5 (M_Build5.obj dx d) dx) _ Hin args b).
Qed.
Print Assumptions C111_built5.

(** A parser of the list returns the numbers that are there, whatever the
    padding holds, and goes on behind the structure; it raises struct.error
    exactly where the message ends before the structure does. *)
Lemma pick (l : list (string * list cell)) (r : list (string * (bytes -> nat -> res (pyval * nat)))) cls cs p :
  Forall2 (fun e r => fst e = fst r /\ reads_ (fst e) (snd r) (snd e)) l r -> NoDup (map fst r) ->
  In (cls, cs) l -> In (cls, p) r -> reads_ cls p cs.
Proof.
  induction 1 as [|e q l r (E & H) F IH]; intros Nd Hl Hr; [destruct Hl|].
  cbn [map] in Nd. inversion Nd as [|x xs N Nd' Ex]. subst.
  assert (K : forall c s, In (c, s) l -> In c (map fst r)).
  { clear -F. induction F as [|e q l r (E & H) F IH]; intros c s Hin; [destruct Hin|]. destruct Hin as [->|Hin].
    - left. symmetry. exact E.
    - right. exact (IH c s Hin). }
  destruct Hl as [->|Hl], Hr as [->|Hr].
  - exact H.
  - cbn [fst] in E. subst. contradict N. apply (in_map fst) in Hr. exact Hr.
  - cbn [fst] in *. contradict N. exact (K _ _ Hl).
  - exact (IH Nd' Hl Hr).
Qed.

Ltac names := cbn [map fst]; repeat (apply NoDup_cons; [cbn [In]; intuition discriminate|]); apply NoDup_nil.

Lemma names4 : NoDup (map fst readers4).
Proof. unfold readers4. names. Qed.
Lemma names5 : NoDup (map fst readers5).
Proof. unfold readers5. names. Qed.

Theorem C111_parsed4 : forall cls cs p, In (cls, cs) parsed4 -> In (cls, p) readers4 ->
  (forall m off zs b, bears cs zs b -> at_ m off b -> p m off = Ok (VTup cls (map VInt zs), (off + size cs)%nat)) /\
  (forall m off, (length m < off + size cs)%nat -> p m off = Err StructError).
Proof. intros cls cs p. exact (pick _ _ cls cs p all_parsed4 names4). Qed.
Print Assumptions C111_parsed4.

Theorem C111_parsed5 : forall cls cs p, In (cls, cs) parsed5 -> In (cls, p) readers5 ->
  (forall m off zs b, bears cs zs b -> at_ m off b -> p m off = Ok (VTup cls (map VInt zs), (off + size cs)%nat)) /\
  (forall m off, (length m < off + size cs)%nat -> p m off = Err StructError).
Proof. intros cls cs p. exact (pick _ _ cls cs p all_parsed5 names5). Qed.
Print Assumptions C111_parsed5.

(** So what is built is parsed, wherever it stands in a message, and building
    what was parsed gives the same bytes. *)
Lemma says_again cs args zs : says cs args zs -> says cs (map VInt zs) zs.
Proof.
  induction 1 as [|n cs args zs H IH|c cs a args z zs M Hh H IH]; [constructor|constructor; exact IH|].
  cbn [map]. constructor; [|exact Hh|exact IH]. destruct c; cbn in *; tauto.
Qed.

Theorem C111_round_trip4 : forall dx d cls cs p args b m off,
  In (cls, cs) parsed4 -> In (cls, p) readers4 ->
  M_Build4.obj dx (S d) (VTup cls args) = Ok b -> at_ m off b ->
  exists v, p m off = Ok (v, (off + length b)%nat) /\ M_Build4.obj dx (S d) v = Ok b.
Proof.
  intros dx d cls cs p args b m off Hc Hp E A.
  assert (Hb : In (cls, cs) built4).
  { unfold parsed4 in Hc. unfold built4. apply in_app_or in Hc. apply in_or_app.
    destruct Hc as [Hc|Hc]; [left; exact Hc|right; apply in_or_app; left; exact Hc]. }
  apply (C111_built4 dx d cls cs args b Hb) in E. destruct E as (zs & S & ->).
  exists (VTup cls (map VInt zs)). split.
  - pose proof (laid_bears _ _ _ S) as B. rewrite (bears_size _ _ _ B).
    exact (proj1 (C111_parsed4 cls cs p Hc Hp) m off zs _ B A).
  - apply (C111_built4 dx d cls cs _ _ Hb). exists zs. split; [exact (says_again _ _ _ S)|reflexivity].
Qed.
Print Assumptions C111_round_trip4.

Theorem C111_round_trip5 : forall dx d cls cs p args b m off,
  In (cls, cs) (shared ++ only5) -> In (cls, p) readers5 ->
  M_Build5.obj dx (S d) (VTup cls args) = Ok b -> at_ m off b ->
  exists v, p m off = Ok (v, (off + length b)%nat) /\ M_Build5.obj dx (S d) v = Ok b.
Proof.
  intros dx d cls cs p args b m off Hc Hp E A.
  assert (Hb : In (cls, cs) built5) by (unfold built5; rewrite app_assoc; apply in_or_app; left; exact Hc).
  assert (Hq : In (cls, cs) parsed5) by (unfold parsed5; rewrite app_assoc; apply in_or_app; left; exact Hc).
  apply (C111_built5 dx d cls cs args b Hb) in E. destruct E as (zs & S & ->).
  exists (VTup cls (map VInt zs)). split.
  - pose proof (laid_bears _ _ _ S) as B. rewrite (bears_size _ _ _ B).
    exact (proj1 (C111_parsed5 cls cs p Hq Hp) m off zs _ B A).
  - apply (C111_built5 dx d cls cs _ _ Hb). exists zs. split; [exact (says_again _ _ _ S)|reflexivity].
Qed.
Print Assumptions C111_round_trip5.

(** The lists name every such structure once. *)
Theorem C111_every_parser : map fst parsed4 = map fst readers4 /\ map fst parsed5 = map fst readers5.
Proof. split; reflexivity. Qed.
Print Assumptions C111_every_parser.

(** Refuted for the header of a queue description's property (1.4): it is built
    with four bytes too many, which are zero, and which its parser leaves
    unread. *)
Theorem C111_queue_desc_header_refuted : forall dx d t l, holds (Num 2) t -> holds (Num 2) l ->
  M_Build5.obj dx (S d) (VTup "ofp_queue_desc_prop_header" [VInt t; VInt l]) =
    Ok (laid_out [Num 2; Num 2] [t; l] ++ repeat 0 4) /\
  forall m off, at_ m off (laid_out [Num 2; Num 2] [t; l] ++ repeat 0 4) ->
    M_Parse5.p_queue_desc_prop_header m off = Ok (VTup "ofp_queue_desc_prop_header" [VInt t; VInt l], (off + 4)%nat).
Proof.
  intros dx d t l Ht Hl. split.
  - change (packs "HH4x" [VInt t; VInt l] = Ok (laid_out [Num 2; Num 2] [t; l] ++ repeat 0 4)).
    apply (plain "HH4x" (items [Num 2; Num 2; Gap 4]) _ _ eq_refl).
    apply (packs_says [Num 2; Num 2; Gap 4] eq_refl [VInt t; VInt l]); [reflexivity|].
    exists [t; l]. split; [repeat (constructor; try assumption); reflexivity|].
    cbn [laid_out]. rewrite !app_nil_r, <- app_assoc. reflexivity.
  - intros m off A. apply (proj1 (C111_parsed5 "ofp_queue_desc_prop_header" [Num 2; Num 2] M_Parse5.p_queue_desc_prop_header
      ltac:(unfold parsed5; apply in_or_app; right; apply in_or_app; right; left; reflexivity)
      ltac:(unfold readers5; repeat (first [left; reflexivity | right]))) m off [t; l] (laid_out [Num 2; Num 2] [t; l])).
    + apply (laid_bears _ [VInt t; VInt l]). repeat (constructor; try assumption); reflexivity.
    + destruct A as (pre & post & -> & ->). exists pre, (repeat 0 4 ++ post). split; [rewrite <- app_assoc; reflexivity|reflexivity].
Qed.
Print Assumptions C111_queue_desc_header_refuted.

(** Refuted for the lengths: a table's eviction property (1.4) has eight bytes,
    but states whatever length the caller writes - and refuses to have it left
    open. *)
Theorem C111_eviction_length_refuted : forall dx d ty l f,
  holds (Num 2) l -> holds (Num 4) f ->
  (exists b, M_Build5.obj dx (S d) (VTup "ofp_table_mod_prop_eviction" [ty; VInt l; VInt f]) = Ok b /\
     length b = 8%nat /\ firstn 4 b = be 2 2 ++ be 2 l) /\
  forall b, M_Build5.obj dx (S d) (VTup "ofp_table_mod_prop_eviction" [ty; VNone; VInt f]) <> Ok b.
Proof.
  intros dx d ty l f Hl Hf.
  assert (Hin : In ("ofp_table_mod_prop_eviction"%string, [Const 2 2; Num 2; Num 4]) built5).
  { unfold built5. apply in_or_app. right. apply in_or_app. left. unfold only5. repeat (first [left; reflexivity | right]). }
  split.
  - exists (laid_out [Const 2 2; Num 2; Num 4] [2; l; f]). split; [|split].
    + apply (C111_built5 dx d _ _ _ _ Hin). exists [2; l; f]. split; [|reflexivity].
      constructor; [reflexivity|cbn; lia|]. repeat (constructor; try assumption); reflexivity.
    + rewrite (bears_size [Const 2 2; Num 2; Num 4] [2; l; f]); [reflexivity|].
      apply (laid_bears _ [VNone; VInt l; VInt f]).
      constructor; [reflexivity|cbn; lia|]. repeat (constructor; try assumption); reflexivity.
    + cbn [laid_out width]. rewrite !be_mod, app_assoc. rewrite firstn_app_l by (rewrite app_length, !be_length; reflexivity). reflexivity.
  - intros b E. apply (C111_built5 dx d _ _ _ _ Hin) in E. destruct E as (zs & S & _).
    inversion S as [| |c1 cs1 a1 args1 z1 zs1 M1 H1 S1]. subst.
    inversion S1 as [| |c2 cs2 a2 args2 z2 zs2 M2 H2 S2]. subst. discriminate M2.
Qed.
Print Assumptions C111_eviction_length_refuted.

(** The features of meters (1.3), read between other bytes. *)
Example C111_example :
  M_Build4.obj 0 1 (VTup "ofp_meter_features" [VInt 1; VInt 6; VInt 15; VInt 2; VInt 3]) =
    Ok [0;0;0;1; 0;0;0;6; 0;0;0;15; 2; 3; 0;0] /\
  says [Num 4; Num 4; Num 4; Num 1; Num 1; Gap 2] [VInt 1; VInt 6; VInt 15; VInt 2; VInt 3] [1; 6; 15; 2; 3] /\
  In ("ofp_meter_features"%string, [Num 4; Num 4; Num 4; Num 1; Num 1; Gap 2]) parsed4 /\
  In ("ofp_meter_features"%string, M_Parse4.p_meter_features) readers4 /\
  M_Parse4.p_meter_features [9; 0;0;0;1; 0;0;0;6; 0;0;0;15; 2; 3; 77;88; 5] 1 =
    Ok (VTup "ofp_meter_features" [VInt 1; VInt 6; VInt 15; VInt 2; VInt 3], 17%nat) /\
  M_Parse4.p_meter_features [0;0;0;1; 0;0;0;6; 0;0;0;15; 2; 3; 0] 0 = Err StructError.
Proof.
  split; [vm_compute; reflexivity|]. split.
  { repeat constructor; try reflexivity; cbn; lia. }
  split; [unfold parsed4, shared; cbn [Datatypes.app]; repeat (first [left; reflexivity | right])|].
  split; [unfold readers4; repeat (first [left; reflexivity | right])|].
  split; vm_compute; reflexivity.
Qed.

(** An optical port's configuration (1.4) with a negative offset. *)
Example C111_example5 :
  M_Build5.obj 0 1 (VTup "ofp_port_mod_prop_optical" [VNone; VNone; VInt 1; VInt 2; VInt (-3); VInt 4; VInt 5]) =
    Ok [0;1; 0;24; 0;0;0;1; 0;0;0;2; 255;255;255;253; 0;0;0;4; 0;0;0;5] /\
  M_Parse5.p_port_mod_prop_optical [0;1; 0;24; 0;0;0;1; 0;0;0;2; 255;255;255;253; 0;0;0;4; 0;0;0;5] 0 =
    Ok (VTup "ofp_port_mod_prop_optical" [VInt 1; VInt 24; VInt 1; VInt 2; VInt (-3); VInt 4; VInt 5], 24%nat) /\
  laid_out [Const 2 1; Const 2 24; Num 4; Num 4; Sig 4; Num 4; Num 4] [1; 24; 1; 2; -3; 4; 5] =
    [0;1; 0;24; 0;0;0;1; 0;0;0;2; 255;255;255;253; 0;0;0;4; 0;0;0;5].
Proof. repeat split; vm_compute; reflexivity. Qed.
