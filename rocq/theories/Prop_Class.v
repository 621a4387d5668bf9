(** ** C102 to C106: the channel classes, combined *)

From Coq Require Import String Bool List Lia ZArith.
From Verif Require Import Py M_Hello M_Controller M_Class M_Dispatch S_Hello S_Loop S_Controller S_Class
  P_Hello P_Controller P_Class P_Class2 P_Dispatch P_Dispatch2.
Import ListNotations.
Local Open Scope string_scope.
Local Open Scope list_scope.

Lemma coop_by : forall a c,
  forallb (fun x => negb (String.eqb (fst x) a && String.eqb (snd (snd x)) a) || String.eqb (fst (snd x)) (c_name c)) (c_supers c) = true ->
  In (a, (c_name c, a)) (c_supers c) -> cooperative a c.
Proof.
  intros a c H Hi _ k. split; [|intros ->; exact Hi].
  intros Hk. rewrite forallb_forall in H. specialize (H _ Hk). cbn [fst snd] in H. rewrite String.eqb_refl in H. cbn in H.
  apply String.eqb_eq. exact H.
Qed.
Lemma coop_out : forall a c, memb a (c_attrs c) = false -> cooperative a c.
Proof. intros a c H Ha. apply memb_out in H. contradiction. Qed.
Ltac coops := repeat (constructor; [first [apply coop_out; vm_compute; reflexivity
  | apply coop_by; [vm_compute; reflexivity|repeat (first [left; reflexivity|right])]]|]); try constructor.

(** *** C102: super() *)

(** Every class that Python accepts on top of twink: its resolution order has
    the class first and each ancestor once, and keeps the order of its own
    bases and of the resolution order of every ancestor. *)
Theorem C102_linear : forall l t c m, accepted l t -> In (c, m) t ->
  (exists r, m = c_name c :: r) /\ NoDup m /\ (forall x, In x m <-> anc t (c_name c) x) /\
  Sub (c_bases c) m /\ (forall x, In x m -> Sub (mro t x) m).
Proof.
  intros l t c m H Hi. assert (W := wft_accepted _ _ H). destruct (w_class _ W _ _ Hi) as [P1 [P2 [P3 [P4 [P5 _]]]]].
  split; [exact P1|]. split; [exact P2|]. split; [|split; [exact P5|exact P4]].
  intros x. split; [exact (mro_is_anc _ _ _ _ _ H Hi)|].
  intros Ha. apply (anc_in_mro _ W) in Ha. unfold mro in Ha.
  assert (G := in_get _ _ (w_nodup _ W) Hi). cbn [fst] in G. rewrite G in Ha. exact Ha.
Qed.
Print Assumptions C102_linear.

(** Every super() call in twink finds its method in every such class; it is
    that of the next class of the resolution order that has one. *)
Theorem C102_super_found : forall l t d c meth k a,
  accepted l t -> In c repo_classes -> In (c_name c) (mro t d) -> In (meth, (k, a)) (c_supers c) ->
  exists x p q r, super_get t d k a = Some x /\ mro t d = r ++ k :: p ++ x :: q /\ defines t x a = true /\
    forall y, In y p -> defines t y a = false.
Proof. exact super_found. Qed.
Print Assumptions C102_super_found.

(** The application of test/example_controller_switchinghub.py:10-15 with a mixin of its own. *)
Definition mix : cls := mkCls "Mix" ["OpenflowBaseChannel"] ["send"; "attach"; "_recv"]
  [("send", ("Mix", "send")); ("attach", ("Mix", "attach")); ("_recv", ("Mix", "_recv"))] [] [].
Definition hub_cls : cls := mkCls "TestChannel" ["PortMonitorChannel"; "OvsChannel"; "JackinChannel"; "LoggingChannel"; "Mix"]
  ["accept_versions"; "init"; "handle_async"; "handle"] [] [] [].
Definition hub_tab : ctab := match define_all repo_tab [mix; hub_cls] with Some t => t | None => [] end.
Lemma hub_accepted : accepted [mix; hub_cls] hub_tab.
Proof. vm_compute. reflexivity. Qed.
Example C102_example :
  mro hub_tab "TestChannel" =
    ["TestChannel"; "PortMonitorChannel"; "OvsChannel"; "JackinChannel"; "ParentChannel"; "ControllerChannel"; "ParallelChannel";
     "OpenflowServerChannel"; "OpenflowChannel"; "LoggingChannel"; "Mix"; "OpenflowBaseChannel"; "Channel"; "WeakCallbackCaller"; "object"] /\
  super_get hub_tab "TestChannel" "LoggingChannel" "send" = Some "Mix" /\
  define repo_tab (mkCls "X" ["OpenflowServerChannel"; "ControllerChannel"] [] [] [] []) = None.
Proof. vm_compute. auto. Qed.

(** The switches of ParentChannel (base.py:705-706, 786, 793): whatever
    application combines JackinChannel or MonitorChannel with other classes, and
    does not set the attribute itself, gets it from there, never ParentChannel's
    False. *)
Theorem C102_switched_on : forall l t d n a,
  In (n, a) [("JackinChannel", "jackin"); ("MonitorChannel", "monitor")] ->
  accepted l t -> In n (mro t d) -> (forall c, In c l -> ~ In a (c_attrs c)) ->
  lookup t (mro t d) a = Some n.
Proof.
  intros l t d n a Hna H Hn Hl. assert (W := wft_accepted _ _ H). assert (N := wft_nodup_mro t d W).
  assert (R : In n (names repo_tab) /\ defines repo_tab n a = true /\ before (mro repo_tab n) n "ParentChannel" /\
              forall c m, In (c, m) repo_tab -> In a (c_attrs c) -> c_name c = n \/ c_name c = "ParentChannel").
  { destruct Hna as [E|[E|[]]]; injection E as <- <-;
      (split; [apply memb_in; vm_compute; reflexivity|]); (split; [vm_compute; reflexivity|]);
      (split; [apply after_before; apply memb_in; vm_compute; reflexivity|]);
      intros c m Hc Ha.
    - assert (B : forallb (fun x => negb (memb "jackin" (c_attrs (fst x))) || memb (c_name (fst x)) ["JackinChannel"; "ParentChannel"]) repo_tab = true)
        by (vm_compute; reflexivity).
      rewrite forallb_forall in B. specialize (B _ Hc). cbn [fst] in B. rewrite (proj2 (memb_in _ _) Ha) in B. apply memb_in in B.
      destruct B as [B|[B|[]]]; auto.
    - assert (B : forallb (fun x => negb (memb "monitor" (c_attrs (fst x))) || memb (c_name (fst x)) ["MonitorChannel"; "ParentChannel"]) repo_tab = true)
        by (vm_compute; reflexivity).
      rewrite forallb_forall in B. specialize (B _ Hc). cbn [fst] in B. rewrite (proj2 (memb_in _ _) Ha) in B. apply memb_in in B.
      destruct B as [B|[B|[]]]; auto. }
  destruct R as (R1 & R2 & R3 & R4).
  destruct (lookup_first t (mro t d) a) as (x & p & q & E & Em & Hx & Hp).
  { exists n. split; [exact Hn|]. rewrite (keeps_defines _ _ _ _ H R1). exact R2. }
  rewrite E. f_equal. unfold defines in Hx. destruct (get t x) as [[c m]|] eqn:G; [|discriminate].
  apply get_in in G as [G Gn]. cbn [fst] in Gn. apply memb_in in Hx. destruct (define_all_in _ _ _ _ _ H G) as [Hr|Hr]; [|exfalso; exact (Hl _ Hr Hx)].
  destruct (R4 _ _ Hr Hx) as [Hn2|Hn2]; [congruence|]. exfalso.
  assert (Ex : x = "ParentChannel") by congruence. subst x.
  assert (B1 : before (mro t d) n "ParentChannel").
  { apply (Sub_before (mro t n)); [exact (wft_sub _ _ _ W Hn)|]. rewrite (keeps_mro _ _ _ H R1). exact R3. }
  assert (Hq : In n q).
  { rewrite Em in Hn. apply in_app_or in Hn as [Hn|[Hn|Hn]]; [| |exact Hn].
    - exfalso. specialize (Hp n Hn). rewrite (keeps_defines _ _ _ _ H R1) in Hp. congruence.
    - subst n. rewrite Ex in Hna. destruct Hna as [E2|[E2|[]]]; discriminate E2. }
  apply (before_asym _ _ _ N B1). rewrite Em. apply in_split in Hq as [q1 [q2 ->]]. exists p, q1, q2. rewrite Ex. reflexivity.
Qed.
Print Assumptions C102_switched_on.

Example C102_switched_on_example :
  lookup hub_tab (mro hub_tab "TestChannel") "jackin" = Some "JackinChannel" /\
  lookup hub_tab (mro hub_tab "TestChannel") "monitor" = Some "ParentChannel".
Proof. vm_compute. auto. Qed.

(** The channels that ParentChannel makes for its clients (base.py:753-779): a
    monitor's messages go to ChildChannel.handle, which ignores them; an
    operator's go to JackinChildChannel.handle; echo requests are answered
    before either. *)
Definition child (name base : string) (attrs : list string) : cls :=
  mkCls name [base; "AutoEchoChannel"; "LoggingChannel"] attrs [] [] [].

Lemma lookup_child t name m c a l : accepted l t -> t = (c, name :: m) :: repo_tab -> c_name c = name ->
  ~ In a (c_attrs c) -> (forall x, In x m -> In x (names repo_tab)) ->
  lookup t (mro t name) a = lookup repo_tab m a.
Proof.
  intros Acc Et Hc Ha Hm.
  assert (G : get t name = Some (c, name :: m)).
  { rewrite Et. unfold get. cbn [find fst]. rewrite Hc, String.eqb_refl. reflexivity. }
  unfold mro. rewrite G. unfold lookup. cbn [find].
  assert (D : defines t name a = false) by (unfold defines; rewrite G; apply memb_out; exact Ha).
  rewrite D. clear D G Et Hc Ha. induction m as [|x m IH]; [reflexivity|]. cbn [find].
  rewrite (keeps_defines _ _ _ _ Acc) by (apply Hm; left; reflexivity).
  destruct (defines repo_tab x a); [reflexivity|]. apply IH. intros y Hy. apply Hm. right. exact Hy.
Qed.

Theorem C102_children : forall name base attrs,
  In base ["ChildChannel"; "JackinChildChannel"] ->
  ~ In name (names repo_tab) -> ~ In "handle" attrs -> ~ In "handle_proxy" attrs ->
  exists t, define repo_tab (child name base attrs) = Some t /\
    lookup t (mro t name) "handle" = Some base /\ lookup t (mro t name) "handle_proxy" = Some "AutoEchoChannel".
Proof.
  intros name base attrs Hb Hn H1 H2.
  assert (M : memb name (map (fun e => c_name (fst e)) repo_tab) = false) by (apply memb_out; exact Hn).
  assert (K : exists m, define repo_tab (child name base attrs) = Some ((child name base attrs, name :: m) :: repo_tab) /\
    lookup repo_tab m "handle" = Some base /\ lookup repo_tab m "handle_proxy" = Some "AutoEchoChannel" /\
    forall x, In x m -> In x (names repo_tab)).
  { unfold define. change (c_name (child name base attrs)) with name. rewrite M. cbn [child c_bases orb is_nil].
    destruct Hb as [<-|[<-|[]]]; (eexists; split; [vm_compute; reflexivity|]); (split; [vm_compute; reflexivity|]);
      (split; [vm_compute; reflexivity|]); intros x Hx;
      (match type of Hx with In _ ?l => assert (F : forallb (fun x => memb x (names repo_tab)) l = true) by (vm_compute; reflexivity) end);
      rewrite forallb_forall in F; apply memb_in; exact (F x Hx). }
  destruct K as (m & D & L1 & L2 & Hm). eexists. split; [exact D|].
  assert (Acc : accepted [child name base attrs] ((child name base attrs, name :: m) :: repo_tab))
    by (unfold accepted; cbn [define_all]; rewrite D; reflexivity).
  split; (etransitivity; [eapply lookup_child; [exact Acc|reflexivity|reflexivity|assumption|exact Hm]|assumption]).
Qed.
Print Assumptions C102_children.

Example C102_children_example :
  exists t, define repo_tab (child "MonitorCChannel" "ChildChannel" ["accept_versions"; "parent"]) = Some t /\
    mro t "MonitorCChannel" = ["MonitorCChannel"; "ChildChannel"; "AutoEchoChannel"; "OpenflowServerChannel"; "OpenflowChannel";
      "LoggingChannel"; "OpenflowBaseChannel"; "Channel"; "object"].
Proof. eexists. split; vm_compute; reflexivity. Qed.

(** *** C103: every class's part is done *)

(** One call of __init__, send, close, recv or handle_proxy on an instance of
    any such class runs, in the order of resolution, the methods of all classes
    down to the one that starts (Channel, OpenflowBaseChannel,
    OpenflowServerChannel), if the application's own overrides call on. *)
Theorem C103_in_order : forall l t d a r, accepted l t -> root_of a = Some r -> In r (mro t d) -> no_element t d ->
  Forall (cooperative a) l -> chain t d a = filter (fun n => defines t n a) (upto r (mro t d)).
Proof. exact chain_is. Qed.
Print Assumptions C103_in_order.

(** Hence each class of twink takes part exactly once. *)
Theorem C103_once : forall l t d a r c, accepted l t -> root_of a = Some r -> no_element t d ->
  Forall (cooperative a) l -> In c repo_classes -> In a (c_attrs c) -> In (c_name c) (mro t d) ->
  count_occ string_dec (chain t d a) (c_name c) = 1.
Proof. exact takes_part. Qed.
Print Assumptions C103_once.

Example C103_example : chain hub_tab "TestChannel" "send" = ["ControllerChannel"; "LoggingChannel"; "Mix"; "Channel"] /\
  chain hub_tab "TestChannel" "close" = ["PortMonitorChannel"; "ParentChannel"; "ParallelChannel"; "LoggingChannel"; "Channel"] /\
  no_element hub_tab "TestChannel" /\ Forall (cooperative "send") [mix; hub_cls].
Proof.
  split; [vm_compute; reflexivity|]. split; [vm_compute; reflexivity|]. split.
  - split; apply memb_out; vm_compute; reflexivity.
  - coops.
Qed.

(** Refuted for attach: OpenflowChannel.attach (base.py:210-211) calls
    super(OpenflowBaseChannel, self): an override between the two is left out,
    though it is in the resolution order and calls on itself. *)
Theorem C103_attach_refuted : exists l t d n,
  accepted l t /\ Forall (cooperative "attach") l /\ no_element t d /\
  In n (mro t d) /\ defines t n "attach" = true /\ before (mro t d) n "Channel" /\
  ~ In n (chain t d "attach") /\ In "Channel" (chain t d "attach").
Proof.
  exists [mix; hub_cls], hub_tab, "TestChannel", "Mix". split; [exact hub_accepted|]. split; [|split; [|split; [|split; [|split; [|split]]]]].
  - coops.
  - split; apply memb_out; vm_compute; reflexivity.
  - apply memb_in; vm_compute; reflexivity.
  - vm_compute; reflexivity.
  - apply after_before. apply memb_in; vm_compute; reflexivity.
  - apply memb_out; vm_compute; reflexivity.
  - apply memb_in; vm_compute; reflexivity.
Qed.
Print Assumptions C103_attach_refuted.

(** Refuted for _recv: OpenflowBaseChannel.recv (base.py:156, 167) asks the
    classes behind it, never the object: no override of _recv in a subclass of
    OpenflowBaseChannel is ever used. *)
Theorem C103_recv_refuted : forall l t d n, accepted l t ->
  In "OpenflowBaseChannel" (mro t d) -> In n (mro t d) -> anc t n "OpenflowBaseChannel" ->
  super_get t d "OpenflowBaseChannel" "_recv" <> Some n.
Proof.
  intros l t d n H Hb Hn Ha E. assert (W := wft_accepted _ _ H). assert (N := wft_nodup_mro t d W).
  unfold super_get in E. replace (memb "OpenflowBaseChannel" (mro t d)) with true in E by (symmetry; apply memb_in; exact Hb).
  unfold lookup in E. apply find_some in E as [E _]. apply after_before in E.
  assert (In "OpenflowBaseChannel" (mro t n)) as Hi by exact (anc_in_mro _ W _ _ Ha).
  assert (S := wft_sub _ _ _ W Hn). destruct (string_dec n "OpenflowBaseChannel") as [->|Hne].
  - destruct E as [q1 [q2 [q3 E]]]. rewrite E in N. apply nodup_app_l in N as [_ N]. apply N. apply in_or_app. right. left. reflexivity.
  - apply (before_asym _ _ _ N E). apply (Sub_before _ _ _ _ S).
    assert (Hnn := wft_in_names _ _ _ W Hn). destruct (wft_mro _ W _ Hnn) as [cr [Hcr Ecr]].
    destruct (w_class _ W _ _ Hcr) as [[rr Err] _]. rewrite Err in *. rewrite Ecr in *.
    destruct Hi as [Hi|Hi]; [congruence|]. apply in_split in Hi as [q1 [q2 ->]]. exists [], q1, q2. reflexivity.
Qed.
Print Assumptions C103_recv_refuted.
Example C103_recv_example : lookup hub_tab (mro hub_tab "TestChannel") "_recv" = Some "Mix" /\
  super_get hub_tab "TestChannel" "OpenflowBaseChannel" "_recv" = Some "Channel".
Proof. vm_compute. auto. Qed.

(** Refuted for classes behind Channel: Channel.__init__ (base.py:78-91) does
    not call super(); a mixin that is no Channel and is named after one is
    not initialised. *)
Theorem C103_init_refuted : exists l t d n,
  accepted l t /\ Forall (cooperative "__init__") l /\ no_element t d /\
  In n (mro t d) /\ defines t n "__init__" = true /\ before (mro t d) n "object" /\ ~ In n (chain t d "__init__").
Proof.
  exists [mkCls "Store" ["object"] ["__init__"] [("__init__", ("Store", "__init__"))] ["items"] ["items"];
          mkCls "App" ["ControllerChannel"; "Store"] ["handle"] [] [] []].
  eexists. exists "App", "Store". split; [vm_compute; reflexivity|]. split; [|split; [|split; [|split; [|split]]]].
  - coops.
  - split; apply memb_out; vm_compute; reflexivity.
  - apply memb_in; vm_compute; reflexivity.
  - vm_compute; reflexivity.
  - apply after_before. apply memb_in; vm_compute; reflexivity.
  - apply memb_out; vm_compute; reflexivity.
Qed.
Print Assumptions C103_init_refuted.

(** *** C104: what methods read from self is there *)

(** In an instance of any such class, every attribute that a method of twink
    reads from self exists once the object is made, but for the four listed. *)
Theorem C104_attributes_partial : forall l t d c a, accepted l t -> no_element t d -> Forall (cooperative "__init__") l ->
  In c repo_classes -> In (c_name c) (mro t d) -> In a (c_uses c) -> ~ In (c_name c, a) loose_ends ->
  has_attr t d a = true.
Proof. exact attr_there. Qed.
Print Assumptions C104_attributes_partial.
Example C104_example : In "seq" (c_uses c_ControllerChannel) /\ has_attr hub_tab "TestChannel" "seq" = true /\
  has_attr hub_tab "TestChannel" "syncs" = false.
Proof. vm_compute. auto 10. Qed.

(** Refuted: ParallelChannel.helper_path reads self.datapath, OvsChannel.ofctl
    self.temp_server: classes made of them alone do not have it. *)
Theorem C104_attributes_refuted :
  has_attr repo_tab "ParallelChannel" "datapath" = false /\ In "datapath" (c_uses c_ParallelChannel) /\
  has_attr repo_tab "SyncChannel" "datapath" = false /\
  has_attr repo_tab "OvsChannel" "temp_server" = false /\ In "temp_server" (c_uses c_OvsChannel).
Proof. vm_compute. auto 10. Qed.
Print Assumptions C104_attributes_refuted.

(** With ControllerChannel and ParentChannel among the ancestors they are there. *)
Theorem C104_mended : forall l t d, accepted l t ->
  (In "ControllerChannel" (mro t d) -> has_attr t d "datapath" = true /\ has_attr t d "cbref" = true) /\
  (In "ParentChannel" (mro t d) -> has_attr t d "temp_server" = true).
Proof.
  intros l t d H. split.
  - intros Hc. assert (Hr : In "ControllerChannel" (names repo_tab)) by (apply memb_in; vm_compute; reflexivity).
    unfold has_attr. split; apply orb_true_iff; left; apply existsb_exists; exists "ControllerChannel";
      (split; [exact Hc|]); rewrite (keeps_defines _ _ _ _ H Hr); vm_compute; reflexivity.
  - intros Hc. assert (Hr : In "ParentChannel" (names repo_tab)) by (apply memb_in; vm_compute; reflexivity).
    unfold has_attr. apply orb_true_iff; left; apply existsb_exists; exists "ParentChannel".
    split; [exact Hc|]; rewrite (keeps_defines _ _ _ _ H Hr); vm_compute; reflexivity.
Qed.
Print Assumptions C104_mended.

(** *** C105: who handles a message, and in which thread *)

(** ParallelChannel anywhere among the ancestors: handle() never runs in the reading thread. *)
Theorem C105_handle : forall l t d rate bxid s m s' p, accepted l t -> no_override "handle_proxy" l ->
  In "OpenflowServerChannel" (mro t d) -> no_element t d -> In "ParallelChannel" (mro t d) ->
  dispatch t d rate bxid s m = (s', (p, ToDefault)) -> p <> Reader.
Proof.
  intros l t d rate bxid s m s' p H Hno Hin Hne Hp E. destruct (proxy_chain _ _ _ H Hno Hin Hne) as [cs [Ec [F [N [Hm _]]]]].
  unfold dispatch in E. rewrite Ec, prox_last in E by exact F.
  refine (default_thread _ rate bxid cs F h_handle _ s m s' p ToDefault E eq_refl). apply Hm; [right; right; reflexivity|exact Hp].
Qed.
Print Assumptions C105_handle.

(** handle_async() does not run in the reading thread exactly when
    ControllerChannel comes before ParallelChannel. *)
Theorem C105_async_partial : forall l t d rate bxid s m s' p, accepted l t -> no_override "handle_proxy" l ->
  In "OpenflowServerChannel" (mro t d) -> no_element t d ->
  before (mro t d) "ControllerChannel" "ParallelChannel" ->
  dispatch t d rate bxid s m = (s', (p, ToAsync)) -> p <> Reader.
Proof.
  intros l t d rate bxid s m s' p H Hno Hin Hne Hb E. destruct (proxy_chain _ _ _ H Hno Hin Hne) as [cs [Ec [F [N [Hm Ho]]]]].
  unfold dispatch in E. rewrite Ec, prox_last in E by exact F.
  refine (async_thread _ rate bxid cs F N h_handle handle_never_async _ s m s' p ToAsync E eq_refl).
  apply Ho; [right; left; reflexivity|right; right; reflexivity|exact Hb].
Qed.
Print Assumptions C105_async_partial.

(** In the other order, e.g. (SyncChannel, ControllerChannel), it does, for
    every message: a handler that then waits for a reply waits in vain, and
    async_rate does not limit it. *)
Theorem C105_async_refuted : forall l t d rate bxid s m s' p, accepted l t -> no_override "handle_proxy" l ->
  In "OpenflowServerChannel" (mro t d) -> no_element t d ->
  before (mro t d) "ParallelChannel" "ControllerChannel" ->
  dispatch t d rate bxid s m = (s', (p, ToAsync)) -> p = Reader.
Proof.
  intros l t d rate bxid s m s' p H Hno Hin Hne Hb E. destruct (proxy_chain _ _ _ H Hno Hin Hne) as [cs [Ec [F [N [Hm Ho]]]]].
  unfold dispatch in E. rewrite Ec, prox_last in E by exact F. symmetry.
  refine (async_reader _ rate bxid cs F N h_handle handle_never_async _ s m s' p ToAsync E eq_refl).
  intros Hc. apply (before_asym cs _ _ N Hc). apply Ho; [right; right; reflexivity|right; left; reflexivity|exact Hb].
Qed.
Print Assumptions C105_async_refuted.

Definition sync_cls : cls := mkCls "App" ["SyncChannel"; "ControllerChannel"] ["handle"; "handle_async"] [] [] [].
Definition sync_tab : ctab := match define_all repo_tab [sync_cls] with Some t => t | None => [] end.
Lemma sync_accepted : accepted [sync_cls] sync_tab.
Proof. vm_compute. reflexivity. Qed.
(** A PACKET_IN of 1.3, with both classes. *)
Example C105_example :
  let m := [4; 10; 0; 8; 0; 0; 0; 1]%Z in
  snd (dispatch sync_tab "App" 2 0 k_new m) = (Reader, ToAsync) /\
  snd (dispatch hub_tab "TestChannel" 2 0 k_new m) = (InPool, ToAsync) /\
  snd (dispatch hub_tab "TestChannel" 0 0 k_new m) = (OwnThread, ToAsync) /\
  snd (dispatch sync_tab "App" 2 0 k_new [4; 3; 0; 8; 0; 0; 0; 1]%Z) = (OwnThread, ToDefault) /\
  before (mro sync_tab "App") "ParallelChannel" "ControllerChannel" /\ no_element sync_tab "App" /\
  no_override "handle_proxy" [sync_cls].
Proof.
  split; [vm_compute; reflexivity|]. split; [vm_compute; reflexivity|]. split; [vm_compute; reflexivity|].
  split; [vm_compute; reflexivity|].
  split; [apply after_before; apply memb_in; vm_compute; reflexivity|]. split; [split; apply memb_out; vm_compute; reflexivity|].
  constructor; [apply memb_out; vm_compute; reflexivity|constructor].
Qed.

(** Callbacks of requests are always called by the reading thread. *)
Theorem C105_callbacks : forall l t d rate bxid s m s' p f, accepted l t -> no_override "handle_proxy" l ->
  In "OpenflowServerChannel" (mro t d) -> no_element t d ->
  dispatch t d rate bxid s m = (s', (p, ToCallback f)) -> p = Reader.
Proof.
  intros l t d rate bxid s m s' p f H Hno Hin Hne E. destruct (proxy_chain _ _ _ H Hno Hin Hne) as [cs [Ec [F _]]].
  unfold dispatch in E. rewrite Ec, prox_last in E by exact F. symmetry.
  exact (callbacks_reader _ rate bxid cs F h_handle handle_never_cb s m s' p _ E (ex_intro _ f eq_refl)).
Qed.
Print Assumptions C105_callbacks.
Example C105_callbacks_example :
  let s := fst (locked_send (mkCch [] [] (Some 4%Z) [] None None) (Some 7) [4; 5; 0; 8; 0; 0; 0; 1]%Z 9%Z None None) in
  snd (dispatch hub_tab "TestChannel" 0 0 s [4; 6; 0; 8; 0; 0; 0; 1]%Z) = (Reader, ToCallback 7).
Proof. vm_compute. reflexivity. Qed.

(** Without ParallelChannel everything is done by the reading thread. *)
Theorem C105_sequential : forall l t d rate bxid s m s' p r, accepted l t -> no_override "handle_proxy" l ->
  In "OpenflowServerChannel" (mro t d) -> no_element t d -> ~ In "ParallelChannel" (mro t d) ->
  dispatch t d rate bxid s m = (s', (p, r)) -> p = Reader.
Proof.
  intros l t d rate bxid s m s' p r H Hno Hin Hne Hp E. destruct (proxy_chain _ _ _ H Hno Hin Hne) as [cs [Ec [F [N [Hm _]]]]].
  unfold dispatch in E. rewrite Ec, prox_last in E by exact F. symmetry.
  refine (all_reader _ rate bxid cs F h_handle _ _ s m s' p r E Logic.I).
  - intros Hx. apply Hp. apply Hm in Hx; [exact Hx|right; right; reflexivity].
  - intros s0 m0 s1 p1 r1 E1 _. injection E1 as <- <- <-. reflexivity.
Qed.
Print Assumptions C105_sequential.

(** Echo requests (C14 for every class): with AutoEchoChannel before
    ControllerChannel they are all answered; ... *)
Theorem C105_echo_partial : forall l t d rate bxid s m v, accepted l t -> no_override "handle_proxy" l ->
  In "OpenflowServerChannel" (mro t d) -> no_element t d ->
  before (mro t d) "AutoEchoChannel" "ControllerChannel" ->
  (8 <= length m)%nat -> bytes_ok m -> is_echo m = true ->
  k_version s = Some v -> (0 <= v < 256)%Z -> (0 <= bxid < 2 ^ 32)%Z ->
  exists s' sepa, dispatch t d rate bxid s m = (s', (Reader, Swallowed)) /\ k_wire s' = k_wire s ++ sepa ++ [echo_reply v m] /\
    (sepa = [] \/ exists b, sepa = [b] /\ separator (Some v) bxid = Some b).
Proof.
  intros l t d rate bxid s m v H Hno Hin Hne Hb Hl Hbo He Hv Hr Hx.
  destruct (proxy_chain _ _ _ H Hno Hin Hne) as [cs [Ec [F [N [Hm Ho]]]]].
  unfold dispatch. rewrite Ec, prox_last by exact F.
  assert (Hbc : before cs "AutoEchoChannel" "ControllerChannel") by (apply Ho; [left; reflexivity|right; left; reflexivity|exact Hb]).
  destruct (echo_before (has_attr t d "handle_async") rate bxid cs F N) with (h := h_handle) as [next ->].
  - destruct Hbc as [q1 [q2 [q3 ->]]]. apply in_or_app. right. left. reflexivity.
  - intros Hc. exact (before_asym _ _ _ N Hc Hbc).
  - assert (E := echo_first false bxid s m v Hl Hbo He Hv Hr Hx). unfold echo_then_controller, echo_layer in E. unfold echo_proxy.
    destruct m as [|b0 m]; [cbn in Hl; lia|]. rewrite parse_header_spec in * by exact Hl. cbn [h_type] in *. unfold is_echo in He. rewrite He in *.
    destruct (packs _ _) as [q|e]; [|destruct E; discriminate].
    destruct (locked_send _ _ _ _ _ _) as [s1 [u|e]]; [|destruct E; discriminate].
    destruct E as [_ [sepa [E1 E2]]]. exists s1, sepa. auto.
Qed.
Print Assumptions C105_echo_partial.

(** ... with ControllerChannel first, an outstanding callback takes them. *)
Theorem C105_echo_refuted : forall l t d rate bxid s f q m, accepted l t -> no_override "handle_proxy" l ->
  In "OpenflowServerChannel" (mro t d) -> no_element t d ->
  before (mro t d) "ControllerChannel" "AutoEchoChannel" ->
  (8 <= length m)%nat -> is_echo m = true -> k_seq s = SChunk (Some f) :: q -> ~ In f (k_dead s) ->
  dispatch t d rate bxid s m = (s, (Reader, ToCallback f)).
Proof.
  intros l t d rate bxid s f q m H Hno Hin Hne Hb Hl He Hq Hf.
  destruct (proxy_chain _ _ _ H Hno Hin Hne) as [cs [Ec [F [N [Hm Ho]]]]].
  unfold dispatch. rewrite Ec, prox_last by exact F.
  assert (Hbc : before cs "ControllerChannel" "AutoEchoChannel") by (apply Ho; [right; left; reflexivity|left; reflexivity|exact Hb]).
  destruct (ctl_before (has_attr t d "handle_async") rate bxid cs F N Hbc h_handle) as [r [h' ->]].
  assert (E := echo_swallowed_by_callback (has_attr t d "handle_async") bxid s f q m Hl He Hq Hf). unfold controller_then_echo in E.
  cbn [proxied]. change (String.eqb "ControllerChannel" "AutoEchoChannel") with false.
  change (String.eqb "ControllerChannel" "ControllerChannel") with true. cbv beta iota.
  assert (K : intercept (has_attr t d "handle_async") s m = (s, ToCallback f)).
  { destruct (intercept (has_attr t d "handle_async") s m) as [s1 o1]. destruct o1; try exact E; exfalso; revert E; clear -He Hl;
      unfold echo_layer; (destruct m as [|b0 m]; [cbn in Hl; lia|]); rewrite parse_header_spec by exact Hl; cbn [h_type];
      unfold is_echo in He; rewrite He; destruct (packs _ _) as [z|e]; try discriminate;
      destruct (locked_send _ _ _ _ _ _) as [s2 [u|e]]; discriminate. }
  rewrite K. reflexivity.
Qed.
Print Assumptions C105_echo_refuted.

(** twink/__main__.py:16 and twink/ovs.py:175-184 have the second order. *)
Example C105_echo_example : exists t,
  define_all repo_tab
    [mkCls "TcpChannel" ["ControllerChannel"; "AutoEchoChannel"; "LoggingChannel"] ["accept_versions"; "handle"] [] [] [];
     mkCls "TestChannel" ["AutoPacketOut"; "OvsChannel"; "JackinChannel"; "AutoEchoChannel"; "ParallelChannel"; "LoggingChannel"]
       ["accept_versions"; "handle"] [] [] [];
     mkCls "Good" ["AutoEchoChannel"; "JackinChannel"] ["handle"] [] [] []] = Some t /\
  before (mro t "TcpChannel") "ControllerChannel" "AutoEchoChannel" /\
  before (mro t "TestChannel") "ControllerChannel" "AutoEchoChannel" /\
  before (mro t "Good") "AutoEchoChannel" "ControllerChannel".
Proof.
  eexists. split; [vm_compute; reflexivity|].
  split; [|split]; apply after_before; apply memb_in; vm_compute; reflexivity.
Qed.

(** *** C106: the log and the wire *)

(** LoggingChannel, not before ControllerChannel: what is logged is what is
    written, whatever is sent, separating barriers included. *)
Theorem C106_log_partial : forall l t d k xs, accepted l t -> no_override "send" l ->
  In "Channel" (mro t d) -> no_element t d -> In "LoggingChannel" (mro t d) ->
  ~ before (mro t d) "LoggingChannel" "ControllerChannel" ->
  n_log (sends_on t d k xs) = n_out (sends_on t d k xs).
Proof.
  intros l t d k xs H Hno Hin Hne Hl Hb. destruct (send_chain _ _ _ H Hno Hin Hne) as [cs [Ec [F [N [Hm Ho]]]]].
  destruct (sends_same t d cs Ec F N) with (xs := xs) (s := mkSnd k [] []) as [x [X1 X2]].
  - apply Hm; [left; reflexivity|exact Hl].
  - intros Hx. apply Hb. apply Ho; [left; reflexivity|right; left; reflexivity|exact Hx].
  - unfold sends_on. rewrite X1, X2. reflexivity.
Qed.
Print Assumptions C106_log_partial.

(** Before ControllerChannel: what is logged is what the application sent, ... *)
Theorem C106_log_application : forall l t d k xs, accepted l t -> no_override "send" l ->
  In "Channel" (mro t d) -> no_element t d ->
  before (mro t d) "LoggingChannel" "ControllerChannel" ->
  n_log (sends_on t d k xs) = map (fun x => snd (fst x)) xs.
Proof.
  intros l t d k xs H Hno Hin Hne Hb. destruct (send_chain _ _ _ H Hno Hin Hne) as [cs [Ec [F [N [Hm Ho]]]]].
  unfold sends_on. rewrite (sends_app t d cs Ec F N); [reflexivity|]. apply Ho; [left; reflexivity|right; left; reflexivity|exact Hb].
Qed.
Print Assumptions C106_log_application.

Definition log_cls : cls := mkCls "App" ["LoggingChannel"; "ControllerChannel"] ["handle"] [] [] [].
Definition log_tab : ctab := match define_all repo_tab [log_cls] with Some t => t | None => [] end.
Definition two_requests : list (option nat * bytes * Z) :=
  [(Some 1, [4; 5; 0; 8; 0; 0; 0; 1]%Z, 100%Z); (Some 2, [4; 7; 0; 8; 0; 0; 0; 2]%Z, 101%Z)].

(** ... and the barrier that the channel puts between two requests is on the wire but not in the log. *)
Theorem C106_log_refuted :
  accepted [log_cls] log_tab /\ no_override "send" [log_cls] /\
  n_log (sends_on log_tab "App" (mkCch [] [] (Some 4%Z) [] None None) two_requests) =
    [[4; 5; 0; 8; 0; 0; 0; 1]; [4; 7; 0; 8; 0; 0; 0; 2]]%Z /\
  n_out (sends_on log_tab "App" (mkCch [] [] (Some 4%Z) [] None None) two_requests) =
    [[4; 5; 0; 8; 0; 0; 0; 1]; [4; 20; 0; 8; 0; 0; 0; 101]; [4; 7; 0; 8; 0; 0; 0; 2]]%Z.
Proof.
  split; [vm_compute; reflexivity|]. split; [constructor; [apply memb_out; vm_compute; reflexivity|constructor]|].
  split; vm_compute; reflexivity.
Qed.
Print Assumptions C106_log_refuted.
Definition hub2_tab : ctab := match define_all repo_tab
  [mkCls "TestChannel" ["PortMonitorChannel"; "OvsChannel"; "JackinChannel"; "LoggingChannel"]
     ["accept_versions"; "init"; "handle_async"; "handle"] [] [] []] with Some t => t | None => [] end.
Example C106_log_example :
  memb "LoggingChannel" (after "ControllerChannel" (mro hub2_tab "TestChannel")) = true /\
  n_log (sends_on hub2_tab "TestChannel" (mkCch [] [] (Some 4%Z) [] None None) two_requests) =
    [[4; 5; 0; 8; 0; 0; 0; 1]; [4; 20; 0; 8; 0; 0; 0; 101]; [4; 7; 0; 8; 0; 0; 0; 2]]%Z.
Proof. split; vm_compute; reflexivity. Qed.
