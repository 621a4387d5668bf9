(** Proofs about the example programs. *)

From Coq Require Import Lia DecimalString Decimal DecimalZ DecimalFacts.
From Verif Require Import Py Struct P_Struct M_Example S_Hello S_Oxm S_Wire4 S_Msg4 S_Bess S_Hub
  P_Oxm P_Wire4 P_Msg4 P_MsgParse4 P_Bess P_Bess2.
Local Open Scope Z_scope.
Local Open Scope list_scope.

Ltac lits := repeat match goal with
  |- context [ascii_bytes ?s] => let v := eval vm_compute in (ascii_bytes s) in
       match v with _ :: _ => change (ascii_bytes s) with v end end.

(** *** Texts *)

Lemma beq_eq a : forall b, beq a b = true <-> a = b.
Proof.
  induction a as [|x a IH]; intros [|y b]; cbn; try (split; congruence).
  rewrite Bool.andb_true_iff, IH, Z.eqb_eq. split; [intros [-> ->]; reflexivity|intros [= -> ->]; auto].
Qed.
Lemma beq_refl a : beq a a = true.
Proof. apply beq_eq. reflexivity. Qed.

Lemma hex_digit_in d : 0 <= d < 16 -> existsb (fun e => fst e =? hex_digit d) hex_digits = true /\ hex_value (hex_digit d) = d /\ 48 <= hex_digit d <= 102.
Proof.
  intros H. assert (C : d = 0 \/ d = 1 \/ d = 2 \/ d = 3 \/ d = 4 \/ d = 5 \/ d = 6 \/ d = 7 \/ d = 8 \/ d = 9 \/ d = 10 \/ d = 11 \/ d = 12 \/ d = 13 \/ d = 14 \/ d = 15) by lia.
  repeat (destruct C as [->|C]; [vm_compute; repeat split; discriminate|]). subst. vm_compute. repeat split; discriminate.
Qed.
Lemma hex_pair2 b : 0 <= b < 256 -> hex_pair (hex_digit (b / 16)) (hex_digit (b mod 16)) = Some b.
Proof.
  intros H. assert (0 <= b / 16 < 16) as A by (split; [apply Z.div_pos; lia|apply Z.div_lt_upper_bound; lia]).
  assert (0 <= b mod 16 < 16) as B by (apply Z.mod_pos_bound; lia).
  destruct (hex_digit_in _ A) as (A1 & A2 & _). destruct (hex_digit_in _ B) as (B1 & B2 & _).
  unfold hex_pair. rewrite A1, B1, A2, B2. cbn. f_equal. pose proof (Z.div_mod b 16). lia.
Qed.
Lemma hex2_clean b : 0 <= b < 256 -> Forall (fun c => 48 <= c <= 102) (hex2 b).
Proof.
  intros H. assert (0 <= b / 16 < 16) as A by (split; [apply Z.div_pos; lia|apply Z.div_lt_upper_bound; lia]).
  assert (0 <= b mod 16 < 16) as B by (apply Z.mod_pos_bound; lia).
  destruct (hex_digit_in _ A) as (_ & _ & A2). destruct (hex_digit_in _ B) as (_ & _ & B2).
  unfold hex2. repeat constructor; lia.
Qed.
Definition mac_text (a : bytes) : bytes := joins (ascii_bytes ":") (map hex2 a).
Lemma mac_clean a : mac a -> Forall (fun c => 48 <= c <= 102) (mac_text a).
Proof.
  intros [_ H]. unfold mac_text. lits. induction H as [|b a Hb Ha IH]; cbn [map joins]; [constructor|].
  destruct a as [|b' a]; cbn [map] in *; [apply hex2_clean; auto|]. apply Forall_app. split; [apply hex2_clean; auto|].
  constructor; [lia|]. exact IH.
Qed.
Lemma address_mac a : mac a -> six (address (mac_text a)) = Some a.
Proof.
  intros [L H]. destruct a as [|a1 [|a2 [|a3 [|a4 [|a5 [|a6 [|]]]]]]]; try discriminate L.
  repeat match goal with H : Forall _ (_ :: _) |- _ => inversion H; clear H; subst end.
  unfold mac_text. lits. cbn [map joins hex2 Datatypes.app address Z.eqb Pos.eqb].
  rewrite !hex_pair2 by assumption. reflexivity.
Qed.

Fixpoint uval (n : Z) (u : uint) : Z :=
  match u with
  | Nil => n
  | D0 l => uval (10 * n) l | D1 l => uval (10 * n + 1) l | D2 l => uval (10 * n + 2) l | D3 l => uval (10 * n + 3) l
  | D4 l => uval (10 * n + 4) l | D5 l => uval (10 * n + 5) l | D6 l => uval (10 * n + 6) l | D7 l => uval (10 * n + 7) l
  | D8 l => uval (10 * n + 8) l | D9 l => uval (10 * n + 9) l
  end.
Lemma ascii_cons a s : ascii_bytes (String a s) = Z.of_nat (Ascii.nat_of_ascii a) :: ascii_bytes s.
Proof. reflexivity. Qed.
Lemma uval_text u : forall n, number_ n (ascii_bytes (NilEmpty.string_of_uint u)) = Some (uval n u).
Proof.
  induction u as [|u IH|u IH|u IH|u IH|u IH|u IH|u IH|u IH|u IH|u IH]; intros n; [reflexivity|..];
  cbn [NilEmpty.string_of_uint uval]; rewrite ascii_cons;
  match goal with |- number_ _ (?c :: _) = _ => let v := eval vm_compute in c in change c with v end;
  cbn [number_]; match goal with |- match ?c with _ => _ end = _ => let v := eval vm_compute in c in change c with v end;
  cbv beta iota; rewrite IH; f_equal; f_equal; lia.
Qed.
Lemma uval_acc u : forall p, Z.pos (Pos.of_uint_acc u p) = uval (Z.pos p) u.
Proof. induction u; intros p; cbn [Pos.of_uint_acc uval]; rewrite ?IHu; try reflexivity; f_equal; lia. Qed.
Lemma uval_z u : Z.of_N (Pos.of_uint u) = uval 0 u.
Proof. induction u; cbn [Pos.of_uint uval]; auto; try (cbn [Z.of_N]; rewrite uval_acc; reflexivity). Qed.
Lemma dec_uint z : 0 <= z -> exists u, Z.to_int z = Pos u /\ uval 0 u = z.
Proof.
  intros H. pose proof (DecimalZ.of_to z) as E. destruct (Z.to_int z) as [u|u] eqn:T.
  - exists u. split; auto. rewrite <- uval_z. exact E.
  - exfalso. destruct z; cbn in T; try discriminate. lia.
Qed.
Lemma number_dec z : 0 <= z -> number (dec z) = Some z.
Proof.
  intros H. destruct (dec_uint z H) as (u & E & V). unfold dec. rewrite E. cbn [NilZero.string_of_int NilZero.string_of_uint].
  destruct u; [cbn in V; subst; reflexivity|..]; rewrite <- V, <- uval_text; reflexivity.
Qed.
Lemma dec_clean z : 0 <= z -> Forall (fun c => 48 <= c <= 57) (dec z) /\ dec z <> [].
Proof.
  intros H. destruct (dec_uint z H) as (u & E & _). unfold dec. rewrite E. cbn [NilZero.string_of_int NilZero.string_of_uint].
  assert (K : forall u, Forall (fun c => 48 <= c <= 57) (ascii_bytes (NilEmpty.string_of_uint u))).
  { clear. induction u; cbn [NilEmpty.string_of_uint]; rewrite ?ascii_cons; constructor; auto; vm_compute; split; discriminate. }
  destruct u; (split; [apply K || (vm_compute; repeat constructor; discriminate)|cbn; discriminate]).
Qed.

Definition plain (c : Z) : Prop := c <> 44 /\ c <> 32.
Lemma words_word w : Forall plain w -> forall cur l, words_ cur (w ++ l) = words_ (cur ++ w) l.
Proof.
  induction 1 as [|c w [A B] _ IH]; intros cur l; [rewrite app_nil_r; reflexivity|].
  cbn [Datatypes.app words_]. destruct (Z.eqb_spec c 44), (Z.eqb_spec c 32); try contradiction. cbn [orb]. rewrite IH, <- app_assoc. reflexivity.
Qed.
Lemma mac_plain a : mac a -> Forall plain (mac_text a).
Proof. intros H. eapply Forall_impl; [|apply mac_clean; exact H]. unfold plain. intros c Hc. cbn in Hc. lia. Qed.
Lemma dec_plain z : 0 <= z -> Forall plain (dec z).
Proof. intros H. eapply Forall_impl; [|apply (dec_clean z H)]. unfold plain. intros c Hc. cbn in Hc. lia. Qed.
Lemma cut_none c l : Forall (fun x => x <> c) l -> cut c l = None.
Proof. induction 1 as [|x l H _ IH]; cbn; auto. destruct (Z.eqb_spec x c); [contradiction|]. rewrite IH. reflexivity. Qed.

(** *** Flows *)
Lemma words_end w : w <> [] -> Forall plain w -> forall cur, words_ cur w = [cur ++ w].
Proof.
  intros N H cur. rewrite <- (app_nil_r w) at 1. rewrite words_word by auto. cbn. destruct (cur ++ w) eqn:E; auto.
  apply app_eq_nil in E. destruct E. contradiction.
Qed.
Definition rule0 (a : bytes) (p : Z) : bytes :=
  ascii_bytes "table=0,priority=2,idle_timeout=300,  dl_src=" ++ mac_text a ++ ascii_bytes ",in_port=" ++ dec p ++ ascii_bytes ",  actions=goto_table:1".
Definition rule1 (a : bytes) (p : Z) : bytes :=
  ascii_bytes "table=1,priority=2,idle_timeout=300,  dl_dst=" ++ mac_text a ++ ascii_bytes ",  actions=output:" ++ dec p.
Lemma words_sep w l : w <> [] -> Forall plain w -> words_ [] (w ++ 44 :: l) = w :: words_ [] l.
Proof. intros N H. rewrite words_word by exact H. destruct w; [exfalso; apply N; reflexivity|]. reflexivity. Qed.
Lemma words_gap l : words_ [] (32 :: 32 :: l) = words_ [] l.
Proof. reflexivity. Qed.
Lemma plain_dec w : forallb (fun c => negb (c =? 44) && negb (c =? 32)) w = true -> Forall plain w.
Proof.
  intros H. rewrite forallb_forall in H. apply Forall_forall. intros c Hc. specialize (H c Hc).
  apply andb_prop in H. destruct H as [A B]. unfold plain. split; intros ->; discriminate.
Qed.
Lemma plain_app a b : Forall plain a -> Forall plain b -> Forall plain (a ++ b).
Proof. intros. apply Forall_app. auto. Qed.
Ltac pl := first [discriminate | apply plain_dec; vm_compute; reflexivity
  | apply plain_app; [apply plain_dec; vm_compute; reflexivity|first [apply mac_plain|apply dec_plain]; assumption]].

Lemma rule0_words a p : mac a -> 0 <= p -> words (rule0 a p) =
  [ascii_bytes "table=0"; ascii_bytes "priority=2"; ascii_bytes "idle_timeout=300"; ascii_bytes "dl_src=" ++ mac_text a;
   ascii_bytes "in_port=" ++ dec p; ascii_bytes "actions=goto_table:1"].
Proof.
  intros Ha Hp. unfold words.
  transitivity (words_ [] (ascii_bytes "table=0" ++ 44 :: ascii_bytes "priority=2" ++ 44 :: ascii_bytes "idle_timeout=300" ++ 44 :: 32 :: 32 ::
    (ascii_bytes "dl_src=" ++ mac_text a) ++ 44 :: (ascii_bytes "in_port=" ++ dec p) ++ 44 :: 32 :: 32 :: ascii_bytes "actions=goto_table:1")).
  { reflexivity. }
  rewrite !words_sep, !words_gap, words_sep, words_sep by pl. rewrite words_gap, words_end by pl. reflexivity.
Qed.
Lemma rule1_words a p : mac a -> 0 <= p -> words (rule1 a p) =
  [ascii_bytes "table=1"; ascii_bytes "priority=2"; ascii_bytes "idle_timeout=300"; ascii_bytes "dl_dst=" ++ mac_text a;
   ascii_bytes "actions=output:" ++ dec p].
Proof.
  intros Ha Hp. unfold words.
  transitivity (words_ [] (ascii_bytes "table=1" ++ 44 :: ascii_bytes "priority=2" ++ 44 :: ascii_bytes "idle_timeout=300" ++ 44 :: 32 :: 32 ::
    (ascii_bytes "dl_dst=" ++ mac_text a) ++ 44 :: 32 :: 32 :: (ascii_bytes "actions=output:" ++ dec p))).
  { reflexivity. }
  rewrite !words_sep, !words_gap, words_sep by pl. rewrite words_gap, words_end by pl. reflexivity.
Qed.
(** One word of a rule. *)
Ltac keys := repeat match goal with |- context [beq (ascii_bytes ?a) (ascii_bytes ?b)] =>
  let v := eval vm_compute in (beq (ascii_bytes a) (ascii_bytes b)) in change (beq (ascii_bytes a) (ascii_bytes b)) with v end; cbv beta iota.
Ltac word E := cbn [read_words]; rewrite E; cbv zeta; keys.
Section Words.
Context (f : flow) (w v : bytes) (ws : list bytes).
Lemma rw_table n : cut 61 w = Some (ascii_bytes "table", v) -> number v = Some n ->
  read_words f (w :: ws) = read_words (mkFlow n (f_prio f) (f_idle f) (f_in f) (f_src f) (f_dst f) []) ws.
Proof. intros E N. word E. rewrite N. reflexivity. Qed.
Lemma rw_prio n : cut 61 w = Some (ascii_bytes "priority", v) -> number v = Some n ->
  read_words f (w :: ws) = read_words (mkFlow (f_table f) n (f_idle f) (f_in f) (f_src f) (f_dst f) []) ws.
Proof. intros E N. word E. rewrite N. reflexivity. Qed.
Lemma rw_idle n : cut 61 w = Some (ascii_bytes "idle_timeout", v) -> number v = Some n ->
  read_words f (w :: ws) = read_words (mkFlow (f_table f) (f_prio f) n (f_in f) (f_src f) (f_dst f) []) ws.
Proof. intros E N. word E. rewrite N. reflexivity. Qed.
Lemma rw_in n : cut 61 w = Some (ascii_bytes "in_port", v) -> number v = Some n ->
  read_words f (w :: ws) = read_words (mkFlow (f_table f) (f_prio f) (f_idle f) (Some n) (f_src f) (f_dst f) []) ws.
Proof. intros E N. word E. rewrite N. reflexivity. Qed.
Lemma rw_src a : cut 61 w = Some (ascii_bytes "dl_src", v) -> six (address v) = Some a ->
  read_words f (w :: ws) = read_words (mkFlow (f_table f) (f_prio f) (f_idle f) (f_in f) (Some a) (f_dst f) []) ws.
Proof. intros E N. word E. rewrite N. reflexivity. Qed.
Lemma rw_dst a : cut 61 w = Some (ascii_bytes "dl_dst", v) -> cut 47 v = None -> six (address v) = Some a ->
  read_words f (w :: ws) = read_words (mkFlow (f_table f) (f_prio f) (f_idle f) (f_in f) (f_src f) (Some (a, repeat 255 6)) []) ws.
Proof. intros E C N. word E. rewrite C, N. reflexivity. Qed.
Lemma rw_acts acts : cut 61 w = Some (ascii_bytes "actions", v) -> read_acts (v :: ws) = Some acts ->
  read_words f (w :: ws) = Some (mkFlow (f_table f) (f_prio f) (f_idle f) (f_in f) (f_src f) (f_dst f) acts).
Proof. intros E N. word E. rewrite N. reflexivity. Qed.
End Words.

Lemma cut_lit k c v : Forall (fun x => x <> c) k -> cut c (k ++ c :: v) = Some (k, v).
Proof.
  intros H. induction H as [|x k N _ IH]; cbn [Datatypes.app cut]; [rewrite Z.eqb_refl; reflexivity|].
  destruct (Z.eqb_spec x c); [contradiction|]. rewrite IH. reflexivity.
Qed.
Lemma cut_src t : cut 61 (ascii_bytes "dl_src=" ++ t) = Some (ascii_bytes "dl_src", t).
Proof. apply (cut_lit (ascii_bytes "dl_src") 61 t). vm_compute. repeat constructor; discriminate. Qed.
Lemma cut_dst t : cut 61 (ascii_bytes "dl_dst=" ++ t) = Some (ascii_bytes "dl_dst", t).
Proof. apply (cut_lit (ascii_bytes "dl_dst") 61 t). vm_compute. repeat constructor; discriminate. Qed.
Lemma cut_in t : cut 61 (ascii_bytes "in_port=" ++ t) = Some (ascii_bytes "in_port", t).
Proof. apply (cut_lit (ascii_bytes "in_port") 61 t). vm_compute. repeat constructor; discriminate. Qed.
Lemma cut_actions t : cut 61 (ascii_bytes "actions=output:" ++ t) = Some (ascii_bytes "actions", ascii_bytes "output:" ++ t).
Proof. apply (cut_lit (ascii_bytes "actions") 61 (ascii_bytes "output:" ++ t)). vm_compute. repeat constructor; discriminate. Qed.
Lemma cut_bucket t : cut 61 (ascii_bytes "bucket=output:" ++ t) = Some (ascii_bytes "bucket", ascii_bytes "output:" ++ t).
Proof. apply (cut_lit (ascii_bytes "bucket") 61 (ascii_bytes "output:" ++ t)). vm_compute. repeat constructor; discriminate. Qed.
Lemma read_output p : 0 <= p -> read_act (ascii_bytes "output:" ++ dec p) = Some (Output p).
Proof.
  intros H. unfold read_act.
  assert (E : beq (ascii_bytes "output:" ++ dec p) (ascii_bytes "controller") = false) by reflexivity. rewrite E.
  pose proof (cut_lit (ascii_bytes "output") 58 (dec p)) as C.
  change (ascii_bytes "output" ++ 58 :: dec p) with (ascii_bytes "output:" ++ dec p) in C.
  rewrite C by (vm_compute; repeat constructor; discriminate). rewrite (number_dec p H). keys. reflexivity.
Qed.
Lemma read_rule0 a p : mac a -> 0 <= p -> read_rule (rule0 a p) = Some (L0 a p).
Proof.
  intros Ha Hp. unfold read_rule. rewrite rule0_words by assumption.
  rewrite (rw_table _ _ (ascii_bytes "0") _ 0), (rw_prio _ _ (ascii_bytes "2") _ 2), (rw_idle _ _ (ascii_bytes "300") _ 300) by reflexivity.
  rewrite (rw_src _ _ _ _ a (cut_src _) (address_mac a Ha)), (rw_in _ _ _ _ p (cut_in _) (number_dec p Hp)).
  rewrite (rw_acts _ _ (ascii_bytes "goto_table:1") _ [Goto 1]) by reflexivity. reflexivity.
Qed.
Lemma read_rule1 a p : mac a -> 0 <= p -> read_rule (rule1 a p) = Some (L1 a p).
Proof.
  intros Ha Hp. unfold read_rule. rewrite rule1_words by assumption.
  rewrite (rw_table _ _ (ascii_bytes "1") _ 1), (rw_prio _ _ (ascii_bytes "2") _ 2), (rw_idle _ _ (ascii_bytes "300") _ 300) by reflexivity.
  rewrite (rw_dst _ _ _ _ a (cut_dst _)); [|apply cut_none; eapply Forall_impl; [|apply mac_clean; exact Ha]; cbn; intros; lia|exact (address_mac a Ha)].
  rewrite (rw_acts _ _ (ascii_bytes "output:" ++ dec p) _ [Output p]); [reflexivity|apply cut_actions|].
  cbn [read_acts]. rewrite (read_output p Hp). reflexivity.
Qed.
Lemma read_base : read_rule (ascii_bytes "table=0,priority=1,  actions=controller,goto_table:1") = Some B0 /\
  read_rule (ascii_bytes "table=1,priority=3,  dl_dst=01:00:00:00:00:00/01:00:00:00:00:00,  actions=group:1") = Some B1 /\
  read_rule (ascii_bytes "table=1,priority=1,  actions=group:1") = Some B2.
Proof. vm_compute. auto. Qed.

Definition bucket_text (p : Z) : bytes := ascii_bytes "bucket=output:" ++ dec p.
Lemma bucket_plain p : 0 <= p -> Forall plain (bucket_text p) /\ bucket_text p <> [].
Proof. intros H. split; [unfold bucket_text; pl|discriminate]. Qed.
Lemma words_buckets ps : Forall (fun p => 0 <= p) ps -> words_ [] (joins (ascii_bytes ",") (map bucket_text ps)) = map bucket_text ps.
Proof.
  induction 1 as [|p ps H Hs IH]; [reflexivity|]. destruct (bucket_plain p H) as [P N]. cbn [map joins].
  destruct ps as [|q ps]; [cbn [map]; rewrite words_end by assumption; reflexivity|]. cbn [map] in *.
  change (ascii_bytes ",") with [44] in *. cbn [Datatypes.app]. rewrite words_sep by assumption. rewrite IH. reflexivity.
Qed.
Lemma read_buckets_eq ps : Forall (fun p => 0 <= p) ps -> read_buckets (map bucket_text ps) = Some ps.
Proof.
  induction 1 as [|p ps H Hs IH]; [reflexivity|]. cbn [map read_buckets]. unfold bucket_text at 1. rewrite cut_bucket. keys.
  rewrite (read_output p H), IH. reflexivity.
Qed.
Lemma read_group_eq ps : Forall (fun p => 0 <= p) ps ->
  read_group (ascii_bytes "group_id=1,type=all," ++ joins (ascii_bytes ",") (map bucket_text ps)) = Some (1, ps).
Proof.
  intros H. unfold read_group, words.
  change (ascii_bytes "group_id=1,type=all," ++ joins (ascii_bytes ",") (map bucket_text ps)) with
    (ascii_bytes "group_id=1" ++ 44 :: ascii_bytes "type=all" ++ 44 :: joins (ascii_bytes ",") (map bucket_text ps)).
  rewrite !words_sep by pl. rewrite words_buckets by exact H.
  change (cut 61 (ascii_bytes "group_id=1")) with (Some (ascii_bytes "group_id", ascii_bytes "1")). cbv beta iota. keys.
  change (number (ascii_bytes "1")) with (Some 1). rewrite read_buckets_eq by exact H. reflexivity.
Qed.
