(** Proofs about the enumerations. *)

From Coq Require Import Permutation.
From Verif Require Import M_Enum S_Enum.
Local Open Scope Z_scope.
Local Open Scope list_scope.

(** *** Words *)

Lemma white_blank a : white a = true <-> blank a.
Proof.
  unfold white, blank. cbn [In]. set (n := nat_of_ascii a).
  rewrite orb_true_iff, andb_true_iff, !Nat.leb_le, Nat.eqb_eq. lia.
Qed.

Lemma not_white a : ~ blank a -> white a = false.
Proof. intros H. destruct (white a) eqn:E; [|reflexivity]. apply white_blank in E. contradiction. Qed.

Lemma app_empty s : (s ++ "")%string = s.
Proof. induction s as [|a s IH]; cbn; congruence. Qed.

Lemma app_assoc_s a b c : ((a ++ b) ++ c)%string = (a ++ b ++ c)%string.
Proof. induction a as [|x a IH]; cbn; congruence. Qed.

Lemma split_blanks bs s : all blank bs -> split_go "" (bs ++ s) = split_go "" s.
Proof.
  induction bs as [|a bs IH]; cbn [all append split_go]; [reflexivity|].
  intros (Ha & Hb). rewrite (proj2 (white_blank a) Ha). apply IH, Hb.
Qed.

Lemma split_run w : forall cur rest, all (fun a => ~ blank a) w ->
  split_go cur (w ++ rest) = split_go (cur ++ w) rest.
Proof.
  induction w as [|a w IH]; cbn [all append split_go]; intros cur rest; [rewrite app_empty; reflexivity|].
  intros (Ha & Hw). rewrite (not_white _ Ha), IH by exact Hw. rewrite app_assoc_s. reflexivity.
Qed.

Lemma split_flush w rest : w <> ""%string -> (rest = ""%string \/ exists a r, rest = String a r /\ blank a) ->
  split_go w rest = w :: split_go "" rest.
Proof.
  intros Hw [->|(a & r & -> & Ha)]; cbn [split_go].
  - destruct w; [congruence|reflexivity].
  - rewrite (proj2 (white_blank a) Ha). destruct w; [congruence|reflexivity].
Qed.

Lemma spells_split s ws : spells s ws -> split s = ws.
Proof.
  unfold split. induction 1 as [s Hs|bs w rest ws Hb Hw Hn Hr _ IH].
  - rewrite <- (app_empty s), split_blanks by exact Hs. reflexivity.
  - rewrite split_blanks by exact Hb. rewrite split_run by exact Hn. cbn [append].
    rewrite split_flush by assumption. f_equal. exact IH.
Qed.

Lemma all_app P a b : all P (a ++ b) <-> all P a /\ all P b.
Proof. induction a as [|x a IH]; cbn; [tauto|]. rewrite IH. tauto. Qed.

Lemma spells_blank a s ws : blank a -> spells s ws -> spells (String a s) ws.
Proof.
  intros Ha H. destruct H as [s Hs|bs w rest ws Hb Hw Hn Hr Hs].
  - constructor. cbn; auto.
  - apply (spells_word (String a bs)); cbn; auto.
Qed.

Lemma split_spells_go s : forall cur, all (fun a => ~ blank a) cur -> spells (cur ++ s) (split_go cur s).
Proof.
  induction s as [|a s IH]; intros cur Hc; cbn [split_go].
  - rewrite app_empty. destruct cur as [|c cur]; [constructor; exact I|].
    replace (String c cur) with ("" ++ String c cur ++ "")%string at 1 by (cbn; rewrite app_empty; reflexivity).
    apply spells_word; cbn; auto; try discriminate. constructor. exact I.
  - destruct (white a) eqn:W.
    + apply white_blank in W. destruct cur as [|c cur].
      * apply spells_blank; [exact W|]. apply (IH ""%string). exact I.
      * apply (spells_word "" (String c cur) (String a s)); cbn; auto; try discriminate.
        -- right. eauto.
        -- apply spells_blank; [exact W|]. apply (IH ""%string). exact I.
    + replace (cur ++ String a s)%string with ((cur ++ String a "") ++ s)%string by (rewrite app_assoc_s; reflexivity).
      apply IH. rewrite all_app. cbn. split; [exact Hc|]. split; [|exact I].
      intros B. apply white_blank in B. congruence.
Qed.

Lemma split_spells s : spells s (split s).
Proof. apply (split_spells_go s ""). exact I. Qed.

Lemma nth_word_split s i w : nth_word s i w <-> nth_error (split s) i = Some w.
Proof.
  split.
  - intros (ws & H & E). rewrite (spells_split _ _ H). exact E.
  - intros E. exists (split s). split; [apply split_spells|exact E].
Qed.

(** *** The items are the constants *)

Lemma in_count v ks : forall k x, In (k, x) (count_from v ks) <-> exists i, nth_error ks i = Some k /\ x = v + Z.of_nat i.
Proof.
  revert v. induction ks as [|k0 ks IH]; intros v k x; cbn [count_from In].
  - split; [tauto|]. intros (i & E & _). destruct i; discriminate.
  - rewrite IH. split.
    + intros [E|(i & E & ->)].
      * injection E as -> ->. exists 0%nat. split; [reflexivity|lia].
      * exists (S i). split; [exact E|lia].
    + intros (i & E & ->). destruct i as [|i]; cbn in E.
      * left. injection E as ->. f_equal. lia.
      * right. exists i. split; [exact E|lia].
Qed.

Lemma in_src s k v : In (k, v) (src_items (Some s)) <-> stands s k v.
Proof.
  destruct s as [s|l]; cbn [src_items].
  - rewrite in_count. split.
    + intros (i & E & ->). rewrite Z.add_0_l. constructor. apply nth_word_split, E.
    + intros H. inversion H; subst. exists i. split; [apply nth_word_split; assumption|lia].
  - rewrite in_flat_map. split.
    + intros ((ws & v0) & I & C). cbn in C. apply in_count in C. destruct C as (i & E & ->).
      apply (stands_dict l ws v0 i k I). apply nth_word_split, E.
    + intros H. inversion H as [|l' ws v0 i k' I W]; subst. exists (ws, v0). split; [exact I|]. cbn. apply in_count.
      exists i. split; [apply nth_word_split, W|reflexivity].
Qed.

Lemma bit_flag z : bit_of z = flag_value z.
Proof.
  unfold bit_of, flag_value. destruct (Z_lt_dec z 0) as [H|H].
  - replace (z <? 0) with true by lia. reflexivity.
  - replace (z <? 0) with false by lia. rewrite Z.shiftl_mul_pow2 by lia. lia.
Qed.

Lemma in_bits e k v : In (k, v) (items_bitshifts e) <->
  exists s z, bitshifts e = Some s /\ stands s k z /\ v = flag_value z.
Proof.
  unfold items_bitshifts. rewrite in_map_iff. split.
  - intros ((k' & z) & E & I). cbn in E. injection E as <- <-. destruct (bitshifts e) as [s|]; [|destruct I].
    exists s, z. apply in_src in I. rewrite bit_flag. auto.
  - intros (s & z & E & S & ->). exists (k, z). cbn. rewrite bit_flag, E. split; [reflexivity|]. apply in_src, S.
Qed.

Lemma in_items e n v : constant e n v <-> exists k, In (k, v) (items e) /\ n = full e k.
Proof.
  unfold items. split.
  - intros H. destruct H as [s k v E S|s k z E S]; exists k; (split; [|reflexivity]); apply in_or_app.
    + left. rewrite E. apply in_src, S.
    + right. apply in_bits. eauto.
  - intros (k & I & ->). apply in_app_or in I. destruct I as [I|I].
    + destruct (numbers e) as [s|] eqn:E; [|destruct I]. apply in_src in I. apply (constant_number e s); assumption.
    + apply in_bits in I. destruct I as (s & z & E & S & ->). apply (constant_flag e s); assumption.
Qed.

(** *** Names *)

Lemma append_inj p a b : (p ++ a)%string = (p ++ b)%string -> a = b.
Proof. induction p as [|c p IH]; cbn; intros H; [exact H|]. injection H as H. auto. Qed.

Lemma full_inj e a b : full e a = full e b -> a = b.
Proof. unfold full. intros H. apply append_inj in H. cbn in H. injection H as H. exact H. Qed.

Lemma name_sound e v n : name e v = Some n -> constant e n v.
Proof.
  unfold name. destruct (find _ _) as [[k x]|] eqn:F; [|discriminate]. intros E. injection E as <-.
  apply find_some in F. cbn in *. destruct F as (I & E). apply in_items. exists k. split; [|reflexivity].
  replace v with x by lia. exact I.
Qed.

Lemma name_none e v : name e v = None -> forall n, ~ constant e n v.
Proof.
  unfold name. destruct (find _ _) as [kv|] eqn:F; [discriminate|]. intros _ n C.
  apply in_items in C. destruct C as (k & I & _). apply (find_none _ _ F) in I. cbn in I. lia.
Qed.

Lemma name_known e n v : constant e n v -> exists m, name e v = Some m /\ constant e m v.
Proof.
  intros C. destruct (name e v) as [m|] eqn:E.
  - exists m. split; [reflexivity|]. apply name_sound, E.
  - destruct (name_none _ _ E _ C).
Qed.

(** *** Loading *)

Lemma init_items sc e : forall n v, In (n, v) (init sc e) <-> In (n, v) sc \/ constant e n v.
Proof.
  assert (G : forall (l : list (string * Z)) (sc : scope) n v, In (n, v) (fold_left (fun sc kv => (full e (fst kv), snd kv) :: sc) l sc) <->
              In (n, v) sc \/ exists k, In (k, v) l /\ n = full e k).
  { induction l as [|[k x] l IH]; intros sc' n v; cbn [fold_left].
    - split; [auto|]. intros [H|(k & [] & _)]. exact H.
    - rewrite IH. cbn [In fst snd]. split.
      + intros [[E|H]|(k' & H & ->)]; [injection E as <- <-; right; exists k; auto|left; exact H|right; exists k'; auto].
      + intros [H|(k' & [E|H] & ->)]; [auto|injection E as <- <-; auto|right; exists k'; auto]. }
  intros n v. unfold init. rewrite G, in_items. reflexivity.
Qed.

Lemma load_items es : forall sc n v, In (n, v) (load sc es) <-> In (n, v) sc \/ exists e, In e es /\ constant e n v.
Proof.
  unfold load. induction es as [|e es IH]; intros sc n v; cbn [fold_left].
  - split; [auto|]. intros [H|(e & [] & _)]. exact H.
  - rewrite IH, init_items. cbn [In]. split.
    + intros [[H|H]|(e' & I & C)]; eauto 6.
    + intros [H|(e' & [<-|I] & C)]; eauto 6.
Qed.

Lemma global_in sc n v : global sc n = Some v -> In (n, v) sc.
Proof.
  induction sc as [|[k x] sc IH]; cbn; [discriminate|]. destruct (String.eqb_spec k n) as [->|N]; intros E.
  - injection E as ->. auto.
  - auto.
Qed.

Lemma in_global sc n v : In (n, v) sc -> exists w, global sc n = Some w.
Proof.
  induction sc as [|[k x] sc IH]; cbn; [tauto|]. intros [E|I]; destruct (String.eqb_spec k n) as [->|N]; eauto.
  injection E as -> ->. congruence.
Qed.

(** *** Order of dictionaries *)

Lemma stands_walked s s' : src_walked s s' -> forall k v, stands s k v <-> stands s' k v.
Proof.
  intros H k v. destruct H as [s|l l' P]; [tauto|]. split; intros S; inversion S as [|l0 ws v0 i k' I W]; subst.
  - apply (stands_dict l' ws v0 i k); [|exact W]. apply (Permutation_in _ P), I.
  - apply (stands_dict l ws v0 i k); [|exact W]. apply (Permutation_in _ (Permutation_sym P)), I.
Qed.

Lemma constant_walked e e' : walked e e' -> forall n v, constant e n v <-> constant e' n v.
Proof.
  intros (P & N & B) n v. split; intros C; destruct C as [s k v E S|s k z E S].
  - rewrite E in N. inversion N as [|s1 s2 W]; subst. rewrite P.
    apply (constant_number e' s2); [congruence|]. apply (stands_walked _ _ W), S.
  - rewrite E in B. inversion B as [|s1 s2 W]; subst. rewrite P.
    apply (constant_flag e' s2); [congruence|]. apply (stands_walked _ _ W), S.
  - rewrite E in N. inversion N as [|s1 s2 W]; subst. rewrite <- P.
    apply (constant_number e s1); [congruence|]. apply (stands_walked _ _ W), S.
  - rewrite E in B. inversion B as [|s1 s2 W]; subst. rewrite <- P.
    apply (constant_flag e s1); [congruence|]. apply (stands_walked _ _ W), S.
Qed.

Lemma walked_sym e e' : walked e e' -> walked e' e.
Proof.
  intros (P & N & B). split; [congruence|].
  assert (G : forall a b, opt_walked a b -> opt_walked b a).
  { intros a b [|s s' [t|l l' Q]]; repeat constructor. apply Permutation_sym, Q. }
  auto.
Qed.

Lemma load_walked es es' sc : Forall2 walked es es' ->
  forall n v, In (n, v) (load sc es) <-> In (n, v) (load sc es').
Proof.
  intros F n v. rewrite !load_items.
  assert (G : (exists e, In e es /\ constant e n v) <-> (exists e, In e es' /\ constant e n v)); [|tauto].
  induction F as [|e e' es es' W F IH]; cbn [In]; [reflexivity|]. split.
  - intros (x & [<-|I] & C).
    + exists e'. split; [auto|]. apply (constant_walked _ _ W), C.
    + destruct (proj1 IH) as (y & I' & C'); eauto.
  - intros (x & [<-|I] & C).
    + exists e. split; [auto|]. apply (constant_walked _ _ W), C.
    + destruct (proj2 IH) as (y & I' & C'); eauto.
Qed.

(** One name, one value: a decidable check on the loaded module. *)
Definition single (sc : scope) : Prop := forall n v w, In (n, v) sc -> In (n, w) sc -> v = w.

Fixpoint single_b (sc : scope) : bool :=
  match sc with
  | [] => true
  | (n, v) :: sc' => forallb (fun nv => negb (String.eqb (fst nv) n) || (snd nv =? v)) sc' && single_b sc'
  end.

Lemma single_b_ok sc : single_b sc = true -> single sc.
Proof.
  induction sc as [|[n v] sc IH]; intros H; [intros n v w []|]. cbn in H. apply andb_true_iff in H.
  destruct H as (A & B). rewrite forallb_forall in A.
  assert (G : forall w, In (n, w) sc -> w = v).
  { intros w I. apply A in I. cbn in I. rewrite String.eqb_refl in I. cbn in I. lia. }
  intros m x y [E|I] [E'|I'].
  - congruence.
  - injection E as <- <-. symmetry. auto.
  - injection E' as <- <-. auto.
  - apply (IH B m); assumption.
Qed.

Lemma single_global sc n v : single sc -> In (n, v) sc -> global sc n = Some v.
Proof.
  intros S I. destruct (in_global _ _ _ I) as (w & E). rewrite E. f_equal. apply (S n); [|exact I].
  apply global_in, E.
Qed.

(** The value of a global does not depend on the order of the dictionaries. *)
Lemma global_walked es es' sc n : Forall2 walked es es' -> single (load sc es) ->
  global (load sc es') n = global (load sc es) n.
Proof.
  intros F S.
  assert (S' : single (load sc es')).
  { intros m v w A B. apply (S m); apply (load_walked _ _ sc F); assumption. }
  destruct (global (load sc es) n) as [v|] eqn:E.
  - apply single_global; [exact S'|]. apply (load_walked _ _ sc F), global_in, E.
  - destruct (global (load sc es') n) as [v|] eqn:E'; [|reflexivity].
    apply global_in in E'. apply (load_walked _ _ sc F) in E'. apply in_global in E'. destruct E' as (w & E'). congruence.
Qed.

(** Ambiguity, decidably. *)
Definition plain_b (e : enum) : bool :=
  (fix go l := match l with
   | [] => true
   | (k, v) :: l' => forallb (fun kv => negb (snd kv =? v) || String.eqb (fst kv) k) l' && go l'
   end) (items e).

Lemma plain_ok e : plain_b e = true -> unambiguous e.
Proof.
  intros H.
  assert (G : forall k1 k2 v, In (k1, v) (items e) -> In (k2, v) (items e) -> k1 = k2).
  { unfold plain_b in H. revert H. generalize (items e). induction l as [|[k v] l IH]; intros H k1 k2 x; [intros []|].
    apply andb_true_iff in H. destruct H as (A & B). rewrite forallb_forall in A.
    assert (K : forall k', In (k', v) l -> k' = k).
    { intros k' I. apply A in I. cbn in I. rewrite Z.eqb_refl in I. cbn in I. apply String.eqb_eq, I. }
    intros [E|I] [E'|I'].
    - congruence.
    - injection E as <- <-. symmetry. auto.
    - injection E' as <- <-. auto.
    - apply (IH B k1 k2 x); assumption. }
  intros n m v C D. apply in_items in C, D. destruct C as (k1 & I1 & ->), D as (k2 & I2 & ->).
  rewrite (G _ _ _ I1 I2). reflexivity.
Qed.

Lemma unambiguous_walked e e' : walked e e' -> unambiguous e -> unambiguous e'.
Proof. intros W U n m v C D. apply (U n m v); apply (constant_walked _ _ W); assumption. Qed.

(** *** Flags *)

Lemma mask_key_b k : endswith k "_MASK" = true <-> mask_key k.
Proof.
  assert (S0 : forall s : string, substring 0 (String.length s) s = s).
  { induction s as [|c s IH]; cbn; [reflexivity|]. rewrite IH. reflexivity. }
  unfold endswith, mask_key. rewrite andb_true_iff, Nat.leb_le, String.eqb_eq. split.
  - intros (L & E). exists (substring 0 (String.length k - 5) k).
    change (String.length "_MASK") with 5%nat in *.
    remember (String.length k - 5)%nat as n eqn:Hn. assert (Hk : String.length k = (n + 5)%nat) by lia. clear Hn L.
    revert k E Hk. induction n as [|n IH]; intros k E Hk.
    + assert (Q : forall t, substring 0 0 t = ""%string) by (destruct t; reflexivity).
      rewrite Q. cbn [append]. rewrite <- E. change 5%nat with (0 + 5)%nat. rewrite <- Hk. symmetry. apply S0.
    + destruct k as [|c k]; [discriminate|]. cbn [substring append] in *. cbn in Hk. f_equal. apply IH; [exact E|lia].
  - intros (p & ->).
    assert (L : forall a b, String.length (a ++ b) = (String.length a + String.length b)%nat).
    { induction a as [|c a IH]; intros b; cbn; [reflexivity|]. rewrite IH. reflexivity. }
    rewrite L. split; [lia|].
    replace (String.length p + String.length "_MASK" - String.length "_MASK")%nat with (String.length p) by lia.
    induction p as [|c p IH]; [reflexivity|]. cbn [append String.length substring]. exact IH.
Qed.

Lemma land_flag v z : negb (Z.land v (flag_value z) =? 0) = true <-> 0 <= z /\ Z.testbit v z = true.
Proof.
  unfold flag_value. destruct (Z_lt_dec z 0) as [H|H].
  - rewrite Z.land_0_r. cbn. split; [discriminate|]. lia.
  - rewrite negb_true_iff, Z.eqb_neq. split.
    + intros N. split; [lia|]. destruct (Z.testbit v z) eqn:T; [reflexivity|]. exfalso. apply N.
      apply Z.bits_inj'. intros i Hi. rewrite Z.land_spec, Z.bits_0.
      destruct (Z.eq_dec i z) as [->|D]; [rewrite T; reflexivity|].
      rewrite Z.pow2_bits_false by lia. apply andb_false_r.
    + intros (_ & T) E. assert (B : Z.testbit (Z.land v (2 ^ z)) z = true).
      { rewrite Z.land_spec, T, Z.pow2_bits_true by lia. reflexivity. }
      rewrite E, Z.bits_0 in B. discriminate.
Qed.

(** The loop of [bitnames]. *)
Definition step (e : enum) (value : Z) (st : option string * list string) (kv : string * Z) :=
  let '(nohit, ret) := st in
  if endswith (fst kv) "_MASK" then (nohit, ret)
  else if negb (Z.land value (snd kv) =? 0) then (nohit, ret ++ [full e (fst kv)])
  else if snd kv =? 0 then (Some (full e (fst kv)), ret)
  else (nohit, ret).

Definition shown (value : Z) (kv : string * Z) : bool :=
  negb (endswith (fst kv) "_MASK") && negb (Z.land value (snd kv) =? 0).

Definition zero (kv : string * Z) : bool := negb (endswith (fst kv) "_MASK") && (snd kv =? 0).

Fixpoint last_of (e : enum) (d : option string) (l : list (string * Z)) : option string :=
  match l with
  | [] => d
  | kv :: l' => last_of e (if zero kv then Some (full e (fst kv)) else d) l'
  end.

Lemma steps e value l : forall st,
  fold_left (step e value) l st =
  (last_of e (fst st) l, snd st ++ map (fun kv => full e (fst kv)) (filter (shown value) l)).
Proof.
  induction l as [|kv l IH]; intros [d r]; cbn [fold_left last_of filter map].
  - cbn. rewrite app_nil_r. reflexivity.
  - rewrite IH. unfold step, shown, zero. destruct (endswith (fst kv) "_MASK"); cbn [negb andb fst snd]; [reflexivity|].
    destruct (Z.eqb_spec (Z.land value (snd kv)) 0) as [E|E]; cbn [negb fst snd].
    + destruct (snd kv =? 0); reflexivity.
    + destruct (Z.eqb_spec (snd kv) 0) as [F|F].
      * rewrite F, Z.land_0_r in E. congruence.
      * cbn [fst snd map]. rewrite <- app_assoc. reflexivity.
Qed.

Lemma bitnames_eq e value : bitnames e value =
  match map (fun kv => full e (fst kv)) (filter (shown value) (items_bitshifts e)), last_of e None (items_bitshifts e) with
  | [], Some n => [n]
  | r, _ => r
  end.
Proof.
  unfold bitnames.
  change (fold_left _ (items_bitshifts e) (None, [])) with (fold_left (step e value) (items_bitshifts e) (None, [])).
  rewrite steps. cbn [fst snd Datatypes.app].
  destruct (map _ (filter _ _)); [|reflexivity]. destruct (last_of _ _ _); reflexivity.
Qed.

Lemma shown_names e value n :
  In n (map (fun kv => full e (fst kv)) (filter (shown value) (items_bitshifts e))) <->
  exists z, 0 <= z /\ Z.testbit value z = true /\ names_bit e n z.
Proof.
  rewrite in_map_iff. split.
  - intros ((k & v) & <- & I). apply filter_In in I. destruct I as (I & S). unfold shown in S. cbn in S.
    apply andb_true_iff in S. destruct S as (M & L). apply in_bits in I. destruct I as (s & z & E & D & ->).
    apply land_flag in L. destruct L as (Hz & T). exists z. split; [exact Hz|]. split; [exact T|].
    exists s, k. cbn. repeat split; auto. intros X. apply mask_key_b in X. rewrite X in M. discriminate.
  - intros (z & Hz & T & s & k & E & D & M & ->). exists (k, flag_value z). split; [reflexivity|].
    apply filter_In. split; [apply in_bits; eauto|]. unfold shown. cbn [fst snd]. apply andb_true_iff. split.
    + destruct (endswith k "_MASK") eqn:X; [|reflexivity]. apply mask_key_b in X. contradiction.
    + apply land_flag. auto.
Qed.

Lemma last_of_some e l : forall d n, last_of e d l = Some n ->
  d = Some n \/ exists kv, In kv l /\ zero kv = true /\ n = full e (fst kv).
Proof.
  induction l as [|kv l IH]; intros d n; cbn [last_of]; [auto|]. intros H. apply IH in H.
  destruct H as [H|(x & I & Z & E)].
  - destruct (zero kv) eqn:Z; [|auto]. injection H as <-. right. exists kv. cbn. auto.
  - right. exists x. cbn. auto.
Qed.

Lemma last_of_none e l : forall d, last_of e d l = None -> d = None /\ forall kv, In kv l -> zero kv = false.
Proof.
  induction l as [|kv l IH]; intros d; cbn [last_of]; [intros ->; split; [reflexivity|intros ? []]|].
  intros H. apply IH in H. destruct H as (D & A). destruct (zero kv) eqn:Z; [discriminate|].
  split; [exact D|]. intros x [<-|I]; auto.
Qed.

Lemma zero_names e kv : In kv (items_bitshifts e) -> zero kv = true ->
  exists z, z < 0 /\ names_bit e (full e (fst kv)) z.
Proof.
  destruct kv as [k v]. intros I Z. unfold zero in Z. cbn in Z. apply andb_true_iff in Z. destruct Z as (M & Z).
  apply in_bits in I. destruct I as (s & z & E & D & ->). exists z. split.
  - unfold flag_value in Z. destruct (Z_lt_dec z 0) as [H|H]; [exact H|].
    assert (0 < 2 ^ z) by (apply Z.pow_pos_nonneg; lia). lia.
  - exists s, k. repeat split; auto. intros X. apply mask_key_b in X. rewrite X in M. discriminate.
Qed.

Lemma names_zero e n z : z < 0 -> names_bit e n z -> exists kv, In kv (items_bitshifts e) /\ zero kv = true /\ n = full e (fst kv).
Proof.
  intros Hz (s & k & E & D & M & ->). exists (k, flag_value z). split; [apply in_bits; eauto|]. split; [|reflexivity].
  unfold zero, flag_value. cbn [fst snd]. destruct (Z_lt_dec z 0); [|lia]. apply andb_true_iff. split; [|reflexivity].
  destruct (endswith k "_MASK") eqn:X; [|reflexivity]. apply mask_key_b in X. contradiction.
Qed.

(** Some bit of [value] has a name. *)
Definition some_bit (e : enum) (value : Z) : Prop :=
  exists z n, 0 <= z /\ Z.testbit value z = true /\ names_bit e n z.

Lemma bitnames_some e value n : some_bit e value ->
  (In n (bitnames e value) <-> exists z, 0 <= z /\ Z.testbit value z = true /\ names_bit e n z).
Proof.
  intros (z0 & n0 & A & B & C). rewrite <- shown_names, bitnames_eq.
  assert (I : In n0 (map (fun kv => full e (fst kv)) (filter (shown value) (items_bitshifts e)))) by (apply shown_names; eauto).
  destruct (map _ (filter _ _)) as [|x l]; [destruct I|]. reflexivity.
Qed.

Lemma bitnames_none e value : ~ some_bit e value ->
  (bitnames e value = [] /\ forall n z, z < 0 -> ~ names_bit e n z) \/
  (exists n z, bitnames e value = [n] /\ z < 0 /\ names_bit e n z).
Proof.
  intros N. rewrite bitnames_eq.
  destruct (map (fun kv => full e (fst kv)) (filter (shown value) (items_bitshifts e))) as [|x l] eqn:E.
  - destruct (last_of e None (items_bitshifts e)) as [n|] eqn:L.
    + right. apply last_of_some in L. destruct L as [L|(kv & I & Z & ->)]; [discriminate|].
      destruct (zero_names _ _ I Z) as (z & Hz & B). eauto.
    + left. split; [reflexivity|]. intros n z Hz B. destruct (names_zero _ _ _ Hz B) as (kv & I & Z & _).
      apply last_of_none in L. destruct L as (_ & L). rewrite L in Z by exact I. discriminate.
  - exfalso. apply N. assert (I : In x (x :: l)) by (left; reflexivity). rewrite <- E in I. apply shown_names in I.
    destruct I as (z & A & B & C). exists z, x. auto.
Qed.
