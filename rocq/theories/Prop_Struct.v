(** Property C38: struct packing is faithful. *)

From Coq Require Import Ascii String List Lia DecimalString DecimalNat.
From Verif Require Import Py Struct P_Struct.
Import ListNotations.
Local Open Scope Z_scope.
Local Open Scope list_scope.

(** The specification: which arguments a field takes. *)
Definition takes (f : fitem) (v : pyval) : Prop :=
  match f, v with
  | FU w, VInt z => 0 <= z < 256 ^ Z.of_nat w
  | FI w, VInt z => - (256 ^ Z.of_nat w / 2) <= z < 256 ^ Z.of_nat w / 2
  | FS _, VBytes _ => True
  | _, _ => False
  end.

(** Fields that take an argument. *)
Fixpoint arguments (fs : list fitem) : list fitem :=
  match fs with [] => [] | FX _ :: fs' => arguments fs' | f :: fs' => f :: arguments fs' end.

(** Byte [i] of a field, most significant first; negative numbers in two's
    complement. *)
Definition field_byte (f : fitem) (v : pyval) (i : nat) : Z :=
  match f, v with
  | FU w, VInt z | FI w, VInt z => (z / 256 ^ Z.of_nat (w - 1 - i)) mod 256
  | FS _, VBytes s => nth i s 0
  | _, _ => 0
  end.

(** What comes back: numbers as they were, strings cut or filled with NUL. *)
Definition returned (f : fitem) (v : pyval) : pyval :=
  match f, v with
  | FS n, VBytes s => VBytes (firstn n s ++ repeat 0 (n - length s))
  | _, _ => v
  end.

Lemma arguments_filter fs : filter (fun f => negb (is_pad f)) fs = arguments fs.
Proof. induction fs as [|f fs IH]; [reflexivity|]. destruct f; cbn; rewrite IH; reflexivity. Qed.

Lemma fmt_aux_ok s : forall c fs, fmt_aux s c = Ok fs -> forallb fitem_ok fs = true.
Proof.
  induction s as [|a s IH]; intros c fs H; cbn [fmt_aux] in H.
  - destruct c; [discriminate|]. injection H as <-. reflexivity.
  - destruct (is_digit a); [exact (IH _ _ H)|].
    assert (R : forall f, fitem_ok f = true -> forall n, (rest <- fmt_aux s None ;; Ok (repeat f n ++ rest)) = Ok fs -> forallb fitem_ok fs = true).
    { intros f Hf n E. inv_bind E. injection E as <-. rewrite forallb_app. rewrite (IH _ _ Ha), andb_true_r.
      clear - Hf. induction n; [reflexivity|]. cbn. rewrite Hf. exact IHn. }
    assert (R1 : forall f, fitem_ok f = true -> (rest <- fmt_aux s None ;; Ok (f :: rest)) = Ok fs -> forallb fitem_ok fs = true).
    { intros f Hf E. inv_bind E. injection E as <-. cbn. rewrite Hf. exact (IH _ _ Ha). }
    destruct a as [[] [] [] [] [] [] [] []]; try discriminate H; 
      solve [ refine (R _ _ _ H); reflexivity | refine (R1 _ _ H); reflexivity ].
Qed.

Lemma fmt_ok f fs : fmt f = Ok fs -> forallb fitem_ok fs = true.
Proof.
  unfold fmt. destruct f as [|a f]; [apply fmt_aux_ok|].
  destruct a as [[] [] [] [] [] [] [] []]; apply fmt_aux_ok.
Qed.

Lemma norm_returned fs : forall vs b, pack fs vs = Ok b ->
  norm fs vs = map (fun fv => returned (fst fv) (snd fv)) (combine (arguments fs) vs).
Proof.
  induction fs as [|f fs IH]; intros vs b H; [reflexivity|]. cbn [pack norm arguments] in *.
  destruct f as [w|w|n|n].
  - destruct vs as [|v vs]; [discriminate|]. inv_bind H. inv_bind H. cbn [combine map fst snd]. rewrite (IH _ _ Ha0). reflexivity.
  - destruct vs as [|v vs]; [discriminate|]. inv_bind H. inv_bind H. cbn [combine map fst snd]. rewrite (IH _ _ Ha0). reflexivity.
  - destruct vs as [|v vs]; [discriminate|]. inv_bind H. inv_bind H. cbn [combine map fst snd]. rewrite (IH _ _ Ha0).
    destruct v; reflexivity.
  - inv_bind H. exact (IH _ _ Ha).
Qed.

(** What a format says: each code, with the count in front of it written in
    decimal digits. *)
Inductive code : Type := cB | cH | cI | cQ | cb | ch | ci | cq | cx | cs.
Definition letter (c : code) : ascii :=
  match c with
  | cB => "B" | cH => "H" | cI => "I" | cQ => "Q" | cb => "b" | ch => "h" | ci => "i" | cq => "q" | cx => "x" | cs => "s"
  end%char.
(** A count repeats a number, and is the length of a text or of padding. *)
Definition means (e : option nat * code) : list fitem :=
  let n := match fst e with Some n => n | None => 1%nat end in
  match snd e with
  | cB => repeat (FU 1) n | cH => repeat (FU 2) n | cI => repeat (FU 4) n | cQ => repeat (FU 8) n
  | cb => repeat (FI 1) n | ch => repeat (FI 2) n | ci => repeat (FI 4) n | cq => repeat (FI 8) n
  | cx => [FX n] | cs => [FS n]
  end.
Definition decimal (n : nat) : string := NilEmpty.string_of_uint (Nat.to_uint n).
Fixpoint written (l : list (option nat * code)) : string :=
  match l with
  | [] => ""%string
  | (n, c) :: l' =>
      String.append (match n with Some n => decimal n | None => ""%string end) (String (letter c) (written l'))
  end.

Lemma append_nil s : String.append s ""%string = s.
Proof. induction s as [|a s IH]; [reflexivity|]. cbn [String.append]. f_equal. exact IH. Qed.

Lemma digits_read u : forall rest acc,
  fmt_aux (String.append (NilEmpty.string_of_uint u) rest) (Some acc) = fmt_aux rest (Some (Nat.of_uint_acc u acc)).
Proof.
  induction u; intros rest acc; cbn [NilEmpty.string_of_uint String.append Nat.of_uint_acc]; [reflexivity|..];
    (etransitivity; [|apply IHu]); cbn [fmt_aux];
    (match goal with |- context [is_digit ?a] => change (is_digit a) with true end); cbv iota;
    (match goal with |- context [digit_val ?a] => let v := eval vm_compute in (digit_val a) in change (digit_val a) with v end);
    f_equal; f_equal; rewrite Nat.tail_mul_spec; lia.
Qed.

Lemma decimal_read n rest : fmt_aux (String.append (decimal n) rest) None = fmt_aux rest (Some n).
Proof.
  unfold decimal. pose proof (DecimalNat.Unsigned.of_to n) as E.
  assert (NN : Nat.to_uint n <> Decimal.Nil) by (intros X; rewrite X in E; subst n; discriminate X).
  destruct (Nat.to_uint n) as [|u|u|u|u|u|u|u|u|u|u] eqn:Eu; [congruence|..];
    (etransitivity; [|rewrite <- E; apply (digits_read u rest)]); cbn [NilEmpty.string_of_uint String.append fmt_aux];
    (match goal with |- context [is_digit ?a] => change (is_digit a) with true end); cbv iota; f_equal.
Qed.

Theorem C38_format : forall l, fmt (String "!" (written l)) = Ok (flat_map means l).
Proof.
  intros l. change (fmt (String "!" (written l))) with (fmt_aux (written l) None). induction l as [|[n c] l IH]; [reflexivity|]. cbn [written flat_map].
  assert (K : forall o, fmt_aux (String (letter c) (written l)) o =
    Ok (means (o, c) ++ flat_map means l)).
  { intros o. destruct c; cbn [letter fmt_aux]; rewrite IH; cbn [bind]; unfold means, count1; cbn [fst snd]; reflexivity. }
  destruct n as [n|]; [rewrite decimal_read|]; apply K.
Qed.
Print Assumptions C38_format.

(** Any other character, and a count with nothing behind it, is an error. *)
Theorem C38_format_unknown : forall l n a rest,
  ~ In (nat_of_ascii a) (seq 48 10) -> (forall c, a <> letter c) ->
  fmt (String "!" (String.append (written l) (String a rest))) = Err StructError /\
  fmt (String "!" (String.append (written l) (decimal n))) = Err StructError.
Proof.
  intros l n a rest Hd Hc.
  change (fmt_aux (String.append (written l) (String a rest)) None = Err StructError /\
          fmt_aux (String.append (written l) (decimal n)) None = Err StructError).
  assert (K : forall tail, fmt_aux tail None = Err StructError -> fmt_aux (String.append (written l) tail) None = Err StructError).
  { intros tail H. induction l as [|[m c] l IH]; [exact H|]. cbn [written].
    assert (K : forall o, fmt_aux (String (letter c) (String.append (written l) tail)) o = Err StructError)
      by (intros o; destruct c; cbn [letter fmt_aux]; rewrite IH; reflexivity).
    destruct m as [m|]; [|apply K].
    assert (A : forall x y z, String.append (String.append x y) z = String.append x (String.append y z))
      by (clear; induction x as [|q x IH]; intros y z; [reflexivity|cbn [String.append]; f_equal; apply IH]).
    rewrite A, decimal_read. apply K. }
  split; apply K.
  - cbn [fmt_aux]. assert (D : is_digit a = false).
    { unfold is_digit. apply Bool.andb_false_iff. rewrite in_seq in Hd.
      destruct (Nat.leb_spec 48 (nat_of_ascii a)); [right; apply Nat.leb_gt; lia|left; reflexivity]. }
    rewrite D. assert (Hc2 := fun c => Hc c). clear Hd D Hc.
    destruct a as [[] [] [] [] [] [] [] []]; try reflexivity; exfalso;
      first [exact (Hc2 cB eq_refl)|exact (Hc2 cH eq_refl)|exact (Hc2 cI eq_refl)|exact (Hc2 cQ eq_refl)
            |exact (Hc2 cb eq_refl)|exact (Hc2 ch eq_refl)|exact (Hc2 ci eq_refl)|exact (Hc2 cq eq_refl)
            |exact (Hc2 cx eq_refl)|exact (Hc2 cs eq_refl)].
  - rewrite <- (append_nil (decimal n)). rewrite decimal_read. reflexivity.
Qed.
Print Assumptions C38_format_unknown.

Example C38_format_example :
  String "!" (written [(None, cB); (Some 10%nat, cx); (Some 2%nat, cI); (Some 16%nat, cs); (None, ch)]) = "!B10x2I16sh"%string /\
  fmt "!B10x2I16sh" = Ok [FU 1; FX 10; FU 4; FU 4; FS 16; FI 2] /\ fmt "!BZ" = Err StructError /\ fmt "!B10" = Err StructError.
Proof. repeat split; vm_compute; reflexivity. Qed.

(** Packing succeeds exactly when every field gets an argument it takes, and no
    argument is left over. *)
Theorem C38_pack_succeeds_iff : forall f fs vs,
  fmt f = Ok fs -> (exists b, packs f vs = Ok b) <-> Forall2 takes (arguments fs) vs.
Proof.
  intros f fs vs Hf. unfold packs. rewrite Hf. cbn [bind]. rewrite pack_fits, arguments_filter. reflexivity.
Qed.
Print Assumptions C38_pack_succeeds_iff.

(** Otherwise it raises struct.error. *)
Theorem C38_pack_fails : forall f fs vs,
  fmt f = Ok fs -> ~ Forall2 takes (arguments fs) vs -> packs f vs = Err StructError.
Proof.
  intros f fs vs Hf Hn. destruct (packs f vs) as [b|e] eqn:E.
  - exfalso. apply Hn. apply (C38_pack_succeeds_iff f fs vs Hf). exists b. exact E.
  - unfold packs in E. rewrite Hf in E. cbn [bind] in E. f_equal.
    clear Hf Hn f. revert vs E. induction fs as [|f fs IH]; intros vs E; cbn [pack] in E.
    + destruct vs; [discriminate | congruence].
    + destruct f as [w|w|n|n].
      1-3: destruct vs as [|v vs]; [congruence|];
        destruct (pack_item _ v) eqn:Ei; cbn [bind] in E;
        [destruct (pack fs vs) eqn:Ep; cbn [bind] in E; [discriminate|]; exact (IH vs (eq_trans Ep E))
        | destruct v; cbn in Ei; try (destruct (in_u _ _)); try (destruct (in_i _ _)); congruence].
      destruct (pack fs vs) eqn:Ep; cbn [bind] in E; [discriminate|]. exact (IH vs (eq_trans Ep E)).
Qed.
Print Assumptions C38_pack_fails.

(** The result has the announced size. *)
Theorem C38_length : forall f vs b k, packs f vs = Ok b -> sizes f = Ok k -> length b = k.
Proof.
  intros f vs b k H Hk. unfold packs, sizes in *. destruct (fmt f) as [fs|]; [|discriminate]. cbn [bind] in *.
  injection Hk as <-. apply pack_length with vs. exact H.
Qed.
Print Assumptions C38_length.

Lemma be_byte w : forall z i, (i < w)%nat -> nth i (be w z) 0 = (z / 256 ^ Z.of_nat (w - 1 - i)) mod 256.
Proof.
  induction w as [|w IH]; intros z i Hi; [lia|]. cbn [be].
  destruct (Nat.eq_dec i w) as [->|Hn].
  - rewrite app_nth2 by (rewrite be_length; lia). rewrite be_length, Nat.sub_diag. cbn [nth].
    replace (S w - 1 - w)%nat with 0%nat by lia. change (256 ^ Z.of_nat 0) with 1. rewrite Z.div_1_r. reflexivity.
  - rewrite app_nth1 by (rewrite be_length; lia). rewrite IH by lia.
    rewrite Z.div_div by (try lia; apply pow256_pos). do 2 f_equal.
    replace (S w - 1 - i)%nat with (S (w - 1 - i)) by lia. rewrite pow256_S. reflexivity.
Qed.

Lemma pack_app_inv pre : forall post vs1 vs2 b,
  length vs1 = length (arguments pre) -> pack (pre ++ post) (vs1 ++ vs2) = Ok b ->
  exists b1 b2, pack pre vs1 = Ok b1 /\ pack post vs2 = Ok b2 /\ b = b1 ++ b2.
Proof.
  induction pre as [|f pre IH]; intros post vs1 vs2 b Hl H.
  - destruct vs1; [|discriminate]. exists [], b. auto.
  - cbn [arguments] in Hl. destruct f as [w|w|n|n].
    1-3: destruct vs1 as [|v vs1]; [discriminate|]; cbn [Datatypes.app pack] in H; inv_bind H; inv_bind H; injection H as <-;
      cbn [length] in Hl; injection Hl as Hl;
      match goal with Ha : pack_item _ _ = Ok ?x |- _ =>
        destruct (IH _ _ _ _ Hl Ha0) as (b1 & b2 & E1 & E2 & ->); exists (x ++ b1), b2; cbn [pack]; rewrite Ha, E1; cbn [bind];
        rewrite <- app_assoc; auto end.
    cbn [Datatypes.app] in H. assert (E : pack (FX n :: pre ++ post) (vs1 ++ vs2) = (r <- pack (pre ++ post) (vs1 ++ vs2) ;; Ok (zeros n ++ r))).
    { cbn [pack]. reflexivity. }
    rewrite E in H. inv_bind H. injection H as <-. destruct (IH _ _ _ _ Hl Ha) as (b1 & b2 & E1 & E2 & ->).
    exists (zeros n ++ b1), b2. cbn [pack]. rewrite E1. cbn [bind]. rewrite <- app_assoc. auto.
Qed.

(** Every byte of every field: big-endian, at the offset the preceding fields
    give. *)
Theorem C38_big_endian : forall s pre f post vs1 v vs2 b i,
  fmt s = Ok (pre ++ f :: post) -> length vs1 = length (arguments pre) -> arguments [f] = [f] ->
  packs s (vs1 ++ v :: vs2) = Ok b -> (i < item_size f)%nat ->
  nth (calcsize pre + i) b 0 = field_byte f v i.
Proof.
  intros s pre f post vs1 v vs2 b i Hf Hl Hnp Hp Hi. unfold packs in Hp. rewrite Hf in Hp. cbn [bind] in Hp.
  destruct (pack_app_inv pre (f :: post) vs1 (v :: vs2) b Hl Hp) as (b1 & b2 & E1 & E2 & ->).
  rewrite app_nth2 by (rewrite (pack_length _ _ _ E1); lia). rewrite (pack_length _ _ _ E1).
  replace (calcsize pre + i - calcsize pre)%nat with i by lia.
  destruct f as [w|w|n|n]; [| | |discriminate Hnp]; cbn [pack item_size] in *; inv_bind E2; inv_bind E2; injection E2 as <-.
  - destruct v; cbn in Ha; try discriminate. destruct (in_u w z); [|discriminate]. injection Ha as <-.
    rewrite app_nth1 by (rewrite be_length; exact Hi). apply be_byte. exact Hi.
  - destruct v; cbn in Ha; try discriminate. destruct (in_i w z); [|discriminate]. injection Ha as <-.
    rewrite app_nth1 by (rewrite be_length; exact Hi). apply be_byte. exact Hi.
  - destruct v as [| |s0| | |]; cbn in Ha; try discriminate. injection Ha as <-. cbn [field_byte].
    rewrite app_nth1 by (rewrite pad_length; exact Hi).
    destruct (Nat.lt_ge_cases i (length s0)) as [Hs|Hs].
    + rewrite app_nth1 by (rewrite firstn_length; lia). rewrite <- (firstn_skipn n s0) at 2.
      rewrite app_nth1 by (rewrite firstn_length; lia). reflexivity.
    + rewrite app_nth2 by (rewrite firstn_length; lia). rewrite (nth_overflow s0) by exact Hs.
      unfold zeros. apply nth_repeat.
Qed.
Print Assumptions C38_big_endian.

(** Padding is zero. *)
Theorem C38_padding_zero : forall s pre n post vs1 vs2 b i,
  fmt s = Ok (pre ++ FX n :: post) -> length vs1 = length (arguments pre) ->
  packs s (vs1 ++ vs2) = Ok b -> (i < n)%nat -> nth (calcsize pre + i) b 0 = 0 /\ (calcsize pre + i < length b)%nat.
Proof.
  intros s pre n post vs1 vs2 b i Hf Hl Hp Hi. unfold packs in Hp. rewrite Hf in Hp. cbn [bind] in Hp.
  pose proof (pack_length _ _ _ Hp) as Hlen.
  destruct (pack_app_inv pre (FX n :: post) vs1 vs2 b Hl Hp) as (b1 & b2 & E1 & E2 & ->).
  rewrite app_nth2 by (rewrite (pack_length _ _ _ E1); lia). rewrite (pack_length _ _ _ E1).
  replace (calcsize pre + i - calcsize pre)%nat with i by lia. cbn [pack] in E2. inv_bind E2. injection E2 as <-.
  rewrite app_nth1 by (rewrite zeros_length; exact Hi). split; [unfold zeros; apply nth_repeat|].
  rewrite !app_length, zeros_length, (pack_length _ _ _ E1). lia.
Qed.
Print Assumptions C38_padding_zero.

(** Unpacking at any offset of any larger buffer returns the arguments. *)
Theorem C38_unpack_pack : forall f fs vs b pre post,
  fmt f = Ok fs -> packs f vs = Ok b ->
  unpacks f (pre ++ b ++ post) (length pre) =
  Ok (map (fun fv => returned (fst fv) (snd fv)) (combine (arguments fs) vs)).
Proof.
  intros f fs vs b pre post Hf Hp. unfold packs, unpacks in *. rewrite Hf in *. cbn [bind] in *.
  rewrite <- (norm_returned fs vs b Hp). apply unpack_pack with b; [apply fmt_ok with f; exact Hf | exact Hp|].
  exists pre, post. split; reflexivity.
Qed.
Print Assumptions C38_unpack_pack.

(** Unpacking succeeds exactly when the buffer is long enough. *)
Theorem C38_unpack_succeeds_iff : forall f fs m off,
  fmt f = Ok fs ->
  (exists vs, unpacks f m off = Ok vs) <-> (off + calcsize fs <= length m)%nat.
Proof.
  intros f fs m off Hf. unfold unpacks. rewrite Hf. cbn [bind]. unfold unpack_from.
  destruct (Nat.leb_spec (off + calcsize fs) (length m)); split; intros H1; try lia; eauto. destruct H1; discriminate.
Qed.
Print Assumptions C38_unpack_succeeds_iff.

Lemma skipn_slice (m : bytes) : forall off n, (off + n <= length m)%nat -> exists rest, skipn off m = slice m off (off + n) ++ rest /\ length (slice m off (off + n)) = n.
Proof.
  intros off n H. exists (skipn n (skipn off m)). unfold slice. replace (off + n - off)%nat with n by lia.
  rewrite firstn_skipn. split; [reflexivity|]. rewrite firstn_length, skipn_length. lia.
Qed.

(** And packing what was unpacked restores the bytes, up to padding bytes. *)
Theorem C38_pack_unpack : forall f fs vs m off,
  fmt f = Ok fs -> bytes_ok m -> (forall n, ~ In (FX n) fs) -> (forall w, ~ In (FI w) fs) ->
  unpacks f m off = Ok vs -> packs f vs = Ok (slice m off (off + calcsize fs)).
Proof.
  intros f fs vs m off Hf Hm Hx Hi Hu. unfold packs, unpacks in *. rewrite Hf in *. cbn [bind] in *. unfold unpack_from in Hu.
  destruct (Nat.leb_spec (off + calcsize fs) (length m)) as [Hl|]; [|discriminate]. injection Hu as <-.
  assert (G : forall b, (calcsize fs <= length b)%nat -> bytes_ok b -> pack fs (decode fs b) = Ok (firstn (calcsize fs) b)).
  { clear - Hx Hi. induction fs as [|g fs IH]; intros b Hl Hb; [reflexivity|].
    assert (IH' := IH (fun n H => Hx n (or_intror H)) (fun n H => Hi n (or_intror H))). clear IH.
    assert (Hsplit : forall n, (n + calcsize fs <= length b)%nat ->
      pack fs (decode fs (skipn n b)) = Ok (firstn (calcsize fs) (skipn n b))).
    { intros n Hn. apply IH'; [rewrite skipn_length; lia|]. unfold bytes_ok in *. rewrite <- (firstn_skipn n b) in Hb.
      apply Forall_app in Hb. apply Hb. }
    assert (Hcat : forall n, firstn n b ++ firstn (calcsize fs) (skipn n b) = firstn (n + calcsize fs) b).
    { intros n. clear. revert b. induction n as [|n IH]; intros b; [reflexivity|]. destruct b as [|x b]; [cbn; rewrite firstn_nil; reflexivity|].
      cbn [firstn skipn Nat.add Datatypes.app]. rewrite IH. reflexivity. }
    destruct g as [w|w|n|n]; cbn [decode pack calcsize item_size] in *.
    - unfold pack_item.
      assert (Hw : length (firstn w b) = w) by (rewrite firstn_length; lia).
      assert (Hbw : bytes_ok (firstn w b)). { unfold bytes_ok in *. rewrite <- (firstn_skipn w b) in Hb. apply Forall_app in Hb. apply Hb. }
      pose proof (of_be_range _ Hbw) as Hr. unfold zlen in Hr. rewrite Hw in Hr.
      assert (E : in_u w (of_be (firstn w b)) = true) by (unfold in_u; apply andb_true_iff; split; [apply Z.leb_le | apply Z.ltb_lt]; lia).
      rewrite E. cbn [bind]. rewrite Hsplit by exact Hl. cbn [bind].
      rewrite <- Hcat. f_equal. f_equal. rewrite <- Hw at 1. apply be_of_be. exact Hbw.
    - destruct (Hi w). left. reflexivity.
    - unfold pack_item. cbn [bind]. rewrite Hsplit by exact Hl. cbn [bind]. rewrite <- Hcat. do 2 f_equal.
      rewrite firstn_firstn, Nat.min_id. rewrite firstn_length, Nat.min_l by lia. rewrite Nat.sub_diag. apply app_nil_r.
    - destruct (Hx n). left. reflexivity. }
  rewrite G.
  - unfold slice. replace (off + calcsize fs - off)%nat with (calcsize fs) by lia. reflexivity.
  - rewrite skipn_length. lia.
  - unfold bytes_ok in *. rewrite <- (firstn_skipn off m) in Hm. apply Forall_app in Hm. apply Hm.
Qed.
Print Assumptions C38_pack_unpack.

Example C38_example :
  let f := "!HB5x4sQh"%string in
  exists fs, fmt f = Ok fs /\ sizes f = Ok 22%nat /\
  packs f [VInt 258; VInt 7; VBytes [97; 98]; VInt 72057594037927937; VInt (-2)] =
    Ok [1; 2; 7; 0; 0; 0; 0; 0; 97; 98; 0; 0; 1; 0; 0; 0; 0; 0; 0; 1; 255; 254] /\
  Forall2 takes (arguments fs) [VInt 258; VInt 7; VBytes [97; 98]; VInt 72057594037927937; VInt (-2)] /\
  packs f [VInt 65536; VInt 7; VBytes [97; 98]; VInt 1; VInt 0] = Err StructError.
Proof.
  eexists. split; [reflexivity|]. split; [reflexivity|]. split; [vm_compute; reflexivity|]. split; [|vm_compute; reflexivity].
  repeat constructor; cbn; lia.
Qed.
