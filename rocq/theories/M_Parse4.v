(** Model of twink/ofp4/parse.py: the parsers of OpenFlow 1.3 structures and
    messages.

    A parser takes the whole message and the offset held by its cursor and
    returns the parsed value and the cursor's offset afterwards.  [n] is the
    fuel of every [while] loop entered (loops that need more iterations end in
    OutOfFuel).  A namedtuple is [VTup] with its class name. *)

From Verif Require Export Struct.
Local Open Scope Z_scope.
Local Open Scope list_scope.

(** parse.py:26-34 [_unpack] with a cursor: the values and the new offset. *)
Definition unp (f : string) (m : bytes) (off : nat) : res (list pyval * nat) :=
  vs <- unpacks f m off ;; k <- sizes f ;; Ok (vs, (off + k)%nat).

(** namedtuple(cls, ...)( *_unpack(f, message, offset)). *)
Definition fixed (cls f : string) (m : bytes) (off : nat) : res (pyval * nat) :=
  ' (vs, o) <- unp f m off ;; Ok (VTup cls vs, o).

(** [while cursor.offset < limit: l.append(f(message, cursor))]. *)
Fixpoint while_fetch (n : nat) (f : nat -> res (pyval * nat)) (limit off : nat) : res (list pyval * nat) :=
  if (off <? limit)%nat then
    match n with
    | O => Err OutOfFuel
    | S n' =>
        ' (v, o) <- f off ;;
        ' (vs, o') <- while_fetch n' f limit o ;;
        Ok (v :: vs, o')
    end
  else Ok ([], off).

(** parse.py:569-575 [_list_fetch]. *)
Definition list_fetch (n : nat) (f : nat -> res (pyval * nat)) (limit off : nat) : res (list pyval * nat) :=
  ' (vs, o) <- while_fetch n f limit off ;;
  assert_ (o =? limit)%nat ;;;
  Ok (vs, o).

(** parse.py:99-105 [ofp_header]: the namedtuple, its type and length, and the
    new offset. *)
Definition p_header (m : bytes) (off : nat) : res (pyval * Z * nat * nat) :=
  ' (vs, o) <- unp "BBHI" m off ;;
  match vs with
  | [VInt version; VInt oftype; VInt len; _] =>
      assert_ (version =? 4) ;;;
      Ok (VTup "ofp_header" vs, oftype, Z.to_nat len, o)
  | _ => Err ValueError
  end.

(** parse.py:107-116 [ofp_]. *)
Definition p_ofp (m : bytes) (off : nat) : res (pyval * nat) :=
  ' (h, _, len, o) <- p_header m off ;;
  Ok (VTup "ofp_" [h; VBytes (slice m o (off + len))], (off + len)%nat).

(** [str.decode("UTF-8")] of CPython 2.7 (wide build): lone surrogates are
    accepted, overlong forms and code points above 0x10FFFF are not. *)
Definition cont (b : Z) : bool := (128 <=? b) && (b <? 192).

Fixpoint utf8 (b : bytes) : res (list Z) :=
  match b with
  | [] => Ok []
  | x :: b1 =>
      if x <? 128 then r <- utf8 b1 ;; Ok (x :: r)
      else if (194 <=? x) && (x <? 224) then
        match b1 with
        | y :: b2 =>
            if cont y then r <- utf8 b2 ;; Ok ((x - 192) * 64 + (y - 128) :: r) else Err UnicodeError
        | [] => Err UnicodeError
        end
      else if (224 <=? x) && (x <? 240) then
        match b1 with
        | y :: z :: b3 =>
            if cont y && cont z && negb ((x =? 224) && (y <? 160))
            then r <- utf8 b3 ;; Ok ((x - 224) * 4096 + (y - 128) * 64 + (z - 128) :: r)
            else Err UnicodeError
        | _ => Err UnicodeError
        end
      else if (240 <=? x) && (x <? 245) then
        match b1 with
        | y :: z :: w :: b4 =>
            if cont y && cont z && cont w && negb ((x =? 240) && (y <? 144)) && negb ((x =? 244) && (143 <? y))
            then r <- utf8 b4 ;; Ok ((x - 240) * 262144 + (y - 128) * 4096 + (z - 128) * 64 + (w - 128) :: r)
            else Err UnicodeError
        | _ => Err UnicodeError
        end
      else Err UnicodeError
  end.

(** parse.py:119-127 [ofp_port]. *)
Definition p_port (m : bytes) (off : nat) : res (pyval * nat) :=
  ' (vs, o) <- unp "I4x6s2x16sII6I" m off ;;
  match vs with
  | no :: hw :: VBytes name :: rest =>
      t <- utf8 (before_nul name) ;;
      Ok (VTup "ofp_port" (no :: hw :: VText t :: rest), o)
  | _ => Err ValueError
  end.

(** parse.py:150-152. *)
Definition p_queue_prop_header := fixed "ofp_queue_prop_header" "HH4x".

(** parse.py:154-162. *)
Definition p_queue_prop_min_rate (m : bytes) (off : nat) : res (pyval * nat) :=
  ' (h, o) <- p_queue_prop_header m off ;;
  ' (vs, o) <- unp "H6x" m o ;;
  Ok (VTup "ofp_queue_prop_min_rate" (h :: vs), o).

(** parse.py:164-172. *)
Definition p_queue_prop_max_rate (m : bytes) (off : nat) : res (pyval * nat) :=
  ' (h, o) <- p_queue_prop_header m off ;;
  ' (vs, o) <- unp "H6x" m o ;;
  Ok (VTup "ofp_queue_prop_max_rate" (h :: vs), o).

(** The length field of a parsed two-field header. *)
Definition second_len (v : pyval) : nat :=
  match v with VTup _ (_ :: VInt l :: _) => Z.to_nat l | _ => O end.

(** parse.py:174-186. *)
Definition p_queue_prop_experimenter (m : bytes) (off : nat) : res (pyval * nat) :=
  ' (h, o) <- p_queue_prop_header m off ;;
  ' (vs, o) <- unp "I4x" m o ;;
  let e := (off + second_len h)%nat in
  Ok (VTup "ofp_queue_prop_experimenter" (h :: vs ++ [VBytes (slice m o e)]), e).

(** parse.py:130-148 [ofp_packet_queue]: the names OFPQT_MIN and OFPQT_MAX are
    not defined, so the first round of the loop ends in a NameError. *)
Definition p_packet_queue (m : bytes) (off : nat) : res (pyval * nat) :=
  ' (vs, o) <- unp "IIH6x" m off ;;
  match vs with
  | [_; _; VInt len] =>
      let e := (off + Z.to_nat len)%nat in
      if (o <? e)%nat then p_queue_prop_header m o ;;; Err NameError
      else assert_ (o =? e)%nat ;;; Ok (VTup "ofp_packet_queue" (vs ++ [VList []]), o)
  | _ => Err ValueError
  end.

(** parse.py:189-197 [ofp_match]. *)
Definition p_match (m : bytes) (off : nat) : res (pyval * nat) :=
  ' (vs, o) <- unp "HH" m off ;;
  match vs with
  | [_; VInt len] =>
      let l := Z.to_nat len in
      Ok (VTup "ofp_match" (vs ++ [VBytes (slice m o (off + l))]), (off + align8 l)%nat)
  | _ => Err ValueError
  end.

(** parse.py:200-202. *)
Definition p_oxm_experimenter_header := fixed "ofp_oxm_experimenter_header" "II".

(** *** Actions *)

(** parse.py:266-268. *)
Definition p_action_header := fixed "ofp_action_header" "HH4x".
(** parse.py:294-296. *)
Definition p_action_output := fixed "ofp_action_output" "HHIH6x".
(** parse.py:298-300. *)
Definition p_action_group := fixed "ofp_action_group" "HHI".
(** parse.py:302-304. *)
Definition p_action_set_queue := fixed "ofp_action_set_queue" "HHI".
(** parse.py:306-308: the name [namedutple] is not defined. *)
Definition p_action_mpls_ttl (m : bytes) (off : nat) : res (pyval * nat) := Err NameError.
(** parse.py:310-312. *)
Definition p_action_nw_ttl := fixed "ofp_action_nw_ttl" "HHB3x".
(** parse.py:314-316. *)
Definition p_action_push := fixed "ofp_action_push" "HHH2x".
(** parse.py:318-320. *)
Definition p_action_pop_mpls := fixed "ofp_action_pop_mpls" "HHH2x".

(** parse.py:322-330. *)
Definition p_action_set_field (m : bytes) (off : nat) : res (pyval * nat) :=
  ' (vs, o) <- unp "HH" m off ;;
  match vs with
  | [_; VInt len] =>
      let e := (off + Z.to_nat len)%nat in
      Ok (VTup "ofp_action_set_field" (vs ++ [VBytes (slice m o e)]), e)
  | _ => Err ValueError
  end.

(** parse.py:332-344 [ofp_action_experimenter_header],
    [ofp_action_experimenter_]. *)
Definition p_action_experimenter (m : bytes) (off : nat) : res (pyval * nat) :=
  ' (vs, o) <- unp "HHI" m off ;;
  match vs with
  | [_; VInt len; _] =>
      let e := (off + Z.to_nat len)%nat in
      Ok (VTup "ofp_action_experimenter_" (vs ++ [VBytes (slice m o e)]), e)
  | _ => Err ValueError
  end.

(** parse.py:270-292 [ofp_action_]. *)
Definition p_action (m : bytes) (off : nat) : res (pyval * nat) :=
  ' (h, _) <- p_action_header m off ;;
  match h with
  | VTup _ [VInt ty; _] =>
      if ty =? 0 then p_action_output m off
      else if ty =? 22 then p_action_group m off
      else if ty =? 21 then p_action_set_queue m off
      else if ty =? 15 then p_action_mpls_ttl m off
      else if ty =? 23 then p_action_nw_ttl m off
      else if py_inz (VInt ty) [17; 19; 26] then p_action_push m off
      else if ty =? 20 then p_action_pop_mpls m off
      else if ty =? 25 then p_action_set_field m off
      else if ty =? 65535 then p_action_experimenter m off
      else p_action_header m off
  | _ => Err ValueError
  end.

(** *** Instructions *)

(** parse.py:205-207. *)
Definition p_instruction_header := fixed "ofp_instruction" "HH".
(** parse.py:227-229. *)
Definition p_instruction_goto_table := fixed "ofp_instruction_goto_table" "HHB3x".
(** parse.py:231-233. *)
Definition p_instruction_write_metadata := fixed "ofp_instruction_write_metadata" "HH4xQQ".
(** parse.py:249-251. *)
Definition p_instruction_meter := fixed "ofp_instruction_meter" "HHI".

(** parse.py:235-247. *)
Definition p_instruction_actions (n : nat) (m : bytes) (off : nat) : res (pyval * nat) :=
  ' (vs, o) <- unp "HH4x" m off ;;
  match vs with
  | [_; VInt len] =>
      let e := (off + Z.to_nat len)%nat in
      ' (acts, o) <- list_fetch n (p_action m) e o ;;
      Ok (VTup "ofp_instruction_actions" (vs ++ [VList acts]), o)
  | _ => Err ValueError
  end.

(** parse.py:253-263. *)
Definition p_instruction_experimenter (m : bytes) (off : nat) : res (pyval * nat) :=
  ' (vs, o) <- unp "HHI" m off ;;
  match vs with
  | [_; VInt len; _] =>
      let e := (off + Z.to_nat len)%nat in
      Ok (VTup "ofp_instruction_experimenter" (vs ++ [VBytes (slice m o e)]), e)
  | _ => Err ValueError
  end.

(** parse.py:209-225 [ofp_instruction_]. *)
Definition p_instruction (n : nat) (m : bytes) (off : nat) : res (pyval * nat) :=
  ' (h, _) <- p_instruction_header m off ;;
  match h with
  | VTup _ [VInt ty; _] =>
      if ty =? 1 then p_instruction_goto_table m off
      else if ty =? 2 then p_instruction_write_metadata m off
      else if py_inz (VInt ty) [3; 4; 5] then p_instruction_actions n m off
      else if ty =? 6 then p_instruction_meter m off
      else if ty =? 65535 then p_instruction_experimenter m off
      else Err ValueError
  | _ => Err ValueError
  end.

(** *** Messages *)

(** A message that consists of the header and fixed fields only. *)
Definition simple_message (cls f : string) (m : bytes) (off : nat) : res (pyval * nat) :=
  ' (h, _, _, o) <- p_header m off ;;
  ' (vs, o) <- unp f m o ;;
  Ok (VTup cls (h :: vs), o).

(** parse.py:347-356: the reserved word is dropped. *)
Definition p_switch_features (m : bytes) (off : nat) : res (pyval * nat) :=
  ' (h, _, _, o) <- p_header m off ;;
  ' (vs, o) <- unp "QIBB2xII" m o ;;
  match vs with
  | [a; b; c; d; e; _] => Ok (VTup "ofp_switch_features" [h; a; b; c; d; e], o)
  | _ => Err ValueError
  end.

(** parse.py:359-365. *)
Definition p_switch_config := simple_message "ofp_switch_config" "HH".

(** parse.py:368-374. *)
Definition p_table_mod := simple_message "ofp_table_mod" "B3xI".

(** parse.py:377-394. *)
Definition p_flow_mod (n : nat) (m : bytes) (off : nat) : res (pyval * nat) :=
  ' (h, _, len, o) <- p_header m off ;;
  ' (vs, o) <- unp "QQBB3H3IH2x" m o ;;
  ' (mt, o) <- p_match m o ;;
  ' (insts, o) <- list_fetch n (p_instruction n m) (off + len) o ;;
  Ok (VTup "ofp_flow_mod" (h :: vs ++ [mt; VList insts]), o).

(** parse.py:410-421. *)
Definition p_bucket (n : nat) (m : bytes) (off : nat) : res (pyval * nat) :=
  ' (vs, o) <- unp "HHII4x" m off ;;
  match vs with
  | VInt len :: _ =>
      ' (acts, o) <- while_fetch n (p_action m) (off + Z.to_nat len) o ;;
      Ok (VTup "ofp_bucket" (vs ++ [VList acts]), o)
  | _ => Err ValueError
  end.

(** parse.py:397-408. *)
Definition p_group_mod (n : nat) (m : bytes) (off : nat) : res (pyval * nat) :=
  ' (h, _, len, o) <- p_header m off ;;
  ' (vs, o) <- unp "HBxI" m o ;;
  ' (bs, o) <- while_fetch n (p_bucket n m) (off + len) o ;;
  Ok (VTup "ofp_group_mod" (h :: vs ++ [VList bs]), o).

(** parse.py:424-434: five values are unpacked into four names. *)
Definition p_port_mod (m : bytes) (off : nat) : res (pyval * nat) :=
  ' (h, _, _, _) <- p_header m off ;;
  unpacks "I4x6s2xIII4x" m off ;;;
  Err ValueError.

(** parse.py:453-455. *)
Definition p_meter_band_header := fixed "ofp_meter_band_header" "HHII".
(** parse.py:470-472. *)
Definition p_meter_band_drop := fixed "ofp_meter_band_drop" "HHII4x".
(** parse.py:474-477. *)
Definition p_meter_band_dscp_remark := fixed "ofp_meter_band_dscp_remark" "HHIIB3x".

(** parse.py:479-487: unpacked at the plain integer [offset], so the cursor
    does not move, and the data begins at the start of the band. *)
Definition p_meter_band_experimenter (m : bytes) (off : nat) : res (pyval * nat) :=
  vs <- unpacks "HH3I" m off ;;
  match vs with
  | _ :: VInt len :: _ =>
      Ok (VTup "ofp_meter_band_experimenter" (vs ++ [VBytes (slice m off (off + Z.to_nat len))]), off)
  | _ => Err ValueError
  end.

(** parse.py:457-468. *)
Definition p_meter_band (m : bytes) (off : nat) : res (pyval * nat) :=
  ' (h, _) <- p_meter_band_header m off ;;
  match h with
  | VTup _ (VInt ty :: _) =>
      if ty =? 1 then p_meter_band_drop m off
      else if ty =? 2 then p_meter_band_dscp_remark m off
      else if ty =? 65535 then p_meter_band_experimenter m off
      else Err ValueError
  | _ => Err ValueError
  end.

(** parse.py:437-451. *)
Definition p_meter_mod (n : nat) (m : bytes) (off : nat) : res (pyval * nat) :=
  ' (h, _, len, o) <- p_header m off ;;
  ' (vs, o) <- unp "HHI" m o ;;
  ' (bs, o) <- while_fetch n (p_meter_band m) (off + len) o ;;
  Ok (VTup "ofp_meter_mod" (h :: vs ++ [VList bs]), o).

(** *** Multipart bodies *)

(** parse.py:578-580. *)
Definition p_desc := fixed "ofp_desc" "256s256s256s32s256s".

(** parse.py:583-593 and 616-625. *)
Definition flow_request (cls : string) (m : bytes) (off : nat) : res (pyval * nat) :=
  ' (vs, o) <- unp "B3xII4xQQ" m off ;;
  ' (mt, o) <- p_match m o ;;
  Ok (VTup cls (vs ++ [mt]), o).
Definition p_flow_stats_request := flow_request "ofp_flow_stats_request".
Definition p_aggregate_stats_request := flow_request "ofp_aggregate_stats_request".

(** parse.py:595-613. *)
Definition p_flow_stats (n : nat) (m : bytes) (off : nat) : res (pyval * nat) :=
  ' (vs, o) <- unp "HBxII4H4x3Q" m off ;;
  match vs with
  | VInt len :: _ =>
      ' (mt, o) <- p_match m o ;;
      ' (insts, o) <- list_fetch n (p_instruction n m) (off + Z.to_nat len) o ;;
      Ok (VTup "ofp_flow_stats" (vs ++ [mt; VList insts]), o)
  | _ => Err ValueError
  end.

(** parse.py:627-630. *)
Definition p_aggregate_stats_reply := fixed "ofp_aggregate_stats_reply" "QQI4x".
(** parse.py:633-635. *)
Definition p_table_stats := fixed "ofp_table_stats" "B3xIQQ".

(** parse.py:638-649: the name [ofp_table_feature_prop_] is not defined. *)
Definition p_table_features (m : bytes) (off : nat) : res (pyval * nat) :=
  unp "HB5x32sQQII" m off ;;; Err NameError.

(** parse.py:728-730. *)
Definition p_port_stats_request := fixed "ofp_port_stats_request" "I4x".
(** parse.py:732-743. *)
Definition p_port_stats := fixed "ofp_port_stats" "I3x12Q2I".
(** parse.py:746-748. *)
Definition p_queue_stats_request := fixed "ofp_queue_stats_request" "II".
(** parse.py:750-754. *)
Definition p_queue_stats := fixed "ofp_queue_stats" "2I3Q2I".
(** parse.py:757-759. *)
Definition p_group_stats_request := fixed "ofp_group_stats_request" "I4x".
(** parse.py:774-776. *)
Definition p_bucket_counter := fixed "ofp_bucket_counter" "QQ".

(** parse.py:761-772. *)
Definition p_group_stats (n : nat) (m : bytes) (off : nat) : res (pyval * nat) :=
  ' (vs, o) <- unp "H2xII4xQQII" m off ;;
  match vs with
  | VInt len :: _ =>
      ' (bs, o) <- list_fetch n (p_bucket_counter m) (off + Z.to_nat len) o ;;
      Ok (VTup "ofp_group_stats" (vs ++ [VList bs]), o)
  | _ => Err ValueError
  end.

(** parse.py:779-787. *)
Definition p_group_desc (n : nat) (m : bytes) (off : nat) : res (pyval * nat) :=
  ' (vs, o) <- unp "HBxI" m off ;;
  match vs with
  | VInt len :: _ =>
      ' (bs, o) <- list_fetch n (p_bucket n m) (off + Z.to_nat len) o ;;
      Ok (VTup "ofp_group_desc" (vs ++ [VList bs]), o)
  | _ => Err ValueError
  end.

(** parse.py:790-797. *)
Definition p_group_features (m : bytes) (off : nat) : res (pyval * nat) :=
  ' (vs, o) <- unp "II" m off ;;
  ' (g, o) <- unp "4I" m o ;;
  ' (a, o) <- unp "4I" m o ;;
  Ok (VTup "ofp_group_features" (vs ++ [VTup "tuple" g; VTup "tuple" a]), o).

(** parse.py:800-803. *)
Definition p_meter_multipart_request := fixed "ofp_meter_multipart_request" "I4x".
(** parse.py:820-822. *)
Definition p_meter_band_stats := fixed "ofp_meter_band_stats" "QQ".

(** parse.py:805-818. *)
Definition p_meter_stats (n : nat) (m : bytes) (off : nat) : res (pyval * nat) :=
  ' (vs, o) <- unp "IH6xIQQII" m off ;;
  match vs with
  | _ :: VInt len :: _ =>
      ' (bs, o) <- list_fetch n (p_meter_band_stats m) (off + Z.to_nat len) o ;;
      Ok (VTup "ofp_meter_stats" (vs ++ [VList bs]), o)
  | _ => Err ValueError
  end.

(** parse.py:825-834. *)
Definition p_meter_config (n : nat) (m : bytes) (off : nat) : res (pyval * nat) :=
  ' (vs, o) <- unp "HHI" m off ;;
  match vs with
  | VInt len :: _ =>
      ' (bs, o) <- list_fetch n (p_meter_band m) (off + Z.to_nat len) o ;;
      Ok (VTup "ofp_meter_config" (vs ++ [VList bs]), o)
  | _ => Err ValueError
  end.

(** parse.py:837-840. *)
Definition p_meter_features := fixed "ofp_meter_features" "3IBB2x".

(** parse.py:843-856. *)
Definition p_experimenter_multipart (m : bytes) (off limit : nat) : res (pyval * nat) :=
  ' (vs, o) <- unp "II" m off ;;
  Ok (VTup "ofp_experimenter_multipart_" (vs ++ [VBytes (slice m o limit)]), limit).

(** *** Table feature properties (not reached by [parse], see
    [p_table_features]) *)

(** parse.py:652-654. *)
Definition p_table_feature_prop_header := fixed "ofp_table_feature_prop_header" "HH".

(** parse.py:656-673: [ofp_instruction(cursor.offset)] lacks an argument. *)
Definition p_table_feature_prop_instructions (m : bytes) (off : nat) : res (pyval * nat) :=
  ' (vs, o) <- unp "HH" m off ;;
  match vs with
  | [_; VInt len] =>
      let l := Z.to_nat len in
      if (o <? off + l)%nat then Err TypeError
      else Ok (VTup "ofp_table_feature_prop_instructions" (vs ++ [VList []]), (o + (align8 l - l))%nat)
  | _ => Err ValueError
  end.

(** A format with a computed count: "%dX" with a negative number is
    struct.error. *)
Definition unp_count (f : fitem) (k : Z) (m : bytes) (off : nat) : res (list pyval * nat) :=
  if k <? 0 then Err StructError
  else
    let fs := repeat f (Z.to_nat k) in
    vs <- unpack_from fs m off ;; Ok (vs, (off + calcsize fs)%nat).

(** parse.py:675-684: the ids are read at the plain integer [offset], the
    start of the property. *)
Definition p_table_feature_prop_next_tables (m : bytes) (off : nat) : res (pyval * nat) :=
  ' (vs, o) <- unp "HH" m off ;;
  match vs with
  | [_; VInt len] =>
      let l := Z.to_nat len in
      ' (ids, _) <- unp_count (FU 1) (len - 4) m off ;;
      Ok (VTup "ofp_table_feature_prop_next_tables" (vs ++ [VTup "tuple" ids]), (o + (align8 l - l))%nat)
  | _ => Err ValueError
  end.

(** parse.py:691-698: one round of the loop; the header is read at the plain
    integer, so the cursor does not move; [ofp_action_experimenter] is not
    defined. *)
Definition p_action_id (m : bytes) (off : nat) : res (pyval * nat) :=
  ' (h, _) <- p_action_header m off ;;
  match h with
  | VTup _ [VInt ty; VInt len] =>
      if ty =? 65535 then Err NameError
      else assert_ (len =? 4) ;;; Ok (h, off)
  | _ => Err ValueError
  end.

(** parse.py:686-702. *)
Definition p_table_feature_prop_actions (n : nat) (m : bytes) (off : nat) : res (pyval * nat) :=
  ' (vs, o) <- unp "HH" m off ;;
  match vs with
  | [_; VInt len] =>
      let l := Z.to_nat len in
      ' (ids, o) <- while_fetch n (p_action_id m) (off + l) o ;;
      Ok (VTup "ofp_table_feature_prop_actions" (vs ++ [VList ids]), (o + (align8 l - l))%nat)
  | _ => Err ValueError
  end.

(** parse.py:704-713. *)
Definition p_table_feature_prop_oxm (m : bytes) (off : nat) : res (pyval * nat) :=
  ' (vs, o) <- unp "HH" m off ;;
  match vs with
  | [_; VInt len] =>
      let l := Z.to_nat len in
      ' (ids, o) <- unp_count (FU 4) ((len - 4) / 4) m o ;;
      Ok (VTup "ofp_table_feature_prop_oxm" (vs ++ [VTup "tuple" ids]), (o + (align8 l - l))%nat)
  | _ => Err ValueError
  end.

(** parse.py:715-725: the cursor is not moved over the data. *)
Definition p_table_feature_prop_experimenter (m : bytes) (off : nat) : res (pyval * nat) :=
  ' (vs, o) <- unp "HHII" m off ;;
  match vs with
  | _ :: VInt len :: _ =>
      let l := Z.to_nat len in
      Ok (VTup "ofp_table_feature_prop_experimenter" (vs ++ [VBytes (slice m o (off + l))]),
          (o + (align8 l - l))%nat)
  | _ => Err ValueError
  end.

(** *** Multipart messages *)

(** parse.py:490-523 (types as in M_Build4.v). *)
Definition p_multipart_request (n : nat) (m : bytes) (off : nat) : res (pyval * nat) :=
  ' (h, _, len, o) <- p_header m off ;;
  ' (vs, o) <- unp "HH4x" m o ;;
  match vs with
  | [VInt ty; _] =>
      ' (body, o) <-
        (if py_inz (VInt ty) [0; 3; 7; 8; 11; 13] then Ok (VBytes [], o)
         else if ty =? 1 then p_flow_stats_request m o
         else if ty =? 2 then p_aggregate_stats_request m o
         else if ty =? 4 then p_port_stats_request m o
         else if ty =? 5 then p_queue_stats_request m o
         else if ty =? 6 then p_group_stats_request m o
         else if py_inz (VInt ty) [9; 10] then p_meter_multipart_request m o
         else if ty =? 12 then
           ' (fs, o) <- while_fetch n (p_table_features m) (off + len) o ;; Ok (VList fs, o)
         else if ty =? 65535 then Ok (VBytes (slice m o (off + len)), (off + len)%nat)
         else Err ValueError) ;;
      Ok (VTup "ofp_multipart_request" (h :: vs ++ [body]), o)
  | _ => Err ValueError
  end.

(** parse.py:525-567. *)
Definition p_multipart_reply (n : nat) (m : bytes) (off : nat) : res (pyval * nat) :=
  ' (h, _, len, o) <- p_header m off ;;
  ' (vs, o) <- unp "HH4x" m o ;;
  match vs with
  | [VInt ty; _] =>
      let e := (off + len)%nat in
      let fetch f := (' (l, o) <- list_fetch n f e o ;; Ok (VList l, o)) in
      ' (body, o) <-
        (if ty =? 0 then p_desc m o
         else if ty =? 1 then fetch (p_flow_stats n m)
         else if ty =? 2 then fetch (p_aggregate_stats_reply m)
         else if ty =? 3 then fetch (p_table_stats m)
         else if ty =? 4 then fetch (p_port_stats m)
         else if ty =? 5 then fetch (p_queue_stats m)
         else if ty =? 6 then fetch (p_group_stats n m)
         else if ty =? 7 then fetch (p_group_desc n m)
         else if ty =? 8 then p_group_features m o
         else if ty =? 9 then fetch (p_meter_stats n m)
         else if ty =? 10 then fetch (p_meter_config n m)
         else if ty =? 11 then p_meter_features m o
         else if ty =? 12 then fetch (p_table_features m)
         else if ty =? 13 then fetch (p_port m)
         else if ty =? 65535 then p_experimenter_multipart m o e
         else Err ValueError) ;;
      Ok (VTup "ofp_multipart_reply" (h :: vs ++ [body]), o)
  | _ => Err ValueError
  end.

(** parse.py:859-866. *)
Definition p_queue_get_config_request := simple_message "ofp_queue_get_config_request" "I4x".

(** parse.py:868-877. *)
Definition p_queue_get_config_reply (n : nat) (m : bytes) (off : nat) : res (pyval * nat) :=
  ' (h, _, len, o) <- p_header m off ;;
  ' (vs, o) <- unp "I4x" m o ;;
  ' (qs, o) <- list_fetch n (p_packet_queue m) (off + len) o ;;
  Ok (VTup "ofp_queue_get_config_reply" (h :: vs ++ [VList qs]), o).

(** parse.py:880-897: the cursor stays at the end of the actions. *)
Definition p_packet_out (n : nat) (m : bytes) (off : nat) : res (pyval * nat) :=
  ' (h, _, len, o) <- p_header m off ;;
  ' (vs, o) <- unp "IIH6x" m o ;;
  match vs with
  | [_; _; VInt alen] =>
      ' (acts, o) <- while_fetch n (p_action m) (o + Z.to_nat alen) o ;;
      Ok (VTup "ofp_packet_out" (h :: vs ++ [VList acts; VBytes (slice m o (off + len))]), o)
  | _ => Err ValueError
  end.

(** parse.py:900-908. *)
Definition p_role_request := simple_message "ofp_role_request" "I4xQ".

(** parse.py:911-920. *)
Definition p_async_config (m : bytes) (off : nat) : res (pyval * nat) :=
  ' (h, _, _, o) <- p_header m off ;;
  ' (vs, o) <- unp "6I" m o ;;
  Ok (VTup "ofp_async_config"
        [h; VTup "tuple" (firstn 2 vs); VTup "tuple" (firstn 2 (skipn 2 vs)); VTup "tuple" (firstn 2 (skipn 4 vs))], o).

(** parse.py:923-937. *)
Definition p_packet_in (m : bytes) (off : nat) : res (pyval * nat) :=
  ' (h, _, len, o) <- p_header m off ;;
  ' (vs, o) <- unp "IHBBQ" m o ;;
  ' (mt, o) <- p_match m o ;;
  ' (_, o) <- unp "2x" m o ;;
  Ok (VTup "ofp_packet_in" (h :: vs ++ [mt; VBytes (slice m o (off + len))]), o).

(** parse.py:940-960. *)
Definition p_flow_removed (m : bytes) (off : nat) : res (pyval * nat) :=
  ' (h, _, _, o) <- p_header m off ;;
  ' (vs, o) <- unp "QHBBIIHHQQ" m o ;;
  ' (mt, o) <- p_match m o ;;
  Ok (VTup "ofp_flow_removed" (h :: vs ++ [mt]), o).

(** parse.py:963-974. *)
Definition p_port_status (m : bytes) (off : nat) : res (pyval * nat) :=
  ' (h, _, _, o) <- p_header m off ;;
  ' (vs, o) <- unp "B7x" m o ;;
  ' (p, o) <- p_port m o ;;
  Ok (VTup "ofp_port_status" (h :: vs ++ [p]), o).

(** parse.py:977-989. *)
Definition p_error_msg (m : bytes) (off : nat) : res (pyval * nat) :=
  ' (h, _, len, o) <- p_header m off ;;
  ' (vs, o) <- unp "HH" m o ;;
  Ok (VTup "ofp_error_msg" (h :: vs ++ [VBytes (slice m o (off + len))]), (off + len)%nat).

(** parse.py:1010-1012. *)
Definition p_hello_elem_header := fixed "ofp_hello_elem_header" "HH".

(** parse.py:1014-1023. *)
Definition p_hello_elem_versionbitmap (m : bytes) (off : nat) : res (pyval * nat) :=
  ' (vs, o) <- unp "HH" m off ;;
  match vs with
  | [VInt ty; VInt len] =>
      assert_ (ty =? 1) ;;;
      let l := Z.to_nat len in
      ' (bm, o) <- unp_count (FU 4) ((len - 4) / 4) m o ;;
      Ok (VTup "ofp_hello_elem_versionbitmap" (vs ++ [VTup "tuple" bm]), (o + (align8 l - l))%nat)
  | _ => Err ValueError
  end.

(** parse.py:1000-1005: one round of the loop. *)
Definition p_hello_elem (m : bytes) (off : nat) : res (pyval * nat) :=
  ' (h, _) <- p_hello_elem_header m off ;;
  match h with
  | VTup _ [VInt ty; _] => if ty =? 1 then p_hello_elem_versionbitmap m off else Err ValueError
  | _ => Err ValueError
  end.

(** parse.py:992-1008. *)
Definition p_hello (n : nat) (m : bytes) (off : nat) : res (pyval * nat) :=
  ' (h, _, len, o) <- p_header m off ;;
  ' (es, o) <- list_fetch n (p_hello_elem m) (off + len) o ;;
  Ok (VTup "ofp_hello" [h; VList es], o).

(** parse.py:1026-1033. *)
Definition p_experimenter_header := simple_message "ofp_experimenter_header" "II".

(** parse.py:1035-1045: the name [length] is not defined. *)
Definition p_experimenter (m : bytes) (off : nat) : res (pyval * nat) :=
  p_experimenter_header m off ;;; Err NameError.

(** parse.py:44-96 [parse]. *)
Definition parse (n : nat) (m : bytes) (off : nat) : res (pyval * nat) :=
  ' (_, ty, _, _) <- p_header m off ;;
  if ty =? 0 then p_hello n m off
  else if ty =? 1 then p_error_msg m off
  else if ty =? 6 then p_switch_features m off
  else if py_inz (VInt ty) [9; 8] then p_switch_config m off
  else if ty =? 10 then p_packet_in m off
  else if ty =? 11 then p_flow_removed m off
  else if ty =? 12 then p_port_status m off
  else if ty =? 13 then p_packet_out n m off
  else if ty =? 14 then p_flow_mod n m off
  else if ty =? 15 then p_group_mod n m off
  else if ty =? 16 then p_port_mod m off
  else if ty =? 17 then p_table_mod m off
  else if ty =? 18 then p_multipart_request n m off
  else if ty =? 19 then p_multipart_reply n m off
  else if ty =? 4 then p_experimenter m off
  else if ty =? 22 then p_queue_get_config_request m off
  else if ty =? 23 then p_queue_get_config_reply n m off
  else if ty =? 24 then p_role_request m off
  else if py_inz (VInt ty) [28; 27] then p_async_config m off
  else if ty =? 29 then p_meter_mod n m off
  else p_ofp m off.

(** parse.py:36-42 [from_bitmap]. *)
Definition word_bits (o : nat) (i : Z) : list Z :=
  map (fun s => 32 * Z.of_nat o + Z.of_nat s)
    (filter (fun s => negb (Z.land i (Z.shiftl 1 (Z.of_nat s)) =? 0)) (seq 0 32)).

Definition from_bitmap (l : list Z) : list Z :=
  concat (map (fun oi => word_bits (fst oi) (snd oi)) (combine (seq 0 (length l)) l)).
