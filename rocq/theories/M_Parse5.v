(** Model of twink/ofp5/parse.py: the parsers of OpenFlow 1.4 structures and
    messages.  The conventions are those of M_Parse4.v (whole message, offset
    of the cursor, fuel [n] for every [while] loop); its auxiliary definitions
    [unp], [fixed], [while_fetch], [list_fetch] and [unp_count] stand for the
    same lines here (parse.py:25-33, parse.py:663-669).  [parse] calls itself for the
    message held in another message; [d] bounds that nesting.
    Simplification: the recursion limit of the interpreter is not modelled. *)

From Verif Require Export Struct.
From Verif Require Import M_Parse4.
Local Open Scope Z_scope.
Local Open Scope list_scope.

(** parse.py:102-108 [ofp_header]: the namedtuple, its type and length, and the
    new offset. *)
Definition p_header (m : bytes) (off : nat) : res (pyval * Z * nat * nat) :=
  ' (vs, o) <- unp "BBHI" m off ;;
  match vs with
  | [VInt version; VInt oftype; VInt len; _] =>
      assert_ (version =? 5) ;;;
      Ok (VTup "ofp_header" vs, oftype, Z.to_nat len, o)
  | _ => Err ValueError
  end.

(** parse.py:110-119 [ofp_]. *)
Definition p_ofp (m : bytes) (off : nat) : res (pyval * nat) :=
  ' (h, _, len, o) <- p_header m off ;;
  Ok (VTup "ofp_" [h; VBytes (slice m o (off + len))], (off + len)%nat).

(** The experimenter properties share their text up to the class name and the
    new position: "HHII", the data up to [offset + length], and the cursor put
    to [offset + _align(length)]. *)
Definition exp_prop_aligned (cls : string) (m : bytes) (off : nat) : res (pyval * nat) :=
  ' (vs, o) <- unp "HHII" m off ;;
  match vs with
  | _ :: VInt len :: _ =>
      let l := Z.to_nat len in
      Ok (VTup cls (vs ++ [VBytes (slice m o (off + l))]), (off + align8 l)%nat)
  | _ => Err ValueError
  end.

(** The same with the cursor put to [offset + length]. *)
Definition exp_prop_exact (cls : string) (m : bytes) (off : nat) : res (pyval * nat) :=
  ' (vs, o) <- unp "HHII" m off ;;
  match vs with
  | _ :: VInt len :: _ =>
      let l := Z.to_nat len in
      Ok (VTup cls (vs ++ [VBytes (slice m o (off + l))]), (off + l)%nat)
  | _ => Err ValueError
  end.

(** The type of the property at the cursor, read from its "HH" header without
    moving the cursor, e.g. parse.py:388. *)
Definition prop_type (m : bytes) (off : nat) : res Z :=
  ' (vs, _) <- unp "HH" m off ;;
  match vs with VInt ty :: _ => Ok ty | _ => Err ValueError end.

(** *** Ports *)

(** parse.py:144-146. *)
Definition p_port_desc_prop_header := fixed "ofp_port_desc_prop_header" "HH".
(** parse.py:148-151. *)
Definition p_port_desc_prop_ethernet := fixed "ofp_port_desc_prop_ethernet" "HH4x6I".
(** parse.py:153-158. *)
Definition p_port_desc_prop_optical := fixed "ofp_port_desc_prop_optical" "HH4x7I2H".
(** parse.py:160-170. *)
Definition p_port_desc_prop_experimenter := exp_prop_exact "ofp_port_desc_prop_experimenter".

(** parse.py:122-141 [ofp_port]: returns the first property; without a property
    the name [properties] is not defined. *)
Definition p_port (m : bytes) (off : nat) : res (pyval * nat) :=
  ' (vs, o) <- unp "IH2x6s2x16sII" m off ;;
  match vs with
  | _ :: VInt len :: _ =>
      if (o <? off + Z.to_nat len)%nat then
        ty <- prop_type m o ;;
        if ty =? 0 then p_port_desc_prop_ethernet m o
        else if ty =? 1 then p_port_desc_prop_optical m o
        else if ty =? 65535 then p_port_desc_prop_experimenter m o
        else Err ValueError
      else Err NameError
  | _ => Err ValueError
  end.

(** parse.py:173-181 [ofp_match]. *)
Definition p_match (m : bytes) (off : nat) : res (pyval * nat) :=
  ' (vs, o) <- unp "HH" m off ;;
  match vs with
  | [_; VInt len] =>
      let l := Z.to_nat len in
      Ok (VTup "ofp_match" (vs ++ [VBytes (slice m o (off + l))]), (off + align8 l)%nat)
  | _ => Err ValueError
  end.

(** parse.py:184-186. *)
Definition p_oxm_experimenter_header := fixed "ofp_oxm_experimenter_header" "II".

(** *** Actions *)

(** parse.py:262-264. *)
Definition p_action_header := fixed "ofp_action_header" "HH".
(** parse.py:293-295. *)
Definition p_action_output := fixed "ofp_action_output" "HHIH6x".
(** parse.py:297-299. *)
Definition p_action_group := fixed "ofp_action_group" "HHI".
(** parse.py:301-303. *)
Definition p_action_set_queue := fixed "ofp_action_set_queue" "HHI".
(** parse.py:305-307: the name [namedutple] is not defined. *)
Definition p_action_mpls_ttl (m : bytes) (off : nat) : res (pyval * nat) := Err NameError.
(** parse.py:309-311. *)
Definition p_action_generic := fixed "ofp_action_generic" "HH4x".
(** parse.py:313-315. *)
Definition p_action_nw_ttl := fixed "ofp_action_nw_ttl" "HHB3x".
(** parse.py:317-319. *)
Definition p_action_push := fixed "ofp_action_push" "HHH2x".
(** parse.py:321-323. *)
Definition p_action_pop_mpls := fixed "ofp_action_pop_mpls" "HHH2x".

(** parse.py:325-333. *)
Definition p_action_set_field (m : bytes) (off : nat) : res (pyval * nat) :=
  ' (vs, o) <- unp "HH" m off ;;
  match vs with
  | [_; VInt len] =>
      let e := (off + Z.to_nat len)%nat in
      Ok (VTup "ofp_action_set_field" (vs ++ [VBytes (slice m o e)]), e)
  | _ => Err ValueError
  end.

(** parse.py:335-337, parse.py:339-347. *)
Definition p_action_experimenter (m : bytes) (off : nat) : res (pyval * nat) :=
  ' (vs, o) <- unp "HHI" m off ;;
  match vs with
  | [_; VInt len; _] =>
      let e := (off + Z.to_nat len)%nat in
      Ok (VTup "ofp_action_experimenter_" (vs ++ [VBytes (slice m o e)]), e)
  | _ => Err ValueError
  end.

(** parse.py:266-291 [ofp_action_]. *)
Definition p_action (m : bytes) (off : nat) : res (pyval * nat) :=
  ' (h, _) <- p_action_header m off ;;
  match h with
  | VTup _ [VInt ty; _] =>
      if ty =? 0 then p_action_output m off
      else if ty =? 22 then p_action_group m off
      else if ty =? 21 then p_action_set_queue m off
      else if ty =? 15 then p_action_mpls_ttl m off
      else if ty =? 23 then p_action_nw_ttl m off
      else if py_inz (VInt ty) [17; 19; 26] then p_action_push m off
      else if ty =? 20 then p_action_pop_mpls m off
      else if ty =? 25 then p_action_set_field m off
      else if ty =? 65535 then p_action_experimenter m off
      else if py_inz (VInt ty) [11; 12; 16; 24; 18; 27] then p_action_generic m off
      else Err ValueError
  | _ => Err ValueError
  end.

(** parse.py:350-356: the name [cursor] is not defined. *)
Definition p_experimenter_structure (m : bytes) (off : nat) : res (pyval * nat) :=
  unp "II" m off ;;; Err NameError.

(** *** Instructions *)

(** parse.py:189-191. *)
Definition p_instruction_header := fixed "ofp_instruction_header" "HH".
(** parse.py:211-213. *)
Definition p_instruction_goto_table := fixed "ofp_instruction_goto_table" "HHB3x".
(** parse.py:215-217. *)
Definition p_instruction_write_metadata := fixed "ofp_instruction_write_metadata" "HH4xQQ".
(** parse.py:233-235. *)
Definition p_instruction_meter := fixed "ofp_instruction_meter" "HHI".

(** parse.py:219-231. *)
Definition p_instruction_actions (n : nat) (m : bytes) (off : nat) : res (pyval * nat) :=
  ' (vs, o) <- unp "HH4x" m off ;;
  match vs with
  | [_; VInt len] =>
      let e := (off + Z.to_nat len)%nat in
      ' (acts, o) <- list_fetch n (p_action m) e o ;;
      Ok (VTup "ofp_instruction_actions" (vs ++ [VList acts]), o)
  | _ => Err ValueError
  end.

(** parse.py:237-247. *)
Definition p_instruction_experimenter_header (m : bytes) (off : nat) : res (pyval * nat) :=
  ' (vs, _) <- unp "HHI" m off ;;
  match vs with
  | [_; VInt len; _] => Ok (VTup "ofp_instruction_experimenter_header" vs, (off + Z.to_nat len)%nat)
  | _ => Err ValueError
  end.

(** parse.py:249-259. *)
Definition p_instruction_experimenter (m : bytes) (off : nat) : res (pyval * nat) :=
  ' (vs, o) <- unp "HHI" m off ;;
  match vs with
  | [_; VInt len; _] =>
      let e := (off + Z.to_nat len)%nat in
      Ok (VTup "ofp_instruction_experimenter_" (vs ++ [VBytes (slice m o e)]), e)
  | _ => Err ValueError
  end.

(** parse.py:193-209 [ofp_instruction_]. *)
Definition p_instruction (n : nat) (m : bytes) (off : nat) : res (pyval * nat) :=
  ' (h, _) <- p_instruction_header m off ;;
  match h with
  | VTup _ [VInt ty; _] =>
      if ty =? 1 then p_instruction_goto_table m off
      else if ty =? 2 then p_instruction_write_metadata m off
      else if py_inz (VInt ty) [3; 4; 5] then p_instruction_actions n m off
      else if ty =? 6 then p_instruction_meter m off
      else if ty =? 65535 then p_instruction_experimenter m off
      else Err ValueError
  | _ => Err ValueError
  end.

(** *** Messages *)

(** A message that consists of the header and fixed fields only. *)
Definition simple_message (cls f : string) (m : bytes) (off : nat) : res (pyval * nat) :=
  ' (h, _, _, o) <- p_header m off ;;
  ' (vs, o) <- unp f m o ;;
  Ok (VTup cls (h :: vs), o).

(** A message of a header, fixed fields and the remaining bytes, after which
    the cursor is at the end of the message. *)
Definition data_message (cls f : string) (m : bytes) (off : nat) : res (pyval * nat) :=
  ' (h, _, len, o) <- p_header m off ;;
  ' (vs, o) <- unp f m o ;;
  Ok (VTup cls (h :: vs ++ [VBytes (slice m o (off + len))]), (off + len)%nat).

(** parse.py:359-368: the reserved word is dropped. *)
Definition p_switch_features (m : bytes) (off : nat) : res (pyval * nat) :=
  ' (h, _, _, o) <- p_header m off ;;
  ' (vs, o) <- unp "QIBB2xII" m o ;;
  match vs with
  | [a; b; c; d; e; _] => Ok (VTup "ofp_switch_features" [h; a; b; c; d; e], o)
  | _ => Err ValueError
  end.

(** parse.py:371-377. *)
Definition p_switch_config := simple_message "ofp_switch_config" "HH".

(** parse.py:401-403. *)
Definition p_table_mod_prop_header := fixed "ofp_table_mod_prop_header" "HH".
(** parse.py:405-407. *)
Definition p_table_mod_prop_eviction := fixed "ofp_table_mod_prop_eviction" "HHI".
(** parse.py:409-412. *)
Definition p_table_mod_prop_vacancy := fixed "ofp_table_mod_prop_vacancy" "HH3Bx".
(** parse.py:414-424. *)
Definition p_table_mod_prop_experimenter := exp_prop_aligned "ofp_table_mod_prop_experimenter".

(** parse.py:388-396: one round of the loop of [ofp_table_mod]. *)
Definition p_table_mod_prop (m : bytes) (off : nat) : res (pyval * nat) :=
  ty <- prop_type m off ;;
  if ty =? 2 then p_table_mod_prop_eviction m off
  else if ty =? 3 then p_table_mod_prop_vacancy m off
  else if ty =? 65535 then p_table_mod_prop_experimenter m off
  else Err ValueError.

(** parse.py:380-399. *)
Definition p_table_mod (n : nat) (m : bytes) (off : nat) : res (pyval * nat) :=
  ' (h, _, len, o) <- p_header m off ;;
  ' (vs, o) <- unp "B3xI" m o ;;
  ' (ps, o) <- while_fetch n (p_table_mod_prop m) (off + len) o ;;
  Ok (VTup "ofp_table_mod" (h :: vs ++ [VList ps]), o).

(** parse.py:427-445. *)
Definition p_flow_mod (n : nat) (m : bytes) (off : nat) : res (pyval * nat) :=
  ' (h, _, len, o) <- p_header m off ;;
  ' (vs, o) <- unp "QQBB3H3IHH" m o ;;
  ' (mt, o) <- p_match m o ;;
  ' (insts, o) <- list_fetch n (p_instruction n m) (off + len) o ;;
  Ok (VTup "ofp_flow_mod" (h :: vs ++ [mt; VList insts]), o).

(** parse.py:461-472. *)
Definition p_bucket (n : nat) (m : bytes) (off : nat) : res (pyval * nat) :=
  ' (vs, o) <- unp "HHII4x" m off ;;
  match vs with
  | VInt len :: _ =>
      ' (acts, o) <- while_fetch n (p_action m) (off + Z.to_nat len) o ;;
      Ok (VTup "ofp_bucket" (vs ++ [VList acts]), o)
  | _ => Err ValueError
  end.

(** parse.py:448-459. *)
Definition p_group_mod (n : nat) (m : bytes) (off : nat) : res (pyval * nat) :=
  ' (h, _, len, o) <- p_header m off ;;
  ' (vs, o) <- unp "HBxI" m o ;;
  ' (bs, o) <- while_fetch n (p_bucket n m) (off + len) o ;;
  Ok (VTup "ofp_group_mod" (h :: vs ++ [VList bs]), o).

(** parse.py:495-497. *)
Definition p_port_mod_prop_header := fixed "ofp_port_mod_prop_header" "HH".
(** parse.py:499-501. *)
Definition p_port_mod_prop_ethernet := fixed "ofp_port_mod_prop_ethernet" "HHI".
(** parse.py:503-506. *)
Definition p_port_mod_prop_optical := fixed "ofp_port_mod_prop_optical" "HHIIiII".
(** parse.py:508-518: unpacked at the plain integer
    [offset], so the data begins at the start of the property. *)
Definition p_port_mod_prop_experimenter (m : bytes) (off : nat) : res (pyval * nat) :=
  ' (vs, _) <- unp "HHII" m off ;;
  match vs with
  | _ :: VInt len :: _ =>
      let l := Z.to_nat len in
      Ok (VTup "ofp_port_mod_prop_experimenter" (vs ++ [VBytes (slice m off (off + l))]), (off + align8 l)%nat)
  | _ => Err ValueError
  end.

(** parse.py:482-489: a property of another type is neither kept nor
    skipped. *)
Fixpoint port_mod_props (n : nat) (m : bytes) (limit off : nat) : res (list pyval * nat) :=
  if (off <? limit)%nat then
    match n with
    | O => Err OutOfFuel
    | S n' =>
        let keep f := (' (v, o) <- f m off ;; ' (vs, o') <- port_mod_props n' m limit o ;; Ok (v :: vs, o')) in
        ty <- prop_type m off ;;
        if ty =? 0 then keep p_port_mod_prop_ethernet
        else if ty =? 1 then keep p_port_mod_prop_optical
        else if ty =? 65535 then keep p_port_mod_prop_experimenter
        else port_mod_props n' m limit off
    end
  else Ok ([], off).

(** parse.py:475-493: the fields are unpacked at the plain integer [offset],
    so they are read from the header and the properties from the body. *)
Definition p_port_mod (n : nat) (m : bytes) (off : nat) : res (pyval * nat) :=
  ' (h, _, len, o) <- p_header m off ;;
  ' (vs, _) <- unp "I4x6s2xII" m off ;;
  ' (ps, o) <- port_mod_props n m (off + len) o ;;
  Ok (VTup "ofp_port_mod" (h :: vs ++ [VList ps]), o).

(** parse.py:537-539. *)
Definition p_meter_band_header := fixed "ofp_meter_band_header" "HHII".
(** parse.py:554-556. *)
Definition p_meter_band_drop := fixed "ofp_meter_band_drop" "HHII4x".
(** parse.py:558-561. *)
Definition p_meter_band_dscp_remark := fixed "ofp_meter_band_dscp_remark" "HHIIB3x".

(** parse.py:563-571: unpacked at the plain integer [offset],
    so the cursor does not move, and the data begins at the start of the band. *)
Definition p_meter_band_experimenter (m : bytes) (off : nat) : res (pyval * nat) :=
  vs <- unpacks "HH3I" m off ;;
  match vs with
  | _ :: VInt len :: _ =>
      Ok (VTup "ofp_meter_band_experimenter" (vs ++ [VBytes (slice m off (off + Z.to_nat len))]), off)
  | _ => Err ValueError
  end.

(** parse.py:541-552. *)
Definition p_meter_band (m : bytes) (off : nat) : res (pyval * nat) :=
  ' (h, _) <- p_meter_band_header m off ;;
  match h with
  | VTup _ (VInt ty :: _) =>
      if ty =? 1 then p_meter_band_drop m off
      else if ty =? 2 then p_meter_band_dscp_remark m off
      else if ty =? 65535 then p_meter_band_experimenter m off
      else Err ValueError
  | _ => Err ValueError
  end.

(** parse.py:521-535. *)
Definition p_meter_mod (n : nat) (m : bytes) (off : nat) : res (pyval * nat) :=
  ' (h, _, len, o) <- p_header m off ;;
  ' (vs, o) <- unp "HHI" m o ;;
  ' (bs, o) <- while_fetch n (p_meter_band m) (off + len) o ;;
  Ok (VTup "ofp_meter_mod" (h :: vs ++ [VList bs]), o).

(** *** Multipart bodies *)

(** parse.py:672-674. *)
Definition p_desc := fixed "ofp_desc" "256s256s256s32s256s".

(** parse.py:677-687 and parse.py:710-719. *)
Definition flow_request (cls : string) (m : bytes) (off : nat) : res (pyval * nat) :=
  ' (vs, o) <- unp "B3xII4xQQ" m off ;;
  ' (mt, o) <- p_match m o ;;
  Ok (VTup cls (vs ++ [mt]), o).
Definition p_flow_stats_request := flow_request "ofp_flow_stats_request".
Definition p_aggregate_stats_request := flow_request "ofp_aggregate_stats_request".

(** parse.py:689-707. *)
Definition p_flow_stats (n : nat) (m : bytes) (off : nat) : res (pyval * nat) :=
  ' (vs, o) <- unp "HBxII4H4x3Q" m off ;;
  match vs with
  | VInt len :: _ =>
      ' (mt, o) <- p_match m o ;;
      ' (insts, o) <- list_fetch n (p_instruction n m) (off + Z.to_nat len) o ;;
      Ok (VTup "ofp_flow_stats" (vs ++ [mt; VList insts]), o)
  | _ => Err ValueError
  end.

(** parse.py:721-724. *)
Definition p_aggregate_stats_reply := fixed "ofp_aggregate_stats_reply" "QQI4x".

(** parse.py:727-729: four values for five names. *)
Definition p_table_stats (m : bytes) (off : nat) : res (pyval * nat) :=
  unp "B3xIQQ" m off ;;; Err TypeError.

(** parse.py:732-751: the name [header] is not defined. *)
Definition p_table_desc (m : bytes) (off : nat) : res (pyval * nat) :=
  unp "HBxI" m off ;;; Err NameError.

(** parse.py:783-785. *)
Definition p_table_feature_prop_header := fixed "ofp_table_feature_prop_header" "HH".

(** parse.py:799-806 and parse.py:830-837: the cursor is not moved over
    the data. *)
Definition feature_id (cls : string) (m : bytes) (off : nat) : res (pyval * nat) :=
  ' (vs, o) <- unp "HH" m off ;;
  match vs with
  | [_; VInt len] => Ok (VTup cls (vs ++ [VBytes (slice m o (off + Z.to_nat len))]), o)
  | _ => Err ValueError
  end.
Definition p_instruction_id := feature_id "ofp_instruction_id".
Definition p_action_id := feature_id "ofp_action_id".

(** parse.py:787-797. *)
Definition p_table_feature_prop_instructions (n : nat) (m : bytes) (off : nat) : res (pyval * nat) :=
  ' (vs, o) <- unp "HH" m off ;;
  match vs with
  | [_; VInt len] =>
      let l := Z.to_nat len in
      ' (ids, _) <- list_fetch n (p_instruction_id m) (off + l) o ;;
      Ok (VTup "ofp_table_feature_prop_instructions" (vs ++ [VList ids]), (off + align8 l)%nat)
  | _ => Err ValueError
  end.

(** parse.py:808-817: the ids are read at the plain integer
    [offset], the start of the property, and the cursor is not moved over
    them. *)
Definition p_table_feature_prop_tables (m : bytes) (off : nat) : res (pyval * nat) :=
  ' (vs, o) <- unp "HH" m off ;;
  match vs with
  | [_; VInt len] =>
      let l := Z.to_nat len in
      ' (ids, _) <- unp_count (FU 1) (len - 4) m off ;;
      Ok (VTup "ofp_table_feature_prop_tables" (vs ++ [VTup "tuple" ids]), (o + (align8 l - l))%nat)
  | _ => Err ValueError
  end.

(** parse.py:819-828: [_list_fetch] is called with three of
    its four arguments ("cursor. offset+length" is one). *)
Definition p_table_feature_prop_actions (m : bytes) (off : nat) : res (pyval * nat) :=
  unp "HH" m off ;;; Err TypeError.

(** parse.py:839-848. *)
Definition p_table_feature_prop_oxm (m : bytes) (off : nat) : res (pyval * nat) :=
  ' (vs, o) <- unp "HH" m off ;;
  match vs with
  | [_; VInt len] =>
      let l := Z.to_nat len in
      ' (ids, o) <- unp_count (FU 4) ((len - 4) / 4) m o ;;
      Ok (VTup "ofp_table_feature_prop_oxm" (vs ++ [VTup "tuple" ids]), (o + (align8 l - l))%nat)
  | _ => Err ValueError
  end.

(** parse.py:850-860: the cursor is not moved over the
    data. *)
Definition p_table_feature_prop_experimenter (m : bytes) (off : nat) : res (pyval * nat) :=
  ' (vs, o) <- unp "HHII" m off ;;
  match vs with
  | _ :: VInt len :: _ =>
      let l := Z.to_nat len in
      Ok (VTup "ofp_table_feature_prop_experimenter" (vs ++ [VBytes (slice m o (off + l))]),
          (o + (align8 l - l))%nat)
  | _ => Err ValueError
  end.

(** parse.py:762-776: one round of the loop of [ofp_table_features]. *)
Definition p_table_feature_prop (n : nat) (m : bytes) (off : nat) : res (pyval * nat) :=
  ty <- prop_type m off ;;
  if py_inz (VInt ty) [0; 1] then p_table_feature_prop_instructions n m off
  else if py_inz (VInt ty) [2; 3; 14] then p_table_feature_prop_tables m off
  else if py_inz (VInt ty) [4; 5; 6; 7] then p_table_feature_prop_actions m off
  else if py_inz (VInt ty) [8; 9; 10; 11; 12; 13] then p_table_feature_prop_oxm m off
  else if py_inz (VInt ty) [65534; 65535] then p_table_feature_prop_experimenter m off
  else Err ValueError.

(** parse.py:754-780: the result has the class name of a property
    header. *)
Definition p_table_features (n : nat) (m : bytes) (off : nat) : res (pyval * nat) :=
  ' (vs, o) <- unp "HB5x32sQQII" m off ;;
  match vs with
  | VInt len :: t :: VBytes name :: rest =>
      ' (ps, o) <- while_fetch n (p_table_feature_prop n m) (off + Z.to_nat len) o ;;
      Ok (VTup "ofp_table_feature_prop_header"
            (VInt len :: t :: VBytes (before_nul name) :: rest ++ [VList ps]), o)
  | _ => Err ValueError
  end.

(** parse.py:863-865. *)
Definition p_port_stats_request := fixed "ofp_port_stats_request" "I4x".
(** parse.py:894-896. *)
Definition p_port_stats_prop_header := fixed "ofp_port_stats_prop_header" "HH".
(** parse.py:898-901. *)
Definition p_port_stats_prop_ethernet := fixed "ofp_port_stats_prop_ethernet" "HH4x4Q".
(** parse.py:903-909. *)
Definition p_port_stats_prop_optical := fixed "ofp_port_stats_prop_optical" "HH4x7I4H".
(** parse.py:911-920. *)
Definition p_port_stats_prop_experimenter := exp_prop_aligned "ofp_port_stats_experimenter".

(** parse.py:874-882: one round of the loop of [ofp_port_stats]. *)
Definition p_port_stats_prop (m : bytes) (off : nat) : res (pyval * nat) :=
  ty <- prop_type m off ;;
  if ty =? 0 then p_port_stats_prop_ethernet m off
  else if ty =? 1 then p_port_stats_prop_optical m off
  else if ty =? 65535 then p_port_stats_prop_experimenter m off
  else Err ValueError.

(** parse.py:867-892: eighteen values and the properties for thirteen
    names. *)
Definition p_port_stats (n : nat) (m : bytes) (off : nat) : res (pyval * nat) :=
  ' (vs, o) <- unp "H2xIII12Q2I" m off ;;
  match vs with
  | VInt len :: _ =>
      while_fetch n (p_port_stats_prop m) (off + Z.to_nat len) o ;;; Err TypeError
  | _ => Err ValueError
  end.

(** parse.py:926-928. *)
Definition p_queue_stats_request := fixed "ofp_queue_stats_request" "II".
(** parse.py:949-951. *)
Definition p_queue_stats_prop_header := fixed "ofp_queue_stats_prop_header" "HH".
(** parse.py:953-962. *)
Definition p_queue_stats_prop_experimenter := exp_prop_aligned "ofp_queue_stats_prop_experimenter".

(** parse.py:937-941. *)
Definition p_queue_stats_prop (m : bytes) (off : nat) : res (pyval * nat) :=
  ty <- prop_type m off ;;
  if ty =? 65535 then p_queue_stats_prop_experimenter m off else Err ValueError.

(** parse.py:930-947: eight values and the properties for eight names. *)
Definition p_queue_stats (n : nat) (m : bytes) (off : nat) : res (pyval * nat) :=
  ' (vs, o) <- unp "H6xII3QII" m off ;;
  match vs with
  | VInt len :: _ =>
      while_fetch n (p_queue_stats_prop m) (off + Z.to_nat len) o ;;; Err TypeError
  | _ => Err ValueError
  end.

(** parse.py:965-967. *)
Definition p_queue_desc_request := fixed "ofp_queue_desc_request" "II".
(** parse.py:990-992. *)
Definition p_queue_desc_prop_header := fixed "ofp_queue_desc_prop_header" "HH".
(** parse.py:994-996. *)
Definition p_queue_desc_prop_min_rate := fixed "ofp_queue_desc_prop_min_rate" "HHH2x".
(** parse.py:998-1000. *)
Definition p_queue_desc_prop_max_rate := fixed "ofp_queue_desc_prop_max_rate" "HHH2x".
(** parse.py:1002-1011. *)
Definition p_queue_desc_prop_experimenter := exp_prop_aligned "ofp_queue_desc_prop_experimenter".

(** parse.py:976-984. *)
Definition p_queue_desc_prop (m : bytes) (off : nat) : res (pyval * nat) :=
  ty <- prop_type m off ;;
  if ty =? 1 then p_queue_desc_prop_min_rate m off
  else if ty =? 2 then p_queue_desc_prop_max_rate m off
  else if ty =? 65535 then p_queue_desc_prop_experimenter m off
  else Err ValueError.

(** parse.py:969-988. *)
Definition p_queue_desc (n : nat) (m : bytes) (off : nat) : res (pyval * nat) :=
  ' (vs, o) <- unp "IIH6x" m off ;;
  match vs with
  | [_; _; VInt len] =>
      ' (ps, o) <- while_fetch n (p_queue_desc_prop m) (off + Z.to_nat len) o ;;
      Ok (VTup "ofp_queue_desc" (vs ++ [VList ps]), o)
  | _ => Err ValueError
  end.

(** parse.py:1014-1016. *)
Definition p_group_stats_request := fixed "ofp_group_stats_request" "I4x".
(** parse.py:1031-1033. *)
Definition p_bucket_counter := fixed "ofp_bucket_counter" "QQ".

(** parse.py:1018-1029. *)
Definition p_group_stats (n : nat) (m : bytes) (off : nat) : res (pyval * nat) :=
  ' (vs, o) <- unp "H2xII4xQQII" m off ;;
  match vs with
  | VInt len :: _ =>
      ' (bs, o) <- list_fetch n (p_bucket_counter m) (off + Z.to_nat len) o ;;
      Ok (VTup "ofp_group_stats" (vs ++ [VList bs]), o)
  | _ => Err ValueError
  end.

(** parse.py:1036-1044. *)
Definition p_group_desc (n : nat) (m : bytes) (off : nat) : res (pyval * nat) :=
  ' (vs, o) <- unp "HBxI" m off ;;
  match vs with
  | VInt len :: _ =>
      ' (bs, o) <- list_fetch n (p_bucket n m) (off + Z.to_nat len) o ;;
      Ok (VTup "ofp_group_desc" (vs ++ [VList bs]), o)
  | _ => Err ValueError
  end.

(** parse.py:1047-1054. *)
Definition p_group_features (m : bytes) (off : nat) : res (pyval * nat) :=
  ' (vs, o) <- unp "II" m off ;;
  ' (g, o) <- unp "4I" m o ;;
  ' (a, o) <- unp "4I" m o ;;
  Ok (VTup "ofp_group_features" (vs ++ [VTup "tuple" g; VTup "tuple" a]), o).

(** parse.py:1057-1059 (not called: see [p_multipart_request]). *)
Definition p_meter_multipart_request := fixed "ofp_meter_multipart_request" "I4x".
(** parse.py:1076-1078. *)
Definition p_meter_band_stats := fixed "ofp_meter_band_stats" "QQ".

(** parse.py:1061-1074. *)
Definition p_meter_stats (n : nat) (m : bytes) (off : nat) : res (pyval * nat) :=
  ' (vs, o) <- unp "IH6xIQQII" m off ;;
  match vs with
  | _ :: VInt len :: _ =>
      ' (bs, o) <- list_fetch n (p_meter_band_stats m) (off + Z.to_nat len) o ;;
      Ok (VTup "ofp_meter_stats" (vs ++ [VList bs]), o)
  | _ => Err ValueError
  end.

(** parse.py:1082-1091. *)
Definition p_meter_config (n : nat) (m : bytes) (off : nat) : res (pyval * nat) :=
  ' (vs, o) <- unp "HHI" m off ;;
  match vs with
  | VInt len :: _ =>
      ' (bs, o) <- list_fetch n (p_meter_band m) (off + Z.to_nat len) o ;;
      Ok (VTup "ofp_meter_config" (vs ++ [VList bs]), o)
  | _ => Err ValueError
  end.

(** parse.py:1094-1097. *)
Definition p_meter_features := fixed "ofp_meter_features" "3IBB2x".

(** parse.py:1100-1109. *)
Definition p_flow_monitor_request (m : bytes) (off : nat) : res (pyval * nat) :=
  ' (vs, o) <- unp "IIIHBB" m off ;;
  ' (mt, o) <- p_match m o ;;
  Ok (VTup "ofp_flow_monitor_request" (vs ++ [mt]), o).

(** parse.py:1112-1114. *)
Definition p_flow_update_header := fixed "ofp_flow_update_header" "HH".

(** parse.py:1116-1137 (not called by [parse]). *)
Definition p_flow_update_full (n : nat) (m : bytes) (off : nat) : res (pyval * nat) :=
  ' (vs, o) <- unp "HHBBHHHIQ" m off ;;
  match vs with
  | [VInt len; a; b; c; d; e; f; VInt zero; g] =>
      assert_ (zero =? 0) ;;;
      ' (mt, o) <- p_match m o ;;
      ' (insts, o) <- while_fetch n (p_instruction n m) (off + Z.to_nat len) o ;;
      Ok (VTup "ofp_flow_monitor_request" [VInt len; a; b; c; d; e; f; g; mt; VList insts], o)
  | _ => Err ValueError
  end.

(** parse.py:1139-1141 (not called by [parse]). *)
Definition p_flow_update_abbrev := fixed "ofp_flow_update_abbrev" "HHI".

(** parse.py:1143-1151 (not called by [parse]). *)
Definition p_flow_update_paused (m : bytes) (off : nat) : res (pyval * nat) :=
  ' (vs, o) <- unp "HHI" m off ;;
  match vs with
  | [l; e; VInt zero] => assert_ (zero =? 0) ;;; Ok (VTup "ofp_flow_update_paused" [l; e], o)
  | _ => Err ValueError
  end.

(** parse.py:1154-1156, parse.py:1158-1167. *)
Definition p_experimenter_multipart (m : bytes) (off limit : nat) : res (pyval * nat) :=
  ' (vs, o) <- unp "II" m off ;;
  Ok (VTup "ofp_experimenter_multipart_" (vs ++ [VBytes (slice m o limit)]), limit).

(** *** Multipart messages *)

(** parse.py:574-611 (types as in M_Build5.v); the name
    [ofp_meter_multipart_requests] is not defined. *)
Definition p_multipart_request (n : nat) (m : bytes) (off : nat) : res (pyval * nat) :=
  ' (h, _, len, o) <- p_header m off ;;
  ' (vs, o) <- unp "HH4x" m o ;;
  match vs with
  | [VInt ty; _] =>
      ' (body, o) <-
        (if py_inz (VInt ty) [0; 3; 7; 8; 11; 13; 14] then Ok (VBytes [], o)
         else if ty =? 1 then p_flow_stats_request m o
         else if ty =? 2 then p_aggregate_stats_request m o
         else if ty =? 4 then p_port_stats_request m o
         else if ty =? 5 then p_queue_stats_request m o
         else if ty =? 6 then p_group_stats_request m o
         else if py_inz (VInt ty) [9; 10] then Err NameError
         else if ty =? 15 then p_queue_desc_request m o
         else if ty =? 16 then p_flow_monitor_request m o
         else if ty =? 12 then
           ' (fs, o) <- while_fetch n (p_table_features n m) (off + len) o ;; Ok (VList fs, o)
         else if ty =? 65535 then Ok (VBytes (slice m o (off + len)), (off + len)%nat)
         else Err ValueError) ;;
      Ok (VTup "ofp_multipart_request" (h :: vs ++ [body]), o)
  | _ => Err ValueError
  end.

(** parse.py:613-661. *)
Definition p_multipart_reply (n : nat) (m : bytes) (off : nat) : res (pyval * nat) :=
  ' (h, _, len, o) <- p_header m off ;;
  ' (vs, o) <- unp "HH4x" m o ;;
  match vs with
  | [VInt ty; _] =>
      let e := (off + len)%nat in
      let fetch f := (' (l, o) <- list_fetch n f e o ;; Ok (VList l, o)) in
      ' (body, o) <-
        (if ty =? 0 then p_desc m o
         else if ty =? 1 then fetch (p_flow_stats n m)
         else if ty =? 2 then fetch (p_aggregate_stats_reply m)
         else if ty =? 3 then fetch (p_table_stats m)
         else if ty =? 4 then fetch (p_port_stats n m)
         else if ty =? 5 then fetch (p_queue_stats n m)
         else if ty =? 6 then fetch (p_group_stats n m)
         else if ty =? 7 then fetch (p_group_desc n m)
         else if ty =? 8 then p_group_features m o
         else if ty =? 9 then fetch (p_meter_stats n m)
         else if ty =? 10 then fetch (p_meter_config n m)
         else if ty =? 11 then p_meter_features m o
         else if ty =? 12 then fetch (p_table_features n m)
         else if ty =? 13 then fetch (p_port m)
         else if ty =? 14 then fetch (p_table_desc m)
         else if ty =? 15 then fetch (p_queue_desc n m)
         else if ty =? 16 then fetch (p_flow_update_header m)
         else if ty =? 65535 then p_experimenter_multipart m o e
         else Err ValueError) ;;
      Ok (VTup "ofp_multipart_reply" (h :: vs ++ [body]), o)
  | _ => Err ValueError
  end.

(** parse.py:1170-1188. *)
Definition p_packet_out (n : nat) (m : bytes) (off : nat) : res (pyval * nat) :=
  ' (h, _, len, o) <- p_header m off ;;
  ' (vs, o) <- unp "IIH6x" m o ;;
  match vs with
  | [_; _; VInt alen] =>
      ' (acts, o) <- while_fetch n (p_action m) (o + Z.to_nat alen) o ;;
      Ok (VTup "ofp_packet_out" (h :: vs ++ [VList acts; VBytes (slice m o (off + len))]), (off + len)%nat)
  | _ => Err ValueError
  end.

(** parse.py:1191-1199 (not called by [parse]). *)
Definition p_role_request := simple_message "ofp_role_request" "I4xQ".

(** parse.py:1211-1215, 1233-1237: the first property ends in a NameError
    (OFPBPTEXPERIMENTER). *)
Definition p_bundle_prop (m : bytes) (off : nat) : res (pyval * nat) :=
  prop_type m off ;;; Err NameError.

(** parse.py:1243-1245. *)
Definition p_bundle_prop_header := fixed "ofp_bundle_prop_header" "HH".
(** parse.py:1247-1258 (not reached by [parse]). *)
Definition p_bundle_prop_experimenter := exp_prop_exact "ofp_bundle_prop_experimenter".

(** parse.py:1202-1219. *)
Definition p_bundle_ctrl_msg (n : nat) (m : bytes) (off : nat) : res (pyval * nat) :=
  ' (h, _, len, o) <- p_header m off ;;
  ' (vs, o) <- unp "IHH" m o ;;
  ' (ps, o) <- while_fetch n (p_bundle_prop m) (off + len) o ;;
  Ok (VTup "ofp_bundle_ctrl_msg" (h :: vs ++ [VList ps]), o).

(** parse.py:1222-1241; [inner] is [parse].  The variable [message] is
    rebound to the parsed message, so a property is read from a namedtuple,
    which struct refuses (TypeError). *)
Definition p_bundle_add_msg (inner : bytes -> nat -> res (pyval * nat)) (m : bytes) (off : nat) : res (pyval * nat) :=
  ' (h, _, len, o) <- p_header m off ;;
  ' (vs, o) <- unp "I2xH" m o ;;
  ' (v, o) <- inner m o ;;
  if (o <? off + len)%nat then Err TypeError
  else Ok (VTup "ofp_bundle_add_msg" (h :: vs ++ [v; VList []]), o).

(** parse.py:1284-1286. *)
Definition p_async_config_prop_header := fixed "ofp_async_config_prop_header" "HH".
(** parse.py:1300-1302. *)
Definition p_async_config_prop_reasons := fixed "ofp_async_config_prop_reasons" "HHI".
(** parse.py:1288-1298 (not reached by [parse]): the name
    [header] is not defined. *)
Definition p_async_config_prop_experimenter (m : bytes) (off : nat) : res (pyval * nat) :=
  unp "HHII" m off ;;; Err NameError.

(** parse.py:1268-1278: one round of the loop; the reasons of TABLE_STATUS
    (8, 9) are not listed and the names OFPTFPT_EXPERIMENTER_SLAVE and
    OFPTFPT_EXPERIMENTER_MASTER not defined. *)
Definition p_async_config_prop (m : bytes) (off : nat) : res (pyval * nat) :=
  ty <- prop_type m off ;;
  if py_inz (VInt ty) [0; 1; 2; 3; 4; 5; 6; 7; 10; 11] then p_async_config_prop_reasons m off
  else Err NameError.

(** parse.py:1261-1282. *)
Definition p_async_config (n : nat) (m : bytes) (off : nat) : res (pyval * nat) :=
  ' (h, _, len, o) <- p_header m off ;;
  ' (ps, o) <- while_fetch n (p_async_config_prop m) (off + len) o ;;
  Ok (VTup "ofp_async_config" [h; VList ps], o).

(** parse.py:1305-1320. *)
Definition p_packet_in (m : bytes) (off : nat) : res (pyval * nat) :=
  ' (h, _, len, o) <- p_header m off ;;
  ' (vs, o) <- unp "IHBBQ" m o ;;
  ' (mt, o) <- p_match m o ;;
  ' (_, o) <- unp "2x" m o ;;
  Ok (VTup "ofp_packet_in" (h :: vs ++ [mt; VBytes (slice m o (off + len))]), (off + len)%nat).

(** parse.py:1323-1343. *)
Definition p_flow_removed (m : bytes) (off : nat) : res (pyval * nat) :=
  ' (h, _, _, o) <- p_header m off ;;
  ' (vs, o) <- unp "QHBBIIHHQQ" m o ;;
  ' (mt, o) <- p_match m o ;;
  Ok (VTup "ofp_flow_removed" (h :: vs ++ [mt]), o).

(** parse.py:1346-1357. *)
Definition p_port_status (m : bytes) (off : nat) : res (pyval * nat) :=
  ' (h, _, _, o) <- p_header m off ;;
  ' (vs, o) <- unp "B7x" m o ;;
  ' (p, o) <- p_port m o ;;
  Ok (VTup "ofp_port_status" (h :: vs ++ [p]), o).

(** parse.py:1378-1380. *)
Definition p_role_prop_header := fixed "ofp_role_prop_header" "HH".

(** parse.py:1382-1390: unpacked at the plain integer. *)
Definition p_role_prop_experimenter (m : bytes) (off : nat) : res pyval :=
  vs <- unpacks "HHII" m off ;;
  match vs with
  | _ :: VInt len :: _ =>
      Ok (VTup "ofp_role_prop_experimenter" (vs ++ [VBytes (slice m off (off + Z.to_nat len))]))
  | _ => Err ValueError
  end.

(** parse.py:1368-1372: one round of the loop; [start] is the plain integer
    [offset], so the property is read from the start of the message and the
    cursor stays. *)
Definition p_role_prop (start : nat) (m : bytes) (off : nat) : res (pyval * nat) :=
  ty <- prop_type m off ;;
  if ty =? 65535 then (v <- p_role_prop_experimenter m start ;; Ok (v, off))
  else Err ValueError.

(** parse.py:1360-1376: the fields are unpacked at the plain integer. *)
Definition p_role_status (n : nat) (m : bytes) (off : nat) : res (pyval * nat) :=
  ' (h, _, len, o) <- p_header m off ;;
  ' (vs, _) <- unp "IB3xQ" m off ;;
  ' (ps, o) <- while_fetch n (p_role_prop off m) (off + len) o ;;
  Ok (VTup "ofp_role_status" (h :: vs ++ [VList ps]), o).

(** parse.py:1393-1401. *)
Definition p_table_status (m : bytes) (off : nat) : res (pyval * nat) :=
  ' (h, _, _, o) <- p_header m off ;;
  ' (vs, o) <- unp "B7x" m o ;;
  ' (t, o) <- p_table_desc m o ;;
  Ok (VTup "ofp_table_status" (h :: vs ++ [t]), o).

(** parse.py:1404-1412 (not called by [parse]). *)
Definition p_requestforward_header (m : bytes) (off : nat) : res (pyval * nat) :=
  ' (h, _, _, o) <- p_header m off ;;
  ' (r, _, _, o) <- p_header m o ;;
  Ok (VTup "ofp_requestforward_header" [h; r], o).

(** parse.py:1414-1422; [inner] is [parse]. *)
Definition p_requestforward (inner : bytes -> nat -> res (pyval * nat)) (m : bytes) (off : nat) : res (pyval * nat) :=
  ' (h, _, _, o) <- p_header m off ;;
  ' (v, o) <- inner m o ;;
  Ok (VTup "ofp_requestforward_" [h; v], o).

(** parse.py:1443-1445. *)
Definition p_hello_elem_header := fixed "ofp_hello_elem_header" "HH".

(** parse.py:1447-1456. *)
Definition p_hello_elem_versionbitmap (m : bytes) (off : nat) : res (pyval * nat) :=
  ' (vs, o) <- unp "HH" m off ;;
  match vs with
  | [VInt ty; VInt len] =>
      assert_ (ty =? 1) ;;;
      let l := Z.to_nat len in
      ' (bm, o) <- unp_count (FU 4) ((len - 4) / 4) m o ;;
      Ok (VTup "ofp_hello_elem_versionbitmap" (vs ++ [VTup "tuple" bm]), (o + (align8 l - l))%nat)
  | _ => Err ValueError
  end.

(** parse.py:1433-1438: one round of the loop. *)
Definition p_hello_elem (m : bytes) (off : nat) : res (pyval * nat) :=
  ' (h, _) <- p_hello_elem_header m off ;;
  match h with
  | VTup _ [VInt ty; _] => if ty =? 1 then p_hello_elem_versionbitmap m off else Err ValueError
  | _ => Err ValueError
  end.

(** parse.py:1425-1441. *)
Definition p_hello (n : nat) (m : bytes) (off : nat) : res (pyval * nat) :=
  ' (h, _, len, o) <- p_header m off ;;
  ' (es, o) <- list_fetch n (p_hello_elem m) (off + len) o ;;
  Ok (VTup "ofp_hello" [h; VList es], o).

(** parse.py:1459-1471. *)
Definition p_error_msg := data_message "ofp_error_msg" "HH".
(** parse.py:1473-1486 (not called by [parse]). *)
Definition p_error_experimenter_msg := data_message "ofp_error_experimenter_msg" "HHI".
(** parse.py:1489-1500. *)
Definition p_experimenter_msg := data_message "ofp_experimenter_msg" "II".

(** parse.py:43-99 [parse]. *)
Fixpoint parse (d n : nat) (m : bytes) (off : nat) : res (pyval * nat) :=
  match d with
  | O => Err OutOfFuel
  | S d' =>
      ' (_, ty, _, _) <- p_header m off ;;
      if ty =? 0 then p_hello n m off
      else if ty =? 1 then p_error_msg m off
      else if ty =? 6 then p_switch_features m off
      else if py_inz (VInt ty) [9; 8] then p_switch_config m off
      else if ty =? 10 then p_packet_in m off
      else if ty =? 11 then p_flow_removed m off
      else if ty =? 12 then p_port_status m off
      else if ty =? 13 then p_packet_out n m off
      else if ty =? 14 then p_flow_mod n m off
      else if ty =? 15 then p_group_mod n m off
      else if ty =? 16 then p_port_mod n m off
      else if ty =? 17 then p_table_mod n m off
      else if ty =? 18 then p_multipart_request n m off
      else if ty =? 19 then p_multipart_reply n m off
      else if ty =? 4 then p_experimenter_msg m off
      else if py_inz (VInt ty) [28; 27] then p_async_config n m off
      else if ty =? 29 then p_meter_mod n m off
      else if ty =? 30 then p_role_status n m off
      else if ty =? 31 then p_table_status m off
      else if ty =? 32 then p_requestforward (parse d' n) m off
      else if ty =? 33 then p_bundle_ctrl_msg n m off
      else if ty =? 34 then p_bundle_add_msg (parse d' n) m off
      else p_ofp m off
  end.
