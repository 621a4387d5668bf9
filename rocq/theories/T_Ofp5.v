(** The assertions of twink/ofp5/__main__.py, evaluated in the model.  These
    are tests of the model's faithfulness on concrete values, not properties. *)

From Verif Require Import Py Struct M_Build5 M_Parse5 M_Oxm5.
Local Open Scope Z_scope.
Local Open Scope string_scope.

Local Definition mk (n : string) (args : list pyval) : res bytes := call (obj 1 3) 1 n args.
Local Definition bs (r : res bytes) : pyval := match r with Ok b => VBytes b | Err _ => VNone end.
Local Definition pp (r : res bytes) : res pyval :=
  match r with Ok m => match parse 3 400 m 0 with Ok (v, _) => Ok v | Err e => Err e end | Err e => Err e end.
(** The [i]-th attribute of what was parsed. *)
Local Definition attr (i : nat) (r : res pyval) : option pyval :=
  match r with Ok (VTup _ l) => nth_error l i | _ => None end.
Local Definition item (i : nat) (v : option pyval) : res pyval :=
  match v with Some (VList l) => match nth_error l i with Some x => Ok x | None => Err IndexError end | _ => Err TypeError end.

(** __main__.py:7-10. *)
Example main_hello :
  attr 1 (pp (mk "ofp_hello" [VNone; VList []])) = Some (VList []) /\
  attr 2 (item 0 (attr 1 (pp (mk "ofp_hello" [VNone; VList [bs (mk "ofp_hello_elem_versionbitmap"
     [VNone; VNone; VList [VInt 1; VInt 2; VInt 3; VInt 4; VInt 5]])]])))) =
    Some (VTup "tuple" [VInt 1; VInt 2; VInt 3; VInt 4; VInt 5]).
Proof. split; vm_compute; reflexivity. Qed.

(** __main__.py:12-14; OFPET_BAD_REQUEST = 1, OFPBRC_BAD_VERSION = 0. *)
Example main_error :
  let m := pp (mk "ofp_error_msg" [VNone; VInt 1; VInt 0; VNone]) in
  attr 1 m = Some (VInt 1) /\ attr 2 m = Some (VInt 0).
Proof. split; vm_compute; reflexivity. Qed.

(** __main__.py:16-21. *)
Example main_features :
  let m := pp (mk "ofp_switch_features" [VNone; VInt 17993; VInt 300; VInt 23; VInt 0; VInt 0]) in
  map (fun i => attr i m) [1; 2; 3; 4; 5]%nat =
    [Some (VInt 17993); Some (VInt 300); Some (VInt 23); Some (VInt 0); Some (VInt 0)].
Proof. vm_compute. reflexivity. Qed.

(** __main__.py:23-25; OFPT_SET_CONFIG = 9, OFPC_FRAG_REASM = 2,
    OFPCML_NO_BUFFER = 0xffff. *)
Example main_config :
  let m := pp (mk "ofp_switch_config" [bs (mk "ofp_header" [VNone; VInt 9; VNone; VNone]); VInt 2; VNone]) in
  attr 1 m = Some (VInt 2) /\ attr 2 m = Some (VInt 65535).
Proof. split; vm_compute; reflexivity. Qed.

(** __main__.py:27-35; OFPP_TABLE = 0xfffffff9, OFPCML_MAX = 0xffe5. *)
Example main_packet_out :
  let m := pp (mk "ofp_packet_out" [VNone; VInt 45; VInt 12; VNone;
     VList [bs (mk "ofp_action_output" [VNone; VNone; VInt 4294967289; VInt 65509])]; VNone]) in
  attr 1 m = Some (VInt 45) /\ attr 2 m = Some (VInt 12) /\
  attr 4 m = Some (VList [VTup "ofp_action_output" [VInt 0; VInt 16; VInt 4294967289; VInt 65509]]).
Proof. repeat split; vm_compute; reflexivity. Qed.

(** __main__.py:37-61. *)
Local Definition main_match : pyval :=
  match oxm5_build VNone (VInt 0) VNone VNone (VInt 12) VNone,
        oxm5_build VNone (VInt 4) VNone VNone (VBytes [255; 255; 255; 255; 255; 255]) VNone with
  | Ok a, Ok b => bs (mk "ofp_match" [VNone; VNone; VBytes (a ++ b)%list])
  | _, _ => VNone
  end.
Local Definition main_inst : pyval :=
  bs (mk "ofp_instruction_actions" [VInt 4; VNone; VList [
    bs (mk "ofp_action_push" [VInt 17; VNone; VInt 33024]);
    bs (mk "ofp_action_set_field" [VNone; VNone; bs (oxm5_build VNone (VInt 6) VNone VNone (VInt 612) VNone)]);
    bs (mk "ofp_action_output" [VNone; VNone; VInt 5; VInt 65509])]]).
Local Definition main_flow : res pyval :=
  pp (mk "ofp_flow_mod" [VNone; VInt 3; VInt 255; VInt 0; VInt 0; VInt 0; VInt 300; VInt 20; VInt 45;
        VInt 4294967295; VInt 4294967295; VInt 0; VInt 7; main_match; VList [main_inst]]).
Local Definition the (v : option pyval) : res pyval := match v with Some x => Ok x | None => Err TypeError end.
Local Definition raw (v : option pyval) : bytes := match v with Some (VBytes b) => b | _ => [] end.
Local Definition nitems (v : option pyval) : option nat :=
  match v with Some (VList l) => Some (length l) | _ => None end.

Example main_flow_mod :
  attr 1 main_flow = Some (VInt 3) /\ attr 2 main_flow = Some (VInt 255) /\
  attr 4 main_flow = Some (VInt 0) /\ attr 9 main_flow = Some (VInt 4294967295) /\
  attr 12 main_flow = Some (VInt 7) /\
  attr 0 (the (attr 13 main_flow)) = Some (VInt 1) /\
  (exists a b, parse_list5 (raw (attr 2 (the (attr 13 main_flow)))) 0 = Ok [a; b] /\
     attr 1 (Ok a) = Some (VInt 0) /\ attr 4 (Ok a) = Some (VInt 12) /\
     attr 1 (Ok b) = Some (VInt 4) /\ attr 4 (Ok b) = Some (VBytes [255; 255; 255; 255; 255; 255])) /\
  nitems (attr 14 main_flow) = Some 1%nat /\
  attr 0 (item 0 (attr 14 main_flow)) = Some (VInt 4) /\
  nitems (attr 2 (item 0 (attr 14 main_flow))) = Some 3%nat.
Proof.
  repeat split; try (vm_compute; reflexivity).
  eexists _, _. split; [vm_compute; reflexivity|]. repeat split.
Qed.

(** __main__.py:63-68. *)
Example main_multipart :
  let m := pp (mk "ofp_multipart_request" [VNone; VInt 1; VInt 0;
     bs (mk "ofp_flow_stats_request" [VInt 0; VNone; VNone; VInt 1; VInt 255; VNone])]) in
  attr 1 m = Some (VInt 1) /\
  attr 3 (the (attr 3 m)) = Some (VInt 1) /\ attr 4 (the (attr 3 m)) = Some (VInt 255).
Proof. repeat split; vm_compute; reflexivity. Qed.
