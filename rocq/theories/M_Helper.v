(** Model of the helper sockets' files when a ParentChannel is closed
    (twink/base.py:711-726). *)

From Verif Require Export M_Parent.
Local Open Scope Z_scope.

Definition has_suffix (x : suffix) (fs : list path) : bool := existsb (fun p => suffix_eqb (fst p) x) fs.

(** base.py:713-717, 720-724: os.remove(self.helper_path(suffix)); OSError (no
    such file) is ignored. *)
Definition remove_helper (fs : list path) (datapath : option Z) (x : suffix) : list path :=
  let '(fs', p) := helper_path fs datapath x in del_path fs' p.

(** base.py:711-726 [ParentChannel.close]: the socket files that are left.
    [jackin_shutdown] is set once a jack-in socket has been bound (733-735),
    that is, if its file exists: nothing but close() removes it (M_Parent.v
    renames only).  [monitor_shutdown] is set with [self.monitors] (738-741,
    [n_cur]).  Not modelled: what the servers' stop() does (M_Server.v) and
    Channel.close. *)
Definition close_files (s : parent) : list path :=
  let dp := k_datapath (n_ctl s) in
  let fs := if has_suffix Jackin (n_fs s) then remove_helper (n_fs s) dp Jackin else n_fs s in
  match n_cur s with
  | Some _ => remove_helper fs dp Monitor
  | None => fs
  end.
