(** Deployments of OSTree and the rollback by U-Boot:
    /repo/src/libaktualizr/bootloader/bootloader.cc:27-77 (setBootOK, updateNotify),
    package_manager/ostreemanager.cc:130-213 (install), 244-257 (constructor), 332-371 (getCurrentHash, getCurrent),
    373-394 (imageUpdated), primary/sotauptaneclient.cc:1036 (updateNotify before install), and the boot procedure of
    docs/ota-client-guide/modules/ROOT/pages/rollback.adoc:20-76.
    Simplifications: the list of deployments has one OS name and no pinned deployments; libostree replaces it in one step
    and, as its flags NONE ask for, keeps the new deployment and the booted one (which is the merge deployment); with a
    single deployment that one is also the rollback image. *)
From Verif Require Import Base Json TufModel CodecModel InstModel.

(** ** The environment of U-Boot *)
(** RollbackMode, include/libaktualizr/config.h *)
Inductive rmode := RNone | RGeneric | RMasked.
(** rollback.adoc: the variables bootcount, upgrade_available and rollback. *)
Record uenv := { u_count : Z; u_upgrade : bool; u_rollback : bool }.
(** The commands fw_setenv bootcount 0, fw_setenv upgrade_available b, fw_setenv rollback 0. *)
Inductive ucmd := UCount0 | UUpgrade (b : bool) | URollback0.
Definition ucmd_run (c : ucmd) (e : uenv) : uenv :=
  match c with
  | UCount0 => {| u_count := 0; u_upgrade := u_upgrade e; u_rollback := u_rollback e |}
  | UUpgrade b => {| u_count := u_count e; u_upgrade := b; u_rollback := u_rollback e |}
  | URollback0 => {| u_count := u_count e; u_upgrade := u_upgrade e; u_rollback := false |}
  end.
(** bootloader.cc:27-48 setBootOK *)
Definition ok_cmds (m : rmode) : list ucmd :=
  match m with RNone => [] | RGeneric => [UCount0] | RMasked => [UCount0; UUpgrade false] end.
(** bootloader.cc:50-77 updateNotify *)
Definition notify_cmds (m : rmode) : list ucmd :=
  match m with RNone => [] | RGeneric => [UCount0; URollback0] | RMasked => [UCount0; UUpgrade true; URollback0] end.
(** The commands are run one after the other; a failing one only causes a warning. [fails]: which of them fail (those
    beyond the list do not). *)
Fixpoint ucmds_run (fails : list bool) (l : list ucmd) (e : uenv) : uenv :=
  match l with
  | [] => e
  | c :: l' => ucmds_run (tl fails) l' (if hd false fails then e else ucmd_run c e)
  end.

(** ** The device *)
(** [r_deps]: the commits of the deployments, in boot order; [r_booted]: the index of the booted one; [r_running]: the
    client runs. *)
Record rdev := { r_env : uenv; r_deps : list string; r_booted : nat; r_running : bool }.
Definition booted_commit (d : rdev) : string := nth (r_booted d) (r_deps d) "".
(** rollback.adoc: U-Boot counts boots in mode masked only while upgrade_available is set. *)
Definition counting (m : rmode) (e : uenv) : bool := match m with RNone => false | RGeneric => true | RMasked => u_upgrade e end.
(** The rollback image is the second deployment. *)
Definition second (l : list string) : nat := match l with _ :: _ :: _ => 1%nat | _ => 0%nat end.
(** A boot of the machine (rollback.adoc:36-76): the rollback image if rollback is set; otherwise bootcount is incremented
    and if it exceeds the limit, rollback is set, upgrade_available reset and the rollback image booted. *)
Definition uboot (m : rmode) (limit : Z) (d : rdev) : rdev :=
  let e := r_env d in
  let bring e' i := {| r_env := e'; r_deps := r_deps d; r_booted := i; r_running := false |} in
  match m with
  | RNone => bring e 0%nat
  | _ => if u_rollback e then bring e (second (r_deps d))
         else if counting m e then
           let c := u_count e + 1 in
           if limit <? c then bring {| u_count := c; u_upgrade := false; u_rollback := true |} (second (r_deps d))
           else bring {| u_count := c; u_upgrade := u_upgrade e; u_rollback := false |} 0%nat
         else bring e 0%nat
  end.
(** ostreemanager.cc:373-394 imageUpdated: no deployment precedes the booted one in the list
    (ostree_sysroot_query_deployments_for yields the first one before it as the pending deployment). *)
Definition image_updated (d : rdev) : bool := Nat.eqb (r_booted d) 0.
(** The client starts: ostreemanager.cc:244-257. Only the first [k] commands are run before it is killed, if it is. *)
Definition rstart (m : rmode) (k : nat) (fails : list bool) (d : rdev) : rdev :=
  {| r_env := if image_updated d then ucmds_run fails (firstn k (ok_cmds m)) (r_env d) else r_env d;
     r_deps := r_deps d; r_booted := r_booted d; r_running := true |}.
(** The client installs a commit: sotauptaneclient.cc:1036-1037. Only the first [k] steps happen before it is killed, if it
    is; the last step is the replacement of the deployments, [ok] tells whether the install gets that far. *)
Definition rinstall (m : rmode) (new : string) (k : nat) (fails : list bool) (ok : bool) (d : rdev) : rdev :=
  let e := ucmds_run fails (firstn k (notify_cmds m)) (r_env d) in
  if ok && (List.length (notify_cmds m) <? k)%nat
  then {| r_env := e; r_deps := [new; booted_commit d]; r_booted := 1%nat; r_running := r_running d |}
  else {| r_env := e; r_deps := r_deps d; r_booted := r_booted d; r_running := r_running d |}.

Inductive rop :=
| RBoot                                                                     (* power cycle, reset or reboot *)
| RStart (k : nat) (fails : list bool)
| RKill
| RInstall (new : string) (k : nat) (fails : list bool) (ok : bool).
Section Run.
(** [works c]: the client can start in the image of commit [c]. *)
Context (works : string -> bool) (m : rmode) (limit : Z).
Definition rstep (d : rdev) (o : rop) : rdev :=
  match o with
  | RBoot => uboot m limit d
  | RStart k f => if works (booted_commit d) then rstart m k f d else d
  | RKill => {| r_env := r_env d; r_deps := r_deps d; r_booted := r_booted d; r_running := false |}
  | RInstall c k f ok => if r_running d then rinstall m c k f ok d else d
  end.
Definition rrun (d : rdev) (ops : list rop) : rdev := fold_left rstep ops d.
End Run.

(** ** The kernel arguments of a new deployment *)
(** The memory of a std::vector<const char*>: elements, then reserved but unused cells. *)
Inductive cell := CStr (s : string) | CNull | CJunk.
Inductive kargs_out := KArgs (l : list string) | KUndefined.
(** libostree reads the array up to the null pointer. *)
Fixpoint read_strv (l : list cell) : kargs_out :=
  match l with
  | [] | CJunk :: _ => KUndefined
  | CNull :: _ => KArgs []
  | CStr s :: l' => match read_strv l' with KArgs k => KArgs (s :: k) | KUndefined => KUndefined end
  end.
(** vector::operator[](i) = x. Beyond the size the behaviour is undefined. [checked]: the library checks (or the compiler
    makes use of it); otherwise the cell is written if it is reserved. *)
Fixpoint set_nth (i : nat) (x : cell) (l : list cell) : list cell :=
  match l, i with
  | [], _ => []
  | _ :: l', O => x :: l'
  | y :: l', S i' => y :: set_nth i' x l'
  end.
(** ostreemanager.cc:172-186. [options]: the entry "options" of the boot configuration of the merge deployment; without it a
    std::string is made from a null pointer. *)
Definition install_kargs (checked : bool) (options : option string) : kargs_out :=
  match options with
  | None => KUndefined
  | Some s =>
      let args := split_all " " s in                                         (* boost::split *)
      let size := List.length args in                                        (* reserve(size + 1), push_back *)
      let mem := map CStr args ++ [CJunk] in
      if checked then KUndefined else read_strv (set_nth size CNull mem)
  end.

(** ** The version reported as current *)
Section Current.
Context (loadc : string -> option json).
(** ostreemanager.cc:341-371 getCurrent; None is Target::Unknown(). *)
Definition ostree_current (booted : string) (d : idb) : res (option target) :=
  do v <- load_installed loadc "" d;
  match fst v with
  | Some c => if String.eqb (sha256_hash c) booted then Ok (Some c)
              else do l <- load_log loadc "" false d; Ok (find (fun t => String.eqb (sha256_hash t) booted) (rev l))
  | None => do l <- load_log loadc "" false d; Ok (find (fun t => String.eqb (sha256_hash t) booted) (rev l))
  end.
End Current.
