(** Reboot detection and the completion of an update after a reboot:
    /repo/src/libaktualizr/bootloader/bootloader.cc:79-131, package_manager/ostreemanager.cc:197-240 (install from
    rebootFlagSet on, finalizeInstall), package_manager/packagemanagerfake.cc:30-97 with fake_need_reboot,
    primary/sotauptaneclient.cc:59-134 (finalizeAfterReboot, PackageInstallSetResult).
    Simplifications: a version is its SHA-256; the Primary's rows of installed_versions are the current and the pending
    version (PropsInst.v shows what the rows report); database and file operations do not fail; the sentinel is on a file
    system that a reboot clears (config: /var/run), writes to others survive. *)
From Verif Require Import Base.

(** ** The flags *)
(** [fl_need]: need_reboot in the database; [fl_sent]: the sentinel exists. *)
Record flags := { fl_need : bool; fl_sent : bool }.
(** bootloader.cc:81-94; [sup]: reboot_detect_supported_ *)
Definition reboot_detected (sup : bool) (f : flags) : bool := sup && (fl_need f && negb (fl_sent f)).
Definition set_sent (b : bool) (f : flags) : flags := {| fl_need := fl_need f; fl_sent := b |}.
Definition set_need (b : bool) (f : flags) : flags := {| fl_need := b; fl_sent := fl_sent f |}.
(** bootloader.cc:96-105, 107-116: the atomic steps, in order. *)
Definition flag_set (sup : bool) : list (flags -> flags) := if sup then [set_sent true; set_need true] else [].
Definition flag_clear (sup : bool) : list (flags -> flags) := if sup then [set_need false; set_sent false] else [].
Definition run_steps {A} (l : list (A -> A)) (a : A) : A := fold_left (fun x f => f x) l a.
(** A crash leaves the effect of the first steps. *)
Definition crash {A} (k : nat) (l : list (A -> A)) : list (A -> A) := firstn k l.
Inductive fop := FSet (k : nat) | FClear (k : nat) | FReboot | FRestart.
Definition fstep (sup : bool) (f : flags) (o : fop) : flags :=
  match o with
  | FSet k => run_steps (crash k (flag_set sup)) f
  | FClear k => run_steps (crash k (flag_clear sup)) f
  | FReboot => set_sent false f          (* a reboot of the machine, and reboot(true) *)
  | FRestart => f
  end.
Definition frun (sup : bool) (ops : list fop) : flags := fold_left (fstep sup) ops {| fl_need := false; fl_sent := false |}.

(** ** Updates *)
Inductive pman := PmOstree | PmFake.
Record boot := {
  k_flags : flags; k_booted : string; k_next : string; k_cur : string; k_pend : option string;
  k_ecu : option (string * bool); k_dev : bool }.
Definition on_flags (f : flags -> flags) (b : boot) : boot :=
  {| k_flags := f (k_flags b); k_booted := k_booted b; k_next := k_next b; k_cur := k_cur b; k_pend := k_pend b; k_ecu := k_ecu b; k_dev := k_dev b |}.
Definition deploy (t : string) (b : boot) : boot :=
  {| k_flags := k_flags b; k_booted := k_booted b; k_next := t; k_cur := k_cur b; k_pend := k_pend b; k_ecu := k_ecu b; k_dev := k_dev b |}.
Definition set_versions (c : string) (p : option string) (b : boot) : boot :=
  {| k_flags := k_flags b; k_booted := k_booted b; k_next := k_next b; k_cur := c; k_pend := p; k_ecu := k_ecu b; k_dev := k_dev b |}.
Definition set_ecu (r : string * bool) (b : boot) : boot :=
  {| k_flags := k_flags b; k_booted := k_booted b; k_next := k_next b; k_cur := k_cur b; k_pend := k_pend b; k_ecu := Some r; k_dev := k_dev b |}.
Definition set_dev (b : boot) : boot :=
  {| k_flags := k_flags b; k_booted := k_booted b; k_next := k_next b; k_cur := k_cur b; k_pend := k_pend b; k_ecu := k_ecu b; k_dev := true |}.
(** PackageInstallSetResult with an install that needs a reboot; saving the version in mode none changes neither version. *)
Definition install_steps (pm : pman) (sup : bool) (t : string) : list (boot -> boot) :=
  (match pm with PmOstree => [deploy t] | PmFake => [] end) ++ map on_flags (flag_set sup) ++
  [(fun b => set_versions (k_cur b) (Some t) b); set_ecu (t, false)].
(** finalizeAfterReboot up to storing the device's result. *)
Definition boot_ok (pm : pman) (t : string) (b : boot) : bool := match pm with PmOstree => String.eqb (k_booted b) t | PmFake => true end.
Definition finalize_steps (pm : pman) (sup : bool) (b : boot) : list (boot -> boot) :=
  match k_pend b with
  | None => []
  | Some t =>
      if negb (reboot_detected sup (k_flags b)) then []
      else let ok := boot_ok pm t b in
           map on_flags (flag_clear sup) ++
           [set_ecu (t, ok); (fun b => set_versions (if ok then t else k_cur b) None b); set_dev]
  end.
(** [KInstall t k], [KInit k]: only the first k steps happen. [KReboot v]: the machine comes up with version [v] (the one
    deployed, or another one if the bootloader rolled back). *)
Inductive kop := KInstall (t : string) (k : nat) | KInit (k : nat) | KReboot (v : string).
Definition kstep (pm : pman) (sup : bool) (b : boot) (o : kop) : boot :=
  match o with
  | KInstall t k => run_steps (crash k (install_steps pm sup t)) b
  | KInit k => run_steps (crash k (finalize_steps pm sup b)) b
  | KReboot v => {| k_flags := set_sent false (k_flags b); k_booted := v; k_next := k_next b; k_cur := k_cur b; k_pend := k_pend b; k_ecu := k_ecu b; k_dev := k_dev b |}
  end.
Definition krun (pm : pman) (sup : bool) (b : boot) (ops : list kop) : boot := fold_left (kstep pm sup) ops b.
