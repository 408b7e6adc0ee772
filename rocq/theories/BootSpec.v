(** Specification of reboot detection and of the completion of updates. *)
From Verif Require Import Base BootModel.

(** Completed: no crash. Operations that touched the flag before a crash. *)
Definition completed_set (o : fop) : Prop := exists k, o = FSet k /\ (2 <= k)%nat.
Definition begun_set (o : fop) : Prop := exists k, o = FSet k /\ (1 <= k)%nat.
Definition begun_clear (o : fop) : Prop := exists k, o = FClear k /\ (1 <= k)%nat.
(** The flag was set, not cleared since, and after the last attempt to set it the machine was rebooted. *)
Definition rebooted_since_set (h : list fop) : Prop :=
  exists h1 s h2 h3, h = h1 ++ s :: h2 ++ FReboot :: h3 /\ completed_set s /\
    (forall o, In o (h2 ++ h3) -> ~ begun_clear o) /\ (forall o, In o h3 -> ~ begun_set o).

Definition is_reboot (o : kop) : Prop := exists v, o = KReboot v.
(** Restarts of the process, which may crash, and reboots. *)
Definition init_or_reboot (o : kop) : Prop := (exists k, o = KInit k) \/ is_reboot o.
(** No restart of the process crashes in the middle of completing the update: between clearing the flag and recording the version. *)
Definition no_bad_crash (o : kop) : Prop := forall k, o = KInit k -> k = 0%nat \/ (4 <= k)%nat.
Definition full : nat := 10.
