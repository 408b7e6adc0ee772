(** The lock of the storage: /repo/src/libaktualizr/storage/sqlstorage_base.cc:10-29 (StorageLock), 62-71 (use in the
    constructor of SQLStorageBase).
    boost::interprocess::file_lock opens the file without creating it and locks it with fcntl(2), so a lock belongs to a
    process and an inode and goes with the process. Each process opens the storage for writing at most once at a time.
    Simplification: the directory is writable, so that the file can be created. *)
From Verif Require Import Base.

Definition inode := nat.
(** What a process is doing. *)
Inductive phase :=
| Away                      (* has not opened the storage *)
| Created                   (* 12-13: the file was there or has been created *)
| Opened (i : inode)        (* 15: file_lock has opened the file *)
| Locked (i : inode)        (* 16: the lock was obtained *)
| Warned                    (* 17, 65-70: "already in use", goes on without lock *)
| Failed                    (* 15: boost's exception, not caught: the storage cannot be opened *)
| Unlocked.                 (* 24, before 25 *)
Record lstate := { l_file : option inode; l_next : inode; l_ph : nat -> phase }.
Definition lstart : lstate := {| l_file := None; l_next := 0%nat; l_ph := fun _ => Away |}.
Definition setp (p : nat) (x : phase) (f : nat -> phase) : nat -> phase := fun q => if Nat.eqb q p then x else f q.
Definition with_ph (s : lstate) (p : nat) (x : phase) : lstate := {| l_file := l_file s; l_next := l_next s; l_ph := setp p x (l_ph s) |}.

(** One step of process [p]. *)
Inductive lstep (s : lstate) (p : nat) : lstate -> Prop :=
| l_create_new : l_ph s p = Away -> l_file s = None ->
    lstep s p {| l_file := Some (l_next s); l_next := S (l_next s); l_ph := setp p Created (l_ph s) |}
| l_create_old i : l_ph s p = Away -> l_file s = Some i -> lstep s p (with_ph s p Created)
| l_open i : l_ph s p = Created -> l_file s = Some i -> lstep s p (with_ph s p (Opened i))
| l_open_fails : l_ph s p = Created -> l_file s = None -> lstep s p (with_ph s p Failed)
| l_lock i : l_ph s p = Opened i -> (forall q, l_ph s q <> Locked i) -> lstep s p (with_ph s p (Locked i))
| l_busy i q : l_ph s p = Opened i -> l_ph s q = Locked i -> lstep s p (with_ph s p Warned)
| l_unlock i : l_ph s p = Locked i -> lstep s p (with_ph s p Unlocked)
| l_remove : l_ph s p = Unlocked -> lstep s p {| l_file := None; l_next := l_next s; l_ph := setp p Away (l_ph s) |}
| l_close : l_ph s p = Warned -> lstep s p (with_ph s p Away)
| l_give_up : l_ph s p = Failed -> lstep s p (with_ph s p Away)
| l_killed : lstep s p (with_ph s p Away).
Inductive lrun (good : lstate -> Prop) : lstate -> Prop :=
| r_start : lrun good lstart
| r_step s p s' : lrun good s -> lstep s p s' -> good s' -> lrun good s'.
