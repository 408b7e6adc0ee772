(** Utils::readFile and Utils::writeFile: /repo/src/libaktualizr/utilities/utils.cc:274-289, 319-344.
    Simplifications: the file system is a flat map from names to contents; directories exist; opening and renaming work
    (otherwise an exception is thrown and nothing but the ".new" file has changed); one writer at a time.
    The stream hands the content to the system in pieces of its choosing. *)
From Verif Require Import Base DlModel.

Definition fs := list (string * string).
Definition put (n c : string) (s : fs) : fs := aset n c (adel n s).
Definition tmp (f : string) : string := append f ".new".
(** utils.cc:332: opening for output truncates. *)
Definition w_open (f : string) (s : fs) : fs := put (tmp f) "" s.
(** 336: one piece. *)
Definition w_piece (f p : string) (s : fs) : fs := match aget (tmp f) s with Some c => put (tmp f) (append c p) s | None => s end.
(** 339 *)
Definition w_rename (f : string) (s : fs) : fs := match aget (tmp f) s with Some c => put f c (adel (tmp f) s) | None => s end.
(** 326-340 writeFile, step by step. [ok] pieces reach the disk; if a write fails the stream ignores the rest, and the
    code does not look at its state again before it renames the file. *)
Definition write_steps (f : string) (pieces : list string) (ok : nat) : list (fs -> fs) :=
  w_open f :: map (w_piece f) (firstn ok pieces) ++ [w_rename f].
Definition run_fs (l : list (fs -> fs)) (s : fs) : fs := fold_left (fun x g => g x) l s.
Definition write_file (f : string) (pieces : list string) (ok : nat) (s : fs) : fs := run_fs (write_steps f pieces ok) s.
(** The process is killed after [k] steps. *)
Definition killed (k : nat) (f : string) (pieces : list string) (ok : nat) (s : fs) : fs := run_fs (firstn k (write_steps f pieces ok)) s.
(** 274-289 readFile without trimming: a ".new" file is removed first; an absent file reads as empty. *)
Definition read_fs (f : string) (s : fs) : fs := adel (tmp f) s.
Definition read_file (f : string) (s : fs) : string := match aget f (read_fs f s) with Some c => c | None => "" end.
(** Power failure: there is no fsync, so of the pieces written since the file was opened only a prefix may be on the
    disk, although the rename is. *)
Inductive power_loss (f : string) (s : fs) : fs -> Prop :=
| pl_none : power_loss f s s
| pl_tmp c c' : aget (tmp f) s = Some c -> String.prefix c' c = true -> power_loss f s (put (tmp f) c' s)
| pl_renamed c c' : aget (tmp f) s = None -> aget f s = Some c -> String.prefix c' c = true -> power_loss f s (put f c' s).
