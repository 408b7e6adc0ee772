(** Specification of file writes. *)
From Verif Require Import Base DlModel DlSpec FileModel.
(** A reader sees the old content or the new one, in full. *)
Definition old_or_new (f : string) (before after : fs) (content : string) : Prop :=
  read_file f after = read_file f before \/ read_file f after = content.
(** How writing may end. *)
Inductive interrupted (f : string) (pieces : list string) (s : fs) : fs -> Prop :=
| int_killed k ok : interrupted f pieces s (killed k f pieces ok s)
| int_power k ok s' : power_loss f (killed k f pieces ok s) s' -> interrupted f pieces s s'.
