(** Automatic clean-up of stored images: /repo/src/libaktualizr/primary/aktualizr_helpers.cc:5-36, with
    Aktualizr::GetInstallationLog (primary/aktualizr.cc:197-217), getTargetFiles and removeTargetFile
    (package_manager/packagemanagerinterface.cc:278-294), over the tables of InstModel and DlModel. *)
From Verif Require Import Base Json TufModel CodecModel InstModel DlModel.

Section Clean.
Context (loadc : string -> option json).
(** aktualizr.cc:206-214: the versions that were installed on each ECU. *)
Fixpoint install_log (d : idb) (ecus : list (string * string)) : res (list (list target)) :=
  match ecus with
  | [] => Ok []
  | (s, _) :: l => do x <- load_log loadc s true d; do k <- install_log d l; Ok (x :: k)
  end.
(** aktualizr_helpers.cc:17: the last two. *)
Definition last_two (l : list target) : list target := skipn (List.length l - 2) l.
(** 16-29: names to keep. *)
Definition kept_names (log : list (list target)) : list string := map t_filename (List.concat (map last_two log)).
(** packagemanagerinterface.cc:287-294 makes targets of the names. *)
Definition named (n : string) : target := target_internal n [] [] 0 "".
(** 31-35: removal; removeTargetFile throws if there is no file, which ends the clean-up. *)
Fixpoint remove_all (keep names : list string) (s : dstate) : dstate :=
  match names with
  | [] => s
  | n :: l => if mem_str n keep then remove_all keep l s
              else match check_file (named n) s with
                   | Some _ => remove_all keep l (remove_file (named n) s)
                   | None => s
                   end
  end.
(** targets_autoclean_cb; an exception while reading the log ends it before anything is removed. *)
Definition autoclean (d : idb) (s : dstate) : dstate :=
  match install_log d (il_ecus d) with
  | Ok log => remove_all (kept_names log) (map fst (d_names s)) s
  | _ => s
  end.
End Clean.
