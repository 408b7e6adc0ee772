(** Specification of clean-up. *)
From Verif Require Import Base Json TufModel CodecModel InstModel InstSpec DlModel.

(** [t] is current on a registered ECU. *)
Definition in_use (loadc : string -> option json) (d : idb) (t : target) : Prop :=
  exists s hw p, In (s, hw) (il_ecus d) /\ load_installed loadc s d = Ok (Some t, p).
(** [t] is waiting for a reboot of a registered ECU. *)
Definition awaited (loadc : string -> option json) (d : idb) (t : target) : Prop :=
  exists s hw c, In (s, hw) (il_ecus d) /\ load_installed loadc s d = Ok (c, Some t).
(** No other stored target is kept in the same file (files are named after the hash of the content). *)
Definition unshared (s : dstate) (t : target) : Prop :=
  forall n f, aget n (d_names s) = Some f -> aget (t_filename t) (d_names s) = Some f -> n = t_filename t.
