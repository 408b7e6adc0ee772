(** Specification of the log of installed versions. *)
From Verif Require Import Base Json TufModel CodecModel CodecSpec InstModel.

Section Spec.
Context (savec : json -> string) (loadc : string -> option json).

(** A target the metadata code can produce: hashes of known algorithms in the order of the constructor, with a SHA-256,
    a 64-bit length, and custom data that, read back from its canonical text, is accepted by Target::updateCustom. *)
Definition good_target (t : target) : Prop :=
  Forall storable_hash (t_hashes t) /\ sort_hashes (t_hashes t) = t_hashes t /\ (exists h, In h (t_hashes t) /\ h_type h = Sha256) /\
  0 <= t_length t < 18446744073709551616 /\
  (forall c, loadc (savec (t_custom t)) = Some c -> exists t', update_custom (target_blank "") c = Ok t').

(** Same version: the key that identifies a version, its name and SHA-256. *)
Definition same_key (a b : target) : Prop := t_filename a = t_filename b /\ sha256_hash a = sha256_hash b.
(** [x] is reported for the recorded target [t]. *)
Definition reported (x t : target) : Prop := same_key x t /\ t_corr x = t_corr t.

(** Only targets satisfying [Good] are recorded. Handing the lazily recorded versions to the Primary is safe if there are none, or none under its serial yet. *)
Definition iop_safe (Good : target -> Prop) (d : idb) (o : iop) : Prop :=
  match o with
  | OpSave _ t _ => Good t
  | OpStoreEcus ((p, _) :: _) => p <> "" /\ ((forall r, In r (il_log d) -> i_ecu r <> "") \/ (forall r, In r (il_log d) -> i_ecu r <> p))
  | _ => True
  end.
(** The states reachable by such operations; a crash is the absence of the interrupted operation. *)
Inductive ireach (Good : target -> Prop) : idb -> Prop :=
| ireach_0 : ireach Good idb_empty
| ireach_S d o : ireach Good d -> iop_safe Good d o -> ireach Good (istep savec d o).

(** Number of rows of an ECU marked current (pending). *)
Definition currents (d : idb) (serial : string) : nat := List.length (filter (fun r => String.eqb (i_ecu r) serial && i_cur r) (il_log d)).
Definition pendings (d : idb) (serial : string) : nat := List.length (filter (fun r => String.eqb (i_ecu r) serial && i_pend r) (il_log d)).
(** [t] is not the version reported as current for the ECU. *)
Definition not_current (d : idb) (serial : string) (t : target) : Prop :=
  forall c p, load_installed loadc serial d = Ok (Some c, p) -> ~ same_key c t.
(** [t] does not occur in the installation log of the ECU. *)
Definition never_recorded (d : idb) (serial : string) (t : target) : Prop :=
  forall l, load_log loadc serial false d = Ok l -> forall x, In x l -> ~ same_key x t.
End Spec.
