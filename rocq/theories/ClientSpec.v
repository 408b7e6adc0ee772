(** What it means that a target is vouched for through delegations, and that a target fits the vehicle. *)
From Verif Require Import Base Json TufModel TufSpec MetaStore RepoModel RepoSpec ClientModel.

(** [child] is the content of an unexpired document that Snapshot [sn] names for role [name], signed as the delegator
    [parent] requires for [name], and [parent] lets [name] vouch for the file name of [q].
    (Snapshot version -1 means that the Snapshot does not list the role.) *)
Definition delegated (E : Env) (fnm : string -> string -> bool) (now : string -> string) (sn : snapshot) (q : target)
    (parent : targets) (name : string) (child : targets) : Prop :=
  In name (tg_deleg parent) /\
  (exists ps p, aget name (tg_paths parent) = Some ps /\ In p ps /\ fnm p (t_filename q) = true) /\
  (exists raw, (forall h, In h (role_hashes sn name) -> digest_matches E raw h) /\
     acceptable E (tg_ks parent) {| r_kind := RDelegation; r_name := name |} (parse E raw) /\
     targets_doc E name (parse E raw) child /\
     (tg_version child = role_version sn name \/ role_version sn name = -1)) /\
  is_expired (tg_base child) (now name) = false.

(** [delegation_path ... term from n role]: [role] is reached from [from] by [n] delegations; a role that was reached by a
    terminating delegation ([term = true]) does not delegate further. *)
Inductive delegation_path (E : Env) (fnm : string -> string -> bool) (now : string -> string) (sn : snapshot) (q : target)
  : bool -> targets -> nat -> targets -> Prop :=
| dp_here term r : delegation_path E fnm now sn q term r 0 r
| dp_next from name child n role term :
    delegated E fnm now sn q from name child -> aget name (tg_term from) = Some term ->
    delegation_path E fnm now sn q term child n role ->
    delegation_path E fnm now sn q false from (S n) role.

(** The Image repository's top-level Targets [top] vouch for [q] by listing [i], directly or through at most five
    delegations. *)
Definition vouched (E : Env) (fnm : string -> string -> bool) (now : string -> string) (sn : snapshot) (top : targets) (q i : target) : Prop :=
  exists n role, delegation_path E fnm now sn q false top n role /\ (n <= 5)%nat /\ In i (tg_targets role) /\ same_target i q.

(** The vehicle has an ECU [serial] and its hardware id is [hw]. *)
Definition ecu_present (v : vehicle) (serial hw : string) : Prop :=
  (serial = v_primary v /\ hw = v_primary_hw v /\ hw <> "Unknown") \/
  (serial <> v_primary v /\ aget serial (v_secondaries v) = Some hw).
(** Every ECU the target is assigned to exists in the vehicle with the hardware id the assignment names. *)
Definition fits_vehicle (v : vehicle) (t : target) : Prop :=
  forall serial hw, In (serial, hw) (t_ecus t) -> ecu_present v serial hw.
(** The target is not yet what ECU [serial] is known to run. *)
Definition news_for (v : vehicle) (t : target) (serial : string) : Prop :=
  exists cur, v_installed v serial = Ok (Some cur) /\
    match cur with None => True | Some c => ~ same_target c t /\ t_filename c <> t_filename t end.
(** The rows of the installed-version log can be read (all columns are NOT NULL in config/sql/schema.sql). *)
Definition installed_readable (v : vehicle) : Prop := forall serial, v_installed v serial <> Ok None.

(** Same target up to the download location. *)
Definition but_uri (a b : target) : Prop :=
  t_valid a = t_valid b /\ t_filename a = t_filename b /\ t_type a = t_type b /\ t_ecus a = t_ecus b /\ t_hashes a = t_hashes b /\
  t_hwids a = t_hwids b /\ t_custom a = t_custom b /\ t_length a = t_length b /\ t_corr a = t_corr b.

(** Serial numbers in parsed metadata are never empty (types.h:353-360). *)
Definition serials_nonempty (t : target) : Prop := forall serial hw, In (serial, hw) (t_ecus t) -> serial <> "".
