(** What is needed for the recheck of stored metadata to confirm what an update check found. *)
From Verif Require Import Base Json TufModel TufSpec MetaStore RepoModel RepoSpec ClientModel ClientSpec.

(** Every document served as the latest of its role declares a version, an integer that is not negative. *)
Definition versioned_server (E : Env) (srv : server) : Prop :=
  forall rp rn raw, srv rp rn (-1) = Ok raw -> exists v, extract_version_untrusted E raw = Ok v /\ 0 <= v.
(** The server does not serve a document that differs from the stored one but declares the same version. *)
Definition no_equivocation (E : Env) (srv : server) (rp : repo) (rn : string) (ty : rkind) (d : db) : Prop :=
  forall raw sraw, srv rp rn (-1) = Ok raw -> load_nonroot rp ty d = Ok (Some sraw) ->
    extract_version_untrusted E raw = extract_version_untrusted E sraw -> raw = sraw.
(** Roots are stored under a number that is at most the version they declare, and so is the first Root that is served. *)
Definition roots_numbered (E : Env) (srv : server) (rp : repo) (d : db) : Prop :=
  (forall w raw R, In w (d_meta d) -> w_repo w = rp -> w_type w = RRoot -> blob_to_string (w_data w) = Ok raw ->
     root_of_json E (parse E raw) = Ok R -> w_ver w <= rt_version R) /\
  (forall raw R, srv rp "root" 1 = Ok raw -> root_of_json E (parse E raw) = Ok R -> 1 <= rt_version R).
(** The newest Targets of the Director list something. *)
Definition director_lists_targets (E : Env) (srv : server) : Prop :=
  forall raw t, srv Director "targets" (-1) = Ok raw -> targets_doc E "targets" (parse E raw) t -> tg_targets t <> [].
(** A target lists no two values for one type of hash (all unknown types count as one). *)
Definition hashes_agree (t : target) : Prop :=
  forall h1 h2, In h1 (t_hashes t) -> In h2 (t_hashes t) -> h_type h1 = h_type h2 -> h_val h1 = h_val h2.

(** What is stored is what is in use: *)
Definition director_in_force (E : Env) (s : ust) : Prop :=
  exists rraw traw, load_latest_root Director (u_db s) = Ok (Some rraw) /\ self_signed_root E rraw (u_droot s) /\
    load_nonroot Director RTargets (u_db s) = Ok (Some traw) /\
    acceptable E (rt_ks (u_droot s)) role_targets (parse E traw) /\ targets_doc E "targets" (parse E traw) (u_dtargets s).
Definition image_in_force (E : Env) (s : ust) : Prop :=
  exists rraw tsraw snraw tgraw t, load_latest_root Image (u_db s) = Ok (Some rraw) /\ self_signed_root E rraw (u_iroot s) /\
    load_nonroot Image RTimestamp (u_db s) = Ok (Some tsraw) /\ authentic_timestamp E (u_iroot s) tsraw (u_itime s) /\
    load_nonroot Image RSnapshot (u_db s) = Ok (Some snraw) /\ snapshot_named E (u_iroot s) (u_itime s) snraw (u_isnap s) /\
    load_nonroot Image RTargets (u_db s) = Ok (Some tgraw) /\ targets_named E (u_iroot s) (u_isnap s) tgraw t /\
    u_itargets s = Some t.
