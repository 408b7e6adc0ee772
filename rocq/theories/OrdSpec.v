(** What it means that the metadata on the server is in order for a device. *)
From Verif Require Import Base Json TufModel TufSpec MetaStore RepoModel RepoSpec.

(** The Roots [l] on the server lead from the newest stored Root (from the served Root 1 if none is stored) to [R], which is valid;
    a newer one is not served. The Root numbers stay below the limit of the client. *)
Definition roots_in_order (E : Env) (srv : server) (clk : clock) (rp : repo) (d : db) (l : list (Z * string)) (R : root) : Prop :=
  exists raw0 R0,
    (load_latest_root rp d = Ok (Some raw0) \/ (load_latest_root rp d = Ok None /\ srv rp "root" 1 = Ok raw0)) /\
    self_signed_root E raw0 R0 /\ root_chain E R0 l R /\ (forall v raw, In (v, raw) l -> srv rp "root" v = Ok raw) /\
    (exists e, srv rp "root" (rt_version R + 1) = Throw e) /\ rt_version R < 1000 /\ is_expired (rt_base R) (clk RRoot) = false.

(** What is stored for the role can be read and declares a version that is at most [v]. *)
Definition not_newer (E : Env) (rp : repo) (ty : rkind) (d : db) (v : Z) : Prop :=
  load_nonroot rp ty d = Ok None \/
  exists sraw lv, load_nonroot rp ty d = Ok (Some sraw) /\ extract_version_untrusted E sraw = Ok lv /\ lv <= v.
(** No two targets of the stored Targets of the Director are for the same ECU. *)
Definition stored_targets_sane (E : Env) (d : db) : Prop :=
  forall sraw st, load_nonroot Director RTargets d = Ok (Some sraw) -> targets_doc E "targets" (parse E sraw) st -> one_target_per_ecu st.

(** The served Targets [t] of the Director are in order under Root [R], after the Root rotations [l]: authentic, valid, without
    delegations, no two targets for one ECU, and not older than what is stored (which a Root rotation makes obsolete). *)
Definition director_in_order (E : Env) (srv : server) (clk : clock) (d : db) (l : list (Z * string)) (R : root) (t : targets) : Prop :=
  exists raw v, srv Director "targets" (-1) = Ok raw /\ extract_version_untrusted E raw = Ok v /\ 0 <= v /\
    acceptable E (rt_ks R) role_targets (parse E raw) /\ targets_doc E "targets" (parse E raw) t /\
    is_expired (tg_base t) (clk RTargets) = false /\ tg_deleg t = [] /\ one_target_per_ecu t /\
    (l <> [] \/ (not_newer E Director RTargets d v /\ (tg_targets t <> [] \/ stored_targets_sane E d))).

(** The served Timestamp. *)
Definition timestamp_in_order (E : Env) (srv : server) (clk : clock) (d : db) (l : list (Z * string)) (R : root) (tm : timestamp) : Prop :=
  exists raw v, srv Image "timestamp" (-1) = Ok raw /\ extract_version_untrusted E raw = Ok v /\ 0 <= v /\
    authentic_timestamp E R raw tm /\ is_expired (tm_base tm) (clk RTimestamp) = false /\
    (l <> [] \/ not_newer E Image RTimestamp d v).
(** The served Snapshot is the one that the Timestamp names; no other document with the same digests is stored. *)
Definition snapshot_in_order (E : Env) (srv : server) (clk : clock) (d : db) (l : list (Z * string)) (R : root) (tm : timestamp) (sn : snapshot) : Prop :=
  exists raw v, srv Image "snapshot" (-1) = Ok raw /\ extract_version_untrusted E raw = Ok v /\ 0 <= v /\
    snapshot_named E R tm raw sn /\ is_expired (sn_base sn) (clk RSnapshot) = false /\
    (l <> [] \/ exists o, load_nonroot Image RSnapshot d = Ok o /\
       forall sraw, o = Some sraw -> (forall h, In h (tm_hashes tm) -> digest_matches E sraw h) -> parse E sraw = parse E raw).
(** The served Targets are those that the Snapshot names; if what is stored fits the digests in the Snapshot as well (there need not be
    any) then it is not newer, and if it is of the same version then it is the same. *)
Definition targets_in_order (E : Env) (srv : server) (clk : clock) (d : db) (l : list (Z * string)) (R : root) (sn : snapshot) (t : targets) : Prop :=
  exists raw v, srv Image "targets" (-1) = Ok raw /\ extract_version_untrusted E raw = Ok v /\ 0 <= v /\
    targets_named E R sn raw t /\ is_expired (tg_base t) (clk RTargets) = false /\
    (l <> [] \/ exists o, load_nonroot Image RTargets d = Ok o /\
       forall sraw st, o = Some sraw -> (forall h, In h (role_hashes sn "targets") -> digest_matches E sraw h) ->
         acceptable E (rt_ks R) role_targets (parse E sraw) -> targets_doc E "targets" (parse E sraw) st ->
         tg_version st <= tg_version t /\ (tg_version st = tg_version t -> st = t)).
Definition image_in_order (E : Env) (srv : server) (clk : clock) (d : db) (l : list (Z * string)) (R : root) (tm : timestamp) (sn : snapshot) (t : targets) : Prop :=
  timestamp_in_order E srv clk d l R tm /\ snapshot_in_order E srv clk d l R tm sn /\ targets_in_order E srv clk d l R sn t.
