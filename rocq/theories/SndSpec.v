(** What it means for the metadata sent to a Secondary to be fully verified and to assign a target to it (C49, C64). *)
From Verif Require Import Base Json TufModel TufSpec MetaStore RepoModel RepoSpec RepoProofs4 SndModel.

(** The document sent for a role: the first one in the request. *)
Definition sent (q : put_req) (rp : repo) (rn : string) : option string :=
  match (match rp with Director => pq_director q | Image => pq_image q end) with Some l => aget rn l | None => None end.

(** Root [R] is trusted by a device whose database is [d] after it was sent [q]: a chain of successors of the newest
    stored root, or, if none is stored, of the first root it was ever sent. *)
Definition trusted_root (E : Env) (rp : repo) (d : db) (q : put_req) (R : root) : Prop :=
  exists raw0 R0 l, (load_latest_root rp d = Ok (Some raw0) \/ load_latest_root rp d = Ok None /\ sent q rp "root" = Some raw0) /\
    self_signed_root E raw0 R0 /\ root_chain E R0 l R /\ forall v raw, In (v, raw) l -> sent q rp "root" = Some raw.

(** [t] is the only entry of [dt] for this ECU serial and hardware id. *)
Definition sole_target (dt : targets) (ecu hw : string) (t : target) : Prop :=
  In (ecu, hw) (t_ecus t) /\
  exists l1 l2, tg_targets dt = l1 ++ t :: l2 /\ forall x, In x (l1 ++ l2) -> ~ In (ecu, hw) (t_ecus x).

(** The Targets document sent for the Director assigns [t], and nothing else, to this ECU. *)
Definition assigns (E : Env) (q : put_req) (ecu hw : string) (t : target) : Prop :=
  exists raw dt, sent q Director "targets" = Some raw /\ targets_doc E "targets" (parse E raw) dt /\ sole_target dt ecu hw t.

(** Nobody has sent metadata in these entries. *)
Definition no_put (l : list entry) : Prop := forall e q a b, In e l -> en_op e <> OPut q a b.
Definition no_start (l : list entry) : Prop := forall e k c d, In e l -> en_op e <> OStart k c d.

(** Full verification of request [q] on database [d] for target [t] (Uptane standard 5.4.4.2). *)
Record fully_verified (E : Env) (ag : agent) (ecu hw : string) (d : db) (q : put_req) (ckd cki : clock) (t : target) : Prop := {
  fv_director : exists DR raw latest dt,
    trusted_root E Director d q DR /\ is_expired (rt_base DR) (ckd RRoot) = false /\
    sent q Director "targets" = Some raw /\ verified_targets E DR raw latest /\
    is_expired (tg_base latest) (ckd RTargets) = false /\ tg_deleg latest = [] /\
    (dt = latest \/ (tg_targets latest = [] /\ exists sraw, verified_targets E DR sraw dt)) /\
    one_target_per_ecu dt /\ sole_target dt ecu hw t;
  fv_image : exists IR rawt tm raws sn rawg it i,
    trusted_root E Image d q IR /\ is_expired (rt_base IR) (cki RRoot) = false /\
    authentic_timestamp E IR rawt tm /\ is_expired (tm_base tm) (cki RTimestamp) = false /\
    snapshot_named E IR tm raws sn /\ is_expired (sn_base sn) (cki RSnapshot) = false /\
    targets_named E IR sn rawg it /\ is_expired (tg_base it) (cki RTargets) = false /\
    In i (tg_targets it) /\ same_target t i;
  fv_kind : supported ag t = true }.

(** What a restarted Secondary requires of its stored metadata: only the Director's is looked at. *)
Definition stored_director_ok (E : Env) (ag : agent) (ecu hw : string) (d : db) (clk : clock) (t : target) : Prop :=
  exists rawr DR rawt dt, load_latest_root Director d = Ok (Some rawr) /\ self_signed_root E rawr DR /\ is_expired (rt_base DR) (clk RRoot) = false /\ load_nonroot Director RTargets d = Ok (Some rawt) /\ verified_targets E DR rawt dt /\ is_expired (tg_base dt) (clk RTargets) = false /\ tg_deleg dt = [] /\ one_target_per_ecu dt /\ sole_target dt ecu hw t /\ supported ag t = true.

(** Entries in which metadata was accepted, or the process was started. *)
Definition decides (e : entry) : Prop := en_ev e = EAccepted \/ exists k c b, en_op e = OStart k c b.

(** C49: whenever the Secondary installs a target, the last metadata it was sent was accepted and assigns that target
    to it. *)
Definition C49_statement : Prop :=
  forall E ag ecu hw d0 ops pre e t post, snd_run E ag ecu hw ops (snd_off d0) = pre ++ e :: post -> en_ev e = EInstall t ->
  exists pre1 d q ckd cki mid, pre = pre1 ++ {| en_db := d; en_op := OPut q ckd cki; en_ev := EAccepted |} :: mid /\
    no_put mid /\ assigns E q ecu hw t.

(** C64: no metadata message makes a running Secondary terminate. *)
Definition C64_statement : Prop :=
  forall E ag ecu hw m q ckd cki, sn_alive m = true -> sn_alive (fst (snd_step E ag ecu hw (OPut q ckd cki) m)) = true.
