(** Properties of the Director and Image repository metadata updates (C03-C06, C08-C13, C50, C51). *)
From Verif Require Import Base Json TufModel TufSpec TufProofs MetaStore RepoModel RepoSpec RepoProofs RepoProofs2 RepoProofs3
  RepoProofs4 RepoProofs5 RepoProofs6 RepoProofs7 RepoProofs8 Toy.

(** ** C03: root chain of trust *)

(** A root update on a device with a stored root: whatever the server answers, at every crash point and at the end, the
    stored roots are the old ones plus a chain of successors of the newest old root. *)
Theorem C03_root_chain E srv clk rp s s' r raw0 :
  update_root E srv clk rp s = (s', r) -> u_log s = [] -> load_latest_root rp (u_db s) = Ok (Some raw0) ->
  (forall d', In d' (u_db s' :: u_log s') ->
     roots_unchanged rp (u_db s) d' \/
     exists R0 l R, self_signed_root E raw0 R0 /\ root_chain E R0 l R /\ roots_added rp (u_db s) d' l /\
       (forall v, v <= rt_version R0 -> stored_root rp v d' = stored_root rp v (u_db s))) /\
  (r = Ok tt -> exists R0 l, self_signed_root E raw0 R0 /\ root_chain E R0 l (get_root rp s') /\
     roots_added rp (u_db s) (u_db s') l).
Proof. exact (update_root_chain E srv clk rp s s' r raw0). Qed.
Print Assumptions C03_root_chain.

(** Versions along a chain are consecutive. *)
Theorem C03_chain_gap_free E R l R' : root_chain E R l R' ->
  forall k, (k < List.length l)%nat -> option_map fst (nth_error l k) = Some (rt_version R + 1 + Z.of_nat k).
Proof. exact (root_chain_versions E R l R'). Qed.
Print Assumptions C03_chain_gap_free.

(** On a device without a stored root (trust on first use). *)
Theorem C03_first_root E srv clk rp s s' r :
  update_root E srv clk rp s = (s', r) -> u_log s = [] -> load_latest_root rp (u_db s) = Ok None ->
  (forall d', In d' (u_db s' :: u_log s') ->
     roots_unchanged rp (u_db s) d' \/
     exists raw0 R0 l R, srv rp "root" 1 = Ok raw0 /\ self_signed_root E raw0 R0 /\ root_chain E R0 l R /\
       forall v, stored_root rp v d' = match zget v l with Some raw => Some raw | None =>
                                         if v =? 1 then Some raw0 else stored_root rp v (u_db s) end).
Proof. exact (update_root_first E srv clk rp s s' r). Qed.
Print Assumptions C03_first_root.

(** Conversely, a valid successor that is offered is stored (up to version 999). *)
Theorem C03_rotation_taken E srv clk rp s s' r raw0 R0 raw1 R1 : update_root E srv clk rp s = (s', r) ->
  load_latest_root rp (u_db s) = Ok (Some raw0) -> self_signed_root E raw0 R0 -> rt_version R0 + 1 < 1000 ->
  srv rp "root" (rt_version R0 + 1) = Ok raw1 -> next_root E R0 raw1 R1 ->
  stored_root rp (rt_version R0 + 1) (u_db s') = Some raw1.
Proof. exact (rotation_taken E srv clk rp s s' r raw0 R0 raw1 R1). Qed.
Print Assumptions C03_rotation_taken.

(** Two rotations; the second root is expired, the last one is not. *)
Example C03_two_rotations :
  let r := update_root W (serve [(2, "R2x"); (3, "R3")] []) now2020 Director (mem0 db_dir) in
  snd r = Ok tt /\ load_latest_root Director (u_db (mem0 db_dir)) = Ok (Some "R1") /\
  map (fun v => stored_root Director v (u_db (fst r))) [1; 2; 3] = [Some "R1"; Some "R2x"; Some "R3"].
Proof. vm_compute. auto. Qed.
(** A root that skips a version, and one not signed by its predecessor, are not stored. *)
Example C03_bad_rotation :
  let r := update_root W (serve [(2, "R3")] []) now2020 Director (mem0 db_dir) in
  snd r = Throw UBadKeyId /\ u_db (fst r) = db_dir.
Proof. vm_compute. auto. Qed.

(** ** C04: root versions never decrease *)
Theorem C04_root_version_monotone E rp d d' v : db_history E d d' -> newest_root_version E rp d v ->
  exists v', newest_root_version E rp d' v' /\ v <= v'.
Proof. exact (root_version_monotone E rp d d' v). Qed.
Print Assumptions C04_root_version_monotone.

(** If the server offers no acceptable successor, the root update changes nothing in the database. *)
Theorem C04_rejected_root_changes_nothing E srv clk rp s s' r :
  update_root E srv clk rp s = (s', r) -> ~ rotation_offered E srv rp (u_db s) ->
  (exists raw, load_latest_root rp (u_db s) = Ok (Some raw)) -> u_db s' = u_db s /\ u_log s' = u_log s.
Proof. exact (no_rotation_root_phase E srv clk rp s s' r). Qed.
Print Assumptions C04_rejected_root_changes_nothing.
Example C04_history : exists d', db_history W db_dir d' /\ newest_root_version W Director db_dir 1 /\ newest_root_version W Director d' 2.
Proof.
  set (srv := serve [(2, "R2")] [("targets", "D3n")]). destruct (director_update W srv now2020 (mem0 db_dir)) as (s', r) eqn:Hr.
  assert (Hd : u_db s' = ltac:(let x := eval vm_compute in
    (u_db (fst (director_update W (serve [(2, "R2")] [("targets", "D3n")]) now2020 (mem0 db_dir)))) in exact x)).
  { change s' with (fst (s', r)). rewrite <- Hr. vm_compute. reflexivity. }
  exists (u_db s'). split; [|split].
  - eapply dh_step; [|apply dh_refl]. exists (OpDirectorUpdate srv now2020), (mem0 db_dir), s', r.
    split; [unfold clean_op, srv; clean_serve|]. split; [reflexivity|]. split; [reflexivity|].
    split; [exact Hr|]. right. left. reflexivity.
  - exists "R1". eexists. split; [vm_compute; reflexivity|]. split; vm_compute; reflexivity.
  - rewrite Hd. exists "R2". eexists. split; [vm_compute; reflexivity|]. split; vm_compute; reflexivity.
Qed.

(** ** C05: rotation invalidates old metadata *)
Theorem C05_director_rotation_clears E srv clk s s' r : director_update E srv clk s = (s', r) -> clean_server srv ->
  (exists raw, load_latest_root Director (u_db s) = Ok (Some raw)) -> ~ roots_unchanged Director (u_db s) (u_db s') ->
  forall ty raw, ty <> RRoot -> load_nonroot Director ty (u_db s') = Ok (Some raw) ->
    ty = RTargets /\ srv Director "targets" (-1) = Ok raw /\ acceptable E (rt_ks (u_droot s')) role_targets (parse E raw).
Proof. exact (director_rotation_clears E srv clk s s' r). Qed.
Print Assumptions C05_director_rotation_clears.
Theorem C05_image_rotation_clears E srv clk s s' r : image_update E srv clk s = (s', r) -> clean_server srv ->
  (exists raw, load_latest_root Image (u_db s) = Ok (Some raw)) -> ~ roots_unchanged Image (u_db s) (u_db s') ->
  forall ty raw, ty <> RRoot -> load_nonroot Image ty (u_db s') = Ok (Some raw) ->
    (ty = RTimestamp /\ srv Image "timestamp" (-1) = Ok raw /\ acceptable E (rt_ks (u_iroot s')) role_timestamp (parse E raw)) \/
    (ty = RSnapshot /\ srv Image "snapshot" (-1) = Ok raw /\ acceptable E (rt_ks (u_iroot s')) role_snapshot (parse E raw)) \/
    (ty = RTargets /\ srv Image "targets" (-1) = Ok raw /\ acceptable E (rt_ks (u_iroot s')) role_targets (parse E raw)).
Proof. exact (image_rotation_clears E srv clk s s' r). Qed.
Print Assumptions C05_image_rotation_clears.
Example C05_rotation :
  let r := director_update W (serve [(2, "R2")] [("targets", "D3n")]) now2020 (mem0 db_dir) in
  snd r = Ok tt /\ stored_root Director 2 db_dir <> stored_root Director 2 (u_db (fst r)) /\
  load_nonroot Director RTargets db_dir = Ok (Some "D5") /\ load_nonroot Director RTargets (u_db (fst r)) = Ok (Some "D3n").
Proof. vm_compute. repeat split; congruence. Qed.
(** The crash half of C05 is C09/C11: their statements start from any database, in particular one left by a crash. *)

(** ** C06: an expired final root stops the update *)
Theorem C06_final_root_unexpired E srv clk rp s s' :
  update_root E srv clk rp s = (s', Ok tt) -> is_expired (rt_base (get_root rp s')) (clk RRoot) = false.
Proof. exact (update_root_unexpired E srv clk rp s s'). Qed.
Print Assumptions C06_final_root_unexpired.
Example C06_expired :
  snd (update_root W (serve [(2, "R2x")] []) now2020 Director (mem0 db_dir)) = Throw UExpired /\
  snd (update_root W (serve [(2, "R2x"); (3, "R3")] []) now2020 Director (mem0 db_dir)) = Ok tt.
Proof. vm_compute. auto. Qed.

(** ** C08: no rollback of Director Targets *)
Theorem C08_director_no_rollback E srv clk s s' r v :
  director_update E srv clk s = (s', r) -> u_log s = [] -> clean_server srv ->
  (exists raw, load_latest_root Director (u_db s) = Ok (Some raw)) -> ~ rotation_offered E srv Director (u_db s) ->
  stored_version E Director RTargets (u_db s) v -> 0 <= v ->
  (forall d', In d' (u_db s' :: u_log s') -> exists v', stored_version E Director RTargets d' v' /\ v <= v') /\
  (r = Ok tt -> v <= tg_version (u_dlatest s') /\ v <= tg_version (u_dtargets s')) /\
  (forall raw w, srv Director "targets" (-1) = Ok raw -> extract_version_untrusted E raw = Ok w -> w < v ->
     (exists e, r = Throw e) /\ u_db s' = u_db s).
Proof. exact (director_no_rollback E srv clk s s' r v). Qed.
Print Assumptions C08_director_no_rollback.
Example C08_case :
  let srv := serve [] [("targets", "D6")] in
  clean_server srv /\ ~ rotation_offered W srv Director db_dir /\ stored_version W Director RTargets db_dir 5 /\
  snd (director_update W srv now2020 (mem0 db_dir)) = Ok tt /\
  snd (director_update W (serve [] [("targets", "D5")]) now2020
         (fst (director_update W srv now2020 (mem0 db_dir)))) = Throw USecurity.
Proof.
  cbn zeta. split; [clean_serve|]. split; [apply no_roots_no_rotation|]. split.
  - exists "D5". split; vm_compute; reflexivity.
  - vm_compute. auto.
Qed.

(** ** C09: Director Targets in use *)
Definition C09_statement : Prop := forall E srv clk s s', director_update E srv clk s = (s', Ok tt) ->
  exists raw, verified_targets E (u_droot s') raw (u_dtargets s') /\
    is_expired (tg_base (u_dtargets s')) (clk RTargets) = false /\ tg_deleg (u_dtargets s') = [] /\
    one_target_per_ecu (u_dtargets s').
(** False: with empty newest Targets, the previously stored ones stay in use without an expiry check. *)
Theorem C09_refuted : ~ C09_statement.
Proof.
  intros H. set (s := mem0 (store_nonroot "D5x" Director RTargets db_dir)).
  specialize (H W (serve [] [("targets", "D6e")]) now2020 s (fst (director_update W (serve [] [("targets", "D6e")]) now2020 s))).
  destruct H as (raw & _ & Hx & _); [vm_compute; reflexivity|]. vm_compute in Hx. discriminate.
Qed.
Print Assumptions C09_refuted.
(** What holds: the newest Targets are authentic, unexpired and flat; those in use are authentic and one-per-ECU, and are
    the newest ones unless these are empty, in which case they may be the stored previous ones. *)
Theorem C09_director_accepts_partial E srv clk s s' : director_update E srv clk s = (s', Ok tt) ->
  exists raw, srv Director "targets" (-1) = Ok raw /\
    verified_targets E (u_droot s') raw (u_dlatest s') /\
    is_expired (tg_base (u_dlatest s')) (clk RTargets) = false /\ tg_deleg (u_dlatest s') = [] /\
    one_target_per_ecu (u_dtargets s') /\
    (u_dtargets s' = u_dlatest s' \/
     (tg_targets (u_dlatest s') = [] /\ exists sraw, verified_targets E (u_droot s') sraw (u_dtargets s'))).
Proof. exact (director_accepts E srv clk s s'). Qed.
Print Assumptions C09_director_accepts_partial.

(** ** C10: rejected Director metadata is not persisted *)
Definition C10_statement : Prop := forall E srv clk s s' e, director_update E srv clk s = (s', Throw e) ->
  ~ rotation_offered E srv Director (u_db s) -> (exists raw, load_latest_root Director (u_db s) = Ok (Some raw)) ->
  load_nonroot Director RTargets (u_db s') = load_nonroot Director RTargets (u_db s).
(** False: an expired document is stored before its expiry is checked. *)
Theorem C10_refuted : ~ C10_statement.
Proof.
  intros H. specialize (H W (serve [] [("targets", "D6x")]) now2020 (mem0 db_dir)
    (fst (director_update W (serve [] [("targets", "D6x")]) now2020 (mem0 db_dir))) UExpired).
  assert (G := H ltac:(vm_compute; reflexivity) (no_roots_no_rotation _ _ _ _) ltac:(exists "R1"; reflexivity)).
  vm_compute in G. discriminate.
Qed.
Print Assumptions C10_refuted.
(** What holds: only authentic, newer metadata is ever persisted. *)
Theorem C10_director_persists_partial E srv clk s s' r :
  director_update E srv clk s = (s', r) -> u_log s = [] ->
  (exists raw, load_latest_root Director (u_db s) = Ok (Some raw)) -> ~ rotation_offered E srv Director (u_db s) ->
  u_db s' <> u_db s ->
  exists raw local remote, srv Director "targets" (-1) = Ok raw /\ u_db s' = store_nonroot raw Director RTargets (u_db s) /\
    verified_targets E (u_droot s') raw (u_dlatest s') /\
    local_version E Director RTargets (u_db s) local /\ extract_version_untrusted E raw = Ok remote /\ local < remote.
Proof. exact (director_persists E srv clk s s' r). Qed.
Print Assumptions C10_director_persists_partial.

(** ** C11: Image repository chain *)
Theorem C11_image_chain E srv clk s s' : image_update E srv clk s = (s', Ok tt) ->
  exists rawt raws rawg t,
    is_expired (rt_base (u_iroot s')) (clk RRoot) = false /\
    authentic_timestamp E (u_iroot s') rawt (u_itime s') /\ is_expired (tm_base (u_itime s')) (clk RTimestamp) = false /\
    snapshot_named E (u_iroot s') (u_itime s') raws (u_isnap s') /\ is_expired (sn_base (u_isnap s')) (clk RSnapshot) = false /\
    u_itargets s' = Some t /\ targets_named E (u_iroot s') (u_isnap s') rawg t /\ is_expired (tg_base t) (clk RTargets) = false.
Proof. exact (image_accepts E srv clk s s'). Qed.
Print Assumptions C11_image_chain.
Example C11_case :
  snd (image_update W (serve [(1, "R1")] [("timestamp", "TS5"); ("snapshot", "SN5"); ("targets", "TG5")]) now2020 (mem0 db_empty)) = Ok tt /\
  snd (image_update W (serve [(1, "R1")] [("timestamp", "TS5"); ("snapshot", "SN4"); ("targets", "TG5")]) now2020 (mem0 db_empty)) = Throw USecurity.
Proof. vm_compute. auto. Qed.

(** ** C12: Timestamp rollback *)
Theorem C12_timestamp_no_rollback E srv clk s s' r v :
  image_update E srv clk s = (s', r) -> u_log s = [] -> clean_server srv ->
  (exists raw, load_latest_root Image (u_db s) = Ok (Some raw)) -> ~ rotation_offered E srv Image (u_db s) ->
  stored_version E Image RTimestamp (u_db s) v -> 0 <= v ->
  (forall d', In d' (u_db s' :: u_log s') -> exists v', stored_version E Image RTimestamp d' v' /\ v <= v') /\
  (r = Ok tt -> v <= b_version (tm_base (u_itime s'))) /\
  (forall raw w, srv Image "timestamp" (-1) = Ok raw -> extract_version_untrusted E raw = Ok w -> w < v ->
     (exists e, r = Throw e) /\ u_db s' = u_db s).
Proof. exact (timestamp_no_rollback E srv clk s s' r v). Qed.
Print Assumptions C12_timestamp_no_rollback.
Example C12_case :
  let s := mem0 (store_nonroot "TS7" Image RTimestamp db_img) in
  stored_version W Image RTimestamp (u_db s) 7 /\
  snd (image_update W (serve [] [("timestamp", "TS7")]) now2020 s) = Ok tt /\
  snd (image_update W (serve [] [("timestamp", "TS6"); ("snapshot", "SN4"); ("targets", "TG4")]) now2020 s) = Throw USecurity.
Proof. cbn zeta. split; [exists "TS7"; split; vm_compute; reflexivity|]. vm_compute. auto. Qed.

(** ** C13: Snapshot and Targets rollback *)
Definition C13_statement : Prop := forall E srv clk s s' ty v,
  image_update E srv clk s = (s', Ok tt) -> clean_server srv ->
  (exists raw, load_latest_root Image (u_db s) = Ok (Some raw)) -> ~ rotation_offered E srv Image (u_db s) ->
  (ty = RSnapshot \/ ty = RTargets) -> stored_version E Image ty (u_db s) v ->
  exists v', stored_version E Image ty (u_db s') v' /\ v <= v'.
(** False for both: a newer Timestamp that names an older Snapshot is followed. *)
Theorem C13_refuted : ~ C13_statement.
Proof.
  intros H. set (srv := serve [] [("timestamp", "TS6"); ("snapshot", "SN4"); ("targets", "TG4")]).
  specialize (H W srv now2020 (mem0 db_img) (fst (image_update W srv now2020 (mem0 db_img))) RSnapshot 5).
  destruct H as (v' & (raw & Hl & Hv) & Hle).
  - vm_compute. reflexivity.
  - unfold srv. clean_serve.
  - exists "R1". reflexivity.
  - apply no_roots_no_rotation.
  - now left.
  - exists "SN5". split; vm_compute; reflexivity.
  - vm_compute in Hl. injection Hl as <-. vm_compute in Hv. injection Hv as <-. lia.
Qed.
Print Assumptions C13_refuted.
Theorem C13_refuted_targets : exists E srv clk s, 
  snd (image_update E srv clk s) = Ok tt /\ clean_server srv /\ ~ rotation_offered E srv Image (u_db s) /\
  stored_version E Image RTargets (u_db s) 5 /\ stored_version E Image RTargets (u_db (fst (image_update E srv clk s))) 4.
Proof.
  exists W, (serve [] [("timestamp", "TS6"); ("snapshot", "SN4"); ("targets", "TG4")]), now2020, (mem0 db_img).
  split; [vm_compute; reflexivity|]. split; [clean_serve|]. split; [apply no_roots_no_rotation|].
  split; [exists "TG5"|exists "TG4"]; (split; [vm_compute; reflexivity|vm_compute; reflexivity]).
Qed.
Print Assumptions C13_refuted_targets.
(** What holds: stored Targets that the new Snapshot's hashes still allow cannot be replaced by an older version. *)
Theorem C13_targets_no_rollback_partial E srv clk s s' sraw t0 :
  image_update E srv clk s = (s', Ok tt) ->
  (exists raw, load_latest_root Image (u_db s) = Ok (Some raw)) -> ~ rotation_offered E srv Image (u_db s) ->
  load_nonroot Image RTargets (u_db s) = Ok (Some sraw) ->
  check_hashes E (canon E (parse E sraw)) (role_hashes (u_isnap s') "targets") false <> None ->
  targets_of_json_signed E (unpack_signed E (rt_ks (u_iroot s'))) role_targets (parse E sraw) = Ok t0 ->
  0 <= tg_version t0 ->
  exists t, u_itargets s' = Some t /\ tg_version t0 <= tg_version t.
Proof. exact (targets_no_rollback_when_hash_ok E srv clk s s' sraw t0). Qed.
Print Assumptions C13_targets_no_rollback_partial.

(** ** C50: the metadata tables are a map *)
Theorem C50_store_is_map ops : Forall storable ops ->
  let d := fold_left (fun d o => db_store o d) ops db_empty in
  let m := fold_left (fun m o => mm_step o m) ops mm_empty in
  (forall rp v, 0 <= v -> load_root rp v d = Ok (mm_root m rp v)) /\
  (forall rp ty, ty <> RRoot -> load_nonroot rp ty d = Ok (mm_meta m rp ty)) /\
  (forall n, load_delegation n d = Ok (mm_deleg m n)) /\
  (forall rp, exists o, load_latest_root rp d = Ok o /\ newest_of (mm_root m rp) o).
Proof. exact (meta_store_refines ops). Qed.
Print Assumptions C50_store_is_map.
(** The restriction to NUL-free documents is needed. *)
Theorem C50_refuted_nul : exists raw, raw <> "" /\ load_nonroot Director RTargets (store_nonroot raw Director RTargets db_empty) <> Ok (Some raw).
Proof. exists (String "a" (String "000" "b")). vm_compute. split; discriminate. Qed.
Print Assumptions C50_refuted_nul.
Example C50_case : Forall storable [SRoot "R1" Director 1; SNonRoot "D5" Director RTargets; SRoot "R2" Director 2; SClearNonRoot Director; SNonRoot "TS5" Image RTimestamp].
Proof. repeat (constructor; [simpl; repeat split; try apply nul_free_dec; (reflexivity || discriminate)|]). constructor. Qed.

(** ** C51: fast-forward recovery survives a crash *)
Definition C51_statement : Prop := forall E srv clk s s1 d',
  director_update E srv clk s = (s1, Ok tt) -> u_log s = [] -> In d' (u_log s1) ->
  snd (director_update E srv clk (mem0 d')) = Ok tt.
(** False: after a crash between storing the new root and clearing the old metadata, the old Targets' version number,
    which is never verified under the new root, makes every later update fail. *)
Theorem C51_refuted : ~ C51_statement.
Proof.
  intros H. set (srv := serve [(2, "R2")] [("targets", "D3n")]).
  specialize (H W srv now2020 (mem0 db_dir) (fst (director_update W srv now2020 (mem0 db_dir)))
    (store_root "R2" Director 2 db_dir)).
  assert (G := H ltac:(vm_compute; reflexivity) eq_refl ltac:(vm_compute; auto)).
  vm_compute in G. discriminate.
Qed.
Print Assumptions C51_refuted.
