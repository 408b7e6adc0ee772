(** aktualizr-secondary: receiving metadata, verifying it, and installing.
    Models /repo/src/aktualizr_secondary/{aktualizr_secondary,aktualizr_secondary_metadata,aktualizr_secondary_file,
    aktualizr_secondary_ostree}.cc. *)
From Verif Require Import Base Json TufModel MetaStore RepoModel.

(** A put-metadata request: for each repository the (role, document) pairs of the "collection" alternative, or nothing if
    another alternative of the ASN.1 CHOICE is used.  (The encoding itself is modelled in CerModel/CodecModel.) *)
Record put_req := { pq_director : option (list (string * string)); pq_image : option (list (string * string)) }.

(** Uptane::MetaBundle (tuf.h): a map from (repository, role) to a document. *)
Definition bundle := list (repo * string * string).
Fixpoint bget (b : bundle) (rp : repo) (rn : string) : option string :=
  match b with
  | [] => None
  | (rp', rn', d) :: b' => if repo_eqb rp rp' && String.eqb rn rn' then Some d else bget b' rp rn
  end.

(** aktualizr_secondary.cc:261-269 copyMetadata: of several documents for a role the first is kept. *)
Definition copy_metadata (rp : repo) (rn : string) (doc : string) (b : bundle) : bundle :=
  match bget b rp rn with Some _ => b | None => b ++ [(rp, rn, doc)] end.

(** aktualizr_secondary.cc:276-294 *)
Definition director_role (rn : string) : bool := String.eqb rn "root" || String.eqb rn "targets".
(** aktualizr_secondary.cc:296-315 *)
Definition image_role (rn : string) : bool :=
  String.eqb rn "root" || String.eqb rn "timestamp" || String.eqb rn "snapshot" || String.eqb rn "targets".
Fixpoint copy_all (rp : repo) (known : string -> bool) (l : list (string * string)) (b : bundle) : bundle :=
  match l with
  | [] => b
  | (rn, doc) :: l' => copy_all rp known l' (if known rn then copy_metadata rp rn doc b else b)
  end.
(** aktualizr_secondary.cc:271-319 putMetaHdlr up to the call of putMetadata; an incomplete bundle is only logged. *)
Definition put_bundle (q : put_req) : bundle :=
  let b1 := match pq_director q with Some l => copy_all Director director_role l [] | None => [] end in
  match pq_image q with Some l => copy_all Image image_role l b1 | None => b1 end.

(** tuf.cc getMetaFromBundle: throws std::runtime_error if the document is missing. *)
Definition bundle_meta (b : bundle) (rp : repo) (rn : string) : res string :=
  match bget b rp rn with Some d => Ok d | None => Throw EStd end.

(** aktualizr_secondary_metadata.cc:3-8, the constructor of Metadata: the versions of the two Root documents. *)
Definition metadata_ctor (E : Env) (b : bundle) : res (Z * Z) :=
  do dr <- bundle_meta b Director "root";
  do dv <- extract_version_untrusted E dr;
  do ir <- bundle_meta b Image "root";
  do iv <- extract_version_untrusted E ir;
  Ok (dv, iv).

(** aktualizr_secondary_metadata.cc:10-41: the bundle as the source of metadata.  The size limits are not applied. *)
Definition bundle_server (b : bundle) (vs : Z * Z) : server :=
  fun rp rn v =>
    if String.eqb rn "root" && negb (v =? -1) && (match rp with Director => fst vs | Image => snd vs end <? v)
    then Throw EStd else bundle_meta b rp rn.

(** The two kinds of Secondary: update_agent_file.cc:9 and update_agent_ostree.cc:12 isTargetSupported. *)
Inductive agent := AgFile | AgOstree.
Definition supported (a : agent) (t : target) : bool :=
  match a with AgFile => negb (String.eqb (t_type t) "OSTREE") | AgOstree => is_ostree t end.

(** Memory of a process that has just been started on database [d]. *)
Definition boot (d : db) : ust := {|
  u_db := d; u_log := []; u_droot := root_empty PAcceptAll; u_dtargets := targets_empty; u_dlatest := targets_empty;
  u_iroot := root_empty PAcceptAll; u_itime := timestamp_empty; u_isnap := snapshot_empty; u_itargets := None |}.

(** What the process remembers: repositories and storage, pending_target_ ([None] = Target::Unknown()), and whether
    it is running; and, to quantify over crash points, the database before the last request (its later states are in
    the log of [sn_ust]). *)
Record snd_st := { sn_ust : ust; sn_prev : db; sn_pending : option target; sn_alive : bool }.

Section Secondary.
Context (E : Env) (ag : agent) (ecu hw : string).

(** aktualizr_secondary.cc:104-121 and 178-190: the only target for this ECU, if it is of a supported kind. *)
Definition my_target (t : targets) : option target :=
  match get_targets t ecu hw with
  | [x] => if supported ag x then Some x else None
  | _ => None
  end.

(** aktualizr_secondary.cc:68-125 doFullVerification: [Ok (Some t)] = kOk and pending_target_ := t; [Ok None] =
    kVerificationFailed.  A null getTargets() would be undefined behaviour: [Throw]. *)
Definition full_verification (srv : server) (ckd cki : clock) (s : ust) : ust * res (option target) :=
  match director_update E srv ckd s with
  | (s1, Throw _) => (s1, Ok None)
  | (s1, Ok _) =>
      match image_update E srv cki s1 with
      | (s2, Throw _) => (s2, Ok None)
      | (s2, Ok _) =>
          match u_itargets s2 with
          | None => (s2, Throw EStd)
          | Some it =>
              if match_with_image_targets (u_dtargets s2) it then (s2, Ok (my_target (u_dtargets s2))) else (s2, Ok None)
          end
      end
  end.

(** What the environment does to the Secondary. *)
Inductive snd_op :=
| OPut (q : put_req) (ckd cki : clock)   (* a put-metadata request; the clock during both updates *)
| OInstall (code : Z)                    (* an install request; what the update agent answers: 0 kOk, 1 kNeedCompletion, else an error *)
| ODownloadFailed                        (* an OSTree download request that fails *)
| OStart (k : nat) (clk : clock) (drop : bool). (* the process is killed (if it runs), with the last [k] transactions
    of the last metadata request undone, and started again; [drop]: an OSTree Secondary finishes a pending installation *)
(** What can be seen of it. *)
Inductive snd_ev :=
| EAccepted           (* metadata verified *)
| ERejected           (* verification failed *)
| EExit               (* an exception ended the process *)
| EInstall (t : target) (* the update agent is told to install t *)
| ENothing            (* install refused: no valid target; or nothing happens *)
| EStarted.

Definition clear_log (s : ust) : ust := {|
  u_db := u_db s; u_log := []; u_droot := u_droot s; u_dtargets := u_dtargets s; u_dlatest := u_dlatest s;
  u_iroot := u_iroot s; u_itime := u_itime s; u_isnap := u_isnap s; u_itargets := u_itargets s |}.

(** aktualizr_secondary.cc:271-329 putMetaHdlr and aktualizr_secondary.h putMetadata(MetaBundle), which constructs the
    Metadata object outside any try block (msg_handler.cc, secondary_tcp_server.cc and main.cc:118-122: the exception
    ends the process). *)
Definition do_put (q : put_req) (ckd cki : clock) (m : snd_st) : snd_st * snd_ev :=
  let b := put_bundle q in
  match metadata_ctor E b with
  | Throw _ => ({| sn_ust := clear_log (sn_ust m); sn_prev := u_db (sn_ust m); sn_pending := None; sn_alive := false |}, EExit)
  | Ok vs =>
      match full_verification (bundle_server b vs) ckd cki (clear_log (sn_ust m)) with
      | (s, Ok (Some t)) => ({| sn_ust := s; sn_prev := u_db (sn_ust m); sn_pending := Some t; sn_alive := true |}, EAccepted)
      | (s, Ok None) => ({| sn_ust := s; sn_prev := u_db (sn_ust m); sn_pending := sn_pending m; sn_alive := true |}, ERejected)
      | (s, Throw _) => ({| sn_ust := s; sn_prev := u_db (sn_ust m); sn_pending := None; sn_alive := false |}, EExit)
      end
  end.

(** aktualizr_secondary.cc:38-66 install.  The installed-versions table is modelled in InstModel. *)
Definition do_install (code : Z) (m : snd_st) : snd_st * snd_ev :=
  match sn_pending m with
  | None => (m, ENothing)
  | Some t => ({| sn_ust := sn_ust m; sn_prev := sn_prev m; sn_pending := if code =? 0 then None else Some t; sn_alive := true |}, EInstall t)
  end.

(** aktualizr_secondary_ostree.cc:71-83: a failed download forgets the target. *)
Definition do_download_failed (m : snd_st) : snd_st :=
  {| sn_ust := sn_ust m; sn_prev := sn_prev m; sn_pending := match ag with AgOstree => None | AgFile => sn_pending m end; sn_alive := true |}.

(** aktualizr_secondary.cc:170-191 initPendingTargetIfAny; aktualizr_secondary_file.cc:33 and
    aktualizr_secondary_ostree.cc:21-55 initialize. *)
Definition start_db (k : nat) (m : snd_st) : db := nth k (u_log (sn_ust m) ++ [sn_prev m]) (u_db (sn_ust m)).
Definition do_start (k : nat) (clk : clock) (drop : bool) (m : snd_st) : snd_st :=
  let (s, r) := director_offline E clk (boot (start_db k m)) in
  let p := match r with Ok _ => my_target (u_dtargets s) | Throw _ => None end in
  let s' := match ag with AgOstree => if drop then fst (director_drop_targets s) else s | AgFile => s end in
  {| sn_ust := clear_log s'; sn_prev := u_db s'; sn_pending := p; sn_alive := true |}.

Definition snd_step (o : snd_op) (m : snd_st) : snd_st * snd_ev :=
  match o with
  | OStart k clk drop => (do_start k clk drop m, EStarted)
  | _ => if negb (sn_alive m) then (m, ENothing) else
      match o with
      | OPut q ckd cki => do_put q ckd cki m
      | OInstall code => do_install code m
      | _ => (do_download_failed m, ENothing)
      end
  end.

(** A run: what was asked, the database that the request (or the new process) found, and what could be seen. *)
Record entry := { en_db : db; en_op : snd_op; en_ev : snd_ev }.
Fixpoint snd_run (ops : list snd_op) (m : snd_st) : list entry :=
  match ops with
  | [] => []
  | o :: ops' => let (m', ev) := snd_step o m in
      {| en_db := match o with OStart k _ _ => start_db k m | _ => u_db (sn_ust m) end; en_op := o; en_ev := ev |} :: snd_run ops' m'
  end.

(** A Secondary that has not been started, on database [d]. *)
Definition snd_off (d : db) : snd_st := {| sn_ust := boot d; sn_prev := d; sn_pending := None; sn_alive := false |}.
End Secondary.
