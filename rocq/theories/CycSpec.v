(** Specification of the update cycle, in terms of what can be seen (events of CycModel and UpdModel) and of what is stored. *)
From Verif Require Import Base Json TufModel MetaStore RepoModel RepoSpec CodecModel DlModel DlSpec InstModel InstSpec DevModel DevSpec ClientModel ClientSpec UpdModel UpdSpec CycModel.

(** What is reported about the download of one target: the start for each of its ECUs, the download, the end for each ECU. *)
Definition dl_reports (corr : string) (t : target) (ok : bool) : list cev :=
  map (fun e => CDlStarted (fst e) corr) (t_ecus t) ++ CFetched t ok :: map (fun e => CDlCompleted (fst e) corr ok) (t_ecus t).
Fixpoint all_reports (corr : string) (ts : list target) (oks : list bool) : list cev :=
  match ts, oks with t :: ts', ok :: oks' => dl_reports corr t ok ++ all_reports corr ts' oks' | _, _ => [] end.
(** The targets whose download worked. *)
Fixpoint picked (ts : list target) (oks : list bool) : list target :=
  match ts, oks with t :: ts', ok :: oks' => if ok : bool then t :: picked ts' oks' else picked ts' oks' | _, _ => [] end.

(** The failure [c] of the update [corr] is the stored result of the device, and no Targets metadata of the Director is
    stored or in memory. *)
Definition failure_stored (c : Z) (corr : string) (s : pst) : Prop :=
  (exists w r, v_dres (p_dev s) = Some (w, "", corr) /\ of_row w = Ok r /\ rc_num (ir_code r) = c /\ ir_success r = false) /\
  load_nonroot Director RTargets (u_db (p_ust s)) = Ok None /\ tg_targets (u_dtargets (p_ust s)) = [].
(** Same, but for what is sent or stored about metadata. *)
Definition same_tables (s s' : pst) : Prop := p_idb s' = p_idb s /\ p_tr s' = p_tr s /\ p_dev s' = p_dev s.

(** ** Results *)
(** The manifest carries the stored result [w] with its raw report and correlation id. *)
Definition carries (m : manifest) (w : row) (raw corr : string) : Prop :=
  exists rep r, m_report m = Some rep /\ of_row w = Ok r /\ to_res_json r = Ok (rp_result rep) /\ rp_raw rep = raw /\ rp_corr rep = corr.
(** The result stored after the events [ue], if it was [o] before them. *)
Definition dres_after (o : option (row * string * string)) (ue : list uev) : option (row * string * string) :=
  fold_left (fun o e => match e with UDevRes r raw corr => match to_row r with Ok w => Some (w, raw, corr) | Throw _ => o end | _ => o end) ue o.
(** The result was part of a manifest that was sent. *)
Definition sent (o : option (row * string * string)) (ce : list cev) : Prop :=
  forall w raw corr, o = Some (w, raw, corr) -> exists m acc, In (CManifest m acc) ce /\ carries m w raw corr.
(** ** Images *)
(** The image that is installed is good: an OSTree commit that is there, or a file with the right length and hash. *)
Definition image_good (E : Env) (P : primary) (W : cworld) (d : dstate) (t : target) : Prop :=
  if is_ostree t && pr_ostree P then x_commit W t = Ok true else exists c, stored t d = Some c /\ size c = t_length t /\ matches_first E t c.
(** The files that the target has or is to have. *)
Definition uses (d : dstate) (t : target) (f : string) : Prop := f = file_name t \/ aget (t_filename t) (d_names d) = Some f.
Definition apart (d : dstate) (t u : target) : Prop := t_filename t <> t_filename u /\ forall f, uses d t f -> ~ uses d u f.
(** The file of the target is there, complete and with the listed hash. *)
Definition file_good (E : Env) (d : dstate) (t : target) : Prop := exists c, stored t d = Some c /\ size c = t_length t /\ matches_first E t c.
(** A target whose hash determines the length it lists. *)
Definition sound_target (E : Env) (t : target) : Prop := 0 < t_length t /\ forall c, matches_first E t c -> size c = t_length t.
(** The disk takes everything it is given, for all downloads. *)
Definition disks_good (W : cworld) : Prop := forall i n, good_disk (fst (x_fetch W i n)).
(** ** Metadata of the Director *)
(** The stored Targets of the Director are no older. *)
Definition no_older (E : Env) (d d' : db) : Prop := forall v, stored_version E Director RTargets d v -> 0 <= v -> exists v', stored_version E Director RTargets d' v' /\ v <= v'.
(** A Root of the Director is stored. *)
Definition root_stored (d : db) : Prop := exists raw, load_latest_root Director d = Ok (Some raw).
(** A failed result of the device (not one that waits for a reboot) was stored before, or by one of the events. *)
Definition failing (o : option (row * string * string)) (ue : list uev) : Prop :=
  exists w raw corr r, (o = Some (w, raw, corr) \/ exists r0, In (UDevRes r0 raw corr) ue /\ to_row r0 = Ok w) /\ of_row w = Ok r /\ ir_success r = false /\ ~ waits r.
(** ** OSTree pulls *)
(** One of the first three attempts worked; those before it failed and the user let the download go on. *)
Definition pull_worked (a : nat -> bool * bool) : Prop :=
  exists k, (k < 3)%nat /\ fst (a k) = true /\ forall j, (j < k)%nat -> a j = (false, true).
(** What a successful download of the [i]-th target means if it is an OSTree commit: the keys could be loaded and, if it is for the
    Primary, the package manager is OSTree and it was pulled. *)
Definition ostree_fetched (P : primary) (W : cworld) (i : nat) (t : target) : Prop :=
  x_keys W i = true /\ (for_ecu t (pr_serial P) = true -> pr_ostree P = true /\ pull_worked (x_pull W i)).
