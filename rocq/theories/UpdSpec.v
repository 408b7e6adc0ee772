(** Specification of the installation of an update on all ECUs, in terms of what can be seen (events of UpdModel). *)
From Verif Require Import Base Json TufModel MetaStore RepoModel CodecModel InstModel InstSpec DevModel DevSpec ClientModel UpdModel.

(** An image is handed to an ECU, or an ECU is told to install it. *)
Definition installs (e : uev) : Prop := match e with UPmInstall _ _ | USend _ _ _ | UInstall _ _ _ => True | _ => False end.
Definition targets_ecu (t : target) (ecu : string) : Prop := exists hw, In (ecu, hw) (t_ecus t).
Definition secondary (P : primary) (ecu : string) : Prop := exists hw, In (ecu, hw) (pr_secs P).
(** Same target, but for the correlation id. *)
Definition but_corr (a b : target) : Prop := exists c, a = set_corr b c.
(** The image is kept by the Primary: it is for the Primary, or no OSTree commit. *)
Definition held (P : primary) (t : target) : Prop := targets_ecu t (pr_serial P) \/ is_ostree t = false.

(** ** Root metadata for Secondaries *)
(** Root versions v+1, ..., w are given to the Secondary, in order, and each is accepted. *)
Inductive climbs (ecu : string) (rp : repo) : Z -> Z -> list uev -> Prop :=
| climbs_done v : climbs ecu rp v v []
| climbs_step v w root l : climbs ecu rp (v + 1) w l -> climbs ecu rp v w (UPutRoot ecu rp (v + 1) root true :: l).
(** The version of the Primary's newest Root of a repository. *)
Definition newest_root (E : Env) (d : db) (rp : repo) (v : Z) : Prop :=
  exists raw, load_latest_root rp d = Ok (Some raw) /\ extract_version_untrusted E raw = Ok v.
(** A Secondary that has version [sv] has been given all it misses: nothing if it is at most one version behind (the newest
    Root is part of the metadata that follows) or has no version to tell. *)
Definition caught_up (E : Env) (d : db) (ecu : string) (rp : repo) (sv : Z) (l : list uev) : Prop :=
  exists last, newest_root E d rp last /\
    ((sv <= 0 \/ last - sv <= 1) /\ l = [] \/ 0 < sv /\ 1 < last - sv /\ climbs ecu rp sv last l).
(** Root version [v] of the Primary: the stored one or, if there is none, the one on the server. *)
Definition root_at (d : db) (srv : server) (rp : repo) (v : Z) (root : string) : Prop :=
  load_root rp v d = Ok (Some root) \/ load_root rp v d = Ok None /\ srv rp "root" v = Ok root.

(** Every Root given to a Secondary directly follows the question for its version, or the previous Root. *)
Definition roots_ok (srv : server) (d : db) (evs : list uev) : Prop := forall pre ecu rp v root ok post, evs = pre ++ UPutRoot ecu rp v root ok :: post ->
  root_at d srv rp v root /\ exists pre' x, pre = pre' ++ [x] /\ (x = URootVersion ecu rp (v - 1) \/ exists root', x = UPutRoot ecu rp (v - 1) root' true).
(** Metadata is given to a Secondary directly after it has caught up with the Roots of both repositories. *)
Definition metas_ok (E : Env) (d : db) (evs : list uev) : Prop := forall pre ecu t ok post, evs = pre ++ UPutMeta ecu t ok :: post ->
  exists pre0 sd ld si li, pre = pre0 ++ URootVersion ecu Director sd :: ld ++ URootVersion ecu Image si :: li /\
    caught_up E d ecu Director sd ld /\ caught_up E d ecu Image si li.

(** ** Installation *)
(** What is handed to an ECU is one of the requested targets, for that ECU; and installing comes after a successful transfer.
    The Primary's is marked with the correlation id of the Director's metadata. *)
Definition inst_ok (P : primary) (ts : list target) (corr : string) (pre : list uev) (e : uev) : Prop :=
  match e with
  | UPmInstall t _ => exists u, In u ts /\ t = set_corr u corr /\ targets_ecu u (pr_serial P)
  | USend ecu t _ => In t ts /\ targets_ecu t ecu /\ secondary P ecu /\ ecu <> pr_serial P
  | UInstall ecu t _ => In t ts /\ targets_ecu t ecu /\ secondary P ecu /\ ecu <> pr_serial P /\ In (USend ecu t true) pre
  | _ => True
  end.
(** The event hands [t] to the ECU, or makes it install it. *)
Definition goes_to (P : primary) (e : uev) (ecu : string) (t : target) : Prop :=
  match e with UPmInstall u _ => ecu = pr_serial P /\ t = u | USend s u _ | UInstall s u _ => ecu = s /\ t = u | _ => False end.

(** ** What is recorded *)
Definition stored_result (d : dev) (ecu : string) (r : ires) : Prop := exists w, to_row r = Ok w /\ aget ecu (v_eres d) = Some w.
(** [t] is for at most one ECU each. *)
Definition one_each (ts : list target) : Prop := NoDup (map fst (flat_map t_ecus ts)).

(** A version is recorded for a reason: it was requested for the ECU; and it is recorded as current (pending) only after the
    ECU said that it is installed (that it will be after a reboot, or failed to take the image). *)
Definition reason (P : primary) (ts : list target) (corr : string) (pre : list uev) (ecu : string) (t : target) (m : imode) : Prop :=
  (ecu = pr_serial P /\ exists u, In u ts /\ t = set_corr u corr /\ targets_ecu u ecu /\
     match m with ModeNone => True
     | ModeCurrent => exists r, In (UPmInstall t r) pre /\ rc_num (ir_code r) = kOk
     | ModePending => exists r, In (UPmInstall t r) pre /\ rc_num (ir_code r) = kNeedCompletion end) \/
  (ecu <> pr_serial P /\ secondary P ecu /\ exists u, In u ts /\ t = set_corr u corr /\ targets_ecu u ecu /\
     match m with ModeNone => False
     | ModeCurrent => exists r, In (UInstall ecu u r) pre /\ ir_success r = true
     | ModePending => (exists r, In (UInstall ecu u r) pre /\ ir_success r = false /\ waits r) \/ In (USend ecu u false) pre end).
(** The versions of a Secondary (of the Primary) before and after, for its answer [r]. *)
Definition sec_outcome (loadc : string -> option json) (d d' : idb) (ecu : string) (t : target) (r : ires) : Prop :=
  (ir_success r = true -> exists x, load_installed loadc ecu d' = Ok (Some x, None) /\ reported x t) /\
  (ir_success r = false -> waits r -> not_current loadc d ecu t -> forall c p, load_installed loadc ecu d = Ok (c, p) -> exists x, load_installed loadc ecu d' = Ok (c, Some x) /\ reported x t) /\
  (ir_success r = false -> ~ waits r -> load_installed loadc ecu d' = load_installed loadc ecu d).
Definition prim_outcome (loadc : string -> option json) (d d' : idb) (ecu : string) (t : target) (r : ires) : Prop :=
  (rc_num (ir_code r) = kOk -> exists x, load_installed loadc ecu d' = Ok (Some x, None) /\ reported x t) /\
  (rc_num (ir_code r) = kNeedCompletion -> not_current loadc d ecu t -> forall c p, load_installed loadc ecu d = Ok (c, p) -> exists x, load_installed loadc ecu d' = Ok (c, Some x) /\ reported x t) /\
  (rc_num (ir_code r) <> kOk -> rc_num (ir_code r) <> kNeedCompletion -> not_current loadc d ecu t -> forall c p, load_installed loadc ecu d = Ok (c, p) ->
     exists p', load_installed loadc ecu d' = Ok (c, p') /\ (p' = p \/ p' = None /\ exists x, p = Some x /\ same_key x t)).
(** The ECU of a report. *)
Definition ecu_of (x : ecu_report) : string := snd (fst x).
Definition nonempty_serials (P : primary) : Prop := pr_serial P <> "" /\ forall hw, ~ In ("", hw) (pr_secs P).
Definition is_version (x : uev) : Prop := match x with UVersion _ _ _ => True | _ => False end.

(** ** Pending updates of Secondaries *)
(** The manifest says that the installed image has this SHA-256. *)
Definition reports_hash (j : json) (h : string) : Prop :=
  exists s, (do a <- jget "signed" j; do b <- jget "installed_image" a; do c <- jget "fileinfo" b; do d <- jget "hashes" c;
             do e <- jget "sha256" d; jas_string e) = Ok s /\ to_upper s = to_upper h.
(** A manifest of the Secondary, signed by it, says that it runs [t]. *)
Definition confirms (verifies : string -> json -> bool) (ecu : string) (j : json) (t : target) : Prop :=
  is_empty_json j = false /\ verifies ecu j = true /\ reports_hash j (sha256_hash t).
(** [t] is pending on the ECU. *)
Definition pending_on (loadc : string -> option json) (d : idb) (ecu : string) (t : target) : Prop :=
  exists c, load_installed loadc ecu d = Ok (c, Some t).
(** JSON text: a value that was read, written and read again is the same; so is null. *)
Definition json_stable (savec : json -> string) (loadc : string -> option json) : Prop :=
  forall j c, j = JNull \/ (exists x, loadc x = Some j) -> loadc (savec j) = Some c -> c = j.
(** The stored result of the vehicle is the one its ECUs' stored results amount to. *)
Definition settled (P : primary) (d : dev) : Prop :=
  exists r raw w corr, device_result (client_of P) d = Ok (r, raw) /\ to_row r = Ok w /\ v_dres d = Some (w, raw, corr).
(** The Secondary gave no answer, or one that does not confirm [t]. *)
Definition left_alone (verifies : string -> json -> bool) (W : world) (ecu : string) (t : target) : Prop :=
  exists tr, (exists e, e_manifest W tr ecu = Throw e) \/ exists j, e_manifest W tr ecu = Ok j /\ ~ confirms verifies ecu j t.
Definition never_confirms (verifies : string -> json -> bool) (W : world) (ecu : string) (t : target) : Prop :=
  forall tr j, e_manifest W tr ecu = Ok j -> ~ confirms verifies ecu j t.
(** One attempt to fetch metadata after the other, each in its own world; exceptions are caught by the caller. *)
Fixpoint attempts (savec : json -> string) (loadc : string -> option json) (verifies : string -> json -> bool) (P : primary) (Ws : list world) (s : pst) : pst * list (res bool) :=
  match Ws with
  | [] => (s, [])
  | W :: Ws' => let '(s1, r) := fetch_meta savec loadc verifies P W s in let '(s2, l) := attempts savec loadc verifies P Ws' s1 in (s2, r :: l)
  end.
