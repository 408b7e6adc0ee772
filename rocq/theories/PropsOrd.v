(** Properties C89 and C90: metadata that is in order is accepted, and a cycle installs what it asks for. *)
From Verif Require Import Base Json TufModel TufSpec TufProofs MetaStore RepoModel RepoSpec RepoProofs RepoProofs4 Toy CodecModel DlModel InstModel InstSpec PropsInst DevModel
  ClientModel ClientSpec ClientProofs ClientProofs2 ChkSpec RechkSpec OrdSpec OrdProofs OrdProofs2 OrdProofs3 PropsClient PropsRechk CycModel CycSpec PropsCyc LiveSpec PropsLive UpdModel UpdSpec PropsUpd.

(** ** C89: metadata that is in order is accepted *)
(** What the Director serves is in order, and not older than what the device stored. *)
Definition director_served_in_order (E : Env) (srv : server) (clk : clock) (d : db) (l : list (Z * string)) (R : root) (t : targets) : Prop :=
  exists raw v, srv Director "targets" (-1) = Ok raw /\ extract_version_untrusted E raw = Ok v /\ 0 <= v /\
    acceptable E (rt_ks R) role_targets (parse E raw) /\ targets_doc E "targets" (parse E raw) t /\
    is_expired (tg_base t) (clk RTargets) = false /\ tg_deleg t = [] /\ one_target_per_ecu t /\ not_newer E Director RTargets d v.
Definition C89_statement : Prop :=
  forall E srv clk s l R t, clean_server srv -> db_history E db_empty (u_db s) ->
    roots_in_order E srv clk Director (u_db s) l R -> director_served_in_order E srv clk (u_db s) l R t ->
    exists s', director_update E srv clk s = (s', Ok tt).
(** The Director once listed two targets for one ECU. That document is refused, but it is stored all the same; when the Director
    withdraws it by an empty list, the targets of the stored document stay in use and are refused again and again. *)
Definition dup_docs : list (string * json) :=
  ("DUP", targets_j "dup" 5 far [("app", target_j 7 "aa" (ecu_custom "ecu1" "hw1")); ("lib", target_j 7 "bb" (ecu_custom "ecu1" "hw1"))] k1) :: Toy.world.
Definition DU : Env := toy dup_docs.
Definition srv_dup : server := serve [(1, "R1")] [("targets", "DUP")].
Definition srv_none : server := serve [(1, "R1")] [("targets", "D6e")].
Definition st_dup := fst (director_update DU srv_dup now2020 (mem0 db_empty)).
(** Documents as values. *)
Definition rt_of (E : Env) (raw : string) : root := match root_of_json E (parse E raw) with Ok R => R | Throw _ => root_empty PAcceptAll end.
Definition tg_of (E : Env) (raw : string) : targets :=
  match base_init (parse E raw) with Ok b => match targets_init E b "targets" (parse E raw) with Ok t => t | Throw _ => targets_empty end | Throw _ => targets_empty end.
Definition is_ok {A} (r : res A) : bool := match r with Ok _ => true | Throw _ => false end.
Lemma tg_of_doc E raw : (match base_init (parse E raw) with Ok b => is_ok (targets_init E b "targets" (parse E raw)) | Throw _ => false end) = true ->
  targets_doc E "targets" (parse E raw) (tg_of E raw).
Proof.
  unfold targets_doc, tg_of. destruct (base_init (parse E raw)) as [b|] eqn:B; [|discriminate]. destruct (targets_init E b "targets" (parse E raw)) as [t|] eqn:T; [|discriminate].
  intros _. rewrite (targets_init_base _ _ _ _ _ T). auto.
Qed.
Lemma rt_of_doc E raw : is_ok (root_of_json E (parse E raw)) = true -> root_of_json E (parse E raw) = Ok (rt_of E raw).
Proof. unfold rt_of. destruct (root_of_json E (parse E raw)); [reflexivity|discriminate]. Qed.
Lemma accept_root E ks raw : unpack_signed E ks role_root (parse E raw) = Ok tt -> acceptable E ks role_root (parse E raw).
Proof. apply unpack_signed_iff, standard_root. Qed.
Lemma accept_targets E ks raw : unpack_signed E ks role_targets (parse E raw) = Ok tt -> acceptable E ks role_targets (parse E raw).
Proof. apply unpack_signed_iff, standard_targets. Qed.
Ltac by_computation := vm_compute; reflexivity.
Theorem C89_refuted : ~ C89_statement.
Proof.
  intros H. destruct (H DU srv_none now2020 st_dup [] (rt_of DU "R1") (tg_of DU "D6e")) as (s' & R).
  - clean_serve.
  - eapply dh_step; [|apply dh_refl]. exists (OpDirectorUpdate srv_dup now2020), (mem0 db_empty), st_dup, (snd (director_update DU srv_dup now2020 (mem0 db_empty))).
    split; [cbn; clean_serve|]. split; [reflexivity|]. split; [reflexivity|]. split; [unfold st_dup, run_op; destruct (director_update _ _ _ _); reflexivity|]. right. now left.
  - exists "R1", (rt_of DU "R1"). split; [left; by_computation|]. split; [split; [apply rt_of_doc; by_computation|apply accept_root; by_computation]|].
    split; [constructor|]. split; [intros ? ? []|]. split; [eexists; by_computation|]. split; [by_computation|by_computation].
  - exists "D6e", 6. split; [reflexivity|]. split; [by_computation|]. split; [lia|]. split; [apply accept_targets; by_computation|]. split; [apply tg_of_doc; by_computation|].
    split; [by_computation|]. split; [by_computation|]. split; [constructor|]. right. exists "DUP", 5. split; [by_computation|]. split; [by_computation|lia].
  - assert (X : is_ok (snd (director_update DU srv_none now2020 st_dup)) = false) by (vm_compute; reflexivity). rewrite R in X. discriminate.
Qed.
Print Assumptions C89_refuted.

(** Proved: accepted are, in every state, documents of the Director that are in order and not older than what is stored, if they list
    a target or what is stored lists no ECU twice ([director_in_order]) ... *)
Theorem C89_director_partial E srv clk s l R t :
  roots_in_order E srv clk Director (u_db s) l R -> director_in_order E srv clk (u_db s) l R t ->
  exists s', director_update E srv clk s = (s', Ok tt) /\ u_droot s' = R /\ u_dlatest s' = t /\ (tg_targets t <> [] -> u_dtargets s' = t).
Proof.
  intros A B. destruct (director_update_complete E srv clk s l R t A B) as (s' & C & D & F & G & _). exists s'. auto.
Qed.
Print Assumptions C89_director_partial.
(** ... and those of the Image repository. *)
Theorem C89_image_partial E srv clk s l R tm sn t :
  roots_in_order E srv clk Image (u_db s) l R -> image_in_order E srv clk (u_db s) l R tm sn t ->
  exists s', image_update E srv clk s = (s', Ok tt) /\ u_iroot s' = R /\ u_itime s' = tm /\ u_isnap s' = sn /\ u_itargets s' = Some t.
Proof. exact (image_update_complete E srv clk s l R tm sn t). Qed.
Print Assumptions C89_image_partial.
(** A new Root makes the device recover from anything that was stored under the old one, in particular from versions that are too high. *)
Theorem C89_recovery_partial E srv clk s p l R t raw v :
  roots_in_order E srv clk Director (u_db s) (p :: l) R ->
  srv Director "targets" (-1) = Ok raw -> extract_version_untrusted E raw = Ok v -> 0 <= v ->
  acceptable E (rt_ks R) role_targets (parse E raw) -> targets_doc E "targets" (parse E raw) t ->
  is_expired (tg_base t) (clk RTargets) = false -> tg_deleg t = [] -> one_target_per_ecu t ->
  exists s', director_update E srv clk s = (s', Ok tt) /\ u_droot s' = R /\ u_dlatest s' = t.
Proof.
  intros A B1 B2 B3 B4 B5 B6 B7 B8. destruct (director_update_complete E srv clk s (p :: l) R t A) as (s' & C & D & F & _); [|exists s'; auto].
  exists raw, v. do 8 (split; [assumption|]). left. discriminate.
Qed.
Print Assumptions C89_recovery_partial.
(** The update check then finds exactly what some ECU does not run yet. *)
Theorem C89_check_partial E fnm srv clkd clki now v s ld Rd dt li Ri tm sn it :
  (forall raw, srv Director "targets" (-1) = Ok raw -> nul_free raw) ->
  roots_in_order E srv clkd Director (u_db s) ld Rd -> director_in_order E srv clkd (u_db s) ld Rd dt -> tg_targets dt <> [] ->
  roots_in_order E srv clki Image (u_db s) li Ri -> image_in_order E srv clki (u_db s) li Ri tm sn it ->
  installed_answers v -> v_ostree v = false ->
  (forall t, In t (tg_targets dt) -> fits_vehicle v t /\ listed it t /\ no_clash v t) ->
  exists s' r, check_updates E fnm srv clkd clki now v s = (s', Ok r) /\ u_dtargets s' = dt /\
    match r with
    | UcError => False
    | UcNone => forall t, In t (tg_targets dt) -> ~ wanted v t
    | UcUpdates l _ => exists l0, selected (wanted v) (tg_targets dt) l0 /\ l0 <> [] /\ Forall2 but_uri l0 l
    end.
Proof. exact (check_finds E fnm srv clkd clki now v s ld Rd dt li Ri tm sn it). Qed.
Print Assumptions C89_check_partial.

(** The device stored version 5 under Root 1; the server has Root 2, and version 3 signed by its key. *)
Definition srv_rot : server := serve [(2, "R2")] [("targets", "D3n")].
Example C89_recovery_case :
  roots_in_order W srv_rot now2020 Director db_dir [(2, "R2")] (rt_of W "R2") /\ director_in_order W srv_rot now2020 db_dir [(2, "R2")] (rt_of W "R2") (tg_of W "D3n") /\
  ~ not_newer W Director RTargets db_dir 3 /\ tg_targets (tg_of W "D3n") <> [].
Proof.
  split; [|split; [|split]].
  - exists "R1", (rt_of W "R1"). split; [left; reflexivity|]. split; [split; [apply rt_of_doc; by_computation|apply accept_root; by_computation]|]. split.
    { change [(2, "R2")] with [(rt_version (rt_of W "R2"), "R2")]. econstructor; [|constructor].
      split; [apply rt_of_doc; by_computation|]. split; [apply accept_root; by_computation|]. split; [apply accept_root; by_computation|by_computation]. }
    split; [intros v raw [H|[]]; injection H as <- <-; reflexivity|]. split; [eexists; by_computation|]. split; by_computation.
  - exists "D3n", 3. split; [reflexivity|]. split; [by_computation|]. split; [lia|]. split; [apply accept_targets; by_computation|]. split; [apply tg_of_doc; by_computation|].
    split; [by_computation|]. split; [by_computation|]. split; [repeat constructor; intros []|]. left. discriminate.
  - intros [H | (sraw & lv & H1 & H2 & H3)]; [vm_compute in H; discriminate|]. vm_compute in H1. injection H1 as <-. vm_compute in H2. injection H2 as <-. lia.
  - discriminate.
Qed.
Definition tm_of (E : Env) (raw : string) : timestamp :=
  match base_init (parse E raw) with Ok b => match timestamp_init b (parse E raw) with Ok t => t | Throw _ => timestamp_empty end | Throw _ => timestamp_empty end.
Definition sn_of (E : Env) (raw : string) : snapshot :=
  match base_init (parse E raw) with Ok b => match snapshot_init b (parse E raw) with Ok t => t | Throw _ => snapshot_empty end | Throw _ => snapshot_empty end.
(** The device has a complete set of documents of the Image repository; the server has a newer Timestamp of the same Snapshot. *)
Definition srv_img : server := serve [] [("timestamp", "TS7"); ("snapshot", "SN5"); ("targets", "TG5")].
Lemma image_case : image_in_order W srv_img now2020 db_img [] (rt_of W "R1") (tm_of W "TS7") (sn_of W "SN5") (tg_of W "TG5").
Proof.
  split; [|split].
  - exists "TS7", 7. split; [reflexivity|]. split; [by_computation|]. split; [lia|]. split; [split; [apply unpack_signed_iff; [apply standard_timestamp|by_computation]|split; by_computation]|].
    split; [by_computation|]. right. right. exists "TS5", 5. split; [by_computation|]. split; [by_computation|lia].
  - exists "SN5", 5. split; [reflexivity|]. split; [by_computation|]. split; [lia|]. split.
    { split; [eexists; split; [left; reflexivity|discriminate]|]. split; [intros h [<-|[]]; by_computation|]. split; [split; [apply unpack_signed_iff; [apply standard_snapshot|by_computation]|split; by_computation]|by_computation]. }
    split; [by_computation|]. right. exists (Some "SN5"). split; [by_computation|]. intros sraw H _. injection H as <-. reflexivity.
  - exists "TG5", 5. split; [reflexivity|]. split; [by_computation|]. split; [lia|]. split.
    { split; [intros h [<-|[]]; by_computation|]. split; [apply accept_targets; by_computation|]. split; [apply tg_of_doc; by_computation|by_computation]. }
    split; [by_computation|]. right. exists (Some "TG5"). split; [by_computation|]. intros sraw st H _ _ (D1 & D2). injection H as <-.
    assert (st = tg_of W "TG5") as -> by (unfold tg_of; rewrite D1, D2; reflexivity). split; [lia|reflexivity].
Qed.
Example C89_image_case : roots_in_order W srv_img now2020 Image db_img [] (rt_of W "R1") /\
  image_in_order W srv_img now2020 db_img [] (rt_of W "R1") (tm_of W "TS7") (sn_of W "SN5") (tg_of W "TG5") /\
  tg_targets (tg_of W "TG5") <> [].
Proof.
  split; [|split; [exact image_case|discriminate]].
  exists "R1", (rt_of W "R1"). split; [left; reflexivity|]. split; [split; [apply rt_of_doc; by_computation|apply accept_root; by_computation]|].
  split; [constructor|]. split; [intros ? ? []|]. split; [eexists; by_computation|]. split; by_computation.
Qed.

(** ** C90: a cycle installs what the Director wants *)
(** Nothing is pending, stored results can be read, all ECUs are registered; the metadata of both repositories is in order, declares
    versions and contradicts nothing that is stored, the Image repository lists what the Director assigns, all of it fits the vehicle;
    nothing expires during the cycle, what the check finds can be downloaded and all ECUs do what they are asked to. Then a single cycle
    makes each target that some ECU does not run the version of each of its ECUs, and reports success. *)
Theorem C90_cycle savec loadc loadm E fnm verifies P force W s r ld Rd dt li Ri tm sn it :
  let d := u_db (p_ust (y_p s)) in let v := vehicle_of loadc P (p_idb (y_p s)) in let T := x_check W in
  has_pending (p_idb (y_p s)) = false -> ireach savec (good_target savec loadc) (p_idb (y_p s)) -> make_report (p_dev (y_p s)) = Ok r ->
  registered P (p_dev (y_p s)) -> nonempty_serials P -> x_accepted W 0 = true ->
  clean_server (x_srv W) -> versioned_server E (x_srv W) -> director_lists_targets E (x_srv W) ->
  (forall rp, roots_numbered E (x_srv W) rp d) ->
  no_equivocation E (x_srv W) Director "targets" RTargets d -> no_equivocation E (x_srv W) Image "timestamp" RTimestamp d ->
  x_before_download W = x_check W -> x_before_install W = x_check W ->
  roots_in_order E (x_srv W) (t_dir T) Director d ld Rd -> director_in_order E (x_srv W) (t_dir T) d ld Rd dt -> tg_targets dt <> [] ->
  roots_in_order E (x_srv W) (t_img T) Image d li Ri -> image_in_order E (x_srv W) (t_img T) d li Ri tm sn it ->
  installed_answers v -> pr_ostree P = false ->
  (forall t, In t (tg_targets dt) -> fits_vehicle v t /\ listed it t /\ no_clash v t) -> (exists t, In t (tg_targets dt) /\ wanted v t) ->
  (forall s1 l n, fetch_meta_c savec loadc loadm E fnm verifies P W s = (s1, Ok (UcUpdates l n)) -> Forall (good_target savec loadc) l /\ Forall hashes_agree l /\
     downloads_work E P W (y_dl s) l /\ ecus_cooperate E P (x_upd W) (x_srv W) (u_db (p_ust (y_p s1)))) ->
  exists s' x, uptane_cycle savec loadc loadm E fnm verifies P force W s = (s', x) /\
    forall t ecu, In t (tg_targets dt) -> wanted v t -> targets_ecu t ecu -> ecu = pr_serial P \/ secondary P ecu ->
      runs loadc (p_idb (y_p s')) ecu t /\
      exists r w raw corr, ir_success r = true /\ to_row r = Ok w /\
        (v_dres (p_dev (y_p s')) = Some (w, raw, corr) \/ exists m, In (CManifest m true) (y_ev s') /\ carries m w raw corr).
Proof. exact (cycle_finds_and_works savec loadc loadm E fnm verifies P force W s r ld Rd dt li Ri tm sn it). Qed.
Print Assumptions C90_cycle.

(** The first cycle of the small vehicle: the hypotheses that [C84_case] does not show. *)
Lemma roots90 rp : roots_in_order CE (x_srv good_w) now2020 rp db_empty [] (rt_of CE "R1").
Proof.
  exists "R1", (rt_of CE "R1"). split; [right; split; [reflexivity|destruct rp; reflexivity]|]. split; [split; [apply rt_of_doc; by_computation|apply accept_root; by_computation]|].
  split; [constructor|]. split; [intros ? ? []|]. split; [destruct rp; eexists; by_computation|]. split; by_computation.
Qed.
Lemma fetched90 (E : Env) fnm vf P W s : match fetch_meta_c csv cld ldm E fnm vf P W s with (s1, Ok (UcUpdates k n)) => k = found5 /\
     match load_latest_root Director (u_db (p_ust (y_p s1))), load_latest_root Image (u_db (p_ust (y_p s1))) with
    | Ok (Some a), Ok (Some b) => extract_version_untrusted CE a = Ok 1 /\ extract_version_untrusted CE b = Ok 1 | _, _ => False end | _ => False end ->
  forall s1 l n, fetch_meta_c csv cld ldm E fnm vf P W s = (s1, Ok (UcUpdates l n)) -> l = found5 /\ match load_latest_root Director (u_db (p_ust (y_p s1))), load_latest_root Image (u_db (p_ust (y_p s1))) with
    | Ok (Some a), Ok (Some b) => extract_version_untrusted CE a = Ok 1 /\ extract_version_untrusted CE b = Ok 1 | _, _ => False end.
Proof. intros H s1 l n F. rewrite F in H. exact H. Qed.
Example C90_case : let v := vehicle_of cld P1 (p_idb (y_p cs1)) in
  make_report (p_dev (y_p cs1)) = Ok None /\
  roots_in_order CE (x_srv good_w) now2020 Director (u_db (p_ust (y_p cs1))) [] (rt_of CE "R1") /\
  director_in_order CE (x_srv good_w) now2020 (u_db (p_ust (y_p cs1))) [] (rt_of CE "R1") (tg_of CE "D5") /\
  roots_in_order CE (x_srv good_w) now2020 Image (u_db (p_ust (y_p cs1))) [] (rt_of CE "R1") /\
  image_in_order CE (x_srv good_w) now2020 (u_db (p_ust (y_p cs1))) [] (rt_of CE "R1") (tm_of CE "TS") (sn_of CE "SN") (tg_of CE "TG") /\
  installed_answers v /\ pr_ostree P1 = false /\
  (forall t, In t (tg_targets (tg_of CE "D5")) -> fits_vehicle v t /\ listed (tg_of CE "TG") t /\ no_clash v t) /\
  (exists t, In t (tg_targets (tg_of CE "D5")) /\ wanted v t) /\
  (forall s1 l n, cfetch good_w cs1 = (s1, Ok (UcUpdates l n)) -> Forall (good_target csv cld) l /\ Forall hashes_agree l /\
     downloads_work CE P1 good_w (y_dl cs1) l /\ ecus_cooperate CE P1 (x_upd good_w) (x_srv good_w) (u_db (p_ust (y_p s1)))).
Proof.
  cbv zeta. split; [by_computation|]. split; [apply roots90|]. split.
  { exists "D5", 5. split; [reflexivity|]. split; [by_computation|]. split; [lia|]. split; [apply accept_targets; by_computation|]. split; [apply tg_of_doc; by_computation|].
    split; [by_computation|]. split; [by_computation|]. split; [repeat constructor; cbn; intuition discriminate|]. right. split; [left; by_computation|left; discriminate]. }
  split; [apply roots90|]. split.
  { split; [|split].
    - exists "TS", 5. split; [reflexivity|]. split; [by_computation|]. split; [lia|]. split; [split; [apply unpack_signed_iff; [apply standard_timestamp|by_computation]|split; by_computation]|].
      split; [by_computation|]. right. left. by_computation.
    - exists "SN", 5. split; [reflexivity|]. split; [by_computation|]. split; [lia|]. split.
      { split; [eexists; split; [left; reflexivity|discriminate]|]. split; [intros h [<-|[]]; by_computation|]. split; [split; [apply unpack_signed_iff; [apply standard_snapshot|by_computation]|split; by_computation]|by_computation]. }
      split; [by_computation|]. right. exists None. split; [by_computation|discriminate].
    - exists "TG", 5. split; [reflexivity|]. split; [by_computation|]. split; [lia|]. split.
      { split; [intros h [<-|[]]; by_computation|]. split; [apply accept_targets; by_computation|]. split; [apply tg_of_doc; by_computation|by_computation]. }
      split; [by_computation|]. right. exists None. split; [by_computation|discriminate]. }
  split; [intros serial; exists None; reflexivity|]. split; [reflexivity|].
  assert (D5 : exists t, tg_targets (tg_of CE "D5") = [t] /\ t_ecus t = [("ecu1", "hw1"); ("ecu2", "hw1")] /\ existsb (fun i => match_target i t) (tg_targets (tg_of CE "TG")) = true).
  { eexists. split; [vm_compute; reflexivity|]. split; vm_compute; reflexivity. }
  destruct D5 as (t & T1 & T2 & T3). rewrite T1. split; [|split].
  - intros x [<-|[]]. split; [|split].
    + intros serial hw. rewrite T2. intros [H|[H|[]]]; injection H as <- <-; [left; repeat split; discriminate|right; split; [discriminate|reflexivity]].
    + apply existsb_exists in T3. destruct T3 as (i & I1 & I2). exists i. split; [exact I1|]. now apply TufProofs2.match_target_iff.
    + intros serial hw c _ H. discriminate H.
  - exists t. split; [now left|]. exists "ecu1", "hw1". split; [rewrite T2; now left|]. exists None. split; [reflexivity|exact Logic.I].
  - intros s1 l n F. pose proof (fetched90 CE eqfnm (fun _ _ => true) P1 good_w cs1) as X. destruct (X ltac:(vm_compute; auto) s1 l n F) as (-> & Y).
    split; [exact good84|]. split; [exact agree84|]. split; [exact downloads84|]. apply cooperate84, Y.
Qed.
