(** Properties of installing an update on all ECUs and of completing pending updates of Secondaries (C69-C77). *)
From Verif Require Import Base Json TufModel TufSpec MetaStore RepoModel RepoSpec Toy CodecModel InstModel InstSpec InstProofs InstProofs2 PropsInst DevModel DevSpec
  ClientModel ClientSpec ClientProofs ClientProofs2 PropsClient UpdModel UpdSpec UpdProofs UpdProofs2 UpdProofs3 UpdProofs4 UpdProofs5 UpdProofs6.

(** ** A small vehicle *)
Definition P1 : primary := {| pr_serial := "ecu1"; pr_hw := "hw1"; pr_secs := [("ecu2", "hw1")]; pr_ostree := false |}.
Definition idb1 : idb := {| il_ecus := [("ecu1", "hw1"); ("ecu2", "hw1")]; il_log := [] |}.
Definition dev1 : dev := dev_init [("ecu1", "hw1"); ("ecu2", "hw1")] [].
Definition srv2 : server := serve2 [("targets", "DIR2")] [("timestamp", "TSok"); ("snapshot", "SNok"); ("targets", "TGok")].
Definition checked := check_updates DW eqfnm srv2 now2020 now2020 now1 (vehicle_of ld P1 idb1) (mem0 db_empty).
(** The update found: "app" for both ECUs. *)
Definition both : target := ltac:(let x := eval vm_compute in (match snd checked with Ok (UcUpdates [t] _) => t | _ => target_blank "" end) in exact x).
Definition st1 : pst := {| p_ust := fst checked; p_idb := idb1; p_dev := dev1; p_tr := [] |}.
Definition ok_r : ires := mk_ires (num kOk) "".
Definition later_r : ires := mk_ires (num kNeedCompletion) "".
Definition world1 (pm inst : res ires) (man : res json) : world :=
  {| e_verify := fun _ => Ok true; e_pings := [fun _ => true; fun _ => true]; e_rootver := fun _ _ _ => Ok 1; e_putroot := fun _ _ _ _ => Ok ok_r;
     e_putmeta := fun _ _ _ => Ok ok_r; e_pm := fun _ => pm; e_send := fun _ => Ok ok_r; e_install := fun _ => inst; e_sched := []; e_manifest := fun _ _ => man |}.
Notation run1 W := (uptane_install sv ld DW eqfnm P1 W srv2 now2020 now2020 now1 [both] st1).
Lemma good_both : good_target sv ld both.
Proof.
  split; [|split; [|split; [|split]]].
  - constructor; [|constructor]. repeat split; auto; discriminate.
  - reflexivity.
  - eexists. split; [left; reflexivity|reflexivity].
  - simpl. lia.
  - intros c H. injection H as <-. eexists. reflexivity.
Qed.
Lemma one_both : one_each [both]. Proof. repeat constructor; cbn; intuition discriminate. Qed.
Lemma serials1 : nonempty_serials P1. Proof. split; [discriminate|]. intros hw [X|[]]; discriminate X. Qed.
Lemma reach1 : ireach sv (good_target sv ld) idb1.
Proof.
  apply (ireach_S sv _ idb_empty (OpStoreEcus [("ecu1", "hw1"); ("ecu2", "hw1")]) (ireach_0 _ _)). split; [discriminate|]. left. intros r [].
Qed.
Definition names (l : list uev) : list string :=
  map (fun e => match e with UPing _ => "ping" | URootVersion _ _ _ => "rootver" | UPutRoot _ _ _ _ _ => "putroot" | UPutMeta _ _ _ => "putmeta" | UPmInstall _ _ => "pm"
    | USend _ _ _ => "send" | UInstall _ _ _ => "install" | UStarted _ _ => "started" | UApplied _ _ => "applied" | UCompleted _ _ _ => "completed"
    | UVersion _ _ m => match m with ModeNone => "none" | ModeCurrent => "current" | ModePending => "pending" end | UEcuRes _ _ => "ecures" | UDevRes _ _ _ => "devres"
    | UManifest _ _ => "manifest" | UNull => "null" end) l.
(** All of an installation on both ECUs: the Primary's needs a reboot, the Secondary's is complete. *)
Example upd_run : names (p_tr (fst (run1 (world1 (Ok later_r) (Ok ok_r) (Throw EStd))))) =
  ["ping"; "rootver"; "rootver"; "putmeta"; "started"; "none"; "pm"; "pending"; "ecures"; "applied";
   "started"; "send"; "install"; "completed"; "current"; "ecures"; "devres"].
Proof. vm_compute. reflexivity. Qed.

(** ** C69: all checks come first *)
(** Whenever an image is handed to an ECU, or an ECU is told to install it: no update was pending; the stored metadata of
    both repositories has been verified again; every requested target is listed by the Director, fits the vehicle, is new to one of
    its ECUs, and is vouched for by the Image repository; every image the Primary keeps has been verified again; every
    Secondary concerned has answered and accepted the metadata; and the image is a requested one, for that ECU. *)
Theorem C69_checks_first savec loadc E fnm P W srv clkd clki now ts s s' x pre e post :
  uptane_install savec loadc E fnm P W srv clkd clki now ts s = (s', x) -> p_tr s' = p_tr s ++ pre ++ e :: post -> installs e ->
  has_pending (p_idb s) = false /\ ts <> [] /\
  (director_fresh E clkd (p_ust s') /\ exists top, u_itargets (p_ust s') = Some top /\ image_ok_but_targets E clki (p_ust s') top /\
     forall t, In t ts -> (exists d, In d (tg_targets (u_dtargets (p_ust s'))) /\ same_target d t /\ fits_vehicle (vehicle_of loadc P (p_idb s)) d /\
         exists serial hw, In (serial, hw) (t_ecus d) /\ news_for (vehicle_of loadc P (p_idb s)) d serial) /\
       exists i, vouched E fnm now (u_isnap (p_ust s')) top t i) /\
  (forall t, In t ts -> held P t -> e_verify W t = Ok true) /\
  (forall t ecu, In t ts -> targets_ecu t ecu -> secondary P ecu -> In (UPutMeta ecu t true) pre /\ (ecu <> pr_serial P -> In (UPing ecu) pre)) /\
  inst_ok P ts (tg_corr (u_dtargets (p_ust s'))) pre e.
Proof.
  intros H T I. destruct (nothing_while_pending _ _ _ _ _ _ _ _ _ _ _ _ _ _ _ _ _ H T I) as (N1 & N2).
  destruct (nothing_before_checks _ _ _ _ _ _ _ _ _ _ _ _ _ _ _ _ _ H T I) as (K1 & K2 & K3 & K4). repeat (split; [assumption|]). assumption.
Qed.
Print Assumptions C69_checks_first.
Example C69_case : exists pre post, p_tr (fst (run1 (world1 (Ok later_r) (Ok ok_r) (Throw EStd)))) = pre ++ UInstall "ecu2" both ok_r :: post.
Proof.
  exists (firstn 12 (p_tr (fst (run1 (world1 (Ok later_r) (Ok ok_r) (Throw EStd)))))), (skipn 13 (p_tr (fst (run1 (world1 (Ok later_r) (Ok ok_r) (Throw EStd)))))).
  vm_compute. reflexivity.
Qed.

(** ** C70: an ECU gets only what the Director assigned to it *)
Theorem C70_assigned savec loadc E fnm P W srv clkd clki now ts s s' x pre e post ecu t :
  uptane_install savec loadc E fnm P W srv clkd clki now ts s = (s', x) -> p_tr s' = p_tr s ++ pre ++ e :: post -> goes_to P e ecu t ->
  exists d hw, In d (tg_targets (u_dtargets (p_ust s'))) /\ same_target d t /\ In (ecu, hw) (t_ecus d) /\ ecu_present (vehicle_of loadc P (p_idb s)) ecu hw.
Proof. exact (assigned savec loadc E fnm P W srv clkd clki now ts s s' x pre e post ecu t). Qed.
Print Assumptions C70_assigned.
(** [C69_case] gives such an event. A request for another ECU is refused. *)
Definition t_for (ecus : list (string * string)) : target :=
  {| t_valid := t_valid both; t_filename := t_filename both; t_type := t_type both; t_ecus := ecus; t_hashes := t_hashes both;
     t_hwids := t_hwids both; t_custom := t_custom both; t_length := t_length both; t_corr := t_corr both; t_uri := t_uri both |}.
Definition both_only2 : target := t_for [("ecu2", "hw1")].
Example C70_case : names (p_tr (fst (uptane_install sv ld DW eqfnm P1 (world1 (Ok ok_r) (Ok ok_r) (Throw EStd)) srv2 now2020 now2020 now1 [both_only2] st1))) = ["devres"].
Proof. vm_compute. reflexivity. Qed.

(** ** C71: Roots are given to Secondaries one after the other *)
Theorem C71_roots_in_order savec loadc E fnm P W srv clkd clki now ts s s' x evs :
  uptane_install savec loadc E fnm P W srv clkd clki now ts s = (s', x) -> p_tr s' = p_tr s ++ evs ->
  roots_ok srv (u_db (p_ust s')) evs /\ metas_ok E (u_db (p_ust s')) evs.
Proof. exact (roots_in_order savec loadc E fnm P W srv clkd clki now ts s s' x evs). Qed.
Print Assumptions C71_roots_in_order.
(** The Director has rotated its Root twice; the Secondary has version 1. *)
Definition DW3 : Env := toy (dworld ++ [("R2", root_j "r2" 2 far 1 k1 k1); ("R3", root_j "r3" 3 far 1 k1 k1)]).
Definition srv3 : server := fun rp rn v =>
  match rp with Director => if String.eqb rn "root" && (v =? 2) then Ok "R2" else if String.eqb rn "root" && (v =? 3) then Ok "R3" else srv2 rp rn v | Image => srv2 rp rn v end.
Definition st3 : pst := {| p_ust := fst (check_updates DW3 eqfnm srv3 now2020 now2020 now1 (vehicle_of ld P1 idb1) (mem0 db_empty)); p_idb := idb1; p_dev := dev1; p_tr := [] |}.
Example C71_case : firstn 6 (p_tr (fst (uptane_install sv ld DW3 eqfnm P1 (world1 (Ok ok_r) (Ok ok_r) (Throw EStd)) srv3 now2020 now2020 now1 [both] st3))) =
  [UPing "ecu2"; URootVersion "ecu2" Director 1; UPutRoot "ecu2" Director 2 "R2" true; UPutRoot "ecu2" Director 3 "R3" true; URootVersion "ecu2" Image 1; UPutMeta "ecu2" both true].
Proof. vm_compute. reflexivity. Qed.

(** ** C72: what is recorded at the end *)
(** The reports are those of the requested ECUs, each stored with the version it means; the vehicle's result is stored; and
    nothing changes for other ECUs. *)
Theorem C72_outcome_partial savec loadc E fnm P W srv clkd clki now ts s s' dr reps :
  ireach savec (good_target savec loadc) (p_idb s) -> Forall (good_target savec loadc) ts -> one_each ts -> nonempty_serials P ->
  uptane_install savec loadc E fnm P W srv clkd clki now ts s = (s', Ok (dr, reps)) ->
  let corr := tg_corr (u_dtargets (p_ust s')) in
  (exists w raw, to_row dr = Ok w /\ v_dres (p_dev s') = Some (w, raw, corr)) /\
  (reps = [] \/ forall t ecu, In t ts -> targets_ecu t ecu -> ecu = pr_serial P \/ secondary P ecu -> In ecu (map ecu_of reps)) /\
  NoDup (map ecu_of reps) /\
  (forall t' ecu r, In (t', ecu, r) reps ->
     (exists u, In u ts /\ targets_ecu u ecu /\ (t' = u \/ t' = set_corr u corr)) /\ stored_result (p_dev s') ecu r /\
     (if String.eqb ecu (pr_serial P) then prim_outcome loadc else sec_outcome loadc) (p_idb s) (p_idb s') ecu t' r) /\
  (forall ecu, ecu <> "" -> ~ In ecu (map ecu_of reps) ->
     load_installed loadc ecu (p_idb s') = load_installed loadc ecu (p_idb s) /\ aget ecu (v_eres (p_dev s')) = aget ecu (v_eres (p_dev s))).
Proof. intros R. exact (outcome savec loadc E fnm P W srv clkd clki now ts s s' dr reps (reach_wf _ _ _ R)). Qed.
Print Assumptions C72_outcome_partial.
(** The full statement: a successful report means that the version is current. *)
Definition C72_statement : Prop := forall savec loadc E fnm P W srv clkd clki now ts s s' dr reps,
  ireach savec (good_target savec loadc) (p_idb s) -> Forall (good_target savec loadc) ts -> one_each ts -> nonempty_serials P ->
  uptane_install savec loadc E fnm P W srv clkd clki now ts s = (s', Ok (dr, reps)) ->
  forall t ecu r, In (t, ecu, r) reps -> ir_success r = true -> exists x, load_installed loadc ecu (p_idb s') = Ok (Some x, None) /\ reported x t.
(** The package manager of the Primary says that the version is installed already (OstreeManager::install for the booted
    commit): a success, but not recorded as current. *)
Definition already_r : ires := mk_ires (num kAlreadyProcessed) "".
Lemma pair_parts {A B} (p : A * res B) b : snd p = Ok b -> p = (fst p, Ok b).
Proof. destruct p. cbn. now intros ->. Qed.
Theorem C72_refuted : ~ C72_statement.
Proof.
  intros H. set (W := world1 (Ok already_r) (Ok ok_r) (Throw EStd)).
  destruct (run1 W) as (s', x) eqn:R.
  assert (X : match x with Ok (_, (t, e, r) :: _) => (t, e, r) = (both, "ecu1", already_r) | _ => False end) by (change x with (snd (s', x)); rewrite <- R; vm_compute; reflexivity).
  assert (Y : load_installed ld "ecu1" (p_idb s') = Ok (None, None)) by (change s' with (fst (s', x)); rewrite <- R; vm_compute; reflexivity).
  destruct x as [(dr, [|((t, e), r) reps])|]; try contradiction. injection X as -> -> ->.
  destruct (H _ _ _ _ _ _ _ _ _ _ _ st1 _ _ _ reach1 (Forall_cons _ good_both (Forall_nil _)) one_both serials1 R both "ecu1" already_r (or_introl eq_refl) eq_refl) as (x & X & _).
  rewrite Y in X. discriminate.
Qed.
Print Assumptions C72_refuted.
(** The code or flag "ok" of the vehicle's result means that there are stored results of ECUs and all of them are successes. *)
Theorem C72_vehicle_ok savec loadc E fnm P W srv clkd clki now ts s s' dr reps :
  uptane_install savec loadc E fnm P W srv clkd clki now ts s = (s', Ok (dr, reps)) -> rc_num (ir_code dr) = 0 \/ ir_success dr = true ->
  exists l, load_eres (p_dev s') = Ok (Some l) /\ l <> [] /\ Forall (fun e => known (client_of P) (fst e) /\ succeeded (snd e)) l.
Proof. exact (vehicle_good savec loadc E fnm P W srv clkd clki now ts s s' dr reps). Qed.
Print Assumptions C72_vehicle_ok.
Example C72_vehicle_case : exists dr reps, snd (run1 (world1 (Ok ok_r) (Ok ok_r) (Throw EStd))) = Ok (dr, reps) /\ ir_success dr = true /\ map ecu_of reps = ["ecu1"; "ecu2"].
Proof. eexists. eexists. split; [vm_compute; reflexivity|]. split; reflexivity. Qed.
(** The hypotheses of the partial theorem hold. *)
Example C72_case : exists dr reps, snd (run1 (world1 (Ok later_r) (Ok ok_r) (Throw EStd))) = Ok (dr, reps) /\ map ecu_of reps = ["ecu1"; "ecu2"] /\
  not_current ld (p_idb st1) "ecu1" both.
Proof. eexists. eexists. split; [vm_compute; reflexivity|]. split; [reflexivity|]. intros c p X. vm_compute in X. discriminate. Qed.

(** ** C73: the tables at every moment *)
(** The tables of versions and results are the effects of the recorded writes, in order: after a crash, those of a prefix. Every
    version that is recorded, at any moment, has its reason in what happened before. *)
Theorem C73_tables_follow savec loadc E fnm P W srv clkd clki now ts s s' x : uptane_install savec loadc E fnm P W srv clkd clki now ts s = (s', x) ->
  exists evs, p_tr s' = p_tr s ++ evs /\ p_idb s' = fold_left (ev_idb savec) evs (p_idb s) /\ p_dev s' = fold_left ev_dev evs (p_dev s).
Proof. exact (tables_follow savec loadc E fnm P W srv clkd clki now ts s s' x). Qed.
Print Assumptions C73_tables_follow.
Theorem C73_versions_justified savec loadc E fnm P W srv clkd clki now ts s s' x pre ecu t m post :
  uptane_install savec loadc E fnm P W srv clkd clki now ts s = (s', x) ->
  p_tr s' = p_tr s ++ pre ++ UVersion ecu t m :: post -> reason P ts (tg_corr (u_dtargets (p_ust s'))) pre ecu t m.
Proof. exact (versions_justified savec loadc E fnm P W srv clkd clki now ts s s' x pre ecu t m post). Qed.
Print Assumptions C73_versions_justified.
Example C73_case : exists pre post, p_tr (fst (run1 (world1 (Ok later_r) (Ok ok_r) (Throw EStd)))) = pre ++ UVersion "ecu2" both ModeCurrent :: post /\
  exists pre post, p_tr (fst (run1 (world1 (Ok later_r) (Ok ok_r) (Throw EStd)))) = pre ++ UVersion "ecu1" both ModePending :: post.
Proof.
  exists (firstn 14 (p_tr (fst (run1 (world1 (Ok later_r) (Ok ok_r) (Throw EStd)))))), (skipn 15 (p_tr (fst (run1 (world1 (Ok later_r) (Ok ok_r) (Throw EStd)))))).
  split; [vm_compute; reflexivity|].
  exists (firstn 7 (p_tr (fst (run1 (world1 (Ok later_r) (Ok ok_r) (Throw EStd)))))), (skipn 8 (p_tr (fst (run1 (world1 (Ok later_r) (Ok ok_r) (Throw EStd)))))).
  vm_compute; reflexivity.
Qed.

(** ** C74: pending updates of Secondaries *)
(** Before the Director is asked, pending updates are looked at. A pending version of a Secondary becomes its current one if
    a manifest, signed by the Secondary, says that it runs that version, and only then; all other versions stay as they are, and
    without an exception every pending Secondary has been asked. The Director is asked if and only if nothing is pending then. *)
Theorem C74_pending_completed savec loadc verifies P W s s' r :
  json_stable savec loadc -> ireach savec (good_target savec loadc) (p_idb s) -> fetch_meta savec loadc verifies P W s = (s', r) ->
  exists evs, p_tr s' = p_tr s ++ evs /\
    (forall pre ecu t m post, evs = pre ++ UVersion ecu t m :: post ->
       m = ModeCurrent /\ ecu <> pr_serial P /\ secondary P ecu /\ pending_on loadc (p_idb s) ecu t /\
       exists j, In (UManifest ecu j) pre /\ confirms verifies ecu j t /\ exists tr, e_manifest W tr ecu = Ok j) /\
    (forall ecu t, ecu <> "" -> pending_on loadc (p_idb s) ecu t ->
       load_installed loadc ecu (p_idb s') = load_installed loadc ecu (p_idb s) /\
         (forall b, r = Ok b -> ecu = pr_serial P \/ secondary P ecu /\ left_alone verifies W ecu t) \/
       secondary P ecu /\ ecu <> pr_serial P /\ exists y, load_installed loadc ecu (p_idb s') = Ok (Some y, None) /\ reported y t) /\
    (forall ecu, ecu <> "" -> (forall t m, ~ In (UVersion ecu t m) evs) -> load_installed loadc ecu (p_idb s') = load_installed loadc ecu (p_idb s)) /\
    (forall b, r = Ok b -> b = negb (has_pending (p_idb s'))).
Proof.
  intros J R H. destruct (pending_spec savec loadc verifies P W s s' r R (stable_recordable _ _ _ J (reach_wf _ _ _ R)) H) as (evs & A & _ & V & _ & Q & O & _ & B).
  exists evs. split; [apply A|]. auto.
Qed.
Print Assumptions C74_pending_completed.
Lemma stable1 : json_stable sv ld.
Proof. intros j c [->|(x & X)] H; injection H as <-; [reflexivity|injection X as <-; reflexivity]. Qed.
(** The Secondary's update is pending after its installation, and completed when it reports the image. *)
Definition man (h : string) : json := JObj [("signed", JObj [("installed_image", JObj [("fileinfo", JObj [("hashes", JObj [("sha256", JStr h)])])])])].
Definition st_pend : pst := fst (run1 (world1 (Ok ok_r) (Ok later_r) (Throw EStd))).
Notation fetch1 m := (fetch_meta sv ld (fun _ _ => true) P1 (world1 (Ok ok_r) (Ok ok_r) m) st_pend).
Lemma reach_pend : ireach sv (good_target sv ld) (p_idb st_pend).
Proof.
  assert (X : p_idb st_pend = istep sv (istep sv (istep sv idb1 (OpSave "ecu1" both ModeNone)) (OpSave "ecu1" both ModeCurrent)) (OpSave "ecu2" both ModePending)) by (vm_compute; reflexivity).
  rewrite X. repeat apply ireach_S; try exact good_both. apply reach1.
Qed.
Example C74_case : pending_on ld (p_idb st_pend) "ecu2" (match load_installed ld "ecu2" (p_idb st_pend) with Ok (_, Some t) => t | _ => both end) /\
  snd (fetch1 (Ok (man "aa"))) = Ok true /\ names (skipn (List.length (p_tr st_pend)) (p_tr (fst (fetch1 (Ok (man "aa")))))) = ["manifest"; "ecures"; "current"; "completed"; "devres"] /\
  snd (fetch1 (Ok (man "bb"))) = Ok false /\ snd (fetch1 (Throw EStd)) = Ok false.
Proof. split; [eexists; vm_compute; reflexivity|]. repeat split; vm_compute; reflexivity. Qed.

(** ** C75: a Secondary that does not run the pending version (refuted) *)
(** The user expects that once a Secondary says, in a signed manifest, that it runs something else than the pending version (it
    rolled back), the update is over, and the vehicle can get other updates. *)
Definition C75_statement : Prop := forall savec loadc verifies P W s s' r ecu t,
  json_stable savec loadc -> ireach savec (good_target savec loadc) (p_idb s) -> pending_on loadc (p_idb s) ecu t -> secondary P ecu -> ecu <> pr_serial P ->
  (forall e u, pending_on loadc (p_idb s) e u -> e = ecu) ->
  (forall tr, exists j h, e_manifest W tr ecu = Ok j /\ is_empty_json j = false /\ verifies ecu j = true /\ reports_hash j h /\ to_upper h <> to_upper (sha256_hash t)) ->
  fetch_meta savec loadc verifies P W s = (s', r) -> r = Ok true.
Lemma only_row d s c t : load_installed ld s d = Ok (c, Some t) -> forall r, (forall x, In x (il_log d) -> i_pend x = true -> x = r) -> i_ecu r = real_serial d s.
Proof.
  intros H r U. unfold load_installed in H. apply bind_ok in H. destruct H as (c0 & _ & H). apply bind_ok in H. destruct H as (p0 & Hp & H). injection H as -> ->.
  destruct (pend_row (real_serial d s) (il_log d)) as [x|] eqn:Er; [|discriminate]. apply pend_row_spec in Er. destruct Er as (Hr & Ek & Pr). rewrite <- (U x Hr Pr). exact Ek.
Qed.
Theorem C75_refuted : ~ C75_statement.
Proof.
  intros H. set (t := match load_installed ld "ecu2" (p_idb st_pend) with Ok (_, Some t) => t | _ => both end).
  destruct (fetch1 (Ok (man "bb"))) as (s', r) eqn:F.
  assert (Fr : r = Ok false) by (change r with (snd (s', r)); rewrite <- F; vm_compute; reflexivity). subst r.
  assert (X : Ok false = Ok true); [|discriminate].
  refine (H sv ld (fun _ _ => true) P1 (world1 (Ok ok_r) (Ok ok_r) (Ok (man "bb"))) st_pend s' (Ok false) "ecu2" t stable1 reach_pend _ _ _ _ _ F).
  - eexists. vm_compute. reflexivity.
  - exists "hw1". left. reflexivity.
  - discriminate.
  - intros e u (c & Hc). destruct (string_dec e "") as [->|Ne]; [vm_compute in Hc; discriminate|].
    assert (K : exists r, i_ecu r = "ecu2" /\ forall x, In x (il_log (p_idb st_pend)) -> i_pend x = true -> x = r).
    { assert (L : exists a b, il_log (p_idb st_pend) = [a; b] /\ i_pend a = false /\ i_ecu b = "ecu2") by (eexists; eexists; split; [vm_compute; reflexivity|split; reflexivity]).
      destruct L as (a & b & L & La & Lb). exists b. split; [exact Lb|]. rewrite L. intros x [<-|[<-|[]]] Px; [congruence|reflexivity]. }
    destruct K as (r & R1 & R2). pose proof (only_row _ _ _ _ Hc r R2) as Q. unfold real_serial in Q. destruct (String.eqb_spec e ""); [contradiction|]. congruence.
  - intros tr. exists (man "bb"), "bb". repeat split; try reflexivity; [|vm_compute; discriminate]. exists "bb". split; reflexivity.
Qed.
Print Assumptions C75_refuted.
(** What happens instead: as long as the Secondary does not report the pending version, in any number of attempts, whatever
    else happens in them, the version stays pending and the Director is never asked. *)
Theorem C75_stuck_partial savec loadc verifies P ecu t Ws s : ecu <> "" ->
  json_stable savec loadc -> ireach savec (good_target savec loadc) (p_idb s) -> pending_on loadc (p_idb s) ecu t ->
  (forall W, In W Ws -> never_confirms verifies W ecu t) ->
  pending_on loadc (p_idb (fst (attempts savec loadc verifies P Ws s))) ecu t /\ ~ In (Ok true) (snd (attempts savec loadc verifies P Ws s)).
Proof. intros Ne J R. exact (stuck savec loadc verifies P ecu t Ne Ws s R (stable_recordable _ _ _ J (reach_wf _ _ _ R))). Qed.
Print Assumptions C75_stuck_partial.
Example C75_case : never_confirms (fun _ _ => true) (world1 (Ok ok_r) (Ok ok_r) (Ok (man "bb"))) "ecu2" both.
Proof. intros tr j [= <-] (_ & _ & s & X & Y). vm_compute in X. injection X as <-. vm_compute in Y. discriminate. Qed.

(** ** C76: the vehicle's result after an interruption (refuted) *)
(** When no update is pending, the stored result of the vehicle is what the results of its ECUs amount to; also if the process
    is killed while pending updates are looked at ([evs]: what had been written). *)
Definition C76_statement : Prop := forall savec loadc verifies P W s s' r evs rest,
  json_stable savec loadc -> ireach savec (good_target savec loadc) (p_idb s) -> settled P (p_dev s) ->
  fetch_meta savec loadc verifies P W s = (s', r) -> p_tr s' = p_tr s ++ evs ++ rest ->
  has_pending (fold_left (ev_idb savec) evs (p_idb s)) = false -> settled P (fold_left ev_dev evs (p_dev s)).
Theorem C76_refuted : ~ C76_statement.
Proof.
  intros H. set (W := world1 (Ok ok_r) (Ok ok_r) (Ok (man "aa"))).
  destruct (fetch1 (Ok (man "aa"))) as (s', x) eqn:F.
  assert (T : p_tr s' = p_tr st_pend ++ firstn 3 (skipn (List.length (p_tr st_pend)) (p_tr s')) ++ skipn 3 (skipn (List.length (p_tr st_pend)) (p_tr s'))).
  { change s' with (fst (s', x)). rewrite <- F. vm_compute. reflexivity. }
  assert (N : has_pending (fold_left (ev_idb sv) (firstn 3 (skipn (List.length (p_tr st_pend)) (p_tr s'))) (p_idb st_pend)) = false).
  { change s' with (fst (s', x)). rewrite <- F. vm_compute. reflexivity. }
  assert (D0 : settled P1 (p_dev st_pend)) by (do 4 eexists; split; [vm_compute; reflexivity|]; split; vm_compute; reflexivity).
  pose proof (H sv ld (fun _ _ => true) P1 W st_pend s' x _ _ stable1 reach_pend D0 F T N) as (r & raw & w & corr & D & R & V).
  assert (Q : match device_result (client_of P1) (fold_left ev_dev (firstn 3 (skipn (List.length (p_tr st_pend)) (p_tr s'))) (p_dev st_pend)),
                    v_dres (fold_left ev_dev (firstn 3 (skipn (List.length (p_tr st_pend)) (p_tr s'))) (p_dev st_pend)) with
              | Ok (r, _), Some (w, _, _) => match to_row r with Ok w' => rw_success w' = rw_success w | _ => True end | _, _ => True end) by (rewrite D, V, R; reflexivity).
  revert Q. change s' with (fst (s', x)). rewrite <- F. vm_compute. discriminate.
Qed.
Print Assumptions C76_refuted.
(** Without interruption, the stored result is that of the ECUs whenever an update has been completed. *)
Theorem C76_settled_partial savec loadc verifies P W s s' b evs : json_stable savec loadc -> ireach savec (good_target savec loadc) (p_idb s) ->
  fetch_meta savec loadc verifies P W s = (s', Ok b) -> p_tr s' = p_tr s ++ evs -> (exists x, In x evs /\ is_version x) -> settled P (p_dev s').
Proof.
  intros J R H T X. destruct (pending_spec savec loadc verifies P W s s' _ R (stable_recordable _ _ _ J (reach_wf _ _ _ R)) H) as (evs' & A & _ & _ & _ & _ & _ & S & _).
  destruct A as (A & _). rewrite T in A. apply app_inv_head in A. subst evs'. eauto.
Qed.
Print Assumptions C76_settled_partial.

(** ** C77: a pending update of an ECU that is gone (refuted) *)
(** Looking at pending updates calls no Secondary that does not exist. *)
Definition C77_statement : Prop := forall savec loadc verifies P W s s' r,
  json_stable savec loadc -> ireach savec (good_target savec loadc) (p_idb s) -> ~ In UNull (p_tr s) ->
  fetch_meta savec loadc verifies P W s = (s', r) -> ~ In UNull (p_tr s').
Definition P_alone : primary := {| pr_serial := "ecu1"; pr_hw := "hw1"; pr_secs := []; pr_ostree := false |}.
Theorem C77_refuted : ~ C77_statement.
Proof.
  intros H. destruct (fetch_meta sv ld (fun _ _ => true) P_alone (world1 (Ok ok_r) (Ok ok_r) (Throw EStd)) st_pend) as (s', r) eqn:F.
  refine (H _ _ _ _ _ st_pend _ _ stable1 reach_pend _ F _).
  - assert (X : existsb (fun e => match e with UNull => true | _ => false end) (p_tr st_pend) = false) by (vm_compute; reflexivity).
    intros Y. assert (Z : existsb (fun e => match e with UNull => true | _ => false end) (p_tr st_pend) = true) by (apply existsb_exists; exists UNull; split; [exact Y|reflexivity]). rewrite X in Z. discriminate Z.
  - assert (X : existsb (fun e => match e with UNull => true | _ => false end) (p_tr s') = true) by (change s' with (fst (s', r)); rewrite <- F; vm_compute; reflexivity).
    apply existsb_exists in X. destruct X as (e & X & Y). destruct e; try discriminate Y. exact X.
Qed.
Print Assumptions C77_refuted.
Theorem C77_partial savec loadc verifies P W s s' r : json_stable savec loadc -> ireach savec (good_target savec loadc) (p_idb s) -> ~ In UNull (p_tr s) ->
  (forall ecu t, ecu <> "" -> pending_on loadc (p_idb s) ecu t -> ecu = pr_serial P \/ secondary P ecu) ->
  fetch_meta savec loadc verifies P W s = (s', r) -> ~ In UNull (p_tr s').
Proof.
  intros J R N K H X. destruct (pending_spec savec loadc verifies P W s s' _ R (stable_recordable _ _ _ J (reach_wf _ _ _ R)) H) as (evs & (A & _) & _ & _ & U & _).
  rewrite A in X. apply in_app_or in X. destruct X as [X|X]; [exact (N X)|]. destruct (U X) as (ecu & t & Ne & Pn & N1 & N2). destruct (K ecu t Ne Pn); contradiction.
Qed.
Print Assumptions C77_partial.
(** [st_pend] with [P1] meets the hypotheses: its only pending ECU is a Secondary. *)
Example C77_case : pending_ecus (il_log (p_idb st_pend)) = Ok [("ecu2", mk_hash_t Sha256 "AA")] /\ secondary P1 "ecu2".
Proof. split; [vm_compute; reflexivity|exists "hw1"; left; reflexivity]. Qed.
