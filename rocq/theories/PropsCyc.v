(** Properties of the update cycle: check, download, install, report (C78, C79, C81-C83). *)
From Verif Require Import Base Json TufModel TufSpec TufProofs MetaStore RepoModel RepoSpec Toy CodecModel DlModel DlSpec DlProofs PropsDl InstModel InstSpec InstProofs InstProofs2 PropsInst DevModel DevSpec
  ClientModel ClientSpec ClientProofs ClientProofs2 PropsClient UpdModel UpdSpec UpdProofs PropsUpd CycModel CycSpec CycProofs CycProofs2 CycProofs3 CycProofs4 CycProofs5.

(** ** A small vehicle: "app" (four bytes) is assigned to both ECUs *)
Definition app4 (custom : list (string * json)) : list (string * json) := [("app", target_j 4 "ABCD" custom)].
Definition two_ecus : list (string * json) := [("ecuIdentifiers", JObj [("ecu1", JObj [("hardwareId", JStr "hw1")]); ("ecu2", JObj [("hardwareId", JStr "hw1")])])].
Definition app5 (custom : list (string * json)) : list (string * json) := [("app", target_j 5 "ABCD" custom)].
Definition cyc_docs : list (string * json) := [
  ("R1", root_j "r1" 1 far 1 k1 k1);
  ("D5", targets_j "d5" 5 far (app4 two_ecus) k1);
  ("D4", targets_j "d4" 4 far (app4 two_ecus) k1);
  ("D6", targets_j "d6" 6 far (app5 two_ecus) k1);
  ("TS", timestamp_j "ts" 5 far 5 "SN" k1);
  ("SN", doc_j "sn" "Snapshot" 5 far [("meta", JObj [meta_j "targets" 5 "TG"])] k1);
  ("TG", targets_j "tg" 5 far (app4 (hw_custom "hw1")) k1);
  ("TS6", timestamp_j "ts6" 6 far 6 "SN6" k1);
  ("SN6", doc_j "sn6" "Snapshot" 6 far [("meta", JObj [meta_j "targets" 6 "TG6"])] k1);
  ("TG6", targets_j "tg6" 6 far (app5 (hw_custom "hw1")) k1)].
Definition CE : Env := toy cyc_docs.
Definition csrv (dir : string) : server :=
  if String.eqb dir "D6" then serve2 [("targets", dir)] [("timestamp", "TS6"); ("snapshot", "SN6"); ("targets", "TG6")]
  else serve2 [("targets", dir)] [("timestamp", "TS"); ("snapshot", "SN"); ("targets", "TG")].
Definition T2020 : times := {| t_dir := now2020; t_img := now2020; t_deleg := now1 |}.
Definition cw (dir : string) (dl : DlModel.world) (U : UpdModel.world) : cworld :=
  {| x_srv := csrv dir; x_check := T2020; x_before_download := T2020; x_before_install := T2020; x_keys := fun _ => true; x_fetch := fun _ _ => (dl, true);
     x_pull := fun _ _ => (true, true); x_fuel := 5; x_verify := dl; x_commit := fun _ => Ok true; x_upd := U;
     x_answers := fun _ _ => JNull; x_saved := fun _ => true; x_accepted := fun _ => true |}.
Definition cs1 : cst := {| y_p := {| p_ust := mem0 db_empty; p_idb := idb1; p_dev := dev1; p_tr := [] |}; y_dl := fresh; y_ev := [] |}.
(** Custom data is kept. *)
Definition csv (j : json) : string := match j with JNull => "null" | _ => "custom" end.
Definition cld (s : string) : option json := Some (if String.eqb s "custom" then JObj two_ecus else JNull).
Definition ldm (s : string) : json := JNull.
Notation cyc W s := (uptane_cycle csv cld ldm CE eqfnm (fun _ _ => true) P1 false W s).
Notation cfetch W s := (fetch_meta_c csv cld ldm CE eqfnm (fun _ _ => true) P1 W s).
Definition show (e : cev) : string :=
  match e with
  | CDlStarted e _ => append "download started " e | CFetched t ok => if ok : bool then "fetched" else "not fetched"
  | CDlCompleted e _ ok => append (if ok : bool then "downloaded " else "not downloaded ") e
  | CManifest m a => match m_report m with Some r => "manifest with result" | None => "manifest" end
  | CDropped => "dropped" | CUndefined => "undefined" | CRunning => "running"
  end.
Definition good_u := world1 (Ok ok_r) (Ok ok_r) (Throw EStd).
Definition good_w := cw "D5" (honest_world "ABCD") good_u.
(** An honest server; and one that serves a wrong image. *)
Example cyc_good : let (s, x) := cyc good_w cs1 in x = Ok true /\
  map show (y_ev s) = ["manifest"; "download started ecu1"; "download started ecu2"; "fetched"; "downloaded ecu1"; "downloaded ecu2"; "manifest with result"] /\
  names (p_tr (y_p s)) = ["ping"; "rootver"; "rootver"; "putmeta"; "started"; "none"; "pm"; "current"; "ecures"; "ecures"; "completed"; "started"; "send"; "install"; "completed"; "current"; "ecures"; "devres"] /\
  v_dres (p_dev (y_p s)) = None.
Proof. vm_compute. repeat split. Qed.
Definition bad_image := cw "D5" (honest_world "ABCE") good_u.
Example cyc_bad : let (s, x) := cyc bad_image cs1 in x = Ok true /\
  map show (y_ev s) = ["manifest"; "download started ecu1"; "download started ecu2"; "not fetched"; "not downloaded ecu1"; "not downloaded ecu2"; "dropped"; "dropped"; "manifest with result"] /\
  names (p_tr (y_p s)) = ["devres"].
Proof. vm_compute. auto. Qed.

(** ** C78: a download reports what it did *)
(** For each requested target there is one outcome [ok]; for each of its ECUs the start and the end of its download are reported,
    with that outcome; the targets that worked are returned; the status says whether all, some or none worked. Unless all
    did, the failure is stored as the result of the device and the Director's Targets are deleted. The metadata is verified first:
    if that fails, nothing is downloaded. *)
Theorem C78_download_reports savec loadc E fnm P W ts s s' us st : download_images savec loadc E fnm P W ts s = (s', Ok (us, st)) ->
  let T := x_before_download W in let v := vehicle_of loadc P (p_idb (y_p s)) in
  exists u r, check_updates_offline E fnm (x_srv W) (t_dir T) (t_img T) (t_deleg T) v ts (p_ust (y_p s)) = (u, r) /\
  p_idb (y_p s') = p_idb (y_p s) /\ v_eres (p_dev (y_p s')) = v_eres (p_dev (y_p s)) /\
  match r with
  | Ok OcAvailable => exists oks, List.length oks = List.length ts /\ us = picked ts oks /\
      ((Forall (eq true) oks /\ us = ts /\ st = DsSuccess /\ y_ev s' = y_ev s ++ all_reports (tg_corr (u_dtargets u)) ts oks /\
        p_ust (y_p s') = u /\ p_dev (y_p s') = p_dev (y_p s) /\ p_tr (y_p s') = p_tr (y_p s)) \/
       (~ Forall (eq true) oks /\ (st = DsError /\ us = [] \/ st = DsPartial /\ us <> []) /\
        y_ev s' = y_ev s ++ all_reports (tg_corr (u_dtargets u)) ts oks ++ [CDropped] /\
        failure_stored kDownloadFailed (tg_corr (u_dtargets u)) (y_p s')))
  | Ok OcNone => us = [] /\ st = DsNothing /\ y_ev s' = y_ev s /\ y_dl s' = y_dl s /\ p_dev (y_p s') = p_dev (y_p s)
  | _ => us = [] /\ st = DsError /\ y_ev s' = y_ev s ++ [CDropped] /\ y_dl s' = y_dl s /\ failure_stored kInternalError (tg_corr (u_dtargets u)) (y_p s')
  end.
Proof.
  intros H. destruct (download_outcome _ _ _ _ _ _ _ _ _ _ _ H) as (u & r & A & B & C & D). exists u, r. split; [exact A|]. split; [exact B|]. split; [exact C|].
  destruct r as [[| |]|].
  - destruct D as (D1 & D2 & D3 & D4 & D5 & _). auto.
  - destruct D as (D1 & D2 & D3 & D4 & _ & D6 & _). auto.
  - destruct D as (oks & D1 & D2 & D3). exists oks. split; [exact D1|]. split; [exact D2|]. destruct D3 as [D3|(D3 & D4 & D5 & D6 & _)]; [left; exact D3|right; auto].
  - destruct D as (D1 & D2 & D3 & D4 & D5 & _). auto.
Qed.
Print Assumptions C78_download_reports.
(** An OSTree commit counts as downloaded exactly if the keys could be loaded and, if it is for the Primary, the package manager is
    OSTree and one of three pulls worked; one that is for Secondaries only is left to them. *)
Theorem C78_ostree savec loadc E fnm P W ts s s' us st : download_images savec loadc E fnm P W ts s = (s', Ok (us, st)) ->
  us = [] /\ (st = DsError \/ st = DsNothing) \/
  exists oks corr more, us = picked ts oks /\ y_ev s' = y_ev s ++ all_reports corr ts oks ++ more /\
    List.length oks = List.length ts /\
    forall k t ok, nth_error ts k = Some t -> nth_error oks k = Some ok -> is_ostree t = true -> (ok = true <-> ostree_fetched P W k t).
Proof.
  intros H. destruct (download_outcome2 _ _ _ _ _ _ _ _ _ _ _ H) as (u & r & A & B & C & D).
  destruct r as [[| |]|]; [left; destruct D as (-> & -> & _); auto..| |left; destruct D as (-> & -> & _); auto].
  right. destruct D as (oks & D1 & D2 & D3 & D4). exists oks, (tg_corr (u_dtargets u)).
  destruct D4 as [(_ & _ & _ & D4 & _)|(_ & _ & D4 & _)]; [exists []; rewrite app_nil_r|exists [CDropped]]; auto.
Qed.
Print Assumptions C78_ostree.
(** An OSTree commit for both ECUs: with three failing pulls, with one that works after a failure, and with the package manager that
    knows no OSTree. *)
Definition ost_docs : list (string * json) := [
  ("R1", root_j "r1" 1 far 1 k1 k1);
  ("D5", targets_j "d5" 5 far [("app", target_j 0 "ABCD" two_ecus)] k1);
  ("TS", timestamp_j "ts" 5 far 5 "SN" k1);
  ("SN", doc_j "sn" "Snapshot" 5 far [("meta", JObj [meta_j "targets" 5 "TG"])] k1);
  ("TG", targets_j "tg" 5 far [("app", target_j 0 "ABCD" (hw_custom "hw1"))] k1)].
Definition OE : Env := toy ost_docs.
Definition ow (pull : nat -> bool * bool) : cworld :=
  let w := good_w in {| x_srv := x_srv w; x_check := x_check w; x_before_download := x_before_download w; x_before_install := x_before_install w;
    x_keys := x_keys w; x_fetch := x_fetch w; x_pull := fun _ => pull; x_fuel := x_fuel w; x_verify := x_verify w; x_commit := x_commit w; x_upd := x_upd w;
    x_answers := x_answers w; x_saved := x_saved w; x_accepted := x_accepted w |}.
Definition opulled (os : bool) (pull : nat -> bool * bool) : list bool :=
  let P := {| pr_serial := pr_serial P1; pr_hw := pr_hw P1; pr_secs := pr_secs P1; pr_ostree := os |} in
  match fetch_meta_c csv cld ldm OE eqfnm (fun _ _ => true) P (ow pull) cs1 with
  | (s, Ok (UcUpdates l _)) => flat_map (fun e => match e with CFetched t ok => [ok] | _ => [] end) (y_ev (fst (download_images csv cld OE eqfnm P (ow pull) l s)))
  | _ => []
  end.
Example C78_ostree_case : opulled true (fun _ => (false, true)) = [false] /\ opulled true (fun k => (Nat.eqb k 2, true)) = [true] /\
  opulled true (fun k => (Nat.eqb k 2, false)) = [false] /\ opulled false (fun _ => (true, true)) = [false].
Proof. vm_compute. repeat split. Qed.
(** [cyc_good] and [cyc_bad] show both outcomes. *)

(** ** C79: what was downloaded passes the check before installation *)
Definition C79_statement : Prop := forall savec loadc loadm E fnm verifies P W s s1 l n s2,
  disks_good W -> w_read (x_verify W) = true ->
  fetch_meta_c savec loadc loadm E fnm verifies P W s = (s1, Ok (UcUpdates l n)) ->
  download_images savec loadc E fnm P W l s1 = (s2, Ok (l, DsSuccess)) ->
  forall t, In t l -> is_ostree t = false -> verify_image E P W (y_dl s2) t = Ok true.
(** Both repositories list a greater length than the image has, but its right hash: the download says success, the check before
    installation says that the file is incomplete, in every cycle. *)
Definition long_w := cw "D6" (honest_world "ABCD") good_u.
Theorem C79_refuted : ~ C79_statement.
Proof.
  intros H. destruct (cfetch long_w cs1) as (s1, x) eqn:F.
  assert (X : match x with Ok (UcUpdates [t] n) => is_ostree t = false | _ => False end) by (change x with (snd (s1, x)); rewrite <- F; vm_compute; reflexivity).
  destruct x as [[| |[|t [|u l]] n]|]; try contradiction.
  destruct (download_images csv cld CE eqfnm P1 long_w [t] s1) as (s2, y) eqn:D.
  assert (Y : match cfetch long_w cs1 with (s1, Ok (UcUpdates l n)) => match download_images csv cld CE eqfnm P1 long_w l s1 with
     | (s2, Ok (us, DsSuccess)) => forallb (fun t => match verify_image CE P1 long_w (y_dl s2) t with Ok b => negb b | _ => false end) l = true /\ us = l | _ => False end | _ => False end) by (vm_compute; auto).
  rewrite F, D in Y. destruct y as [(us, st)|]; [|contradiction]. destruct st; try contradiction. destruct Y as (Y & ->). cbn [forallb] in Y. rewrite andb_true_r in Y.
  assert (Z : verify_image CE P1 long_w (y_dl s2) t = Ok true).
  { apply (H csv cld ldm CE eqfnm (fun _ _ => true) P1 long_w cs1 s1 [t] n s2 (fun _ _ _ _ => eq_refl) eq_refl F D); [now left|exact X]. }
  rewrite Z in Y. discriminate.
Qed.
Print Assumptions C79_refuted.
(** It holds for targets that share no file and whose listed hash determines the (positive) listed length. *)
Theorem C79_rechecked_partial savec loadc E fnm P W ts s s' us st : disks_good W -> w_read (x_verify W) = true -> download_images savec loadc E fnm P W ts s = (s', Ok (us, st)) ->
  ForallOrdPairs (apart (y_dl s)) ts -> (forall t, In t ts -> is_ostree t = false -> sound_target E t) ->
  forall t, In t us -> is_ostree t = false -> file_good E (y_dl s') t /\ verify_image E P W (y_dl s') t = Ok true.
Proof.
  intros A B C D F t G O. split; [exact (download_good savec loadc E fnm P W ts s s' us st A C D F t G O)|exact (download_rechecked savec loadc E fnm P W ts s s' us st A B C D F t G O)].
Qed.
Print Assumptions C79_rechecked_partial.
Definition found5 : list target := ltac:(let x := eval vm_compute in (match snd (cfetch good_w cs1) with Ok (UcUpdates l _) => l | _ => [] end) in exact x).
Lemma upper_length s : String.length (to_upper s) = String.length s.
Proof. induction s as [|c s IH]; cbn; [reflexivity|]. now f_equal. Qed.
Example C79_case : (forall t, In t found5 -> is_ostree t = false /\ sound_target CE t) /\ ForallOrdPairs (apart fresh) found5 /\ found5 <> [].
Proof.
  split; [|split; [constructor; constructor|discriminate]]. intros t [<-|[]]. split; [reflexivity|]. split; [reflexivity|]. intros c [(_ & H)|(H & _)]; [|discriminate H].
  destruct H as [H|[]]. injection H as H. unfold size. apply (f_equal String.length) in H. rewrite upper_length in H. cbn in H. now rewrite <- H.
Qed.

(** ** C81: the Director's Targets do not get older *)
(** If a cycle finds an update, and the next cycle finds one while the Director's Root is the same, then the version of the Director's
    Targets has not decreased. *)
Definition C81_statement : Prop := forall savec loadc loadm E fnm verifies P force W1 W2 s a l n s1 x b l2 n2,
  clean_server (x_srv W1) -> clean_server (x_srv W2) ->
  fetch_meta_c savec loadc loadm E fnm verifies P W1 s = (a, Ok (UcUpdates l n)) ->
  uptane_cycle savec loadc loadm E fnm verifies P force W1 s = (s1, x) ->
  fetch_meta_c savec loadc loadm E fnm verifies P W2 s1 = (b, Ok (UcUpdates l2 n2)) ->
  load_latest_root Director (u_db (p_ust (y_p b))) = load_latest_root Director (u_db (p_ust (y_p a))) ->
  tg_version (u_dtargets (p_ust (y_p a))) <= tg_version (u_dtargets (p_ust (y_p b))).
(** A failed download deletes the Director's Targets: then older ones, signed long ago, are taken again and installed. *)
Lemma serve_clean dir img : Forall (fun p => nul_free (snd p)) dir -> Forall (fun p => nul_free (snd p)) img -> clean_server (serve2 dir img).
Proof.
  intros A B rp rn v raw. unfold serve2. destruct (String.eqb rn "root").
  - destruct (v =? 1); [|discriminate]. intros H. injection H as <-. split; [discriminate|reflexivity].
  - set (docs := match rp with Director => dir | Image => img end). assert (C : Forall (fun p => nul_free (snd p)) docs) by (destruct rp; assumption). clearbody docs. clear A B.
    intros H. induction C as [|(k, d) l N C IH]; cbn [aget] in H; [discriminate|]. destruct (String.eqb rn k); [injection H as <-; exact N|auto].
Qed.
Lemma csrv_clean dir : nul_free dir -> clean_server (csrv dir).
Proof. intros N. unfold csrv. destruct (String.eqb dir "D6"); apply serve_clean; repeat constructor; try (apply N); try discriminate. Qed.
Definition old_w := cw "D4" (honest_world "ABCD") good_u.
Theorem C81_refuted : ~ C81_statement.
Proof.
  intros H. destruct (cfetch bad_image cs1) as (a, x) eqn:F1. destruct (cyc bad_image cs1) as (s1, y) eqn:C1. destruct (cfetch old_w s1) as (b, z) eqn:F2.
  assert (X : match cfetch bad_image cs1 with (a, Ok (UcUpdates _ _)) => match cfetch old_w (fst (cyc bad_image cs1)) with
     | (b, Ok (UcUpdates _ _)) => load_latest_root Director (u_db (p_ust (y_p b))) = load_latest_root Director (u_db (p_ust (y_p a))) /\
         tg_version (u_dtargets (p_ust (y_p a))) = 5 /\ tg_version (u_dtargets (p_ust (y_p b))) = 4 | _ => False end | _ => False end) by (vm_compute; auto).
  rewrite C1 in X. cbn [fst] in X. rewrite F1, F2 in X. destruct x as [[| |l n]|]; try contradiction. destruct z as [[| |l2 n2]|]; try contradiction. destruct X as (R & V1 & V2).
  pose proof (H csv cld ldm CE eqfnm (fun _ _ => true) P1 false bad_image old_w cs1 a l n s1 y b l2 n2 (csrv_clean "D5" ltac:(split; [discriminate|reflexivity])) (csrv_clean "D4" ltac:(split; [discriminate|reflexivity])) F1 C1 F2 R) as K. rewrite V1, V2 in K. lia.
Qed.
Print Assumptions C81_refuted.
(** And the older ones are installed. *)
Example C81_installs : let (s1, _) := cyc bad_image cs1 in let (s2, x) := cyc old_w s1 in x = Ok true /\ tg_version (u_dtargets (p_ust (y_p s2))) = 4 /\
  load_installed cld "ecu2" (p_idb (y_p s2)) <> load_installed cld "ecu2" (p_idb (y_p s1)).
Proof. vm_compute. split; [reflexivity|]. split; [reflexivity|discriminate]. Qed.
(** Within one cycle, as long as no newer Root of the Director is offered, they do not get older, unless they are deleted; ... *)
Theorem C81_no_older_partial savec loadc loadm E fnm verifies P force W s s' x ce :
  clean_server (x_srv W) -> root_stored (u_db (p_ust (y_p s))) -> ~ rotation_offered E (x_srv W) Director (u_db (p_ust (y_p s))) ->
  uptane_cycle savec loadc loadm E fnm verifies P force W s = (s', x) -> y_ev s' = y_ev s ++ ce ->
  In CDropped ce \/ no_older E (u_db (p_ust (y_p s))) (u_db (p_ust (y_p s'))).
Proof. intros A B C D F. destruct (cycle_no_older _ _ _ _ _ _ _ _ _ _ _ _ _ A B C D F) as [K|(K & _)]; auto. Qed.
Print Assumptions C81_no_older_partial.
(** ... and they are deleted only if a failed result of the device is stored. *)
Theorem C81_deleted_after_failure savec loadc loadm E fnm verifies P force W s s' x ue ce :
  uptane_cycle savec loadc loadm E fnm verifies P force W s = (s', x) -> p_tr (y_p s') = p_tr (y_p s) ++ ue -> y_ev s' = y_ev s ++ ce ->
  In CDropped ce -> failing (v_dres (p_dev (y_p s))) ue.
Proof. exact (cycle_drops savec loadc loadm E fnm verifies P force W s s' x ue ce). Qed.
Print Assumptions C81_deleted_after_failure.
(** The second of two good cycles. *)
Example C81_case : let s := fst (cyc good_w cs1) in root_stored (u_db (p_ust (y_p s))) /\ stored_version CE Director RTargets (u_db (p_ust (y_p s))) 5 /\
  snd (cyc good_w s) = Ok true /\ forallb (fun e => match e with CDropped => false | _ => true end) (y_ev (fst (cyc good_w s))) = true.
Proof.
  cbv zeta. split; [eexists; vm_compute; reflexivity|]. split; [exists "D5"; split; vm_compute; reflexivity|]. split; vm_compute; reflexivity.
Qed.

(** ** C82: only what was found, downloaded and verified again is installed *)
Theorem C82_cycle_installs savec loadc loadm E fnm verifies P force W s s' x pre e post :
  uptane_cycle savec loadc loadm E fnm verifies P force W s = (s', x) -> p_tr (y_p s') = p_tr (y_p s) ++ pre ++ e :: post -> installs e ->
  let T := x_before_install W in
  exists s1 l n u ce, fetch_meta_c savec loadc loadm E fnm verifies P W s = (s1, Ok (UcUpdates l n)) /\ y_ev s' = y_ev s1 ++ ce /\ (p_ust (y_p s') = u \/ In CDropped ce) /\
    (forall t, In t l -> In (CFetched t true) ce) /\
    director_fresh E (t_dir T) u /\
    (exists top, u_itargets u = Some top /\ image_ok_but_targets E (t_img T) u top /\
      forall t, In t l -> (exists d, In d (tg_targets (u_dtargets u)) /\ same_target d t /\ fits_vehicle (vehicle_of loadc P (p_idb (y_p s1))) d /\
          exists serial hw, In (serial, hw) (t_ecus d) /\ news_for (vehicle_of loadc P (p_idb (y_p s1))) d serial) /\
        exists i, vouched E fnm (t_deleg T) (u_isnap u) top t i) /\
    (forall t, In t l -> held P t -> image_good E P W (y_dl s') t) /\
    (forall t ecu, In t l -> targets_ecu t ecu -> secondary P ecu -> In (UPutMeta ecu t true) pre /\ (ecu <> pr_serial P -> In (UPing ecu) pre)) /\
    inst_ok P l (tg_corr (u_dtargets u)) pre e.
Proof. exact (cycle_installs savec loadc loadm E fnm verifies P force W s s' x pre e post). Qed.
Print Assumptions C82_cycle_installs.
(** [cyc_good] installs on both ECUs. *)

(** ** C83: results are reported, or kept *)
(** Whatever result of the device was stored last (before the cycle, or by it): it is still stored afterwards, or a manifest
    that carries it was accepted by the server. *)
Theorem C83_result_kept savec loadc loadm E fnm verifies P force W s s' x ue ce w raw corr :
  uptane_cycle savec loadc loadm E fnm verifies P force W s = (s', x) -> p_tr (y_p s') = p_tr (y_p s) ++ ue -> y_ev s' = y_ev s ++ ce ->
  dres_after (v_dres (p_dev (y_p s))) ue = Some (w, raw, corr) ->
  v_dres (p_dev (y_p s')) = Some (w, raw, corr) \/ v_dres (p_dev (y_p s')) = None /\ exists m, In (CManifest m true) ce /\ carries m w raw corr.
Proof. exact (result_kept savec loadc loadm E fnm verifies P force W s s' x ue ce w raw corr). Qed.
Print Assumptions C83_result_kept.
(** A cycle that ends without an exception and with no pending update has sent it. *)
Theorem C83_result_sent savec loadc loadm E fnm verifies P force W s s' b ue ce :
  uptane_cycle savec loadc loadm E fnm verifies P force W s = (s', Ok b) -> p_tr (y_p s') = p_tr (y_p s) ++ ue -> y_ev s' = y_ev s ++ ce ->
  has_pending (p_idb (y_p s')) = false -> sent (dres_after (v_dres (p_dev (y_p s))) ue) ce.
Proof. exact (result_sent savec loadc loadm E fnm verifies P force W s s' b ue ce). Qed.
Print Assumptions C83_result_sent.
(** [cyc_good] and [cyc_bad] store a result and send it. If the server does not take the manifest, it stays. *)
Definition deaf (W : cworld) : cworld :=
  {| x_srv := x_srv W; x_check := x_check W; x_before_download := x_before_download W; x_before_install := x_before_install W; x_keys := x_keys W; x_fetch := x_fetch W;
     x_pull := x_pull W; x_fuel := x_fuel W; x_verify := x_verify W; x_commit := x_commit W; x_upd := x_upd W; x_answers := x_answers W; x_saved := x_saved W; x_accepted := fun _ => false |}.
Example C83_case : let (s, _) := cyc (deaf good_w) cs1 in match v_dres (p_dev (y_p s)) with Some _ => True | None => False end /\
  let (s2, _) := cyc good_w s in v_dres (p_dev (y_p s2)) = None /\ map show (skipn 7 (y_ev s2)) = ["manifest with result"].
Proof. vm_compute. repeat split. Qed.
(** A result that could not be reported is lost when the next one is stored: *)
Definition C83_statement : Prop := forall savec loadc loadm E fnm verifies P force W s s' x ue ce w raw corr,
  uptane_cycle savec loadc loadm E fnm verifies P force W s = (s', x) -> p_tr (y_p s') = p_tr (y_p s) ++ ue -> y_ev s' = y_ev s ++ ce ->
  v_dres (p_dev (y_p s)) = Some (w, raw, corr) ->
  v_dres (p_dev (y_p s')) = Some (w, raw, corr) \/ exists m, In (CManifest m true) ce /\ carries m w raw corr.
(** The server takes no manifest; the first download fails, then an update is installed. *)
Theorem C83_refuted : ~ C83_statement.
Proof.
  intros H. destruct (cyc (deaf bad_image) cs1) as (s1, x1) eqn:C1. destruct (cyc (deaf good_w) s1) as (s2, x2) eqn:C2.
  assert (X : match v_dres (p_dev (y_p (fst (cyc (deaf bad_image) cs1)))), v_dres (p_dev (y_p (fst (cyc (deaf good_w) (fst (cyc (deaf bad_image) cs1)))))) with
     | Some (w, raw, _), Some (w', raw', _) => String.eqb raw raw' = false | _, _ => False end /\
     (let s1 := fst (cyc (deaf bad_image) cs1) in let s2 := fst (cyc (deaf good_w) s1) in
      List.length (p_tr (y_p s1)) = 1%nat /\ firstn 1 (p_tr (y_p s2)) = p_tr (y_p s1) /\ List.length (y_ev s1) = 9%nat /\ firstn 9 (y_ev s2) = y_ev s1) /\
     forallb (fun e => match e with CManifest _ true => false | _ => true end) (y_ev (fst (cyc (deaf good_w) (fst (cyc (deaf bad_image) cs1))))) = true).
  { split; [vm_compute; reflexivity|]. split; [cbv zeta; do 3 (split; [vm_compute; reflexivity|]); vm_compute; reflexivity|vm_compute; reflexivity]. }
  rewrite C1 in X. cbn [fst] in X. rewrite C2 in X. cbn [fst] in X. destruct X as (D & (_ & T & _ & V) & M).
  destruct (v_dres (p_dev (y_p s1))) as [((w, raw), corr)|] eqn:D1; [|contradiction]. destruct (v_dres (p_dev (y_p s2))) as [((w', raw'), corr')|] eqn:D2; [|contradiction].
  assert (T' := firstn_skipn 1 (p_tr (y_p s2))). rewrite T in T'. assert (V' := firstn_skipn 9 (y_ev s2)). rewrite V in V'.
  destruct (H _ _ _ _ _ _ _ _ _ _ _ _ _ _ w raw corr C2 (eq_sym T') (eq_sym V') D1) as [K|(m & K & _)].
  - rewrite D2 in K. injection K as _ K _. apply String.eqb_neq in D. congruence.
  - rewrite forallb_forall in M. assert (I : In (CManifest m true) (y_ev s2)) by (rewrite <- V'; apply in_or_app; now right). specialize (M _ I). discriminate.
Qed.
Print Assumptions C83_refuted.
