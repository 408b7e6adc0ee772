(** Property C84: a cycle in which all cooperate installs what the update check found. *)
From Verif Require Import Base Json TufModel TufSpec TufProofs MetaStore RepoModel RepoSpec Toy CodecModel DlModel DlSpec DlProofs PropsDl InstModel InstSpec InstProofs InstProofs2 PropsInst DevModel DevSpec
  ClientModel ClientSpec ClientProofs ClientProofs2 RechkSpec PropsClient PropsRechk CycModel CycSpec PropsCyc LiveSpec LiveProofs LiveProofs2 UpdModel UpdSpec UpdProofs PropsUpd.

(** The installation: the metadata of the targets is verified again, the images are there, all ECUs do what they are asked to, and no
    result of an earlier installation is left over. Then each ECU of the vehicle that a target is for runs it afterwards, nothing being
    pending for it, and the result stored for the device is a success. *)
Theorem C84_installation savec loadc E fnm P W srv clkd clki now ts s u :
  check_updates_offline E fnm srv clkd clki now (vehicle_of loadc P (p_idb s)) ts (p_ust s) = (u, Ok OcAvailable) ->
  ecus_cooperate E P W srv (u_db u) -> (forall rp, exists last, newest_root E (u_db u) rp last) -> (forall t, In t ts -> held P t -> e_verify W t = Ok true) ->
  registered P (p_dev s) -> v_eres (p_dev s) = [] -> ireach savec (good_target savec loadc) (p_idb s) ->
  Forall (good_target savec loadc) ts -> one_each ts -> nonempty_serials P ->
  exists s' dr reps, uptane_install savec loadc E fnm P W srv clkd clki now ts s = (s', Ok (dr, reps)) /\
    ((exists t ecu, In t ts /\ targets_ecu t ecu /\ (ecu = pr_serial P \/ secondary P ecu)) -> ir_success dr = true) /\
    (exists w raw, to_row dr = Ok w /\ v_dres (p_dev s') = Some (w, raw, tg_corr (u_dtargets (p_ust s')))) /\
    (forall t ecu, In t ts -> targets_ecu t ecu -> ecu = pr_serial P \/ secondary P ecu -> runs loadc (p_idb s') ecu t).
Proof.
  intros A B C D F G H K L M. apply reach_wf in H.
  destruct (install_works savec loadc E fnm P W srv clkd clki now ts s u A B C D F G H K L M) as (s' & dr & reps & R & X & Y & Z & _).
  exists s', dr, reps. auto.
Qed.
Print Assumptions C84_installation.

(** The cycle: nothing is pending and all ECUs are registered; the server accepts the manifest that is sent first; its documents declare
    versions and contradict none that is stored, the Director's Targets are not empty; nothing expires during the cycle. If the update
    check finds targets, their images can be downloaded and all ECUs do what they are asked to, then the same cycle makes each of them
    the version of each ECU of the vehicle that it is for, with nothing pending, and the successful result of the device is stored, or
    was sent in a manifest that the server accepted. *)
Theorem C84_cycle savec loadc loadm E fnm verifies P force W s s1 l n :
  has_pending (p_idb (y_p s)) = false -> ireach savec (good_target savec loadc) (p_idb (y_p s)) ->
  registered P (p_dev (y_p s)) -> nonempty_serials P -> x_accepted W 0 = true ->
  clean_server (x_srv W) -> versioned_server E (x_srv W) -> director_lists_targets E (x_srv W) ->
  (forall rp, roots_numbered E (x_srv W) rp (u_db (p_ust (y_p s)))) ->
  no_equivocation E (x_srv W) Director "targets" RTargets (u_db (p_ust (y_p s))) -> no_equivocation E (x_srv W) Image "timestamp" RTimestamp (u_db (p_ust (y_p s))) ->
  x_before_download W = x_check W -> x_before_install W = x_check W ->
  fetch_meta_c savec loadc loadm E fnm verifies P W s = (s1, Ok (UcUpdates l n)) -> Forall (good_target savec loadc) l -> Forall hashes_agree l ->
  downloads_work E P W (y_dl s) l -> ecus_cooperate E P (x_upd W) (x_srv W) (u_db (p_ust (y_p s1))) ->
  exists s' x, uptane_cycle savec loadc loadm E fnm verifies P force W s = (s', x) /\
    forall t ecu, In t l -> targets_ecu t ecu -> ecu = pr_serial P \/ secondary P ecu ->
      runs loadc (p_idb (y_p s')) ecu t /\
      exists r w raw corr, ir_success r = true /\ to_row r = Ok w /\
        (v_dres (p_dev (y_p s')) = Some (w, raw, corr) \/ exists m, In (CManifest m true) (y_ev s') /\ carries m w raw corr).
Proof. intros A B. apply reach_wf in B. exact (cycle_works savec loadc loadm E fnm verifies P force W s s1 l n A B). Qed.
Print Assumptions C84_cycle.

(** ** All hypotheses hold of the first cycle of the small vehicle *)
Lemma reach84 : ireach csv (good_target csv cld) idb1.
Proof. apply (ireach_S csv _ idb_empty (OpStoreEcus [("ecu1", "hw1"); ("ecu2", "hw1")]) (ireach_0 _ _)). split; [discriminate|]. left. intros r []. Qed.
Lemma registered84 : registered P1 dev1.
Proof. split; [discriminate|]. intros ecu [->|(hw & [H|[]])]; [now left|]. injection H as <- _. right. now left. Qed.
Lemma csrv_in rp rn v raw : csrv "D5" rp rn v = Ok raw -> (rn = "root" /\ v = 1 /\ raw = "R1") \/ (rn <> "root" /\ In raw ["D5"; "TS"; "SN"; "TG"]).
Proof.
  intros H. change (csrv "D5") with (serve2 [("targets", "D5")] [("timestamp", "TS"); ("snapshot", "SN"); ("targets", "TG")]) in H.
  apply serve2_in in H. destruct H as [H | (N & H)]; [now left|right; split; [exact N|]]. destruct rp; apply (in_map snd) in H; cbn in H; cbn; tauto.
Qed.
Lemma versioned84 : versioned_server CE (csrv "D5").
Proof.
  intros rp rn raw H. apply csrv_in in H. destruct H as [(_ & H & _) | (_ & H)]; [discriminate|].
  cbn in H. destruct H as [<-|[<-|[<-|[<-|[]]]]]; exists 5; (split; [vm_compute; reflexivity|lia]).
Qed.
Lemma lists84 : director_lists_targets CE (csrv "D5").
Proof.
  intros raw t H (D1 & D2). change (csrv "D5") with (serve2 [("targets", "D5")] [("timestamp", "TS"); ("snapshot", "SN"); ("targets", "TG")]) in H.
  apply serve2_in in H. destruct H as [(H & _) | (_ & [H|[]])]; [discriminate|]. injection H as <-.
  assert (X : match base_init (parse CE "D5") with Ok b => match targets_init CE b "targets" (parse CE "D5") with Ok t => negb (nilb (tg_targets t)) | _ => false end | _ => false end = true) by (vm_compute; reflexivity).
  rewrite D1, D2 in X. destruct (tg_targets t); discriminate.
Qed.
Lemma first84 rp raw R : csrv "D5" rp "root" 1 = Ok raw -> root_of_json CE (parse CE raw) = Ok R -> 1 <= rt_version R.
Proof.
  intros H. apply csrv_in in H. destruct H as [(_ & _ & ->) | (H & _)]; [|contradiction].
  assert (X : match root_of_json CE (parse CE "R1") with Ok R => 1 <=? rt_version R | _ => false end = true) by (vm_compute; reflexivity).
  intros J. rewrite J in X. now apply Z.leb_le.
Qed.
Lemma good84 : Forall (good_target csv cld) found5.
Proof.
  constructor; [|constructor]. split; [|split; [|split; [|split]]].
  - constructor; [|constructor]. repeat split; auto; discriminate.
  - reflexivity.
  - eexists. split; [left; reflexivity|reflexivity].
  - simpl. lia.
  - intros c H. injection H as <-. eexists. reflexivity.
Qed.
Lemma agree84 : Forall hashes_agree found5.
Proof. constructor; [|constructor]. intros h1 h2 [<-|[]] [<-|[]] _; reflexivity. Qed.
Lemma downloads84 : downloads_work CE P1 good_w fresh found5.
Proof.
  destruct C79_case as (A & B & _). split; [|split; [exact B|]].
  - intros i t H. apply nth_error_In in H. destruct (A t H) as (O & S). split; [reflexivity|]. split; [intros X; congruence|]. intros _. split; [exact S|]. split; [reflexivity|].
    exists "ABCD". split; [|intros k; split; [apply honest_is_honest|]]; [|repeat split]. destruct H as [<-|[]]. split; [reflexivity|]. split; [reflexivity|]. split; [|discriminate]. left. split; [reflexivity|]. vm_compute. auto.
  - split; [intros ? ? ?; repeat split|]. split; [discriminate|reflexivity].
Qed.
Lemma cooperate84 srv d : match load_latest_root Director d, load_latest_root Image d with
    | Ok (Some a), Ok (Some b) => extract_version_untrusted CE a = Ok 1 /\ extract_version_untrusted CE b = Ok 1 | _, _ => False end -> ecus_cooperate CE P1 good_u srv d.
Proof.
  intros H. split.
  { exists [fun _ => true], [fun _ => true]. split; [reflexivity|]. split; [discriminate|]. intros ecu _. eexists. split; [left; reflexivity|reflexivity]. }
  split.
  { intros rp tr ecu _. exists 1. split; [reflexivity|]. intros _ last v (raw & L & X) B. exfalso.
    destruct (load_latest_root Director d) as [[a|]|] eqn:DA; try contradiction. destruct (load_latest_root Image d) as [[b|]|] eqn:DB; try contradiction.
    destruct H as (H1 & H2). destruct rp; rewrite ?DA, ?DB in L; injection L as <-; [rewrite H1 in X|rewrite H2 in X]; injection X as <-; lia. }
  repeat split; intros; eexists; reflexivity.
Qed.
Lemma found84 (E : Env) fnm vf P W s (l : list target) (Q : db -> Prop) :
  match fetch_meta_c csv cld ldm E fnm vf P W s with (s1, Ok (UcUpdates k n)) => k = l /\ Q (u_db (p_ust (y_p s1))) | _ => False end ->
  exists s1 n, fetch_meta_c csv cld ldm E fnm vf P W s = (s1, Ok (UcUpdates l n)) /\ Q (u_db (p_ust (y_p s1))).
Proof. intros H. destruct (fetch_meta_c csv cld ldm E fnm vf P W s) as (s1, [[| |k n]|]); try contradiction. destruct H as (-> & H). exists s1, n. auto. Qed.
Example C84_case : exists s1 n, let l := found5 in
  has_pending (p_idb (y_p cs1)) = false /\ ireach csv (good_target csv cld) (p_idb (y_p cs1)) /\ registered P1 (p_dev (y_p cs1)) /\ nonempty_serials P1 /\ x_accepted good_w 0 = true /\
  clean_server (x_srv good_w) /\ versioned_server CE (x_srv good_w) /\ director_lists_targets CE (x_srv good_w) /\
  (forall rp, roots_numbered CE (x_srv good_w) rp (u_db (p_ust (y_p cs1)))) /\
  no_equivocation CE (x_srv good_w) Director "targets" RTargets (u_db (p_ust (y_p cs1))) /\ no_equivocation CE (x_srv good_w) Image "timestamp" RTimestamp (u_db (p_ust (y_p cs1))) /\
  x_before_download good_w = x_check good_w /\ x_before_install good_w = x_check good_w /\
  cfetch good_w cs1 = (s1, Ok (UcUpdates l n)) /\ Forall (good_target csv cld) l /\ Forall hashes_agree l /\
  downloads_work CE P1 good_w (y_dl cs1) l /\ ecus_cooperate CE P1 (x_upd good_w) (x_srv good_w) (u_db (p_ust (y_p s1))) /\
  exists t, In t l /\ targets_ecu t "ecu1" /\ targets_ecu t "ecu2".
Proof.
  destruct (found84 CE eqfnm (fun _ _ => true) P1 good_w cs1 found5 (fun d => match load_latest_root Director d, load_latest_root Image d with
    | Ok (Some a), Ok (Some b) => extract_version_untrusted CE a = Ok 1 /\ extract_version_untrusted CE b = Ok 1 | _, _ => False end)) as (s1 & n & F & D); [vm_compute; repeat split|].
  exists s1, n. cbv zeta. split; [reflexivity|]. split; [exact reach84|]. split; [exact registered84|]. split; [exact serials1|]. split; [reflexivity|].
  split; [apply csrv_clean; split; [discriminate|reflexivity]|]. split; [exact versioned84|]. split; [exact lists84|].
  split; [intros rp; apply numbered_rows; [reflexivity|apply first84]|].
  split; [intros raw sraw _ L; discriminate L|]. split; [intros raw sraw _ L; discriminate L|]. split; [reflexivity|]. split; [reflexivity|].
  split; [exact F|]. split; [exact good84|]. split; [exact agree84|]. split; [exact downloads84|]. split; [apply cooperate84, D|].
  eexists. split; [left; reflexivity|]. split; eexists; [left|right; left]; reflexivity.
Qed.
