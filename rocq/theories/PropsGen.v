(** Properties of the generator of Uptane repositories: what it publishes can be used by the devices that follow it. *)
From Verif Require Import Base Json TufModel TufSpec MetaStore RepoModel RepoSpec GenModel GenSpec GenProofs14 GenToy GenToy2.

(** ** C106: devices accept the Image repository *)
(** However a repository was made and changed, with commands that failed or were killed in between, and whatever a device that follows it
    has done before: once the last command on the Image repository has succeeded, the device's next update of the Image repository
    succeeds with the published Targets (or else the stored and the published Snapshot are a collision of both hash functions). *)
Theorem C106 E keyid depth fnm k d s clk :
  env_ok E -> follows E keyid depth fnm no_limits always k d true -> servable E k Image clk -> u_db s = d ->
  snapshot_collision E k d \/
  exists s' t raw, image_update E (publish k) clk s = (s', Ok tt) /\ u_itargets s' = Some t /\
    publish k Image "targets" (-1) = Ok raw /\ targets_doc E "targets" (parse E raw) t.
Proof. intros HE F V H. eapply image_accepted; eauto. Qed.

(** ** C107: devices accept the Director repository *)
(** The same for the Director, while no ECU has two targets. *)
Definition C107_statement : Prop := forall E keyid depth fnm k d ok s clk,
  env_ok E -> follows E keyid depth fnm no_limits (one_per_ecu E) k d ok -> one_per_ecu E k -> servable E k Director clk -> u_db s = d ->
  exists s' t raw, director_update E (publish k) clk s = (s', Ok tt) /\ u_dlatest s' = t /\
    publish k Director "targets" (-1) = Ok raw /\ targets_doc E "targets" (parse E raw) t.
(** It holds as long as neither the Targets of the Director are refreshed nor a delegation is revoked while something is staged. *)
Theorem C107_partial E keyid depth fnm k d ok s clk :
  env_ok E -> follows E keyid depth fnm staged_first (one_per_ecu E) k d ok -> one_per_ecu E k -> servable E k Director clk -> u_db s = d ->
  exists s' t raw, director_update E (publish k) clk s = (s', Ok tt) /\ u_dlatest s' = t /\ (tg_targets t <> [] -> u_dtargets s' = t) /\
    publish k Director "targets" (-1) = Ok raw /\ targets_doc E "targets" (parse E raw) t.
Proof. intros HE F O V H. eapply director_accepted; eauto. Qed.
(** No two targets that the Director publishes are for the same ECU (clients refuse such Targets). *)
Definition C107_ecu_statement : Prop := forall E keyid depth fnm k d ok,
  env_ok E -> follows E keyid depth fnm no_limits always k d ok -> one_per_ecu E k.

(** *** Examples *)
Definition KD : repo_keys := {| rk_root := gkey "dr"; rk_snapshot := gkey "ds"; rk_targets := gkey "dt"; rk_timestamp := gkey "dm" |}.
Definition KI : repo_keys := {| rk_root := gkey "ir"; rk_snapshot := gkey "is"; rk_targets := gkey "it"; rk_timestamp := gkey "im" |}.
Definition any_name (p s : string) : bool := true.
Definition I0 : invocation := inv_toy "2030-01-01T00:00:00Z" "2040-01-01T00:00:00Z" "corr".
Definition now0 : clock := fun _ => "2025-01-01T00:00:00Z".
Lemma time_toy : time_ok "2030-01-01T00:00:00Z" /\ time_ok "2040-01-01T00:00:00Z". Proof. split; split; vm_compute; reflexivity. Qed.
Lemma gkey_inj x y : gen_keyid (kp_pub (gkey x)) = gen_keyid (kp_pub (gkey y)) -> kp_pub (gkey x) = kp_pub (gkey y).
Proof. unfold gen_keyid. cbn [kp_pub gkey pk_value append]. intros H. assert (x = y) as -> by congruence. reflexivity. Qed.
Lemma keys_toy a b c d : ascii_text a = true -> ascii_text b = true -> ascii_text c = true -> ascii_text d = true ->
  keys_ok gen_env gen_keyid {| rk_root := gkey a; rk_snapshot := gkey b; rk_targets := gkey c; rk_timestamp := gkey d |}.
Proof.
  intros A B C D. split; [intros kp [<-|[<-|[<-|[<-|[]]]]]; now apply gkey_ok|].
  intros x y [<-|[<-|[<-|[<-|[]]]]] [<-|[<-|[<-|[<-|[]]]]] H; now apply gkey_inj.
Qed.
Notation gstep := (run_command gen_env gen_keyid 5 any_name I0).
Notation gfollow := (follows gen_env gen_keyid 5 any_name).

Lemma toy_generated (allowed : disk -> command -> Prop) (visible : disk -> Prop) k l : gstep (CGenerate KD KI) disk_empty = (k, l, Ok tt) -> forallb bounded_disk_b l = true -> gfollow allowed visible k db_empty true.
Proof.
  intros H B. refine (fo_generate gen_env gen_keyid 5 any_name allowed visible I0 KD KI k l _ _ _ H _); [|apply (proj1 time_toy)|reflexivity|now apply bounded_disks].
  - split; [now apply keys_toy|]. split; [now apply keys_toy|]. intros kp i. unfold keys_of, KD, KI in i. cbn [app In rk_root rk_snapshot rk_targets rk_timestamp] in i. unfold I0. destruct i as [<-|[<-|[<-|[<-|[<-|[<-|[<-|[<-|[]]]]]]]]]; exact (gkey_signs _ _ _ _).
Qed.
Lemma toy_step (allowed : disk -> command -> Prop) (visible : disk -> Prop) k d ok c k' l r : gfollow allowed visible k d ok -> is_generate c = false -> allowed k c -> keys_b k = true -> arguments_ok gen_env gen_keyid I0 c ->
  gstep c k = (k', l, r) -> forallb bounded_disk_b l = true ->
  gfollow allowed visible k' d (if concerns Image c then match r with Ok _ => true | Throw _ => false end else ok).
Proof. intros F N A K Ar H B. refine (fo_command gen_env gen_keyid 5 any_name allowed visible k d ok I0 c k' l r F N A _ Ar H _); [|now apply bounded_disks]. apply keys_check; auto; apply time_toy. Qed.
Lemma toy_killed (allowed : disk -> command -> Prop) (visible : disk -> Prop) k d ok c k' l r kk n : gfollow allowed visible k d ok -> is_generate c = false -> allowed k c -> keys_b k = true -> arguments_ok gen_env gen_keyid I0 c ->
  gstep c k = (k', l, r) -> forallb bounded_disk_b l = true -> nth_error l n = Some kk -> gfollow allowed visible kk d (if concerns Image c then false else ok).
Proof. intros F N A K Ar H B Hn. refine (fo_killed gen_env gen_keyid 5 any_name allowed visible k d ok I0 c k' l r kk F N A _ Ar H _ _); [|now apply bounded_disks|eapply nth_error_In; eauto]. apply keys_check; auto; apply time_toy. Qed.
Definition step_b (c : command) (k : disk) : bool :=
  keys_b k && forallb bounded_disk_b (snd (fst (gstep c k))) && match snd (gstep c k) with Ok _ => true | Throw _ => false end.
Lemma toy_ran (allowed : disk -> command -> Prop) (visible : disk -> Prop) k d ok c k' : step_b c k = true -> fst (fst (gstep c k)) = k' -> is_generate c = false -> allowed k c -> arguments_ok gen_env gen_keyid I0 c ->
  gfollow allowed visible k d ok -> gfollow allowed visible k' d (if concerns Image c then true else ok).
Proof.
  unfold step_b. destruct (gstep c k) as ((k1, l), r) eqn:H. cbn [fst snd]. intros B <- N A Ar F. apply andb_true_iff in B as (B & C). apply andb_true_iff in B as (B & D).
  pose proof (toy_step allowed visible k d ok c k1 l r F N A B Ar H D) as R. destruct r; [exact R|discriminate C].
Qed.
Lemma toy_interrupted (allowed : disk -> command -> Prop) (visible : disk -> Prop) k d ok c k' n : step_b c k = true -> nth_error (snd (fst (gstep c k))) n = Some k' -> is_generate c = false -> allowed k c -> arguments_ok gen_env gen_keyid I0 c ->
  gfollow allowed visible k d ok -> gfollow allowed visible k' d (if concerns Image c then false else ok).
Proof.
  unfold step_b. destruct (gstep c k) as ((k1, l), r) eqn:H. cbn [fst snd]. intros B Hn N A Ar F. apply andb_true_iff in B as (B & C). apply andb_true_iff in B as (B & D).
  exact (toy_killed allowed visible k d ok c k1 l r k' n F N A B Ar H D Hn).
Qed.
Definition generate_b : bool :=
  forallb bounded_disk_b (snd (fst (gstep (CGenerate KD KI) disk_empty))) && match snd (gstep (CGenerate KD KI) disk_empty) with Ok _ => true | Throw _ => false end.
Lemma toy_made (allowed : disk -> command -> Prop) (visible : disk -> Prop) k : generate_b = true -> fst (fst (gstep (CGenerate KD KI) disk_empty)) = k -> gfollow allowed visible k db_empty true.
Proof.
  unfold generate_b. destruct (gstep (CGenerate KD KI) disk_empty) as ((k1, l), r) eqn:H. cbn [fst snd]. intros B <-. apply andb_true_iff in B as (B & C).
  destruct r as [[]|]; [|discriminate C]. exact (toy_generated allowed visible k1 l H B).
Qed.
Definition ust_of (d : db) : ust :=
  {| u_db := d; u_log := []; u_droot := root_empty PAcceptAll; u_dtargets := targets_empty; u_dlatest := targets_empty; u_iroot := root_empty PAcceptAll; u_itime := timestamp_empty; u_isnap := snapshot_empty; u_itargets := None |}.
Definition dstep (o : meta_op) (d : db) : db := u_db (fst (run_op gen_env o (ust_of d))).
Lemma toy_device (allowed : disk -> command -> Prop) (visible : disk -> Prop) k d ok o d' : gfollow allowed visible k d ok -> visible k -> device_op k o -> dstep o d = d' -> gfollow allowed visible k d' ok.
Proof.
  intros F V O <-. unfold dstep. destruct (run_op gen_env o (ust_of d)) as (s', r) eqn:H. eapply fo_device; [exact F|exact V|exact O| | |exact H|]; [reflexivity|reflexivity|now left].
Qed.

(** A repository; a device updates from it; adding a second image is killed half way and then repeated. *)
Definition c_image (n : string) : command := CImage (IBinary (append "content of " n)) n "hw1" "" None.
Definition k0 : disk := Eval vm_compute in fst (fst (gstep (CGenerate KD KI) disk_empty)).
Definition kA : disk := Eval vm_compute in fst (fst (gstep (c_image "one") k0)).
Definition dA : db := Eval vm_compute in dstep (OpImageUpdate (publish kA) now0) db_empty.
Definition kB : disk := Eval vm_compute in nth 2 (snd (fst (gstep (c_image "two") kA))) disk_empty.
Definition kC : disk := Eval vm_compute in fst (fst (gstep (c_image "two") kB)).
Lemma image_arguments n : ascii_text n = true -> Z.of_nat (String.length (append "content of " n)) <= max_uint64 -> arguments_ok gen_env gen_keyid I0 (c_image n).
Proof. intros A B. split; [exact B|]. split; [exact A|]. split; [split; [reflexivity|cbn; lia]|reflexivity]. Qed.
Lemma f0 allowed visible : gfollow allowed visible k0 db_empty true.
Proof. apply toy_made; vm_compute; reflexivity. Qed.
Lemma fA : gfollow no_limits always kA db_empty true.
Proof.
  refine (toy_ran no_limits always k0 db_empty true (c_image "one") kA _ _ eq_refl Logic.I _ (f0 _ _)); [vm_compute; reflexivity|vm_compute; reflexivity|].
  apply image_arguments; [reflexivity|vm_compute; discriminate].
Qed.
Lemma fC : gfollow no_limits always kC dA true.
Proof.
  assert (A : gfollow no_limits always kA dA true).
  { refine (toy_device no_limits always kA db_empty true (OpImageUpdate (publish kA) now0) dA fA Logic.I eq_refl _). vm_compute. reflexivity. }
  assert (Ar : arguments_ok gen_env gen_keyid I0 (c_image "two")) by (apply image_arguments; [reflexivity|vm_compute; discriminate]).
  assert (B : gfollow no_limits always kB dA false).
  { refine (toy_interrupted no_limits always kA dA true (c_image "two") kB 2 _ _ eq_refl Logic.I Ar A); vm_compute; reflexivity. }
  refine (toy_ran no_limits always kB dA false (c_image "two") kC _ _ eq_refl Logic.I Ar B); vm_compute; reflexivity.
Qed.
Definition fails {A} (r : res A) : bool := match r with Ok _ => false | Throw _ => true end.
Definition image_names (s : ust) : list string := match u_itargets s with Some t => map t_filename (tg_targets t) | None => [] end.
(** Between the kill and the repetition a new device cannot update (so the last command has to succeed); afterwards the one above gets both images. *)
Example C106_case : gfollow no_limits always kC dA true /\ servable gen_env kC Image now0 /\
  fails (snd (image_update gen_env (publish kB) now0 (ust_of db_empty))) = true /\
  snd (image_update gen_env (publish kC) now0 (ust_of dA)) = Ok tt /\ image_names (fst (image_update gen_env (publish kC) now0 (ust_of dA))) = ["one"; "two"]%string.
Proof. split; [exact fC|]. split; [unfold now0; apply servable_check; vm_compute; reflexivity|]. split; [vm_compute; reflexivity|]. split; vm_compute; reflexivity. Qed.

(** An image is added to the Image repository and assigned to an ECU by the Director; a device uses it; then another one. *)
Definition c_target (n ecu : string) : command := CAddTarget n "hw1" ecu "" "" [].
Lemma target_arguments n ecu : ascii_text n = true -> serial_ok ecu -> arguments_ok gen_env gen_keyid I0 (c_target n ecu).
Proof. intros A B. split; [exact A|]. split; [split; [reflexivity|cbn; lia]|]. split; [exact B|]. split; [reflexivity|now left]. Qed.
Lemma ecu_ok : serial_ok "ecu1". Proof. split; [reflexivity|]. cbn; lia. Qed.
Definition kS : disk := Eval vm_compute in fst (fst (gstep (c_target "one" "ecu1") kA)).
Definition kP : disk := Eval vm_compute in fst (fst (gstep CSignTargets kS)).
Definition dP : db := Eval vm_compute in dstep (OpDirectorUpdate (publish kP) now0) db_empty.
Definition kE : disk := Eval vm_compute in fst (fst (gstep CEmptyTargets kP)).
Definition kI : disk := Eval vm_compute in fst (fst (gstep (c_image "two") kE)).
Definition kT : disk := Eval vm_compute in fst (fst (gstep (c_target "two" "ecu1") kI)).
Definition kQ : disk := Eval vm_compute in fst (fst (gstep CSignTargets kT)).
Definition usual (allowed : disk -> command -> Prop) : Prop := forall k c, (match c with CRefresh _ _ | CRevokeDelegation _ => False | _ => True end) -> allowed k c.
Lemma fP (allowed : disk -> command -> Prop) visible : usual allowed -> gfollow allowed visible kP db_empty true.
Proof.
  intros Al.
  assert (FA : gfollow allowed visible kA db_empty true).
  { refine (toy_ran allowed visible k0 db_empty true (c_image "one") kA _ _ eq_refl (Al k0 (c_image "one") Logic.I) _ (f0 _ _)); [vm_compute; reflexivity|vm_compute; reflexivity|].
    apply image_arguments; [reflexivity|vm_compute; discriminate]. }
  assert (FS : gfollow allowed visible kS db_empty true).
  { refine (toy_ran allowed visible kA db_empty true (c_target "one" "ecu1") kS _ _ eq_refl (Al kA (c_target "one" "ecu1") Logic.I) _ FA); [vm_compute; reflexivity|vm_compute; reflexivity|].
    apply target_arguments; [reflexivity|apply ecu_ok]. }
  refine (toy_ran allowed visible kS db_empty true CSignTargets kP _ _ eq_refl (Al kS CSignTargets Logic.I) Logic.I FS); vm_compute; reflexivity.
Qed.
Lemma usual_staged : usual staged_first. Proof. intros k c. destruct c; cbn; tauto. Qed.
Lemma usual_any : usual no_limits. Proof. intros k c _. exact Logic.I. Qed.
Lemma fQ : gfollow staged_first (one_per_ecu gen_env) kQ dP true.
Proof.
  assert (FP : gfollow staged_first (one_per_ecu gen_env) kP dP true).
  { refine (toy_device staged_first (one_per_ecu gen_env) kP db_empty true (OpDirectorUpdate (publish kP) now0) dP (fP _ _ usual_staged) _ eq_refl _); [apply per_ecu_check|]; vm_compute; reflexivity. }
  assert (FE : gfollow staged_first (one_per_ecu gen_env) kE dP true).
  { refine (toy_ran _ _ kP dP true CEmptyTargets kE _ _ eq_refl Logic.I Logic.I FP); vm_compute; reflexivity. }
  assert (FI : gfollow staged_first (one_per_ecu gen_env) kI dP true).
  { refine (toy_ran _ _ kE dP true (c_image "two") kI _ _ eq_refl Logic.I _ FE); [vm_compute; reflexivity|vm_compute; reflexivity|].
    apply image_arguments; [reflexivity|vm_compute; discriminate]. }
  assert (FT : gfollow staged_first (one_per_ecu gen_env) kT dP true).
  { refine (toy_ran _ _ kI dP true (c_target "two" "ecu1") kT _ _ eq_refl Logic.I _ FI); [vm_compute; reflexivity|vm_compute; reflexivity|].
    apply target_arguments; [reflexivity|apply ecu_ok]. }
  refine (toy_ran _ _ kT dP true CSignTargets kQ _ _ eq_refl Logic.I Logic.I FT); vm_compute; reflexivity.
Qed.
Definition assigned (s : ust) : list string := map t_filename (tg_targets (u_dtargets s)).
Example C107_case : gfollow staged_first (one_per_ecu gen_env) kQ dP true /\ one_per_ecu gen_env kQ /\ servable gen_env kQ Director now0 /\
  assigned (fst (director_update gen_env (publish kP) now0 (ust_of db_empty))) = ["one"]%string /\
  assigned (fst (director_update gen_env (publish kQ) now0 (ust_of dP))) = ["two"]%string.
Proof.
  split; [exact fQ|]. split; [apply per_ecu_check; vm_compute; reflexivity|]. split; [unfold now0; apply servable_check; vm_compute; reflexivity|]. split; vm_compute; reflexivity.
Qed.

(** *** Wrong in the code *)
(** "signtargets" publishes what was staged with the version after the one that was current when it was staged: when the Targets have
    been refreshed twice in the meantime, a device that has seen the newer version refuses the older one. *)
Definition c_refresh : command := CRefresh Director role_targets.
Definition kV1 : disk := Eval vm_compute in fst (fst (gstep c_refresh kT)).
Definition kV2 : disk := Eval vm_compute in fst (fst (gstep c_refresh kV1)).
Definition dV : db := Eval vm_compute in dstep (OpDirectorUpdate (publish kV2) now0) db_empty.
Definition kV3 : disk := Eval vm_compute in fst (fst (gstep CSignTargets kV2)).
Lemma fT (allowed : disk -> command -> Prop) visible : usual allowed -> gfollow allowed visible kT db_empty true.
Proof.
  intros Al.
  assert (FE : gfollow allowed visible kE db_empty true).
  { refine (toy_ran _ _ kP db_empty true CEmptyTargets kE _ _ eq_refl (Al kP CEmptyTargets Logic.I) Logic.I (fP _ _ Al)); vm_compute; reflexivity. }
  assert (FI : gfollow allowed visible kI db_empty true).
  { refine (toy_ran _ _ kE db_empty true (c_image "two") kI _ _ eq_refl (Al kE (c_image "two") Logic.I) _ FE); [vm_compute; reflexivity|vm_compute; reflexivity|].
    apply image_arguments; [reflexivity|vm_compute; discriminate]. }
  refine (toy_ran _ _ kI db_empty true (c_target "two" "ecu1") kT _ _ eq_refl (Al kI (c_target "two" "ecu1") Logic.I) _ FI); [vm_compute; reflexivity|vm_compute; reflexivity|].
  apply target_arguments; [reflexivity|apply ecu_ok].
Qed.
Lemma fV : gfollow no_limits (one_per_ecu gen_env) kV3 dV true.
Proof.
  assert (F1 : gfollow no_limits (one_per_ecu gen_env) kV1 db_empty true).
  { refine (toy_ran _ _ kT db_empty true c_refresh kV1 _ _ eq_refl Logic.I _ (fT _ _ usual_any)); [vm_compute; reflexivity|vm_compute; reflexivity|]. right. right. right. right. now left. }
  assert (F2 : gfollow no_limits (one_per_ecu gen_env) kV2 db_empty true).
  { refine (toy_ran _ _ kV1 db_empty true c_refresh kV2 _ _ eq_refl Logic.I _ F1); [vm_compute; reflexivity|vm_compute; reflexivity|]. right. right. right. right. now left. }
  assert (F3 : gfollow no_limits (one_per_ecu gen_env) kV2 dV true).
  { refine (toy_device no_limits (one_per_ecu gen_env) kV2 db_empty true (OpDirectorUpdate (publish kV2) now0) dV F2 _ eq_refl _); [apply per_ecu_check|]; vm_compute; reflexivity. }
  refine (toy_ran _ _ kV2 dV true CSignTargets kV3 _ _ eq_refl Logic.I Logic.I F3); vm_compute; reflexivity.
Qed.
Lemma director_fails_check k d now : fails (snd (director_update gen_env (publish k) now (ust_of d))) = true ->
  ~ exists s' t raw, director_update gen_env (publish k) now (ust_of d) = (s', Ok tt) /\ u_dlatest s' = t /\
      publish k Director "targets" (-1) = Ok raw /\ targets_doc gen_env "targets" (parse gen_env raw) t.
Proof. intros H (s' & t & raw & U & _). rewrite U in H. discriminate H. Qed.
Theorem C107_refuted : ~ C107_statement.
Proof.
  intros S. apply (director_fails_check kV3 dV now0); [vm_compute; reflexivity|].
  refine (S gen_env gen_keyid 5%nat any_name kV3 dV true (ust_of dV) now0 gen_env_ok fV _ _ eq_refl).
  - apply per_ecu_check. vm_compute. reflexivity.
  - unfold now0. apply servable_check; vm_compute; reflexivity.
Qed.

(** Adding a target for an ECU leaves the one that it had: both are published, and a device refuses the Director's Targets. *)
Definition kW1 : disk := Eval vm_compute in fst (fst (gstep (c_image "two") kP)).
Definition kW2 : disk := Eval vm_compute in fst (fst (gstep (c_target "two" "ecu1") kW1)).
Definition kW : disk := Eval vm_compute in fst (fst (gstep CSignTargets kW2)).
Lemma fW : gfollow no_limits always kW db_empty true.
Proof.
  assert (F1 : gfollow no_limits always kW1 db_empty true).
  { refine (toy_ran _ _ kP db_empty true (c_image "two") kW1 _ _ eq_refl Logic.I _ (fP _ _ usual_any)); [vm_compute; reflexivity|vm_compute; reflexivity|].
    apply image_arguments; [reflexivity|vm_compute; discriminate]. }
  assert (F2 : gfollow no_limits always kW2 db_empty true).
  { refine (toy_ran _ _ kW1 db_empty true (c_target "two" "ecu1") kW2 _ _ eq_refl Logic.I _ F1); [vm_compute; reflexivity|vm_compute; reflexivity|].
    apply target_arguments; [reflexivity|apply ecu_ok]. }
  refine (toy_ran _ _ kW2 db_empty true CSignTargets kW _ _ eq_refl Logic.I Logic.I F2); vm_compute; reflexivity.
Qed.
Theorem C107_ecu_refuted : ~ C107_ecu_statement.
Proof.
  intros S. apply (per_ecu_refuted kW); [vm_compute; reflexivity|]. exact (S gen_env gen_keyid 5%nat any_name kW db_empty true gen_env_ok fW).
Qed.
Example C107_refused : fails (snd (director_update gen_env (publish kW) now0 (ust_of db_empty))) = true.
Proof. vm_compute. reflexivity. Qed.

Print Assumptions C106.
Print Assumptions C107_partial.
Print Assumptions C107_refuted.
Print Assumptions C107_ecu_refuted.
