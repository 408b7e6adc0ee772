(** Properties of the generator of Uptane repositories: its commands publish what they were asked to publish, and a device is offered the
    update that was ordered for it. *)
From Verif Require Import Base Json TufModel TufSpec TufProofs MetaStore RepoModel RepoSpec RepoProofs4 ClientModel ClientSpec ChkSpec GenModel GenSpec GenSpec2 GenProofs11 GenProofs14 GenProofs15 GenProofs16 GenProofs17 GenProofs18 GenToy GenToy2 PropsGen.

(** ** C108: an image that is added is published as it is *)
(** The published target describes the image. *)
Definition describes_image (E : Env) (x : target) (im : image) (name hw url : string) : Prop :=
  match im with
  | IBinary content => describes E x content name hw url
  | ICustom h len custom => describes_digest x h len name hw url
  end.
(** The length of an image that is given by its digest, as the command line can give it. *)
Definition length_ok (im : image) (bound : Z) : Prop := match im with IBinary _ => True | ICustom _ len _ => 0 <= len < bound end.
(** In any state that the commands lead to: the next version of the Targets lists the image instead of the one that had its name, all
    other images and the delegations stay, and the Director repository is not touched. *)
Definition C108_statement : Prop := forall E keyid depth fnm k d ok k' im name hw url t t',
  env_ok E -> follows E keyid depth fnm no_limits always k d ok -> runs E keyid depth fnm k [CImage im name hw url None] k' -> length_ok im (2 ^ 64) ->
  published E Image k t -> published E Image k' t' ->
  tg_version t' = tg_version t + 1 /\ same_delegations t t' /\ k_dir k' = k_dir k /\
  exists x, describes_image E x im name hw url /\ replaced (tg_targets t) (tg_targets t') x.
(** It holds for files, and for digests of images of less than 4 GiB. *)
Theorem C108_partial E keyid depth fnm k d ok k' im name hw url t t' :
  env_ok E -> follows E keyid depth fnm no_limits always k d ok -> runs E keyid depth fnm k [CImage im name hw url None] k' -> length_ok im (2 ^ 32) ->
  published E Image k t -> published E Image k' t' ->
  tg_version t' = tg_version t + 1 /\ same_delegations t t' /\ k_dir k' = k_dir k /\
  exists x, describes_image E x im name hw url /\ replaced (tg_targets t) (tg_targets t') x.
Proof.
  intros HE F H L P (raw & P' & T'). apply image_follow in F as (KI & HK & C & _ & _); [|exact HE].
  apply runs_cons in H as (I & k1 & l & Iv & A & H & B & R). apply runs_nil in R. subst k1.
  destruct im as [content|h len custom].
  - destruct (image_content E keyid depth fnm HE KI I k k' l (IBinary content) name hw url _ raw HK C Iv A H B eq_refl P') as (ti & c & x & Ti & Dk & Hc & X & _ & Q).
    assert (ti = t') as -> by (destruct Ti as (b1 & Z1), T' as (b2 & Z2); congruence). destruct (Q t P) as (V & S & Rp).
    split; [exact V|]. split; [exact S|]. split; [exact Dk|]. exists x. split; [|exact Rp]. destruct A as (A & _ & (_ & Ah) & _). eapply read_binary; eauto.
  - assert (exists j, custom_target h len url custom = Ok j) as (j & J).
    { destruct A as (_ & _ & _ & _). unfold run_command in H. apply on_side_run in H as (s & H & _). apply gbind_ok in H as (s1 & dn & _ & H). apply gbind_ok in H as (s2 & j & J & _). apply lift_inv in J as (_ & J). eauto. }
    destruct (image_content E keyid depth fnm HE KI I k k' l (ICustom h len custom) name hw url j raw HK C Iv A H B J P') as (ti & c & x & Ti & Dk & Hc & X & _ & Q).
    assert (ti = t') as -> by (destruct Ti as (b1 & Z1), T' as (b2 & Z2); congruence). destruct (Q t P) as (V & S & Rp).
    split; [exact V|]. split; [exact S|]. split; [exact Dk|]. exists x. split; [|exact Rp]. destruct A as (_ & _ & (_ & Ah) & _). exact (read_custom h len url custom hw j name c x L Ah J Hc X).
Qed.

(** ** C109: the Director publishes the assignments that were asked for *)
(** "addtarget" and "signtargets": what would have been published before ([ta]) is published with the image assigned to the ECU, so that the
    assignments of the other ECUs stay. *)
Definition keeps_others (old new : targets) (serial : string) : Prop :=
  forall y s h, In y (tg_targets old) -> In (s, h) (t_ecus y) -> s <> serial ->
    exists z, In z (tg_targets new) /\ t_filename z = t_filename y /\ In (s, h) (t_ecus z).
Definition C109_statement : Prop := forall E keyid depth fnm k d ok ka kc name hw serial url expires names ti i t ta tc,
  env_ok E -> follows E keyid depth fnm staged_first always k d ok ->
  runs E keyid depth fnm k [CSignTargets] ka -> runs E keyid depth fnm k [CAddTarget name hw serial url expires names; CSignTargets] kc ->
  published E Image k ti -> In i (tg_targets ti) -> t_filename i = name ->
  published E Director k t -> published E Director ka ta -> published E Director kc tc ->
  tg_version tc = tg_version t + 1 /\ (exists x, assigns x i serial hw url /\ In x (tg_targets tc)) /\ keeps_others ta tc serial.
(** It holds but for other ECUs that the same image was assigned to: *)
Theorem C109_partial E keyid depth fnm k d ok ka kc name hw serial url expires names ti i t ta tc :
  env_ok E -> follows E keyid depth fnm staged_first always k d ok ->
  runs E keyid depth fnm k [CSignTargets] ka -> runs E keyid depth fnm k [CAddTarget name hw serial url expires names; CSignTargets] kc ->
  published E Image k ti -> In i (tg_targets ti) -> t_filename i = name ->
  published E Director k t -> published E Director ka ta -> published E Director kc tc ->
  tg_version tc = tg_version t + 1 /\ k_img kc = k_img k /\ exists x, assigns x i serial hw url /\ replaced (tg_targets ta) (tg_targets tc) x.
Proof.
  intros HE F H1 H2 Pi Hi Hn Pt Pa (raw & P & T).
  apply runs_cons in H1 as (I1 & k1 & l1 & Iv1 & _ & R1 & B1 & H1). apply runs_nil in H1. subst k1.
  apply runs_cons in H2 as (I2 & kb & l2 & Iv2 & A2 & R2 & B2 & H2). apply runs_cons in H2 as (I3 & k3 & l3 & Iv3 & _ & R3 & B3 & H2). apply runs_nil in H2. subst k3.
  destruct (GenProofs17.assigned E keyid depth fnm HE _ k d ok I1 I2 I3 ka l1 kb l2 kc l3 name hw serial url expires names t ta ti i raw F Iv1 Iv2 Iv3 R1 B1 A2 R2 B2 R3 B3 Pt Pa Pi Hi Hn P) as (tc' & x & T' & V & As & Rp & M).
  assert (tc' = tc) as -> by (destruct T as (b1 & Z1), T' as (b2 & Z2); congruence). split; [exact V|]. split; [exact M|]. exists x. auto.
Qed.
(** "emptytargets" and "signtargets": the next version is empty. *)
Theorem C109_empty E keyid depth fnm k d ok kc t tc :
  env_ok E -> follows E keyid depth fnm staged_first always k d ok -> runs E keyid depth fnm k [CEmptyTargets; CSignTargets] kc ->
  published E Director k t -> published E Director kc tc ->
  tg_version tc = tg_version t + 1 /\ tg_targets tc = [] /\ k_img kc = k_img k.
Proof.
  intros HE F H2 Pt (raw & P & T).
  apply runs_cons in H2 as (I2 & kb & l2 & Iv2 & A2 & R2 & B2 & H2). apply runs_cons in H2 as (I3 & k3 & l3 & Iv3 & _ & R3 & B3 & H2). apply runs_nil in H2. subst k3.
  destruct (emptied E keyid depth fnm HE _ k d ok I2 I3 kb l2 kc l3 t raw F Iv2 Iv3 R2 B2 R3 B3 Pt P) as (tc' & T' & V & L & M).
  assert (tc' = tc) as -> by (destruct T as (b1 & Z1), T' as (b2 & Z2); congruence). auto.
Qed.
(** "oldtargets" and "signtargets": what was published stays, whatever was staged. *)
Theorem C109_old E keyid depth fnm k d ok kc t tc :
  env_ok E -> follows E keyid depth fnm staged_first always k d ok -> runs E keyid depth fnm k [COldTargets; CSignTargets] kc ->
  published E Director k t -> published E Director kc tc ->
  tg_version tc = tg_version t /\ tg_targets tc = tg_targets t /\ k_img kc = k_img k.
Proof.
  intros HE F H2 Pt (raw & P & T).
  apply runs_cons in H2 as (I2 & kb & l2 & Iv2 & A2 & R2 & B2 & H2). apply runs_cons in H2 as (I3 & k3 & l3 & Iv3 & _ & R3 & B3 & H2). apply runs_nil in H2. subst k3.
  destruct (renewed E keyid depth fnm HE _ k d ok I2 I3 kb l2 kc l3 t raw F Iv2 Iv3 R2 B2 R3 B3 Pt P) as (tc' & T' & V & L & M).
  assert (tc' = tc) as -> by (destruct T as (b1 & Z1), T' as (b2 & Z2); congruence). auto.
Qed.

(** ** C110: a device is offered the update that was ordered for it *)
(** In whatever state the repositories are: after an image was added and assigned to an ECU as the documentation says, and whatever a device
    that follows the repositories has seen before, its next check for updates succeeds and offers this image for this ECU and nothing else
    (or else two Snapshots are a collision of both hash functions). *)
Theorem C110 E keyid depth fnm k d ok k' d' s content name hw serial url url' expires names clkd clki now v :
  env_ok E -> follows E keyid depth fnm staged_first (one_per_ecu E) k d ok ->
  runs E keyid depth fnm k [CImage (IBinary content) name hw url None; CEmptyTargets; CAddTarget name hw serial url' expires names; CSignTargets] k' ->
  follows E keyid depth fnm staged_first (one_per_ecu E) k' d' true -> u_db s = d' -> servable E k' Director clkd -> servable E k' Image clki ->
  ecu_present v serial hw -> v_ostree v = false -> installed_answers v ->
  (forall c, v_installed v serial = Ok (Some (Some c)) -> t_filename c <> name) ->
  snapshot_collision E k' d' \/
  exists s' x y n, check_updates E fnm (publish k') clkd clki now v s = (s', Ok (UcUpdates [y] n)) /\
    orders E x content name serial hw /\ t_uri x = shown_url url' /\ but_uri x y.
Proof. intros HE. now apply offered. Qed.

(** *** Examples *)
Notation grun := (runs gen_env gen_keyid 5 any_name).
Lemma toy_run c k k1 cs k' : step_b c k = true -> fst (fst (gstep c k)) = k1 -> arguments_ok gen_env gen_keyid I0 c -> grun k1 cs k' -> grun k (c :: cs) k'.
Proof.
  unfold step_b. destruct (gstep c k) as ((k2, l), r) eqn:H. cbn [fst snd]. intros B <- A R. apply andb_true_iff in B as (B & C). apply andb_true_iff in B as (B & D). destruct r as [[]|]; [|discriminate C].
  refine (ru_next gen_env gen_keyid 5 any_name I0 c k k2 l cs k' _ A H (bounded_disks _ D) R). apply keys_check; auto; apply time_toy.
Qed.
Definition pub (rp : repo) (k : disk) : res targets :=
  do raw <- publish k rp "targets" (-1); do b <- base_init (toy_parse raw); targets_init gen_env b "targets" (toy_parse raw).
Lemma toy_published rp k t : pub rp k = Ok t -> published gen_env rp k t.
Proof.
  unfold pub. intros H. apply bind_ok in H as (raw & P & H). apply bind_ok in H as (b & B & H). exists raw. split; [exact P|].
  pose proof (targets_init_base _ _ _ _ _ H) as e. subst b. split; [exact B|exact H].
Qed.
Definition out {A} (x : A) (r : res A) : A := match r with Ok a => a | Throw _ => x end.
Definition shape (t : target) := (t_filename t, t_length t, t_hwids t, t_ecus t).
Definition pA : targets := Eval vm_compute in out targets_empty (pub Image kA).
Definition pC : targets := Eval vm_compute in out targets_empty (pub Image kI).
Example C108_case : gfollow no_limits always kE db_empty true /\ grun kE [c_image "two"] kI /\ published gen_env Image kE pA /\ published gen_env Image kI pC /\
  map shape (tg_targets pC) = [("one", 14, ["hw1"], []); ("two", 14, ["hw1"], [])]%string /\ tg_version pC = tg_version pA + 1.
Proof.
  split. { refine (toy_ran _ _ kP db_empty true CEmptyTargets kE _ _ eq_refl Logic.I Logic.I (fP _ _ usual_any)); vm_compute; reflexivity. }
  split. { refine (toy_run (c_image "two") kE kI [] kI _ _ _ (ru_done _ _ _ _ _)); [vm_compute; reflexivity|vm_compute; reflexivity|]. apply image_arguments; [reflexivity|vm_compute; discriminate]. }
  split; [apply toy_published; vm_compute; reflexivity|]. split; [apply toy_published; vm_compute; reflexivity|]. split; vm_compute; reflexivity.
Qed.
(** The length is written with 32 bits. *)
Definition big : command := CImage (ICustom (mk_hash_t Sha256 "aa") 4294967301 (JObj [("targetFormat", JStr "OSTREE")])) "big" "hw1" "" None.
Definition kBig : disk := Eval vm_compute in fst (fst (gstep big kA)).
Definition pBig : targets := Eval vm_compute in out targets_empty (pub Image kBig).
Lemma big_run : grun kA [big] kBig.
Proof.
  refine (toy_run big kA kBig [] kBig _ _ _ (ru_done _ _ _ _ _)); [vm_compute; reflexivity|vm_compute; reflexivity|].
  split; [|split; [reflexivity|split; [split; [reflexivity|cbn; lia]|reflexivity]]].
  split; [reflexivity|]. split; [reflexivity|]. split; [right; reflexivity|]. eexists. vm_compute. reflexivity.
Qed.
Theorem C108_refuted : ~ C108_statement.
Proof.
  intros S. destruct (S gen_env gen_keyid 5%nat any_name kA db_empty true kBig (ICustom (mk_hash_t Sha256 "aa") 4294967301 (JObj [("targetFormat", JStr "OSTREE")])) "big" "hw1" "" pA pBig gen_env_ok fA big_run) as (_ & _ & _ & x & Dx & Rp).
  - cbn. lia.
  - apply toy_published. vm_compute. reflexivity.
  - apply toy_published. vm_compute. reflexivity.
  - assert (Hx : In x (tg_targets pBig)) by (apply Rp; now left). pose proof (dd_length _ _ _ _ _ _ Dx) as Lx.
    assert (Q : forallb (fun y => negb (t_length y =? 4294967301)) (tg_targets pBig) = true) by (vm_compute; reflexivity).
    rewrite forallb_forall in Q. specialize (Q x Hx). rewrite Lx in Q. discriminate Q.
Qed.
Example C108_truncated : map (fun t => (t_filename t, t_length t)) (tg_targets pBig) = [("big", 5); ("one", 14)]%string. Proof. vm_compute. reflexivity. Qed.

(** Another image is assigned to another ECU. *)
Definition kX0 : disk := Eval vm_compute in fst (fst (gstep (c_image "two") kP)).
Definition kX1 : disk := Eval vm_compute in fst (fst (gstep (c_target "two" "ecu2") kX0)).
Definition kX2 : disk := Eval vm_compute in fst (fst (gstep CSignTargets kX1)).
Definition kXa : disk := Eval vm_compute in fst (fst (gstep CSignTargets kX0)).
Definition pX0i : targets := Eval vm_compute in out targets_empty (pub Image kX0).
Definition pX0 : targets := Eval vm_compute in out targets_empty (pub Director kX0).
Definition pXa : targets := Eval vm_compute in out targets_empty (pub Director kXa).
Definition pX2 : targets := Eval vm_compute in out targets_empty (pub Director kX2).
Definition two : target := Eval vm_compute in nth 1 (tg_targets pX0i) (target_blank "").
Definition one : target := Eval vm_compute in nth 0 (tg_targets pX0i) (target_blank "").
Lemma ecu2_ok : serial_ok "ecu2". Proof. split; [reflexivity|]. cbn; lia. Qed.
Lemma fX0 : gfollow staged_first always kX0 db_empty true.
Proof.
  refine (toy_ran _ _ kP db_empty true (c_image "two") kX0 _ _ eq_refl Logic.I _ (fP _ _ usual_staged)); [vm_compute; reflexivity|vm_compute; reflexivity|].
  apply image_arguments; [reflexivity|vm_compute; discriminate].
Qed.
Lemma rXa : grun kX0 [CSignTargets] kXa.
Proof. refine (toy_run CSignTargets kX0 kXa [] kXa _ _ Logic.I (ru_done _ _ _ _ _)); vm_compute; reflexivity. Qed.
Lemma rX2 : grun kX0 [c_target "two" "ecu2"; CSignTargets] kX2.
Proof.
  refine (toy_run (c_target "two" "ecu2") kX0 kX1 _ kX2 _ _ _ _); [vm_compute; reflexivity|vm_compute; reflexivity|apply target_arguments; [reflexivity|apply ecu2_ok]|].
  refine (toy_run CSignTargets kX1 kX2 [] kX2 _ _ Logic.I (ru_done _ _ _ _ _)); vm_compute; reflexivity.
Qed.
Example C109_case : gfollow staged_first always kX0 db_empty true /\ grun kX0 [CSignTargets] kXa /\ grun kX0 [c_target "two" "ecu2"; CSignTargets] kX2 /\
  published gen_env Image kX0 pX0i /\ In two (tg_targets pX0i) /\ t_filename two = "two"%string /\ published gen_env Director kX0 pX0 /\ published gen_env Director kXa pXa /\ published gen_env Director kX2 pX2 /\
  map shape (tg_targets pX2) = [("one", 14, [], [("ecu1", "hw1")]); ("two", 14, [], [("ecu2", "hw1")])]%string /\ tg_version pX2 = tg_version pX0 + 1.
Proof.
  split; [exact fX0|]. split; [exact rXa|]. split; [exact rX2|]. split; [apply toy_published; vm_compute; reflexivity|]. split; [vm_compute; tauto|]. split; [vm_compute; reflexivity|].
  split; [apply toy_published; vm_compute; reflexivity|]. split; [apply toy_published; vm_compute; reflexivity|]. split; [apply toy_published; vm_compute; reflexivity|]. split; vm_compute; reflexivity.
Qed.
(** The image of one ECU is assigned to a second one: the first one loses it. *)
Definition kY1 : disk := Eval vm_compute in fst (fst (gstep (c_target "one" "ecu2") kX0)).
Definition kY2 : disk := Eval vm_compute in fst (fst (gstep CSignTargets kY1)).
Definition pY2 : targets := Eval vm_compute in out targets_empty (pub Director kY2).
Lemma rY2 : grun kX0 [c_target "one" "ecu2"; CSignTargets] kY2.
Proof.
  refine (toy_run (c_target "one" "ecu2") kX0 kY1 _ kY2 _ _ _ _); [vm_compute; reflexivity|vm_compute; reflexivity|apply target_arguments; [reflexivity|apply ecu2_ok]|].
  refine (toy_run CSignTargets kY1 kY2 [] kY2 _ _ Logic.I (ru_done _ _ _ _ _)); vm_compute; reflexivity.
Qed.
Theorem C109_refuted : ~ C109_statement.
Proof.
  intros S. destruct (S gen_env gen_keyid 5%nat any_name kX0 db_empty true kXa kY2 "one" "hw1" "ecu2" "" "" [] pX0i one pX0 pXa pY2 gen_env_ok fX0 rXa rY2) as (_ & _ & K).
  - apply toy_published. vm_compute. reflexivity.
  - vm_compute. tauto.
  - vm_compute. reflexivity.
  - apply toy_published. vm_compute. reflexivity.
  - apply toy_published. vm_compute. reflexivity.
  - apply toy_published. vm_compute. reflexivity.
  - destruct (K (nth 0 (tg_targets pXa) (target_blank "")) "ecu1" "hw1") as (z & Hz & _ & Ez); [vm_compute; tauto|vm_compute; tauto|discriminate|].
    assert (Q : forallb (fun y => forallb (fun e => negb (String.eqb (fst e) "ecu1")) (t_ecus y)) (tg_targets pY2) = true) by (vm_compute; reflexivity).
    rewrite forallb_forall in Q. specialize (Q z Hz). rewrite forallb_forall in Q. specialize (Q _ Ez). discriminate Q.
Qed.

(** A device that runs "one" and has used the repositories before is offered "two". *)
Definition car : vehicle :=
  {| v_primary := "ecu1"; v_primary_hw := "hw1"; v_secondaries := []; v_installed := fun _ => Ok (Some (Some one)); v_ostree := false; v_pending := false |}.
Definition kZ1 : disk := Eval vm_compute in fst (fst (gstep (c_image "two") kP)).
Definition kZ2 : disk := Eval vm_compute in fst (fst (gstep CEmptyTargets kZ1)).
Definition kZ3 : disk := Eval vm_compute in fst (fst (gstep (c_target "two" "ecu1") kZ2)).
Definition kZ : disk := Eval vm_compute in fst (fst (gstep CSignTargets kZ3)).
Lemma kP_per_ecu : one_per_ecu gen_env kP. Proof. apply per_ecu_check. vm_compute. reflexivity. Qed.
Lemma fP' : gfollow staged_first (one_per_ecu gen_env) kP dP true.
Proof. refine (toy_device staged_first (one_per_ecu gen_env) kP db_empty true (OpDirectorUpdate (publish kP) now0) dP (fP _ _ usual_staged) kP_per_ecu eq_refl _). vm_compute. reflexivity. Qed.
Lemma two_ok : arguments_ok gen_env gen_keyid I0 (c_image "two"). Proof. apply image_arguments; [reflexivity|vm_compute; discriminate]. Qed.
Lemma two_ecu_ok : arguments_ok gen_env gen_keyid I0 (c_target "two" "ecu1"). Proof. apply target_arguments; [reflexivity|apply ecu_ok]. Qed.
Lemma rZ : grun kP [c_image "two"; CEmptyTargets; c_target "two" "ecu1"; CSignTargets] kZ.
Proof.
  refine (toy_run (c_image "two") kP kZ1 _ kZ _ _ two_ok _); [vm_compute; reflexivity|vm_compute; reflexivity|].
  refine (toy_run CEmptyTargets kZ1 kZ2 _ kZ _ _ Logic.I _); [vm_compute; reflexivity|vm_compute; reflexivity|].
  refine (toy_run (c_target "two" "ecu1") kZ2 kZ3 _ kZ _ _ two_ecu_ok _); [vm_compute; reflexivity|vm_compute; reflexivity|].
  refine (toy_run CSignTargets kZ3 kZ [] kZ _ _ Logic.I (ru_done _ _ _ _ _)); vm_compute; reflexivity.
Qed.
Lemma fZ : gfollow staged_first (one_per_ecu gen_env) kZ dP true.
Proof.
  assert (F1 : gfollow staged_first (one_per_ecu gen_env) kZ1 dP true) by (refine (toy_ran _ _ kP dP true (c_image "two") kZ1 _ _ eq_refl Logic.I two_ok fP'); vm_compute; reflexivity).
  assert (F2 : gfollow staged_first (one_per_ecu gen_env) kZ2 dP true) by (refine (toy_ran _ _ kZ1 dP true CEmptyTargets kZ2 _ _ eq_refl Logic.I Logic.I F1); vm_compute; reflexivity).
  assert (F3 : gfollow staged_first (one_per_ecu gen_env) kZ3 dP true) by (refine (toy_ran _ _ kZ2 dP true (c_target "two" "ecu1") kZ3 _ _ eq_refl Logic.I two_ecu_ok F2); vm_compute; reflexivity).
  refine (toy_ran _ _ kZ3 dP true CSignTargets kZ _ _ eq_refl Logic.I Logic.I F3); vm_compute; reflexivity.
Qed.
Definition offers (r : res update_check) : list (string * Z * list (string * string)) := match r with Ok (UcUpdates l _) => map (fun t => (t_filename t, t_length t, t_ecus t)) l | _ => [] end.
Example C110_case : gfollow staged_first (one_per_ecu gen_env) kP dP true /\ grun kP [c_image "two"; CEmptyTargets; c_target "two" "ecu1"; CSignTargets] kZ /\
  gfollow staged_first (one_per_ecu gen_env) kZ dP true /\ servable gen_env kZ Director now0 /\ servable gen_env kZ Image now0 /\ ecu_present car "ecu1" "hw1" /\ installed_answers car /\
  (forall c, v_installed car "ecu1" = Ok (Some (Some c)) -> t_filename c <> "two"%string) /\
  offers (snd (check_updates gen_env any_name (publish kZ) now0 now0 (fun _ => now0 RTargets) car (ust_of dP))) = [("two", 14, [("ecu1", "hw1")])]%string.
Proof.
  split; [exact fP'|]. split; [exact rZ|]. split; [exact fZ|]. split; [unfold now0; apply servable_check; vm_compute; reflexivity|]. split; [unfold now0; apply servable_check; vm_compute; reflexivity|].
  split; [left; split; [reflexivity|split; [reflexivity|discriminate]]|]. split; [intros s; eexists; reflexivity|]. split; [intros c H; injection H as <-; vm_compute; discriminate|]. vm_compute. reflexivity.
Qed.

Print Assumptions C108_partial.
Print Assumptions C108_refuted.
Print Assumptions C109_partial.
Print Assumptions C109_empty.
Print Assumptions C109_old.
Print Assumptions C109_refuted.
Print Assumptions C110.
