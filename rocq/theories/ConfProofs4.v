(** Proofs about configurations: derived values and loading. *)
From Verif Require Import Base TufModel TufProofs GenProofs DeployModel DeploySpec DeployProofs ConfModel ConfSpec ConfProofs ConfProofs2 ConfProofs3.

(** ** Derived values *)
Lemma text_member m c d : member m c = member m d -> text_of m c = text_of m d.
Proof. unfold text_of. now intros ->. Qed.
Lemma text_with m v c : text_of m (with_member m (VS v) c) = v.
Proof. unfold text_of. rewrite member_with, String.eqb_refl. reflexivity. Qed.
Lemma member_same m v c : member m (with_member m v c) = Some v.
Proof. rewrite member_with, String.eqb_refl. reflexivity. Qed.
Lemma member_diff m v m' c : m' <> m -> member m' (with_member m v c) = member m' c.
Proof. intros N. rewrite member_with. destruct (String.eqb_spec m' m); [contradiction|reflexivity]. Qed.
Lemma if_empty_diff m v m' c : m' <> m -> member m' (if_empty m v c) = member m' c.
Proof. intros N. unfold if_empty. destruct (String.eqb (text_of m c) ""); [now apply member_diff|reflexivity]. Qed.
Lemma if_empty_same m v c : (text_of m c <> "" -> member m (if_empty m v c) = member m c) /\ (text_of m c = "" -> member m (if_empty m v c) = Some (VS v)).
Proof. unfold if_empty. destruct (String.eqb_spec (text_of m c) ""); (split; intros H; [congruence|]); [apply member_same|contradiction]. Qed.
Lemma if_empty_extra m v c : c_extra (if_empty m v c) = c_extra c.
Proof. unfold if_empty. destruct (String.eqb (text_of m c) ""); reflexivity. Qed.
Definition step1 (c : cfg) : cfg :=
  if String.eqb (text_of "provision.mode" c) "Default"
  then with_member "provision.mode" (VS (if String.eqb (text_of "provision.provision_path" c) "" then "DeviceCred" else "SharedCred")) c else c.
Definition step2 (E : penv) (c : cfg) : cfg :=
  if String.eqb (text_of "tls.server" c) "" then
    if negb (String.eqb (text_of "tls.server_url_path" c) "") then with_member "tls.server" (VS (url_file E (text_of "tls.server_url_path" c))) c
    else if negb (String.eqb (text_of "provision.provision_path" c) "") then
      match archive E (text_of "provision.provision_path" c) with Some u => with_member "tls.server" (VS u) c | None => c end
    else c
  else c.
Definition step3 (c : cfg) : cfg :=
  let s := text_of "tls.server" c in
  if negb (String.eqb s "") then
    if_empty "pacman.ostree_server" (append s "/treehub") (if_empty "uptane.director_server" (append s "/director") (if_empty "uptane.repo_server" (append s "/repo") (if_empty "provision.server" s c)))
  else c.
Definition step4 (c : cfg) : cfg :=
  let d := text_of "uptane.director_server" c in if negb (String.eqb d "") then if_empty "provision.ecu_registration_endpoint" (append d "/ecus") c else c.
Lemma post_steps E c : post_update E c = step4 (step3 (step2 E (step1 c))).
Proof. reflexivity. Qed.
Lemma step1_diff m c : m <> "provision.mode" -> member m (step1 c) = member m c.
Proof. intros N. unfold step1. destruct (String.eqb _ "Default"); [now apply member_diff|reflexivity]. Qed.
Lemma step2_diff E m c : m <> "tls.server" -> member m (step2 E c) = member m c.
Proof.
  intros N. unfold step2. destruct (String.eqb _ ""); [|reflexivity]. destruct (negb _); [now apply member_diff|]. destruct (negb _); [|reflexivity]. destruct (archive E _); [now apply member_diff|reflexivity].
Qed.
Lemma step3_diff m c : m <> "provision.server" -> m <> "uptane.repo_server" -> m <> "uptane.director_server" -> m <> "pacman.ostree_server" -> member m (step3 c) = member m c.
Proof. intros N1 N2 N3 N4. unfold step3. cbn zeta. destruct (negb _); [|reflexivity]. now rewrite !if_empty_diff. Qed.
Lemma step4_diff m c : m <> "provision.ecu_registration_endpoint" -> member m (step4 c) = member m c.
Proof. intros N. unfold step4. cbn zeta. destruct (negb _); [|reflexivity]. now apply if_empty_diff. Qed.
Lemma steps_extra E c : c_extra (post_update E c) = c_extra c.
Proof.
  rewrite post_steps. assert (X4 : forall c, c_extra (step4 c) = c_extra c) by (intros d; unfold step4; cbn zeta; destruct (negb _); [apply if_empty_extra|reflexivity]).
  assert (X3 : forall c, c_extra (step3 c) = c_extra c) by (intros d; unfold step3; cbn zeta; destruct (negb _); [now rewrite !if_empty_extra|reflexivity]).
  rewrite X4, X3. unfold step2, step1. destruct (String.eqb (text_of "provision.mode" c) "Default"); (destruct (String.eqb (text_of "tls.server" _) ""); [|reflexivity]; destruct (negb _); [reflexivity|]; destruct (negb _); [|reflexivity]; destruct (archive E _); reflexivity).
Qed.
Lemma step3_same m suf c : In (m, (("tls.server", suf))) derived_from ->
  (text_of m c <> "" \/ text_of "tls.server" c = "" -> member m (step3 c) = member m c) /\
  (text_of m c = "" -> text_of "tls.server" c <> "" -> member m (step3 c) = Some (VS (append (text_of "tls.server" c) suf))).
Proof.
  intros I. unfold step3. cbn zeta. destruct (String.eqb_spec (text_of "tls.server" c) "") as [E|E]; cbn [negb].
  { split; [reflexivity|]. intros _ X. contradiction. }
  set (s := text_of "tls.server" c) in *. destruct I as [I|[I|[I|[I|[I|[]]]]]]; inversion I; subst; clear I.
  - rewrite !if_empty_diff by discriminate. destruct (if_empty_same "provision.server" s c) as [A B]. split; [intros [H|H]; [auto|contradiction]|]. intros H _. rewrite (B H). now rewrite app_nil_r.
  - rewrite !(if_empty_diff "pacman.ostree_server"), !(if_empty_diff "uptane.director_server") by discriminate.
    destruct (if_empty_same "uptane.repo_server" (append s "/repo") (if_empty "provision.server" s c)) as [A B]. rewrite (text_member "uptane.repo_server" (if_empty "provision.server" s c) c) in A, B by (apply if_empty_diff; discriminate).
    split; [intros [H|H]; [|contradiction]; rewrite (A H); apply if_empty_diff; discriminate|auto].
  - rewrite !(if_empty_diff "pacman.ostree_server") by discriminate. set (c2 := if_empty "uptane.repo_server" _ _).
    assert (Q : member "uptane.director_server" c2 = member "uptane.director_server" c) by (unfold c2; rewrite !if_empty_diff by discriminate; reflexivity).
    destruct (if_empty_same "uptane.director_server" (append s "/director") c2) as [A B]. rewrite (text_member _ _ _ Q) in A, B. split; [intros [H|H]; [|contradiction]; rewrite (A H); exact Q|auto].
  - set (c2 := if_empty "uptane.director_server" _ _).
    assert (Q : member "pacman.ostree_server" c2 = member "pacman.ostree_server" c) by (unfold c2; rewrite !if_empty_diff by discriminate; reflexivity).
    destruct (if_empty_same "pacman.ostree_server" (append s "/treehub") c2) as [A B]. rewrite (text_member _ _ _ Q) in A, B. split; [intros [H|H]; [|contradiction]; rewrite (A H); exact Q|auto].
Qed.
Theorem post_derived E b : derived E b (post_update E b).
Proof.
  split; [apply steps_extra|]. rewrite post_steps. set (c1 := step1 b). set (c2 := step2 E c1). set (c3 := step3 c2). set (c4 := step4 c3).
  assert (D1 : forall m, m <> "provision.mode" -> member m c1 = member m b) by (intros m N; now apply step1_diff).
  assert (D2 : forall m, m <> "tls.server" -> member m c2 = member m c1) by (intros m N; now apply step2_diff).
  assert (D4 : forall m, m <> "provision.ecu_registration_endpoint" -> member m c4 = member m c3) by (intros m N; now apply step4_diff).
  assert (D3 : forall m, ~ In m ["provision.server"; "uptane.repo_server"; "uptane.director_server"; "pacman.ostree_server"] -> member m c3 = member m c2).
  { intros m N. cbn [In] in N. apply step3_diff; intros X; apply N; subst; tauto. }
  assert (DM : member "provision.mode" c4 = member "provision.mode" c1).
  { rewrite D4 by discriminate. rewrite D3 by (cbn [In]; intuition discriminate). now rewrite D2 by discriminate. }
  assert (DT : member "tls.server" c4 = member "tls.server" c2).
  { rewrite D4 by discriminate. now rewrite D3 by (cbn [In]; intuition discriminate). }
  assert (T1 : forall m, m <> "provision.mode" -> text_of m c1 = text_of m b) by (intros m N; apply text_member; auto).
  split.
  { intros m N1 N2 N3. cbn [derived_from map fst In] in N3. rewrite D4 by (intros X; subst m; tauto). rewrite D3 by (cbn [In]; tauto). rewrite D2 by tauto. auto. }
  rewrite DM, DT. split; [|split; [|split; [|split; [|split; [|split; [|split]]]]]].
  - intros H. unfold c1, step1. destruct (String.eqb_spec (text_of "provision.mode" b) "Default"); [contradiction|reflexivity].
  - intros H P. unfold c1, step1. rewrite H, P. apply member_same.
  - intros H P. unfold c1, step1. rewrite H. destruct (String.eqb_spec (text_of "provision.provision_path" b) ""); [contradiction|]. apply member_same.
  - intros H. unfold c2, step2. rewrite T1 by discriminate. destruct (String.eqb_spec (text_of "tls.server" b) ""); [contradiction|]. now apply D1.
  - intros H P. unfold c2, step2. rewrite !T1 by discriminate. rewrite H. destruct (String.eqb_spec (text_of "tls.server_url_path" b) ""); [contradiction|]. apply member_same.
  - intros u H P Q A. unfold c2, step2. rewrite !T1 by discriminate. rewrite H, P, A. destruct (String.eqb_spec (text_of "provision.provision_path" b) ""); [contradiction|]. apply member_same.
  - intros H P Q. unfold c2, step2. rewrite !T1 by discriminate. rewrite H, P. cbn [String.eqb negb]. destruct (String.eqb_spec (text_of "provision.provision_path" b) "") as [|N]; cbn [negb]; [now apply D1|].
    destruct Q as [Q|Q]; [contradiction|]. rewrite Q. now apply D1.
  - intros m from suf I. assert (B2 : In m (map fst derived_from) -> member m c2 = member m b).
    { intros J. cbn [derived_from map fst In] in J. rewrite D2 by (intros X; subst; intuition discriminate). apply D1. intros X; subst; intuition discriminate. }
    pose proof (in_map fst _ _ I) as J. cbn [fst] in J. specialize (B2 J). rewrite <- B2. rewrite <- (text_member _ _ _ B2). clear B2.
    assert (TL : text_of "tls.server" c4 = text_of "tls.server" c2) by (apply text_member; exact DT).
    destruct (String.eqb_spec from "tls.server") as [->|NF].
    + rewrite TL. rewrite D4; [exact (step3_same m suf c2 I)|]. clear -I. intros ->. cbn [derived_from In] in I. intuition discriminate.
    + cbn [derived_from In] in I. destruct I as [I|[I|[I|[I|[I|[]]]]]]; injection I as <- <- <-; try contradiction.
      assert (C3 : member "provision.ecu_registration_endpoint" c3 = member "provision.ecu_registration_endpoint" c2) by (apply D3; cbn [In]; intuition discriminate).
      rewrite <- C3, <- (text_member _ _ _ C3). rewrite (text_member "uptane.director_server" c4 c3) by (apply D4; discriminate).
      unfold c4, step4. cbn zeta. destruct (String.eqb_spec (text_of "uptane.director_server" c3) "") as [X|X]; cbn [negb].
      * split; [reflexivity|contradiction].
      * destruct (if_empty_same "provision.ecu_registration_endpoint" (append (text_of "uptane.director_server" c3) "/ecus") c3) as [A B]. split; [intros [H|H]; [auto|contradiction]|auto].
Qed.

(** ** Loading *)
Definition from_cmd (o : cmdline) : bool := match o_loglevel o with Some _ => true | None => false end.
Definition start (o : cmdline) : cfg := match o_loglevel o with Some z => with_member "logger.loglevel" (VZ z) cfg0 | None => cfg0 end.
Lemma load_steps E dirs o files : effective (searched dirs o) files ->
  load E dirs o = (if (match o_config o with Some l => existsb (fun p => match cp_what p with None => true | Some _ => false end) l | None => false end) then Throw EStd else
                   do c1 <- update_files (from_cmd o) files (start o); do c2 <- update_cmd o c1; Ok (post_update E c2)).
Proof.
  intros EF. rewrite (effective_unique _ _ _ EF (chosen_effective _)). unfold load, searched, from_cmd, start. cbn zeta.
  destruct (o_config o) as [l|]; [|reflexivity]. destruct (existsb _ l); reflexivity.
Qed.
Lemma not_in_opts : ~ In "logger.loglevel" (map (fun x => r_mem (snd x)) (opts true)).
Proof. intros J. assert (X : mem_str "logger.loglevel" (map (fun x => r_mem (snd x)) (opts true)) = true) by (apply existsb_exists; exists "logger.loglevel"; split; [exact J|apply String.eqb_refl]). vm_compute in X. discriminate. Qed.
Lemma opts_cases lg s r : In (s, r) options -> In (s, r) (opts lg) \/ (lg = true /\ r_mem r = "logger.loglevel").
Proof. intros I. destruct lg; [|now left]. unfold opts, options in *. cbn [app map tl log_rows] in *. destruct I as [I|I]; [inversion I; subst; right; auto|now left]. Qed.
Theorem load_settings E dirs o files : o_secfile o = None -> effective (searched dirs o) files ->
  (starts_well dirs o files -> exists b c, load E dirs o = Ok c /\ settings o files b /\ derived E b c) /\
  (~ starts_well dirs o files -> exists e, load E dirs o = Throw e).
Proof.
  intros SF EF. rewrite (load_steps E dirs o files EF). split.
  - intros [W R]. assert (X : (match o_config o with Some l => existsb (fun p => match cp_what p with None => true | Some _ => false end) l | None => false end) = false).
    { unfold searched in W. destruct (o_config o) as [l|]; [|reflexivity]. apply not_true_iff_false. rewrite existsb_exists. intros (p & I & H). destruct (cp_what p) eqn:Q; [discriminate|]. apply (W ltac:(discriminate) p I Q). }
    rewrite X. destruct (proj2 (files_readable (from_cmd o) files (start o)) R) as [c1 F]. rewrite F. cbn [bind].
    destruct (update_cmd o c1) as [c2|e] eqn:U; [|unfold update_cmd in U; rewrite SF in U; discriminate]. cbn [bind]. exists c2, (post_update E c2). split; [reflexivity|]. split; [|apply post_derived].
    destruct (cmd_member o c1 c2 U) as (_ & _ & CM). intros s r I. destruct (CM (r_mem r)) as [A B]. split; [exact A|]. intros NC. rewrite (B NC).
    destruct (opts_cases (from_cmd o) s r I) as [J|[J1 J2]].
    + assert (ST : member (r_mem r) (start o) = member (r_mem r) cfg0).
      { unfold start. destruct (o_loglevel o) as [z|] eqn:L; [|reflexivity]. apply member_diff. intros Q. apply (NC (VZ z)). rewrite Q. unfold on_command_line, cmd_options. rewrite L. now left. }
      destruct (files_member _ _ _ _ J _ _ F) as [(v & LS & M)|[NS M]].
      * split; [intros v' LS'; rewrite (last_says_one _ _ _ _ LS' LS); exact M|]. intros N. exfalso. exact (last_none _ _ _ LS N).
      * split; [intros v' LS'; exfalso; exact (last_none _ _ _ LS' NS)|]. intros _. now rewrite M.
    + exfalso. unfold from_cmd in J1. destruct (o_loglevel o) as [z|] eqn:L; [|discriminate]. apply (NC (VZ z)). rewrite J2. unfold on_command_line, cmd_options. rewrite L. now left.
  - intros N. destruct (match o_config o with Some l => existsb (fun p => match cp_what p with None => true | Some _ => false end) l | None => false end) eqn:X; [eauto|].
    destruct (update_files (from_cmd o) files (start o)) as [c1|e] eqn:F; [|exists e; reflexivity]. exfalso. apply N. split.
    + intros NO p I Q. unfold searched in I. destruct (o_config o) as [l|]; [|congruence]. apply not_true_iff_false in X. apply X. apply existsb_exists. exists p. rewrite Q. auto.
    + apply (files_readable (from_cmd o) files (start o)). eauto.
Qed.
