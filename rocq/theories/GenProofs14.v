(** A device that follows the repositories can always update. *)
From Verif Require Import Base Json TufModel TufSpec TufProofs MetaStore RepoModel RepoSpec RepoProofs RepoProofs2 RepoProofs3 RepoProofs4 RepoProofs5 RepoProofs6 OrdSpec OrdProofs CodecModel CodecSpec CodecProofs GenModel GenSpec GenProofs GenProofs2 GenProofs3 GenProofs4 GenProofs5 GenProofs6 GenProofs11 GenProofs12 GenProofs13.

Section OrderDirector.
Context (E : Env) (keyid : pubkey -> string) (HE : env_ok E).
Context (K : repo_keys) (HK : keys_ok E keyid K).
Context (k : disk) (clk : clock) (HC : core E keyid Director K (k_dir k)) (HV : servable E k Director clk) (HO : one_per_ecu E k).

Lemma director_ready D : rows_ok E keyid Director K (k_dir k) D ->
  forall l R, rt_ks R = root_keyset E keyid K ->
  exists t raw, director_in_order E (publish k) clk D l R t /\ publish k Director "targets" (-1) = Ok raw /\ targets_doc E "targets" (parse E raw) t.
Proof.
  intros HR l R RK.
  pose proof HC as (_ & _ & (cu & de & et & ts & tv & Tg & Td) & _). change (k_dir k) with (side_of Director k) in Td.
  destruct (published E keyid Director K k clk HV role_targets _ ltac:(cbn; tauto) Td) as (graw & Q1 & Q2 & Q3).
  pose proof Tg as (G1 & G2 & G3 & G4 & G5 & G6).
  assert (Vt : ver E "targets.json" (k_dir k) = tv) by (apply publish_get in Q1; eapply (ver_targets E keyid HE Director K (k_dir k)); eauto).
  destruct (parse_text E keyid HE K _ _ _ Q2) as (kid3 & m3 & sg3 & Pg & _ & Ag & _).
  destruct (targets_parse E kid3 m3 sg3 cu de et ts tv G1 G2 G3 G5 (proj1 G4)) as (t & tl & W2 & W3 & W4 & W5 & W6). rewrite <- Pg in W2.
  exists t, graw. split; [|split; [exact Q1|exact W2]]. exists graw, tv. split; [exact Q1|]. split; [eapply extract_text; eauto; apply jget_tgt_version|]. split; [lia|].
  split; [now rewrite RK|]. split; [exact W2|]. split; [apply Q3; apply W2|]. split; [apply W6; now apply G6|]. split; [now apply (HO graw)|]. right.
  destruct (stored_row E keyid Director K k D RTargets ltac:(discriminate) HR) as [X|(w & X1 & X2 & X3 & X4)].
  - split; [now left|]. right. intros sraw st H. congruence.
  - specialize (X1 X2). rewrite X3 in X1. destruct X1 as (cu1 & de1 & e1 & ts1 & v1 & Y1 & Y2 & Y3 & Y4). rewrite (nul_free_blob _ (text_nul E keyid HE K _ _ _ Y1)) in X4. cbn [bind] in X4.
    split.
    + right. exists (w_data w), v1. split; [exact X4|]. split; [eapply extract_text; eauto; [apply jget_tgt_version|apply Y2]|]. cbn [side_of] in Y3. lia.
    + right. intros sraw st H. rewrite X4 in H. injection H as <-. apply Y4.
Qed.
End OrderDirector.

Section Follow.
Context (E : Env) (keyid : pubkey -> string) (depth : nat) (fnm : string -> string -> bool) (HE : env_ok E).

Lemma on_side_run rp m k k' l r : on_side rp m k = (k', l, r) -> exists s, m (start (side_of rp k)) = (s, r) /\ side_of rp k' = g_side s /\ k' = set_side rp (g_side s) k /\ l = map (fun d => set_side rp d k) (g_log s).
Proof.
  unfold on_side. destruct (m (start (side_of rp k))) as (s, x) eqn:H. intros X. injection X as <- <- <-. exists s. split; [reflexivity|]. split; [now destruct rp|auto].
Qed.
Lemma generate_both I KD KI k l : arguments_ok E keyid I (CGenerate KD KI) -> time_ok (n_expires I) -> ascii_text (n_corr I) = true ->
  run_command E keyid depth fnm I (CGenerate KD KI) disk_empty = (k, l, Ok tt) -> Forall (bounded_disk E) l ->
  core E keyid Director KD (k_dir k) /\ core E keyid Image KI (k_img k) /\ consistent E keyid KI (k_img k).
Proof.
  intros (A1 & A2 & A3) T C H B. cbn [run_command] in H.
  destruct (on_side Director (generate_repo E keyid I Director KD) disk_empty) as ((k1, l1), r1) eqn:H1. destruct r1 as [[]|e]; [|discriminate].
  destruct (on_side Image (generate_repo E keyid I Image KI) k1) as ((k2, l2), r2) eqn:H2. injection H as <- <- ->.
  apply on_side_run in H1 as (s1 & R1 & S1 & K1 & L1). apply on_side_run in H2 as (s2 & R2 & S2 & K2 & L2).
  assert (k_dir k2 = g_side s1) as Dk by (rewrite K2, K1; reflexivity). rewrite Dk. cbn [side_of] in S2. rewrite S2.
  assert (start (side_of Image k1) = start side_empty) as St by (rewrite K1; reflexivity). rewrite St in R2. change (start (side_of Director disk_empty)) with (start side_empty) in R1.
  apply Forall_app in B as (B2 & B1).
  assert (Bs : forall rp K s, generate_repo E keyid I rp K (start side_empty) = (s, Ok tt) -> In (g_side s) (g_log s)).
  { intros rp K s H. unfold generate_repo in H. do 10 (apply gbind_ok in H as (? & ? & _ & H)). apply gbind_ok in H as (s3 & u & H3 & H). injection H as <-.
    apply write_signed_ok in H3 as (-> & _). now left. }
  assert (Bd : bounded E (g_side s1)).
  { apply Bs in R1. rewrite L1 in B1. rewrite Forall_forall in B1. exact (proj1 (B1 _ (in_map (fun d => set_side Director d disk_empty) _ _ R1))). }
  assert (Bi : bounded E (g_side s2)).
  { pose proof (Bs _ _ _ R2) as R2'. rewrite L2 in B2. rewrite Forall_forall in B2. exact (proj2 (B2 _ (in_map (fun d => set_side Image d k1) _ _ R2'))). }
  split.
  - apply (generate_core E keyid fnm HE Director KD I s1 A1); auto. intros kp i. apply A3. apply in_or_app. now left.
  - apply (generate_core E keyid fnm HE Image KI I s2 A2); auto. intros kp i. apply A3. apply in_or_app. now right.
Qed.

(** ** The Image repository *)
Lemma image_follow allowed visible k d ok : follows E keyid depth fnm allowed visible k d ok ->
  exists KI, keys_ok E keyid KI /\ core E keyid Image KI (k_img k) /\ rows_ok E keyid Image KI (k_img k) d /\ (ok = true -> consistent E keyid KI (k_img k)).
Proof.
  induction 1 as [I KD KI k l A T C H B | k d ok I c k' l r F IH Ng Al Iv Ar H B | k d ok I c k' l r kk F IH Ng Al Iv Ar H B Hin | k d ok o s s' r d' F IH Vis Op Ud Ul H Hin].
  - destruct (generate_both I KD KI k l A T C H B) as (_ & C1 & C2). exists KI. split; [apply A|]. split; [exact C1|]. split; [apply rows_empty|auto].
  - destruct IH as (KI & HK & C & R & S). destruct (image_step E keyid depth fnm HE KI I c k k' l r HK C Ng Iv Ar H B) as ((C1 & L1) & _ & X).
    exists KI. split; [exact HK|]. split; [exact C1|]. split; [eapply rows_later; eauto|]. destruct (concerns Image c).
    + destruct r as [[]|e]; [intros _; now apply X|discriminate].
    + destruct X as (X & _). rewrite X. exact S.
  - destruct IH as (KI & HK & C & R & S). destruct (image_step E keyid depth fnm HE KI I c k k' l r HK C Ng Iv Ar H B) as (_ & L1 & X).
    rewrite Forall_forall in L1. destruct (L1 kk Hin) as (C1 & L2).
    exists KI. split; [exact HK|]. split; [exact C1|]. split; [eapply rows_later; eauto|]. destruct (concerns Image c); [discriminate|].
    destruct X as (_ & X). rewrite Forall_forall in X. rewrite (X kk Hin). exact S.
  - destruct IH as (KI & HK & C & R & S). exists KI. split; [exact HK|]. split; [exact C|]. split; [|exact S]. change (k_img k) with (side_of Image k) in *.
    eapply device_rows; eauto; [discriminate|now rewrite Ud].
Qed.
Theorem image_accepted allowed visible k d s clk : follows E keyid depth fnm allowed visible k d true -> servable E k Image clk -> u_db s = d ->
  snapshot_collision E k d \/
  exists s' t raw, image_update E (publish k) clk s = (s', Ok tt) /\ u_itargets s' = Some t /\ publish k Image "targets" (-1) = Ok raw /\ targets_doc E "targets" (parse E raw) t.
Proof.
  intros F V <-. apply image_follow in F as (KI & HK & C & R & S). specialize (S eq_refl).
  change (k_img k) with (side_of Image k) in C, R, S. destruct (roots_ready E keyid HE Image KI HK k clk C V (u_db s) R) as (l & R' & RO & RK).
  destruct (image_ready E keyid HE KI k clk C V S (u_db s) R l R' RK) as [X|(tm & sn & t & raw & IO & P & T)]; [now left|right].
  destruct (image_update_complete E (publish k) clk s l R' tm sn t RO IO) as (s' & U & _ & _ & _ & G). exists s', t, raw. auto.
Qed.

(** ** The Director repository *)
Lemma director_follow k d ok : follows E keyid depth fnm staged_first (one_per_ecu E) k d ok ->
  exists KD KI, keys_ok E keyid KD /\ keys_ok E keyid KI /\ core E keyid Director KD (k_dir k) /\ core E keyid Image KI (k_img k) /\ rows_ok E keyid Director KD (k_dir k) d.
Proof.
  induction 1 as [I KD KI k l A T C H B | k d ok I c k' l r F IH Ng Al Iv Ar H B | k d ok I c k' l r kk F IH Ng Al Iv Ar H B Hin | k d ok o s s' r d' F IH Vis Op Ud Ul H Hin].
  - destruct (generate_both I KD KI k l A T C H B) as (C0 & C1 & _). exists KD, KI. split; [apply A|]. split; [apply A|]. split; [exact C0|]. split; [exact C1|]. apply rows_empty.
  - destruct IH as (KD & KI & HD & HK & CD & C & R). destruct (image_step E keyid depth fnm HE KI I c k k' l r HK C Ng Iv Ar H B) as ((C1 & _) & _).
    destruct (director_step E keyid depth fnm HE KD KI I c k k' l r HD CD C Ng Al Iv Ar H B) as ((C2 & L2) & _).
    exists KD, KI. split; [exact HD|]. split; [exact HK|]. split; [exact C2|]. split; [exact C1|]. eapply rows_later; eauto.
  - destruct IH as (KD & KI & HD & HK & CD & C & R). destruct (image_step E keyid depth fnm HE KI I c k k' l r HK C Ng Iv Ar H B) as (_ & X1 & _).
    destruct (director_step E keyid depth fnm HE KD KI I c k k' l r HD CD C Ng Al Iv Ar H B) as (_ & X2).
    rewrite Forall_forall in X1, X2. destruct (X1 kk Hin) as (C1 & _). destruct (X2 kk Hin) as (C2 & L2).
    exists KD, KI. split; [exact HD|]. split; [exact HK|]. split; [exact C2|]. split; [exact C1|]. eapply rows_later; eauto.
  - destruct IH as (KD & KI & HD & HK & CD & C & R). exists KD, KI. do 4 (split; [assumption|]). change (k_dir k) with (side_of Director k) in *.
    eapply device_rows; eauto; [intros _ raw P t T; exact (Vis raw t P T)|now rewrite Ud].
Qed.
Theorem director_accepted k d ok s clk : follows E keyid depth fnm staged_first (one_per_ecu E) k d ok -> one_per_ecu E k -> servable E k Director clk -> u_db s = d ->
  exists s' t raw, director_update E (publish k) clk s = (s', Ok tt) /\ u_dlatest s' = t /\ (tg_targets t <> [] -> u_dtargets s' = t) /\
    publish k Director "targets" (-1) = Ok raw /\ targets_doc E "targets" (parse E raw) t.
Proof.
  intros F O V <-. apply director_follow in F as (KD & KI & HD & _ & C & _ & R).
  change (k_dir k) with (side_of Director k) in C, R. destruct (roots_ready E keyid HE Director KD HD k clk C V (u_db s) R) as (l & R' & RO & RK).
  destruct (director_ready E keyid HE KD k clk C V O (u_db s) R l R' RK) as (t & raw & DO & P & T).
  destruct (director_update_complete E (publish k) clk s l R' t RO DO) as (s' & U & _ & U1 & U2 & _). exists s', t, raw. auto 6.
Qed.
End Follow.
