From Verif Require Import Base Json TufModel TufSpec TufProofs MetaStore RepoModel RepoSpec RepoProofs RepoProofs2 RepoProofs3 RepoProofs4 RepoProofs5.

(** ** Functions that never write *)
Definition nowrite {A} (m : M A) : Prop := forall s s' r, m s = (s', r) -> u_db s' = u_db s /\ u_log s' = u_log s.
Lemma nw_bind {A B} (m : M A) (k : A -> M B) : nowrite m -> (forall a, nowrite (k a)) -> nowrite (mbind m k).
Proof.
  intros Hm Hk s s' r H. apply mbind_inv in H. destruct H as [(s1 & a & H1 & H) | (e & H1 & _)].
  - apply Hm in H1. apply Hk in H. destruct H1, H. split; congruence.
  - now apply Hm in H1.
Qed.
Lemma nw_lift {A} (x : res A) : nowrite (lift x). Proof. intros s s' r H. inversion H; auto. Qed.
Lemma nw_gets {A} (f : ust -> A) : nowrite (gets f). Proof. intros s s' r H. inversion H; auto. Qed.
Lemma nw_throw {A} e : @nowrite A (throw e). Proof. intros s s' r H. inversion H; auto. Qed.
Lemma nw_ret {A} (a : A) : nowrite (ret a). Proof. intros s s' r H. inversion H; auto. Qed.
Lemma nw_guard b e : nowrite (guard b e). Proof. unfold guard. destruct b; [apply nw_throw|apply nw_ret]. Qed.
Lemma nw_set_root rp R : nowrite (set_root rp R). Proof. intros s s' r H. unfold set_root, modify in H. inversion H; destruct rp; auto. Qed.
Lemma nw_dt t : nowrite (set_dtargets t). Proof. intros s s' r H. inversion H; auto. Qed.
Lemma nw_dl t : nowrite (set_dlatest t). Proof. intros s s' r H. inversion H; auto. Qed.
Lemma nw_it t : nowrite (set_itime t). Proof. intros s s' r H. inversion H; auto. Qed.
Lemma nw_is t : nowrite (set_isnap t). Proof. intros s s' r H. inversion H; auto. Qed.
Lemma nw_ig t : nowrite (set_itargets t). Proof. intros s s' r H. inversion H; auto. Qed.
Ltac nw := repeat first [ apply nw_lift | apply nw_gets | apply nw_throw | apply nw_ret | apply nw_guard | apply nw_set_root
  | apply nw_dt | apply nw_dl | apply nw_it | apply nw_is | apply nw_ig | apply nw_bind; [|intros]
  | match goal with |- nowrite (match ?x with _ => _ end) => destruct x end ].
Lemma nw_init_root E rp raw : nowrite (init_root E rp raw). Proof. unfold init_root. nw. Qed.
Lemma nw_director_reset : nowrite director_reset. Proof. unfold director_reset. nw. Qed.
Lemma nw_image_reset : nowrite image_reset. Proof. unfold image_reset. nw. Qed.
Lemma nw_dverify E raw : nowrite (director_verify_targets E raw). Proof. unfold director_verify_targets. nw. Qed.
Lemma nw_director_offline E clk : nowrite (director_offline E clk).
Proof.
  unfold director_offline. apply nw_bind; [apply nw_director_reset|intros]. nw;
  try apply nw_init_root; try apply nw_dverify; unfold director_check_expired, director_sanity; nw.
Qed.
Lemma nw_image_offline E clk : nowrite (image_offline E clk).
Proof.
  unfold image_offline, load_or_security, image_verify_timestamp, image_check_timestamp_expired, image_verify_snapshot,
    image_check_snapshot_expired, image_verify_targets, image_check_targets_expired.
  apply nw_bind; [apply nw_image_reset|intros]. nw; apply nw_init_root.
Qed.

(** ** Whole updates *)
Lemma director_reset_spec s s' r : director_reset s = (s', r) ->
  r = Ok tt /\ u_db s' = u_db s /\ u_log s' = u_log s /\ u_dtargets s' = targets_empty /\ u_dlatest s' = targets_empty /\
  u_iroot s' = u_iroot s /\ same_image s s'.
Proof. intros H. inversion H; subst. repeat split. Qed.
Lemma image_reset_spec s s' r : image_reset s = (s', r) ->
  r = Ok tt /\ u_db s' = u_db s /\ u_log s' = u_log s /\ u_itime s' = timestamp_empty /\ u_isnap s' = snapshot_empty /\
  u_itargets s' = None /\ u_droot s' = u_droot s /\ same_director s s'.
Proof. intros H. inversion H; subst. repeat split. Qed.

(** One update = a root phase reaching [s1], then the blocks. *)
Lemma director_update_phases E srv clk s s' r : director_update E srv clk s = (s', r) ->
  exists s0 s1 x, u_db s0 = u_db s /\ u_log s0 = u_log s /\ update_root E srv clk Director s0 = (s1, x) /\
    u_dtargets s1 = targets_empty /\ u_dlatest s1 = targets_empty /\
    ((exists e, x = Throw e /\ s' = s1 /\ r = Throw e) \/ (x = Ok tt /\ director_targets_block E srv clk s1 = (s', r))).
Proof.
  unfold director_update. intros H.
  apply mbind_inv in H. destruct H as [(s0 & [] & H0 & H) | (e & H0 & ->)].
  2: { apply director_reset_spec in H0. destruct H0; discriminate. }
  apply director_reset_spec in H0. destruct H0 as (_ & D & L & T1 & T2 & _).
  exists s0. apply mbind_inv in H.
  assert (exists s1 x, update_root E srv clk Director s0 = (s1, x) /\
     ((exists e, x = Throw e /\ s' = s1 /\ r = Throw e) \/ (x = Ok tt /\ director_targets_block E srv clk s1 = (s', r)))) as (s1 & x & Hu & Hc).
  { destruct H as [(s1 & [] & H1 & H) | (e & H1 & ->)]; [exists s1, (Ok tt); eauto | exists s', (Throw e); eauto 6]. }
  exists s1, x. do 2 (split; [assumption|]). split; auto.
  apply update_root_spec in Hu. destruct Hu as (o & l & Ro & _ & _ & _ & (_ & F1 & F2 & _) & _).
  split; [congruence|]. split; [congruence|]. auto.
Qed.

Lemma image_update_phases E srv clk s s' r : image_update E srv clk s = (s', r) ->
  exists s0 s1 x, u_db s0 = u_db s /\ u_log s0 = u_log s /\ update_root E srv clk Image s0 = (s1, x) /\
    u_isnap s1 = snapshot_empty /\ u_itargets s1 = None /\
    ((exists e, x = Throw e /\ s' = s1 /\ r = Throw e) \/
     (x = Ok tt /\ exists s2 x2, image_timestamp_block E srv clk s1 = (s2, x2) /\
        ((exists e, x2 = Throw e /\ s' = s2 /\ r = Throw e) \/
         (x2 = Ok tt /\ exists s3 x3, image_snapshot_block E srv clk s2 = (s3, x3) /\
            ((exists e, x3 = Throw e /\ s' = s3 /\ r = Throw e) \/
             (x3 = Ok tt /\ image_targets_block E srv clk s3 = (s', r))))))).
Proof.
  unfold image_update. intros H.
  apply mbind_inv in H. destruct H as [(s0 & [] & H0 & H) | (e & H0 & ->)].
  2: { apply image_reset_spec in H0. destruct H0; discriminate. }
  apply image_reset_spec in H0. destruct H0 as (_ & D & L & T1 & T2 & T3 & _).
  exists s0.
  apply mbind_inv in H. destruct H as [(s1 & [] & H1 & H) | (e & H1 & ->)].
  - exists s1, (Ok tt). do 2 (split; [assumption|]). split; auto.
    apply update_root_spec in H1. destruct H1 as (o & l & Ro & _ & _ & _ & (_ & F1 & F2 & F3 & F4 & F5) & _).
    split; [congruence|]. split; [congruence|]. right. split; auto.
    apply mbind_inv in H. destruct H as [(s2 & [] & H2 & H) | (e & H2 & ->)].
    + exists s2, (Ok tt). split; auto. right. split; auto.
      apply mbind_inv in H. destruct H as [(s3 & [] & H3 & H) | (e & H3 & ->)].
      * exists s3, (Ok tt). split; auto.
      * exists s', (Throw e). split; auto. left; eauto.
    + exists s', (Throw e). split; auto. left; eauto.
  - exists s', (Throw e). do 2 (split; [assumption|]). split; auto.
    apply update_root_spec in H1. destruct H1 as (o & l & Ro & _ & _ & _ & (_ & F1 & F2 & F3 & F4 & F5) & _).
    split; [congruence|]. split; [congruence|]. left; eauto.
Qed.

(** ** C04 *)
Definition mono (E : Env) (rp : repo) (d d' : db) : Prop :=
  forall v, newest_root_version E rp d v -> exists v', newest_root_version E rp d' v' /\ v <= v'.
Lemma mono_refl E rp d : mono E rp d d. Proof. intros v H. exists v. split; auto. lia. Qed.
Lemma mono_trans E rp a b c : mono E rp a b -> mono E rp b c -> mono E rp a c.
Proof. intros H1 H2 v Hv. destruct (H1 v Hv) as (v1 & Hv1 & L1). destruct (H2 v1 Hv1) as (v2 & Hv2 & L2). exists v2. split; auto. lia. Qed.

Lemma mono_root_phase E srv clk rp rp' s s' r : clean_server srv -> update_root E srv clk rp s = (s', r) ->
  exists new, u_log s' = new ++ u_log s /\ (forall d', In d' (u_db s' :: new) -> mono E rp' (u_db s) d').
Proof.
  intros Hcl H. apply update_root_spec in H. destruct H as (o & l & Ro & Ho & D & L & F & Hfirst & Hserved & _).
  rewrite app_assoc in L. eexists. split; [exact L|]. rewrite D. clear D L.
  assert (Hcc : chain_clean l) by (intros v raw Hin; eapply Hcl; eauto).
  intros d' Hin v Hv.
  inversion Ho as [|raw0 R0 l' R Hload Hss Hc | raw0 R0 l' R Hload Hss Hc]; subst; simpl in *.
  - destruct Hin as [<- | []]. exists v. split; auto; lia.
  - rewrite app_nil_r in Hin. rewrite <- in_rev in Hin.
    assert (Hrp : {rp' = rp} + {rp' <> rp}) by (destruct rp, rp'; auto; right; discriminate).
    destruct Hrp as [-> | Hne].
    + assert (Hv' : v <= rt_version R0).
      { destruct Hv as (raw1 & R1 & Hl1 & Hj1 & Hv1). rewrite Hload in Hl1. inversion Hl1; subst.
        destruct Hss as (Hj & _). rewrite Hj in Hj1. inversion Hj1; subst. lia. }
      eapply newest_chain; eauto. right. exact Hin.
    + exists v. split; [|lia]. eapply newest_chain_other; eauto. right. exact Hin.
  - assert (Hrp : {rp' = rp} + {rp' <> rp}) by (destruct rp, rp'; auto; right; discriminate).
    destruct Hrp as [-> | Hne].
    + destruct Hv as (raw1 & R1 & Hl1 & _). congruence.
    + exists v. split; [|lia].
      assert (Hn1 := newest_store_other E rp' rp (u_db s) v raw0 1 Hne Hv).
      apply (newest_chain_other E rp' rp Hne l _ v Hn1 d').
      rewrite in_app_iff, <- in_rev in Hin. simpl in Hin. simpl. tauto.
Qed.

Lemma mono_wrote E rp rp' ws s s' : Forall (fun w => fst w <> RRoot) ws -> wrote rp ws s s' ->
  exists new, u_log s' = new ++ u_log s /\ (forall d', In d' (u_db s' :: new) -> mono E rp' (u_db s) d').
Proof.
  intros Hf (D & L). eexists. split; [exact L|]. rewrite D. intros d' Hin v Hv. exists v. split; [|lia].
  eapply newest_stores; eauto. right. destruct Hin as [Hin | Hin]; [left; exact Hin|]. right. now apply in_rev in Hin.
Qed.

(** Sequencing of phases. *)
Definition phase (E : Env) (s s' : ust) : Prop :=
  exists new, u_log s' = new ++ u_log s /\ (forall d', In d' (u_db s' :: new) -> forall rp, mono E rp (u_db s) d').
Lemma phase_refl E s : phase E s s.
Proof. exists []. split; auto. intros d' [<- | []] rp. apply mono_refl. Qed.
Lemma phase_trans E a b c : phase E a b -> phase E b c -> phase E a c.
Proof.
  intros (n1 & L1 & H1) (n2 & L2 & H2). exists (n2 ++ n1). split; [rewrite L2, L1, app_assoc; reflexivity|].
  intros d' Hin rp.
  assert (Hb : mono E rp (u_db a) (u_db b)) by (apply H1; now left).
  destruct Hin as [<- | Hin].
  - eapply mono_trans; [exact Hb|]. apply H2. now left.
  - apply in_app_or in Hin. destruct Hin as [Hin | Hin].
    + eapply mono_trans; [exact Hb|]. apply H2. now right.
    + apply H1. now right.
Qed.
Lemma phase_same E s s' : u_db s' = u_db s -> u_log s' = u_log s -> phase E s s'.
Proof. intros D L. exists []. split; auto. intros d' [<- | []] rp. rewrite D. apply mono_refl. Qed.
Lemma phase_wrote E rp ws s s' : Forall (fun w => fst w <> RRoot) ws -> wrote rp ws s s' -> phase E s s'.
Proof.
  intros Hf (D & L). eexists. split; [exact L|]. intros d' Hin rp' v Hv. exists v. split; [|lia]. rewrite D in Hin.
  eapply newest_stores; eauto. right. destruct Hin as [Hin | Hin]; [left; exact Hin|]. right. now apply in_rev in Hin.
Qed.
Lemma phase_root E srv clk rp s s' r : clean_server srv -> update_root E srv clk rp s = (s', r) -> phase E s s'.
Proof.
  intros Hcl H. pose proof (mono_root_phase E srv clk rp Director s s' r Hcl H) as (n1 & L1 & H1).
  pose proof (mono_root_phase E srv clk rp Image s s' r Hcl H) as (n2 & L2 & H2).
  assert (n1 = n2). { rewrite L1 in L2. now apply app_inv_tail in L2. } subst n2.
  exists n1. split; auto. intros d' Hin []; auto.
Qed.

Lemma phase_director_update E srv clk s s' r : clean_server srv -> director_update E srv clk s = (s', r) -> phase E s s'.
Proof.
  intros Hcl H. apply director_update_phases in H.
  destruct H as (s0 & s1 & x & D & L & Hu & T1 & _ & Hc).
  eapply phase_trans; [apply phase_same; eauto|]. eapply phase_trans; [eapply phase_root; eauto|].
  destruct Hc as [(e & _ & -> & _) | (_ & Hb)]; [apply phase_refl|].
  apply director_block_spec in Hb; [|rewrite T1; reflexivity].
  destruct Hb as (_ & _ & [(W & _) | (raw & remote & local & _ & _ & _ & _ & _ & [(_ & W) | (_ & W)] & _)]);
    eapply phase_wrote; try exact W; auto.
  destruct (_ <? _); repeat constructor; discriminate.
Qed.
Lemma phase_image_update E srv clk s s' r : clean_server srv -> image_update E srv clk s = (s', r) -> phase E s s'.
Proof.
  intros Hcl H. apply image_update_phases in H.
  destruct H as (s0 & s1 & x & D & L & Hu & _ & _ & Hc).
  eapply phase_trans; [apply phase_same; eauto|]. eapply phase_trans; [eapply phase_root; eauto|].
  destruct Hc as [(e & _ & -> & _) | (_ & s2 & x2 & Hts & Hc)]; [apply phase_refl|].
  eapply phase_trans with s2.
  { apply ts_block_spec in Hts. destruct Hts as (_ & _ & _ & _ & [(W & _) | (raw & remote & local & _ & _ & _ & _ & _ & W & _)]);
    eapply phase_wrote; try exact W; auto. destruct (_ <? _); repeat constructor; discriminate. }
  destruct Hc as [(e & _ & -> & _) | (_ & s3 & x3 & Hsn & Hc)]; [apply phase_refl|].
  eapply phase_trans with s3.
  { apply snap_block_spec in Hsn. destruct Hsn as (_ & _ & _ & _ & ws & W & Hws & _).
    eapply phase_wrote; try exact W. destruct Hws as [-> | (raw & -> & _)]; repeat constructor; discriminate. }
  destruct Hc as [(e & _ & -> & _) | (_ & Htg)]; [apply phase_refl|].
  apply tgt_block_spec in Htg. destruct Htg as (_ & _ & _ & _ & ws & W & Hws & _).
  eapply phase_wrote; try exact W. destruct Hws as [-> | (raw & t & -> & _)]; repeat constructor; discriminate.
Qed.

Lemma mono_deleg E rp d f : d_meta (f d) = d_meta d -> mono E rp d (f d).
Proof.
  intros H v Hv. exists v. split; [|lia]. unfold newest_root_version, load_latest_root, latest_row in *. now rewrite H.
Qed.
Lemma phase_write E f s s' (x : res unit) : (forall rp, mono E rp (u_db s) (f (u_db s))) -> write f s = (s', x) -> phase E s s'.
Proof.
  intros Hm H. apply write_spec in H. destruct H as (_ & D & L & _). exists [f (u_db s)]. split; auto.
  rewrite D. intros d' [<- | [<- | []]] rp; auto.
Qed.

Lemma step_mono E rp d d' : db_step E d d' -> mono E rp d d'.
Proof.
  intros (o & s & s' & r & Hcl & <- & L & Hrun & Hin).
  destruct Hin as [<- | Hin]; [apply mono_refl|].
  assert (Hp : phase E s s').
  { destruct o; simpl in *.
    - eapply phase_director_update; eauto.
    - eapply phase_image_update; eauto.
    - apply nw_director_offline in Hrun. destruct Hrun. now apply phase_same.
    - apply nw_image_offline in Hrun. destruct Hrun. now apply phase_same.
    - unfold director_drop_targets in Hrun. apply mbind_inv in Hrun. destruct Hrun as [(s1 & [] & H1 & H) | (e & H1 & ->)].
      + eapply phase_trans; [eapply phase_write; [|exact H1]|].
        * intros rp' v Hv. exists v. split; [|lia]. now apply newest_clear.
        * apply director_reset_spec in H. destruct H as (_ & D & L' & _). now apply phase_same.
      + apply write_spec in H1. destruct H1; discriminate.
    - eapply phase_write; [|exact Hrun]. intros rp'. now apply mono_deleg.
    - eapply phase_write; [|exact Hrun]. intros rp'. now apply mono_deleg. }
  destruct Hp as (new & Ln & Hn). rewrite L, app_nil_r in Ln. rewrite <- Ln in Hn. now apply Hn.
Qed.

Theorem root_version_monotone E rp d d' v : db_history E d d' -> newest_root_version E rp d v ->
  exists v', newest_root_version E rp d' v' /\ v <= v'.
Proof.
  intros H. revert v. induction H as [d | d d1 d2 Hs Hh IH]; intros v Hv.
  - exists v. split; auto; lia.
  - destruct (step_mono E rp _ _ Hs v Hv) as (v1 & Hv1 & L1). destruct (IH v1 Hv1) as (v2 & Hv2 & L2).
    exists v2. split; auto. lia.
Qed.

(** ** Without rotation the root phase changes nothing *)
Lemma no_rotation_root_phase E srv clk rp s s' r :
  update_root E srv clk rp s = (s', r) -> ~ rotation_offered E srv rp (u_db s) ->
  (exists raw, load_latest_root rp (u_db s) = Ok (Some raw)) -> u_db s' = u_db s /\ u_log s' = u_log s.
Proof.
  intros H Hno (raw & Hload). apply update_root_spec in H. destruct H as (o & l & Ro & Ho & D & L & F & Hfirst & Hserved & _).
  inversion Ho as [|raw0 R0 l' R Hload' Hss Hc | raw0 R0 l' R Hload' Hss Hc]; subst; simpl in *; auto; [|congruence].
  destruct Hc as [R | R R' R'' raw1 l Hn Hc]; [auto|].
  exfalso. apply Hno. exists raw0, R, raw1, R'. split; auto. split; auto. split; auto.
  assert (rt_version R + 1 = rt_version R') as -> by (destruct Hn as (_ & _ & _ & ->); reflexivity).
  apply Hserved. now left.
Qed.

(** Version of a stored document never goes down through a newer-only store. *)
Lemma stored_version_local E rp ty d v w : stored_version E rp ty d v -> local_version E rp ty d w -> v = w.
Proof. intros (raw & H1 & H2). unfold local_version. rewrite H1. congruence. Qed.
Lemma wrote_newer E rp ty s s' raw local remote v : nul_free raw -> extract_version_untrusted E raw = Ok remote ->
  local <= remote -> stored_version E rp ty (u_db s) v -> v = local ->
  wrote rp (if local <? remote then [(ty, raw)] else []) s s' ->
  forall d', In d' (u_db s' :: u_log s') -> In d' (u_log s) \/ exists v', stored_version E rp ty d' v' /\ v <= v'.
Proof.
  intros Hnf Hex Hle Hst -> (D & L) d' Hin. rewrite D, L in Hin. destruct (Z.ltb_spec local remote); simpl in Hin.
  - assert (Hn : stored_version E rp ty (store_nonroot raw rp ty (u_db s)) remote).
    { exists raw. split; auto. now apply load_store_nonroot. }
    destruct Hin as [<- | [<- | Hin]]; auto; right; exists remote; split; auto; lia.
  - destruct Hin as [<- | Hin]; auto. right. exists local. split; auto. lia.
Qed.

(** ** C08 *)
Theorem director_no_rollback E srv clk s s' r v :
  director_update E srv clk s = (s', r) -> u_log s = [] -> clean_server srv ->
  (exists raw, load_latest_root Director (u_db s) = Ok (Some raw)) -> ~ rotation_offered E srv Director (u_db s) ->
  stored_version E Director RTargets (u_db s) v -> 0 <= v ->
  (forall d', In d' (u_db s' :: u_log s') -> exists v', stored_version E Director RTargets d' v' /\ v <= v') /\
  (r = Ok tt -> v <= tg_version (u_dlatest s') /\ v <= tg_version (u_dtargets s')) /\
  (forall raw w, srv Director "targets" (-1) = Ok raw -> extract_version_untrusted E raw = Ok w -> w < v ->
     (exists e, r = Throw e) /\ u_db s' = u_db s).
Proof.
  intros H HL Hcl Hroot Hno Hst Hv. apply director_update_phases in H.
  destruct H as (s0 & s1 & x & D0 & L0 & Hu & T1 & _ & Hc).
  assert (Hph : u_db s1 = u_db s /\ u_log s1 = []).
  { rewrite <- HL, <- L0, <- D0 in *. eapply no_rotation_root_phase; eauto. }
  destruct Hph as (D1 & L1).
  destruct Hc as [(e & _ & -> & ->) | (_ & Hb)].
  { rewrite D1, L1. split; [|split; [discriminate|eauto]]. intros d' [<- | []]. exists v. split; auto. lia. }
  apply director_block_spec in Hb; [|rewrite T1; reflexivity].
  destruct Hb as (_ & _ & [((W1 & W2) & e & ->) | (raw & remote & local & Hs & He & Hloc & Hle & Hvt & Hcase & Htail)]).
  { simpl in W1, W2. rewrite W1, W2, D1, L1. split; [|split; [discriminate|eauto]].
    intros d' [<- | []]. exists v. split; auto. lia. }
  rewrite D1 in Hloc. assert (Hvl : v = local) by (eapply stored_version_local; eauto). subst local.
  split; [|split].
  - intros d' Hin. destruct Hcase as [(_ & W) | (_ & W1 & W2)].
    + pose proof Hst as Hst1. rewrite <- D1 in Hst1.
      destruct (wrote_newer E Director RTargets s1 s' raw v remote v (Hcl _ _ _ _ Hs) He Hle Hst1 eq_refl W d' Hin) as [Hx | Hx]; auto.
      rewrite L1 in Hx. inversion Hx.
    + simpl in W1, W2. rewrite W1, W2, D1, L1 in Hin. destruct Hin as [<- | []]. exists v. split; auto; lia.
  - intros ->. assert (Hlv : v <= tg_version (u_dlatest s')).
    { destruct Hvt as (_ & (Hb & _)). unfold tg_version. rewrite (extract_base E raw remote _ He Hb); lia. }
    split; auto. destruct Hcase as [(-> & _) | ((_ & _ & sraw & Hls & _ & Hd & _) & _)]; auto.
    rewrite D1 in Hls. destruct Hst as (sraw' & Hls' & Hev). assert (sraw' = sraw) by congruence. subst.
    unfold tg_version. rewrite (extract_base E sraw v _ Hev Hd); lia.
  - intros raw' w Hs' He' Hlt. assert (raw' = raw) by congruence. subst. assert (w = remote) by congruence. lia.
Qed.

(** ** C09 *)
Theorem director_accepts E srv clk s s' : director_update E srv clk s = (s', Ok tt) ->
  exists raw, srv Director "targets" (-1) = Ok raw /\
    verified_targets E (u_droot s') raw (u_dlatest s') /\
    is_expired (tg_base (u_dlatest s')) (clk RTargets) = false /\ tg_deleg (u_dlatest s') = [] /\
    one_target_per_ecu (u_dtargets s') /\
    (u_dtargets s' = u_dlatest s' \/
     (tg_targets (u_dlatest s') = [] /\ exists sraw, verified_targets E (u_droot s') sraw (u_dtargets s'))).
Proof.
  intros H. apply director_update_phases in H.
  destruct H as (s0 & s1 & x & D0 & L0 & Hu & T1 & _ & [(e & _ & _ & Hd) | (_ & Hb)]); [discriminate|].
  apply director_block_spec in Hb; [|rewrite T1; reflexivity].
  destruct Hb as (Hr & _ & [(_ & e & Hd) | (raw & remote & local & Hs & He & Hloc & Hle & Hvt & Hcase & Htail)]); [discriminate|].
  destruct (Htail eq_refl) as (A & B & C). exists raw. specialize (Hr Director). simpl in Hr. rewrite Hr.
  do 5 (split; [assumption|]). destruct Hcase as [(-> & _) | ((K1 & K2 & sraw & K3 & K4) & _)]; [now left|].
  right. split; auto. exists sraw. exact K4.
Qed.

(** C10: what can be persisted by a Director update. *)
Theorem director_persists E srv clk s s' r :
  director_update E srv clk s = (s', r) -> u_log s = [] ->
  (exists raw, load_latest_root Director (u_db s) = Ok (Some raw)) -> ~ rotation_offered E srv Director (u_db s) ->
  u_db s' <> u_db s ->
  exists raw local remote, srv Director "targets" (-1) = Ok raw /\ u_db s' = store_nonroot raw Director RTargets (u_db s) /\
    verified_targets E (u_droot s') raw (u_dlatest s') /\
    local_version E Director RTargets (u_db s) local /\ extract_version_untrusted E raw = Ok remote /\ local < remote.
Proof.
  intros H HL Hroot Hno Hne. apply director_update_phases in H.
  destruct H as (s0 & s1 & x & D0 & L0 & Hu & T1 & _ & Hc).
  assert (Hph : u_db s1 = u_db s).
  { rewrite <- D0 in *. eapply no_rotation_root_phase; eauto. }
  destruct Hc as [(e & _ & -> & ->) | (_ & Hb)]; [congruence|].
  apply director_block_spec in Hb; [|rewrite T1; reflexivity].
  destruct Hb as (Hr & _ & [((W1 & W2) & e & ->) | (raw & remote & local & Hs & He & Hloc & Hle & Hvt & Hcase & Htail)]).
  { simpl in W1. congruence. }
  destruct Hcase as [(_ & W1 & _) | (_ & W1 & _)]; [|simpl in W1; congruence].
  destruct (Z.ltb_spec local remote); simpl in W1; [|congruence].
  exists raw, local, remote. specialize (Hr Director). simpl in Hr. rewrite Hr, <- Hph. auto 10.
Qed.

(** ** C11 *)
Theorem image_accepts E srv clk s s' : image_update E srv clk s = (s', Ok tt) ->
  exists rawt raws rawg t,
    is_expired (rt_base (u_iroot s')) (clk RRoot) = false /\
    authentic_timestamp E (u_iroot s') rawt (u_itime s') /\ is_expired (tm_base (u_itime s')) (clk RTimestamp) = false /\
    snapshot_named E (u_iroot s') (u_itime s') raws (u_isnap s') /\ is_expired (sn_base (u_isnap s')) (clk RSnapshot) = false /\
    u_itargets s' = Some t /\ targets_named E (u_iroot s') (u_isnap s') rawg t /\ is_expired (tg_base t) (clk RTargets) = false.
Proof.
  intros H. apply image_update_phases in H.
  destruct H as (s0 & s1 & x & D0 & L0 & Hu & _ & _ & [(e & _ & _ & Hd) | (-> & s2 & x2 & Hts & Hc)]); [discriminate|].
  destruct Hc as [(e & _ & _ & Hd) | (-> & s3 & x3 & Hsn & Hc)]; [discriminate|].
  destruct Hc as [(e & _ & _ & Hd) | (-> & Htg)]; [discriminate|].
  apply update_root_unexpired in Hu.
  apply ts_block_spec in Hts. destruct Hts as (R1 & _ & _ & _ & [(_ & e & Hd) | (rawt & remote & local & _ & _ & _ & _ & Ha & _ & Hx)]); [discriminate|].
  apply snap_block_spec in Hsn. destruct Hsn as (R2 & _ & I2 & _ & ws & _ & _ & Hok). destruct (Hok eq_refl) as (Hx2 & raws & Hn2).
  apply tgt_block_spec in Htg. destruct Htg as (R3 & _ & I3 & S3 & ws3 & _ & _ & Hok3). destruct (Hok3 eq_refl) as (rawg & t & Ht & Hx3 & Hn3 & _).
  specialize (R1 Image). specialize (R2 Image). specialize (R3 Image). simpl in *.
  exists rawt, raws, rawg, t.
  rewrite R2, R1 in R3. rewrite R1 in R2. rewrite R2 in Hn3. rewrite R1 in Hn2. rewrite I2 in I3.
  rewrite R3, I3, S3. rewrite <- S3 in Hn3. rewrite S3 in Hn3.
  split; [exact Hu|]. split; [exact Ha|]. split; [apply Hx; reflexivity|]. split; [exact Hn2|].
  split; [exact Hx2|]. split; [exact Ht|]. split; [exact Hn3|]. exact Hx3.
Qed.

(** ** C12 *)
Lemma wrote_other_version E rp rp' ty ws s s' v : Forall (fun w => rp' <> rp \/ fst w <> ty) ws -> wrote rp ws s s' ->
  stored_version E rp' ty (u_db s) v -> forall d', In d' (u_db s' :: u_log s') -> In d' (u_log s) \/ stored_version E rp' ty d' v.
Proof.
  intros Hf (D & L) Hst d' Hin.
  assert (Hg : forall ws d, Forall (fun w => rp' <> rp \/ fst w <> ty) ws -> stored_version E rp' ty d v ->
     forall d', In d' (stores rp ws d :: stores_dbs rp ws d) -> stored_version E rp' ty d' v).
  { clear. induction ws as [|(t, raw) ws IH]; intros d Hf Hs d' Hin; simpl in Hin.
    - destruct Hin as [<- | []]; auto.
    - inversion Hf; subst.
      assert (Hs1 : stored_version E rp' ty (store_nonroot raw rp t d) v).
      { destruct Hs as (x & Hx & Hv). exists x. split; auto. unfold load_nonroot in *. rewrite latest_store_nonroot_other; auto.
        simpl in H1. intuition congruence. }
      destruct Hin as [Hin | [<- | Hin]]; auto.
      + apply (IH _ H2 Hs1). now left.
      + apply (IH _ H2 Hs1). now right. }
  rewrite D, L in Hin. destruct Hin as [Hin | Hin].
  - right. apply (Hg ws (u_db s)); auto. now left.
  - apply in_app_or in Hin. destruct Hin as [Hin | Hin]; auto. right. apply (Hg ws (u_db s)); auto. right. now apply in_rev.
Qed.

Theorem timestamp_no_rollback E srv clk s s' r v :
  image_update E srv clk s = (s', r) -> u_log s = [] -> clean_server srv ->
  (exists raw, load_latest_root Image (u_db s) = Ok (Some raw)) -> ~ rotation_offered E srv Image (u_db s) ->
  stored_version E Image RTimestamp (u_db s) v -> 0 <= v ->
  (forall d', In d' (u_db s' :: u_log s') -> exists v', stored_version E Image RTimestamp d' v' /\ v <= v') /\
  (r = Ok tt -> v <= b_version (tm_base (u_itime s'))) /\
  (forall raw w, srv Image "timestamp" (-1) = Ok raw -> extract_version_untrusted E raw = Ok w -> w < v ->
     (exists e, r = Throw e) /\ u_db s' = u_db s).
Proof.
  intros H HL Hcl Hroot Hno Hst Hv. apply image_update_phases in H.
  destruct H as (s0 & s1 & x & D0 & L0 & Hu & _ & _ & Hc).
  assert (Hph : u_db s1 = u_db s /\ u_log s1 = []).
  { rewrite <- HL, <- L0, <- D0 in *. eapply no_rotation_root_phase; eauto. }
  destruct Hph as (D1 & L1).
  destruct Hc as [(e & _ & -> & ->) | (_ & s2 & x2 & Hts & Hc)].
  { rewrite D1, L1. split; [|split; [discriminate|eauto]]. intros d' [<- | []]. exists v. split; auto. lia. }
  apply ts_block_spec in Hts.
  destruct Hts as (_ & _ & _ & _ & [((W1 & W2) & e & ->) | (raw & remote & local & Hs & He & Hloc & Hle & Hau & W & _)]).
  { destruct Hc as [(e' & _ & -> & ->) | (Hd & _)]; [|discriminate].
    simpl in W1, W2. rewrite W1, W2, D1, L1. split; [|split; [discriminate|eauto]].
    intros d' [<- | []]. exists v. split; auto. lia. }
  rewrite D1 in Hloc. assert (Hvl : v = local) by (eapply stored_version_local; eauto). subst local.
  assert (H2 : forall d', In d' (u_db s2 :: u_log s2) -> exists v', stored_version E Image RTimestamp d' v' /\ v <= v').
  { intros d' Hin. pose proof Hst as Hst1. rewrite <- D1 in Hst1.
    destruct (wrote_newer E Image RTimestamp s1 s2 raw v remote v (Hcl _ _ _ _ Hs) He Hle Hst1 eq_refl W d' Hin) as [Hx | Hx]; auto.
    rewrite L1 in Hx. inversion Hx. }
  assert (Hnext : forall ty ws sa sb, ty <> RTimestamp -> (ws = [] \/ exists raw, ws = [(ty, raw)]) -> wrote Image ws sa sb ->
    (forall d', In d' (u_db sa :: u_log sa) -> exists v', stored_version E Image RTimestamp d' v' /\ v <= v') ->
    (forall d', In d' (u_db sb :: u_log sb) -> exists v', stored_version E Image RTimestamp d' v' /\ v <= v')).
  { intros ty ws sa sb Hty Hws Hwr Ha d' Hin. destruct (Ha (u_db sa) (or_introl eq_refl)) as (va & Hva & Lva).
    destruct (wrote_other_version E Image Image RTimestamp ws sa sb va) with (d' := d') as [Hx | Hx]; auto.
    - destruct Hws as [-> | (raw' & ->)]; [constructor|]. constructor; [right; exact Hty|constructor].
    - apply Ha. now right.
    - eauto. }
  assert (Hall : (forall d', In d' (u_db s' :: u_log s') -> exists v', stored_version E Image RTimestamp d' v' /\ v <= v') /\ u_itime s' = u_itime s2).
  { destruct Hc as [(e & _ & -> & _) | (_ & s3 & x3 & Hsn & Hc)]; [auto|].
    apply snap_block_spec in Hsn. destruct Hsn as (_ & _ & I3 & _ & ws & W3 & Hws & _).
    assert (H3 : forall d', In d' (u_db s3 :: u_log s3) -> exists v', stored_version E Image RTimestamp d' v' /\ v <= v').
    { refine (Hnext RSnapshot ws s2 s3 _ _ W3 H2); [discriminate|]. destruct Hws as [-> | (raw' & -> & _)]; eauto. }
    destruct Hc as [(e & _ & -> & _) | (_ & Htg)]; [auto|].
    apply tgt_block_spec in Htg. destruct Htg as (_ & _ & I4 & _ & ws4 & W4 & Hws4 & _).
    split; [|congruence]. refine (Hnext RTargets ws4 s3 s' _ _ W4 H3); [discriminate|]. destruct Hws4 as [-> | (raw' & t & -> & _)]; eauto. }
  destruct Hall as (Hall & Hit). split; auto. split.
  - intros _. rewrite Hit. destruct Hau as (_ & (Hb & _)). rewrite (extract_base E raw remote _ He Hb); lia.
  - intros raw' w Hs' He' Hlt. assert (raw' = raw) by congruence. subst. assert (w = remote) by congruence. lia.
Qed.

(** ** C13, the part that holds *)
Theorem targets_no_rollback_when_hash_ok E srv clk s s' sraw t0 :
  image_update E srv clk s = (s', Ok tt) ->
  (exists raw, load_latest_root Image (u_db s) = Ok (Some raw)) -> ~ rotation_offered E srv Image (u_db s) ->
  load_nonroot Image RTargets (u_db s) = Ok (Some sraw) ->
  check_hashes E (canon E (parse E sraw)) (role_hashes (u_isnap s') "targets") false <> None ->
  targets_of_json_signed E (unpack_signed E (rt_ks (u_iroot s'))) role_targets (parse E sraw) = Ok t0 ->
  0 <= tg_version t0 ->
  exists t, u_itargets s' = Some t /\ tg_version t0 <= tg_version t.
Proof.
  intros H Hroot Hno Hload Hch Ht0 Hv. apply image_update_phases in H.
  destruct H as (s0 & s1 & x & D0 & L0 & Hu & _ & _ & [(e & _ & _ & Hd) | (-> & s2 & x2 & Hts & Hc)]); [discriminate|].
  destruct Hc as [(e & _ & _ & Hd) | (-> & s3 & x3 & Hsn & Hc)]; [discriminate|].
  destruct Hc as [(e & _ & _ & Hd) | (-> & Htg)]; [discriminate|].
  assert (Hph : u_db s1 = u_db s). { rewrite <- D0 in *. eapply no_rotation_root_phase; eauto. }
  assert (Hkeep : forall ws sa sb, wrote Image ws sa sb -> Forall (fun w => fst w <> RTargets) ws ->
     load_nonroot Image RTargets (u_db sa) = Ok (Some sraw) -> load_nonroot Image RTargets (u_db sb) = Ok (Some sraw)).
  { intros ws sa sb (D & _) Hf Hl. rewrite D. clear D. revert Hl. generalize (u_db sa). induction Hf as [|(ty, raw) ws Hw Hf IH]; intros d Hl; auto.
    simpl. apply IH. unfold load_nonroot in *. rewrite latest_store_nonroot_other; auto. }
  apply ts_block_spec in Hts. destruct Hts as (R1 & _ & _ & _ & [(_ & e & Hd) | (rawt & remote & local & _ & _ & _ & _ & Ha & W2 & Hx)]); [discriminate|].
  apply snap_block_spec in Hsn. destruct Hsn as (R2 & _ & I2 & _ & ws & W3 & Hws & _).
  apply tgt_block_spec in Htg. destruct Htg as (R3 & _ & I3 & S3 & ws3 & _ & _ & Hok3). destruct (Hok3 eq_refl) as (rawg & t & Ht & Hx3 & Hn3 & Hroll).
  exists t. split; auto. specialize (R3 Image). simpl in R3.
  apply (Hroll sraw); auto.
  - eapply Hkeep; [exact W3| |eapply Hkeep; [exact W2| |congruence]].
    + destruct Hws as [-> | (raw' & -> & _)]; repeat constructor; discriminate.
    + destruct (_ <? _); repeat constructor; discriminate.
  - rewrite <- S3. exact Hch.
  - simpl. rewrite <- R3. exact Ht0.
Qed.
