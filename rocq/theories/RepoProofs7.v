From Verif Require Import Base Json TufModel TufSpec TufProofs MetaStore RepoModel RepoSpec RepoProofs RepoProofs2 RepoProofs3 RepoProofs4 RepoProofs5 RepoProofs6.

(** ** C05: a rotation leaves no old metadata *)
Lemma no_nonroot_latest rp ty d : no_nonroot rp d -> ty <> RRoot -> latest_row rp ty d = None.
Proof.
  intros H Hty. unfold latest_row. replace (filter (is_row rp ty) (d_meta d)) with (@nil row); auto.
  symmetry. destruct (filter (is_row rp ty) (d_meta d)) as [|x l] eqn:Hf; auto.
  assert (Hin : In x (filter (is_row rp ty) (d_meta d))) by (rewrite Hf; now left).
  apply filter_In in Hin. destruct Hin as (Hin & Hr). apply is_row_true in Hr. destruct Hr as (Hr & Ht).
  exfalso. apply Hty. rewrite <- Ht. apply H; auto.
Qed.

Lemma stores_load rp ws : forall d ty raw, Forall (fun w => nul_free (snd w)) ws -> latest_row rp ty d = None ->
  load_nonroot rp ty (stores rp ws d) = Ok (Some raw) -> In (ty, raw) ws.
Proof.
  assert (G : forall d ty raw, Forall (fun w => nul_free (snd w)) ws ->
    load_nonroot rp ty (stores rp ws d) = Ok (Some raw) -> In (ty, raw) ws \/ load_nonroot rp ty d = Ok (Some raw)).
  { induction ws as [|(t, r) ws' IH]; intros d ty raw Hf H; [right; exact H|]. simpl in H. inversion Hf; subst.
    apply IH in H; auto. destruct H as [H | H]; [left; right; exact H|].
    unfold load_nonroot in H. destruct (rkind_eqb ty t) eqn:Ht.
    - apply rkind_eqb_eq in Ht. subst. rewrite latest_store_nonroot in H. simpl in H. rewrite nul_free_blob in H by auto.
      inversion H; subst. left. left. reflexivity.
    - rewrite latest_store_nonroot_other in H; [right; exact H|]. right. intros ->. now rewrite rkind_eqb_refl in Ht. }
  intros d ty raw Hf Hn H. apply G in H; auto. destruct H as [H | H]; auto.
  unfold load_nonroot in H. rewrite Hn in H. discriminate.
Qed.

Lemma stored_root_stores rp rp' v ws : forall d, Forall (fun w => fst w <> RRoot) ws -> stored_root rp v (stores rp' ws d) = stored_root rp v d.
Proof.
  induction ws as [|(t, r) ws IH]; intros d Hf; auto. inversion Hf as [|x y Hx Hy]; subst. simpl. rewrite IH; auto.
  apply stored_root_nonroot. exact Hx.
Qed.

Lemma root_phase_rotated E srv clk rp s s' r : update_root E srv clk rp s = (s', r) ->
  (exists raw, load_latest_root rp (u_db s) = Ok (Some raw)) ->
  roots_unchanged rp (u_db s) (u_db s') \/ no_nonroot rp (u_db s').
Proof.
  intros H (raw & Hl). apply update_root_spec in H. destruct H as (o & l & Ro & Ho & D & _).
  inversion Ho as [|raw0 R0 l' R Hload Hss Hc | raw0 R0 l' R Hload Hss Hc]; subst; simpl in *.
  - left. intros v. now rewrite D.
  - rewrite D. destruct l; [left; intros v; reflexivity|]. right. apply chain_db_nonroot. discriminate.
  - congruence.
Qed.

Theorem director_rotation_clears E srv clk s s' r : director_update E srv clk s = (s', r) -> clean_server srv ->
  (exists raw, load_latest_root Director (u_db s) = Ok (Some raw)) -> ~ roots_unchanged Director (u_db s) (u_db s') ->
  forall ty raw, ty <> RRoot -> load_nonroot Director ty (u_db s') = Ok (Some raw) ->
    ty = RTargets /\ srv Director "targets" (-1) = Ok raw /\ acceptable E (rt_ks (u_droot s')) role_targets (parse E raw).
Proof.
  intros H Hcl Hroot Hch ty raw Hty Hload. apply director_update_phases in H.
  destruct H as (s0 & s1 & x & D0 & L0 & Hu & T1 & _ & Hc).
  assert (Hph := root_phase_rotated _ _ _ _ _ _ _ Hu). rewrite D0 in Hph. specialize (Hph Hroot).
  destruct Hc as [(e & _ & -> & ->) | (_ & Hb)].
  { destruct Hph as [Hp | Hp]; [contradiction|]. unfold load_nonroot in Hload. rewrite no_nonroot_latest in Hload; auto. discriminate. }
  apply director_block_spec in Hb; [|rewrite T1; reflexivity].
  assert (Hgen : forall ws, Forall (fun w => fst w <> RRoot) ws -> Forall (fun w => nul_free (snd w)) ws ->
     wrote Director ws s1 s' -> In (ty, raw) ws).
  { intros ws Hws Hnf (Dw & _). destruct Hph as [Hp | Hp].
    - exfalso. apply Hch. intros v. rewrite Dw, stored_root_stores; auto.
    - eapply stores_load; eauto; [apply no_nonroot_latest; eauto|]. now rewrite <- Dw. }
  destruct Hb as (Hr & _ & [(W & _) | (raw1 & remote & local & Hs & He & Hloc & Hle & (Hacc & _) & Hcase & Htail)]).
  - destruct (Hgen [] (Forall_nil _) (Forall_nil _) W).
  - destruct Hcase as [(_ & W) | (_ & W)].
    + apply Hgen in W; [|destruct (_ <? _); repeat constructor; discriminate | destruct (_ <? _); repeat constructor; apply (Hcl _ _ _ _ Hs)].
      destruct (local <? remote); [|destruct W]. destruct W as [W | []]. inversion W; subst.
      specialize (Hr Director). simpl in Hr. rewrite Hr. auto.
    + destruct (Hgen [] (Forall_nil _) (Forall_nil _) W).
Qed.

Theorem image_rotation_clears E srv clk s s' r : image_update E srv clk s = (s', r) -> clean_server srv ->
  (exists raw, load_latest_root Image (u_db s) = Ok (Some raw)) -> ~ roots_unchanged Image (u_db s) (u_db s') ->
  forall ty raw, ty <> RRoot -> load_nonroot Image ty (u_db s') = Ok (Some raw) ->
    (ty = RTimestamp /\ srv Image "timestamp" (-1) = Ok raw /\ acceptable E (rt_ks (u_iroot s')) role_timestamp (parse E raw)) \/
    (ty = RSnapshot /\ srv Image "snapshot" (-1) = Ok raw /\ acceptable E (rt_ks (u_iroot s')) role_snapshot (parse E raw)) \/
    (ty = RTargets /\ srv Image "targets" (-1) = Ok raw /\ acceptable E (rt_ks (u_iroot s')) role_targets (parse E raw)).
Proof.
  intros H Hcl Hroot Hch ty raw Hty Hload. apply image_update_phases in H.
  destruct H as (s0 & s1 & x & D0 & L0 & Hu & T1 & _ & Hc).
  assert (Hph := root_phase_rotated _ _ _ _ _ _ _ Hu). rewrite D0 in Hph. specialize (Hph Hroot).
  set (goodw (w : rkind * string) := (fst w = RTimestamp /\ srv Image "timestamp" (-1) = Ok (snd w) /\ acceptable E (rt_ks (u_iroot s')) role_timestamp (parse E (snd w))) \/
    (fst w = RSnapshot /\ srv Image "snapshot" (-1) = Ok (snd w) /\ acceptable E (rt_ks (u_iroot s')) role_snapshot (parse E (snd w))) \/
    (fst w = RTargets /\ srv Image "targets" (-1) = Ok (snd w) /\ acceptable E (rt_ks (u_iroot s')) role_targets (parse E (snd w)))).
  change (goodw (ty, raw)).
  assert (Hgen : forall ws, Forall goodw ws -> wrote Image ws s1 s' -> goodw (ty, raw)).
  { intros ws Hws (Dw & _).
    assert (Forall (fun w => fst w <> RRoot) ws).
    { eapply Forall_impl; [|exact Hws]. intros (t, rw) [(A & _) | [(A & _) | (A & _)]]; simpl in *; congruence. }
    assert (Forall (fun w => nul_free (snd w)) ws).
    { eapply Forall_impl; [|exact Hws]. intros (t, rw) [(_ & A & _) | [(_ & A & _) | (_ & A & _)]]; simpl in *; eauto using Hcl. }
    destruct Hph as [Hp | Hp].
    - exfalso. apply Hch. intros v. rewrite Dw, stored_root_stores; auto.
    - rewrite Forall_forall in Hws. apply Hws. eapply stores_load; eauto; [apply no_nonroot_latest; eauto|]. now rewrite <- Dw. }
  destruct Hc as [(e & _ & -> & ->) | (_ & s2 & x2 & Hts & Hc)].
  { apply (Hgen []); [constructor|now apply wrote_nil]. }
  apply ts_block_spec in Hts. destruct Hts as (R1 & _ & _ & _ & Hts).
  assert (Hr2 : (forall rp, get_root rp s' = get_root rp s2) -> exists ws, wrote Image ws s1 s2 /\ Forall goodw ws).
  { intros Hr. destruct Hts as [(W & _) | (rawt & remote & local & Hs & _ & _ & _ & (Ha & _) & W & _)].
    - exists []. split; auto.
    - eexists. split; [exact W|]. destruct (_ <? _); [constructor; [|constructor]|constructor]. left. simpl. split; auto. split; auto.
      specialize (Hr Image). specialize (R1 Image). simpl in *. rewrite Hr, R1. exact Ha. }
  destruct Hc as [(e & _ & -> & ->) | (_ & s3 & x3 & Hsn & Hc)].
  { destruct Hr2 as (ws & W & Hf); auto. eauto. }
  apply snap_block_spec in Hsn. destruct Hsn as (R2 & _ & _ & _ & ws2 & W2 & Hws2 & _).
  assert (Hr3 : (forall rp, get_root rp s' = get_root rp s3) -> exists ws, wrote Image ws s1 s3 /\ Forall goodw ws).
  { intros Hr. destruct Hr2 as (ws & W & Hf). { intros rp. rewrite Hr. apply R2. }
    exists (ws ++ ws2). split; [eapply wrote_app; eauto|]. apply Forall_app. split; auto.
    destruct Hws2 as [-> | (raws & -> & Hs & _ & _ & (Ha & _) & _)]; [constructor|constructor; [|constructor]].
    right. left. simpl. split; auto. split; auto. specialize (Hr Image). specialize (R2 Image). simpl in *. rewrite Hr, R2. exact Ha. }
  destruct Hc as [(e & _ & -> & ->) | (_ & Htg)].
  { destruct Hr3 as (ws & W & Hf); auto. eauto. }
  apply tgt_block_spec in Htg. destruct Htg as (R3 & _ & _ & _ & ws3 & W3 & Hws3 & _).
  destruct (Hr3 R3) as (ws & W & Hf). apply (Hgen (ws ++ ws3)); [|eapply wrote_app; eauto].
  apply Forall_app. split; auto.
  destruct Hws3 as [-> | (rawg & t & -> & Hs & _ & Ha & _)]; [constructor|constructor; [|constructor]].
  right. right. simpl. split; auto. split; auto. specialize (R3 Image). simpl in *. rewrite R3. exact Ha.
Qed.

(** ** C03, completeness: a rotation that is offered is taken *)
Lemma root_of_json_signed_complete E raw R R' : rt_policy R = PCheck -> next_root E R raw R' ->
  root_of_json_signed E (parse E raw) R = Ok R'.
Proof.
  intros Hp (HJ & H1 & H2 & _). unfold root_of_json_signed, root_unpack. rewrite HJ. simpl. rewrite Hp.
  apply (unpack_signed_iff E (rt_ks R) role_root) in H1; [|left; left; reflexivity]. rewrite H1. simpl.
  rewrite (root_of_json_check _ _ _ HJ).
  apply (unpack_signed_iff E (rt_ks R') role_root) in H2; [|left; left; reflexivity]. rewrite H2. reflexivity.
Qed.
Lemma init_root_complete E rp raw R s : self_signed_root E raw R -> exists s', init_root E rp raw s = (s', Ok tt) /\
  get_root rp s' = R /\ u_db s' = u_db s /\ u_log s' = u_log s.
Proof.
  intros (HJ & Ha). unfold init_root, mbind, lift, gets. rewrite HJ.
  destruct (set_root rp R s) as (s1, r1) eqn:H1. assert (H1' := H1). apply set_root_spec in H1'. destruct H1' as (-> & G & D & L & _).
  assert (Hn : root_of_json_signed E (parse E raw) (get_root rp s1) = Ok R).
  { rewrite G. unfold root_of_json_signed, root_unpack. rewrite HJ. simpl. rewrite (root_of_json_check _ _ _ HJ).
    apply (unpack_signed_iff E (rt_ks R) role_root) in Ha; [|left; left; reflexivity]. rewrite Ha. reflexivity. }
  rewrite Hn. destruct (set_root rp R s1) as (s2, r2) eqn:H2. apply set_root_spec in H2. destruct H2 as (-> & G2 & D2 & L2 & _).
  exists s2. repeat split; auto; congruence.
Qed.

Theorem rotation_taken E srv clk rp s s' r raw0 R0 raw1 R1 : update_root E srv clk rp s = (s', r) ->
  load_latest_root rp (u_db s) = Ok (Some raw0) -> self_signed_root E raw0 R0 -> rt_version R0 + 1 < 1000 ->
  srv rp "root" (rt_version R0 + 1) = Ok raw1 -> next_root E R0 raw1 R1 ->
  stored_root rp (rt_version R0 + 1) (u_db s') = Some raw1.
Proof.
  intros H Hl Hss Hlt Hsrv Hnext. unfold update_root in H.
  destruct (init_root_complete E rp raw0 R0 s Hss) as (s1 & Hi & G1 & D1 & L1).
  assert (Hlf : load_or_fetch_root E srv rp s = (s1, Ok tt)).
  { unfold load_or_fetch_root, mbind, gets, lift. rewrite Hl. exact Hi. }
  unfold mbind at 1 in H. rewrite Hlf in H. apply gets_inv in H. rewrite G1 in H.
  destruct (Z.to_nat (kMaxRotations - (rt_version R0 + 1))) as [|fuel] eqn:Hf; [unfold kMaxRotations in Hf; lia|].
  assert (exists s2 x, root_loop E srv rp (S fuel) (rt_version R0 + 1) s1 = (s2, x) /\ u_db s' = u_db s2) as (s2 & x & Hloop & HD).
  { apply mbind_inv in H. destruct H as [(s2 & [] & H2 & H) | (e & H2 & ->)]; [|eauto].
    exists s2, (Ok tt). split; auto. apply gets_inv in H. unfold guard in H. destruct (root_expired clk rp s2); inversion H; auto. }
  rewrite HD. clear H HD s'.
  cbn [root_loop] in Hloop. rewrite Hsrv in Hloop.
  unfold mbind at 1 in Hloop.
  assert (Hv : exists s3, verify_root E rp raw1 s1 = (s3, Ok tt) /\ get_root rp s3 = R1 /\ u_db s3 = u_db s1).
  { unfold verify_root, mbind, gets, lift. rewrite (root_of_json_signed_complete E raw1 (get_root rp s1) R1).
    - destruct (set_root rp R1 s1) as (s3, y) eqn:H3. apply set_root_spec in H3. destruct H3 as (-> & G3 & D3 & _).
      exists s3. unfold guard. destruct Hnext as (_ & _ & _ & HV). rewrite G1, HV, Z.eqb_refl. simpl. auto.
    - rewrite G1. destruct Hss as (HJ & _). eapply root_of_json_check; eauto.
    - now rewrite G1. }
  destruct Hv as (s3 & Hv & G3 & D3). rewrite Hv in Hloop.
  apply mbind_inv in Hloop. destruct Hloop as [(s4 & [] & H4 & H) | (e & H4 & ->)].
  2: { apply write_spec in H4. destruct H4; discriminate. }
  apply write_spec in H4. destruct H4 as (_ & D4 & L4 & G4 & F4).
  apply mbind_inv in H. destruct H as [(s5 & [] & H5 & H) | (e & H5 & ->)].
  2: { apply write_spec in H5. destruct H5; discriminate. }
  apply write_spec in H5. destruct H5 as (_ & D5 & L5 & G5 & F5).
  pose proof Hnext as (HJ & _ & _ & HV).
  assert (G51 : get_root rp s5 = R1) by (rewrite G5, G4; exact G3).
  apply root_loop_spec in H.
  2: { rewrite G51. eapply root_of_json_check; eauto. }
  2: { rewrite G51. lia. }
  destruct H as (l & R' & Hc & D & _). rewrite D. rewrite (chain_db_roots _ _ _ _ _ Hc).
  destruct (zget (rt_version R0 + 1) l) as [z|] eqn:Hz.
  { apply zget_in in Hz. eapply chain_versions_gt in Hz; eauto. rewrite G51 in Hz. lia. }
  rewrite D5, D4. rewrite stored_root_clear, stored_root_store. reflexivity.
Qed.
