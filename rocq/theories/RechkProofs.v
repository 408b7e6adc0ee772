(** After a successful update the stored documents are those in use, and the check without the server accepts them. *)
From Verif Require Import Base Json TufModel TufSpec TufProofs MetaStore RepoModel RepoSpec RepoProofs RepoProofs2 RepoProofs3 RepoProofs4 RepoProofs5 RepoProofs6 RepoProofs7
  ClientModel ClientSpec ClientProofs ClientProofs2 IterProofs2 RechkSpec.

(** ** Root *)
Lemma latest_in rp ty d w : latest_row rp ty d = Some w -> In w (d_meta d) /\ w_repo w = rp /\ w_type w = ty.
Proof.
  unfold latest_row. intros H. apply max_row_in in H. destruct H as (H & _). apply filter_In in H. destruct H as (H & K).
  apply is_row_true in K. tauto.
Qed.
Definition latest_root_at (E : Env) (rp : repo) (d : db) (R : root) : Prop :=
  exists w raw, latest_row rp RRoot d = Some w /\ blob_to_string (w_data w) = Ok raw /\ self_signed_root E raw R /\ w_ver w <= rt_version R.
Lemma latest_root_load E rp d R : latest_root_at E rp d R -> exists raw, load_latest_root rp d = Ok (Some raw) /\ self_signed_root E raw R.
Proof. intros (w & raw & A & B & C & _). exists raw. unfold load_latest_root. rewrite A. cbn [row_data]. rewrite B. auto. Qed.
Lemma latest_chain E rp : forall R l R', root_chain E R l R' -> chain_clean l -> forall d, latest_root_at E rp d R -> latest_root_at E rp (chain_db rp l d) R'.
Proof.
  induction 1 as [R | R R' R'' raw l Hn Hc IH]; intros Hcl d H; [exact H|]. cbn [chain_db].
  apply IH; [intros a b h; exact (Hcl a b (or_intror h))|].
  destruct H as (w & raw0 & A & B & C & D). destruct Hn as (N1 & N2 & N3 & N4).
  unfold latest_root_at. rewrite latest_clear_root, latest_store_root, A.
  destruct (Z.ltb_spec (rt_version R') (w_ver w)); [lia|].
  eexists; exists raw. split; [reflexivity|]. cbn [w_data w_ver]. split; [apply nul_free_blob; exact (Hcl _ _ (or_introl eq_refl))|]. split; [split; assumption|lia].
Qed.
Lemma update_root_latest E srv clk rp s s' : update_root E srv clk rp s = (s', Ok tt) -> clean_server srv -> roots_numbered E srv rp (u_db s) ->
  latest_root_at E rp (u_db s') (get_root rp s').
Proof.
  intros H Hcl (N1 & N2). apply update_root_spec in H. destruct H as (o & l & Ro & Ho & D & _ & _ & S1 & S2 & Hr).
  destruct (Hr eq_refl) as (-> & _). clear Hr.
  assert (CC : chain_clean l) by (intros v raw Hin; eapply Hcl; eapply S2; eauto).
  inversion Ho; subst.
  - rewrite D. cbn [first_db]. eapply latest_chain; eauto. unfold load_latest_root in H0. destruct (latest_row rp RRoot (u_db s)) as [w|] eqn:W; [|discriminate].
    cbn [row_data] in H0. destruct (blob_to_string (w_data w)) as [x|] eqn:B; cbn in H0; [|discriminate]. injection H0 as ->.
    exists w, raw0. split; [exact W|]. split; [exact B|]. split; [assumption|]. apply latest_in in W. destruct W as (W1 & W2 & W3). destruct H1 as (J & _). eapply N1; eauto.
  - rewrite D. cbn [first_db]. eapply latest_chain; eauto. specialize (S1 _ eq_refl).
    unfold latest_root_at. rewrite latest_store_root. unfold load_latest_root in H0.
    destruct (latest_row rp RRoot (u_db s)) as [w|] eqn:W. { cbn [row_data] in H0. destruct (blob_to_string (w_data w)); discriminate. }
    eexists; exists raw0. split; [reflexivity|]. cbn [w_data w_ver]. split; [apply nul_free_blob; eapply Hcl; eauto|]. split; [assumption|].
    destruct H1 as (J & _). eapply N2; eauto.
Qed.
(** The other metadata of the repository after that phase. *)
Lemma update_root_nonroot E srv clk rp s s' r ty : update_root E srv clk rp s = (s', r) -> ty <> RRoot ->
  load_nonroot rp ty (u_db s') = load_nonroot rp ty (u_db s) \/ load_nonroot rp ty (u_db s') = Ok None.
Proof.
  intros H Hty. apply update_root_spec in H. destruct H as (o & l & Ro & _ & D & _). rewrite D.
  destruct l as [|p l].
  - left. cbn [chain_db]. unfold load_nonroot. destruct o; cbn [first_db]; [rewrite latest_store_root_other; auto|reflexivity].
  - right. unfold load_nonroot. rewrite no_nonroot_latest; auto. apply chain_db_nonroot. discriminate.
Qed.
Lemma chain_other rp rp' ty : rp <> rp' -> forall l d, latest_row rp ty (chain_db rp' l d) = latest_row rp ty d.
Proof.
  intros N. induction l as [|(v, raw) l IH]; intros d; cbn [chain_db]; [reflexivity|]. rewrite IH, latest_clear_other by auto. apply latest_store_root_other; auto.
Qed.
Lemma update_root_other E srv clk rp rp' s s' r ty : update_root E srv clk rp' s = (s', r) -> rp <> rp' ->
  latest_row rp ty (u_db s') = latest_row rp ty (u_db s).
Proof.
  intros H N. apply update_root_spec in H. destruct H as (o & l & Ro & _ & D & _). rewrite D, chain_other by auto.
  destruct o; cbn [first_db]; [apply latest_store_root_other; auto|reflexivity].
Qed.
Lemma stores_other rp rp' ty : rp <> rp' -> forall ws d, latest_row rp ty (stores rp' ws d) = latest_row rp ty d.
Proof. intros N. induction ws as [|(t, raw) ws IH]; intros d; cbn [stores]; [reflexivity|]. rewrite IH. apply latest_store_nonroot_other; auto. Qed.
Lemma stores_other_type rp ty : forall ws d, Forall (fun w => fst w <> ty) ws -> latest_row rp ty (stores rp ws d) = latest_row rp ty d.
Proof.
  induction ws as [|(t, raw) ws IH]; intros d F; cbn [stores]; [reflexivity|]. inversion F; subst. rewrite IH by auto. apply latest_store_nonroot_other. right. intros ->. now apply H1.
Qed.

(** ** Director *)
Lemma director_update_in_force E srv clk s s' : director_update E srv clk s = (s', Ok tt) -> clean_server srv ->
  roots_numbered E srv Director (u_db s) -> no_equivocation E srv Director "targets" RTargets (u_db s) -> director_lists_targets E srv ->
  (load_nonroot Director RTargets (u_db s') <> Ok None) ->
  director_in_force E s' /\ is_expired (rt_base (u_droot s')) (clk RRoot) = false /\ u_dlatest s' = u_dtargets s' /\
  is_expired (tg_base (u_dtargets s')) (clk RTargets) = false /\ tg_deleg (u_dtargets s') = [] /\ one_target_per_ecu (u_dtargets s').
Proof.
  intros H Hcl Hn He Hd Hs. apply director_update_phases in H. destruct H as (s0 & s1 & x & D0 & L0 & Hu & T1 & _ & Hc).
  destruct Hc as [(e & _ & _ & Q) | (Q & Hb)]; [discriminate|subst x].
  assert (HR : latest_root_at E Director (u_db s1) (get_root Director s1)) by (eapply update_root_latest; eauto; now rewrite D0).
  assert (HX : is_expired (rt_base (get_root Director s1)) (clk RRoot) = false).
  { apply update_root_spec in Hu. destruct Hu as (o1 & l1 & R1 & _ & _ & _ & _ & _ & _ & Q). now apply Q. }
  pose proof (update_root_nonroot _ _ _ _ _ _ _ RTargets Hu ltac:(discriminate)) as HN. rewrite D0 in HN.
  apply director_block_spec in Hb; [|rewrite T1; reflexivity]. destruct Hb as (SR & _ & [(_ & e & Q) | Hb]); [discriminate Q|].
  destruct Hb as (raw & remote & local & Hsrv & Hex & Hloc & Hle & Hvt & Hcase & Htail). destruct (Htail eq_refl) as (X1 & X2 & X3).
  destruct Hcase as [(Heq & Hw) | (Hk & _)].
  2: { exfalso. destruct Hk as (K & _). destruct Hvt as (_ & Hvt). eapply Hd; eauto. }
  assert (SRD : u_droot s' = u_droot s1) by exact (SR Director).
  destruct Hw as (W & _).
  assert (RW : Forall (fun w : rkind * string => fst w <> RRoot) (if local <? remote then [(RTargets, raw)] else [])) by (destruct (_ <? _); repeat constructor; discriminate).
  assert (ST : load_nonroot Director RTargets (u_db s') = Ok (Some raw)).
  { destruct (Z.ltb_spec local remote) as [Lt|Ge].
    - rewrite W. cbn [stores]. apply load_store_nonroot. eapply Hcl; eauto.
    - cbn [stores] in W. rewrite W in *. unfold local_version in Hloc. destruct (load_nonroot Director RTargets (u_db s1)) as [[sraw|]|] eqn:L; [|congruence|contradiction].
      assert (local = remote) by lia. subst remote. f_equal. f_equal. symmetry. apply He; [exact Hsrv| |congruence]. destruct HN as [HN|HN]; [congruence|discriminate]. }
  split; [|rewrite SRD, Heq, <- Heq; rewrite Heq in *; cbn [get_root] in HX; auto].
  destruct HR as (w & rraw & R1 & R2 & R3 & _). exists rraw, raw. rewrite SRD.
  split. { unfold load_latest_root. rewrite W, stores_other_type by exact RW. rewrite R1. cbn [row_data]. rewrite R2. reflexivity. }
  split; [exact R3|]. split; [exact ST|]. rewrite Heq. exact Hvt.
Qed.

Lemma director_offline_complete E clk s : director_in_force E s -> is_expired (rt_base (u_droot s)) (clk RRoot) = false ->
  is_expired (tg_base (u_dtargets s)) (clk RTargets) = false -> tg_deleg (u_dtargets s) = [] -> one_target_per_ecu (u_dtargets s) ->
  exists s', director_offline E clk s = (s', Ok tt) /\ u_db s' = u_db s /\ u_dtargets s' = u_dtargets s /\
    u_iroot s' = u_iroot s /\ same_image s s' /\ u_droot s' = u_droot s.
Proof.
  intros (rraw & traw & A & B & C & D & F) X1 X2 X3 X4. unfold director_offline, mbind.
  destruct (director_reset s) as (s0, x0) eqn:H0. apply director_reset_spec in H0. destruct H0 as (-> & D0 & _ & T0 & T0' & I0 & SI0).
  unfold gets, lift. rewrite D0, A. cbv beta iota zeta.
  destruct (init_root_complete E Director rraw (u_droot s) s0 B) as (s1 & H1 & G1 & D1 & _). rewrite H1.
  apply init_root_spec in H1. destruct H1 as (_ & _ & (F0 & F1 & F2 & F3 & F4 & F5) & _).
  unfold root_expired. cbn [get_root] in G1 |- *. rewrite G1, X1. unfold guard, ret. cbv beta iota zeta.
  rewrite D1, D0, C. cbv beta iota zeta.
  unfold director_verify_targets, mbind, gets, lift. cbn [get_root]. rewrite G1.
  rewrite (targets_signed_complete E (rt_ks (u_droot s)) role_targets (parse E traw) (u_dtargets s) standard_targets D F).
  unfold set_dlatest, set_dtargets, modify, use_previous, ret. cbn [u_dtargets u_dlatest].
  rewrite F1, T0. cbn [tg_targets targets_empty nilb negb andb].
  unfold director_check_expired, director_sanity, mbind, gets, guard, ret. cbn [u_dlatest u_dtargets]. rewrite X2. cbv beta iota zeta. cbn [u_dlatest u_dtargets]. rewrite X3. cbn [nilb negb]. cbn [u_dlatest u_dtargets].
  replace (ecu_repeated [] (flat_map (fun x : target => map fst (t_ecus x)) (tg_targets (u_dtargets s)))) with false.
  2: { symmetry. apply ecu_repeated_NoDup. split; [exact X4|]. intros y _ []. }
  eexists. split; [reflexivity|]. unfold same_image. cbn. destruct SI0 as (S1 & S2 & S3). specialize (F0 Image ltac:(discriminate)). cbn [get_root] in F0.
  repeat split; congruence.
Qed.
