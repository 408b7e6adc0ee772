From Verif Require Import Base Json TufModel TufSpec TufProofs MetaStore RepoModel RepoSpec RepoProofs RepoProofs2 RepoProofs3 RepoProofs4.

(** ** Image repository *)
Lemma image_verify_ts_spec E raw s s' r : image_verify_timestamp E raw s = (s', r) ->
  u_db s' = u_db s /\ u_log s' = u_log s /\ same_roots s s' /\ same_director s s' /\
  u_isnap s' = u_isnap s /\ u_itargets s' = u_itargets s /\
  (r = Ok tt -> authentic_timestamp E (get_root Image s) raw (u_itime s')).
Proof.
  unfold image_verify_timestamp. intros H. apply gets_inv in H.
  apply lift_inv in H. destruct H as [(t & Ht & H) | (e & He & -> & ->)].
  - apply timestamp_signed_ok in Ht. unfold set_itime, modify in H. inversion H; subst; clear H. simpl.
    repeat split; try (intros []; reflexivity); try apply Ht.
  - repeat split; discriminate.
Qed.

Lemma hash_eqb_true a b : hash_eqb a b = true <-> a = b.
Proof.
  unfold hash_eqb. rewrite andb_true_iff, String.eqb_eq. destruct a as [[] ?], b as [[] ?]; simpl; intuition congruence.
Qed.
Lemma check_hashes_spec E raw : forall l f o, check_hashes E (canon E (parse E raw)) l f = Some o ->
  (forall h, In h l -> digest_matches E raw h) /\ (o = true -> f = true \/ exists h, In h l /\ h_type h <> HUnknown).
Proof.
  induction l as [|h l IH]; intros f o H; simpl in H.
  - inversion H; subst. split; [intros h []|auto].
  - destruct (h_type h) eqn:Ht.
    + destruct (hash_eqb _ h) eqn:He; [|discriminate]. apply hash_eqb_true in He. apply IH in H. destruct H as (H1 & H2).
      split.
      * intros x [<- | Hx]; auto. unfold digest_matches. rewrite Ht, <- He. reflexivity.
      * intros _. right. exists h. split; [now left|congruence].
    + destruct (hash_eqb _ h) eqn:He; [|discriminate]. apply hash_eqb_true in He. apply IH in H. destruct H as (H1 & H2).
      split.
      * intros x [<- | Hx]; auto. unfold digest_matches. rewrite Ht, <- He. reflexivity.
      * intros _. right. exists h. split; [now left|congruence].
    + apply IH in H. destruct H as (H1 & H2). split.
      * intros x [<- | Hx]; auto. unfold digest_matches. now rewrite Ht.
      * intros Ho. destruct (H2 Ho) as [? | (x & Hx & Hne)]; auto. right. exists x. split; [now right|auto].
Qed.
Lemma check_hashes_complete E raw : forall l f, (forall h, In h l -> digest_matches E raw h) ->
  (forall h, In h l -> h_val h = to_upper (h_val h)) -> exists o, check_hashes E (canon E (parse E raw)) l f = Some o.
Proof.
  induction l as [|h l IH]; intros f Hd Hu; simpl; [eauto|].
  assert (Hh := Hd h (or_introl eq_refl)). unfold digest_matches in Hh.
  destruct (h_type h) eqn:Ht.
  - replace (hash_eqb _ h) with true. { apply IH; intros; [apply Hd|apply Hu]; now right. }
    symmetry. apply hash_eqb_true. unfold mk_hash_t. destruct h; simpl in *; congruence.
  - replace (hash_eqb _ h) with true. { apply IH; intros; [apply Hd|apply Hu]; now right. }
    symmetry. apply hash_eqb_true. unfold mk_hash_t. destruct h; simpl in *; congruence.
  - apply IH; intros; [apply Hd|apply Hu]; now right.
Qed.

(** Everything but the Snapshot (resp. Targets) object. *)
Definition frame_snap (s s' : ust) : Prop :=
  u_db s' = u_db s /\ u_log s' = u_log s /\ same_roots s s' /\ same_director s s' /\ u_itime s' = u_itime s /\ u_itargets s' = u_itargets s.
Lemma image_verify_snap_spec E raw s s' r : image_verify_snapshot E raw s = (s', r) ->
  frame_snap s s' /\ (r = Ok tt -> snapshot_named E (get_root Image s) (u_itime s) raw (u_isnap s')).
Proof.
  unfold image_verify_snapshot. intros H. apply gets_inv in H.
  assert (Hsame : forall e, (s, Throw e) = (s', r) -> frame_snap s s' /\
    (r = Ok tt -> snapshot_named E (get_root Image s) (u_itime s) raw (u_isnap s'))).
  { intros e He. inversion He; subst. repeat split; discriminate. }
  destruct (check_hashes _ _ _ _) as [[|]|] eqn:Hc; unfold throw in H; eauto.
  apply check_hashes_spec in Hc. destruct Hc as (Hc1 & Hc2).
  apply gets_inv in H.
  apply lift_inv in H. destruct H as [(sn & Hsn & H) | (e & He & -> & ->)].
  2: { repeat split; discriminate. }
  apply snapshot_signed_ok in Hsn. unfold mbind, set_isnap, modify, guard in H. cbn [u_isnap] in H.
  destruct (b_version (sn_base sn) =? tm_snap_version (u_itime s)) eqn:Hv; simpl in H; inversion H; subst; clear H.
  - apply Z.eqb_eq in Hv. split; [repeat split; intros []; reflexivity|]. intros _. simpl.
    split. { destruct (Hc2 eq_refl) as [? | ?]; [discriminate|auto]. }
    split; auto.
  - split; [repeat split; intros []; reflexivity|]. discriminate.
Qed.

Definition frame_tgt (s s' : ust) : Prop :=
  u_db s' = u_db s /\ u_log s' = u_log s /\ same_roots s s' /\ same_director s s' /\ u_itime s' = u_itime s /\ u_isnap s' = u_isnap s.
Lemma image_verify_tgt_spec E raw s s' r : image_verify_targets E raw s = (s', r) ->
  frame_tgt s s' /\
  (r = Ok tt -> exists t, u_itargets s' = Some t /\ targets_named E (get_root Image s) (u_isnap s) raw t) /\
  (forall e, r = Throw e -> u_itargets s' = u_itargets s \/
     exists t, u_itargets s' = Some t /\ verified_targets E (get_root Image s) raw t) /\
  (* when the hashes and the signatures are right, the object is set even if the version is wrong *)
  (forall t, check_hashes E (canon E (parse E raw)) (role_hashes (u_isnap s) "targets") false <> None ->
     targets_of_json_signed E (unpack_signed E (rt_ks (get_root Image s))) role_targets (parse E raw) = Ok t ->
     u_itargets s' = Some t).
Proof.
  unfold image_verify_targets. intros H. apply gets_inv in H.
  apply lift_inv in H. destruct H as [([] & Hh & H) | (e & He & -> & ->)].
  2: { repeat split; try discriminate; eauto. intros t Hc. unfold verify_role_hashes in He.
       destruct (check_hashes _ _ _ _); congruence. }
  unfold verify_role_hashes in Hh. destruct (check_hashes _ _ _ _) as [o|] eqn:Hc; [|discriminate].
  apply check_hashes_spec in Hc. destruct Hc as (Hc1 & Hc2).
  apply gets_inv in H.
  apply lift_inv in H. destruct H as [(t & Ht & H) | (e & He & -> & ->)].
  2: { repeat split; try discriminate; eauto. intros t _ Ht. congruence. }
  pose proof Ht as Ht0. apply targets_signed_ok in Ht; [|apply standard_targets].
  unfold mbind, set_itargets, modify, guard in H. cbn [u_itargets] in H.
  destruct (tg_version t =? role_version (u_isnap s) "targets") eqn:Hv; simpl in H; inversion H; subst; clear H.
  - apply Z.eqb_eq in Hv. split; [repeat split; intros []; reflexivity|]. split; [|split].
    + intros _. exists t. split; auto. split; auto. split; [apply Ht|]. split; [apply Ht|auto].
    + discriminate.
    + intros t' _ Ht'. rewrite Ht0 in Ht'. inversion Ht'; subst. reflexivity.
  - split; [repeat split; intros []; reflexivity|]. split; [discriminate|]. split.
    + intros e _. right. exists t. split; auto.
    + intros t' _ Ht'. rewrite Ht0 in Ht'. inversion Ht'; subst. reflexivity.
Qed.

Lemma store_newer_spec local remote raw ty s s' r : store_newer local remote raw ty s = (s', r) ->
  ((exists e, r = Throw e) /\ s' = s) \/
  (r = Ok tt /\ local <= remote /\ wrote Image (if local <? remote then [(ty, raw)] else []) s s' /\
   same_roots s s' /\ same_director s s' /\ same_image s s').
Proof.
  unfold store_newer. destruct (Z.ltb_spec remote local); [intros H0; inversion H0; subst; left; eauto|].
  destruct (Z.ltb_spec local remote); intros Hw.
  - pose proof (wrote_one _ _ _ _ _ _ Hw). apply write_spec in Hw. destruct Hw as (-> & D & L & G & F).
    right. split; auto. split; auto. split; auto. specialize (F Image). destruct F as (_ & F1 & F2 & F3 & F4 & F5).
    repeat split; auto.
  - unfold ret in Hw. inversion Hw; subst. right. split; auto. split; auto. split; [now apply wrote_nil|]. repeat split.
Qed.

(** The Timestamp block. *)
Lemma ts_block_spec E srv clk s s' r : image_timestamp_block E srv clk s = (s', r) ->
  same_roots s s' /\ same_director s s' /\ u_isnap s' = u_isnap s /\ u_itargets s' = u_itargets s /\
  ((wrote Image [] s s' /\ exists e, r = Throw e) \/
   exists raw remote local,
     srv Image "timestamp" (-1) = Ok raw /\ extract_version_untrusted E raw = Ok remote /\
     local_version E Image RTimestamp (u_db s) local /\ local <= remote /\
     authentic_timestamp E (get_root Image s) raw (u_itime s') /\
     wrote Image (if local <? remote then [(RTimestamp, raw)] else []) s s' /\
     (r = Ok tt -> is_expired (tm_base (u_itime s')) (clk RTimestamp) = false)).
Proof.
  unfold image_timestamp_block. intros H.
  assert (Hnil : forall e, (s, Throw e) = (s', r) -> same_roots s s' /\ same_director s s' /\ u_isnap s' = u_isnap s /\
     u_itargets s' = u_itargets s /\ wrote Image [] s s' /\ exists e, r = Throw e).
  { intros e He. inversion He; subst. repeat split. eauto. }
  apply lift_inv in H. destruct H as [(raw & Hraw & H) | (e & _ & -> & ->)].
  2: { destruct (Hnil e eq_refl) as (A & B & C & D & F). tauto. }
  apply lift_inv in H. destruct H as [(remote & Hrem & H) | (e & _ & -> & ->)].
  2: { destruct (Hnil e eq_refl) as (A & B & C & D & F). tauto. }
  apply gets_inv in H.
  apply lift_inv in H. destruct H as [(so & Hso & H) | (e & _ & -> & ->)].
  2: { destruct (Hnil e eq_refl) as (A & B & C & D & F). tauto. }
  apply lift_inv in H. destruct H as [(local & Hloc & H) | (e & _ & -> & ->)].
  2: { destruct (Hnil e eq_refl) as (A & B & C & D & F). tauto. }
  assert (HL : local_version E Image RTimestamp (u_db s) local).
  { unfold local_version. rewrite Hso. destruct so; [auto|]. inversion Hloc; auto. }
  apply mbind_inv in H. destruct H as [(s1 & [] & H1 & H) | (e & H1 & ->)].
  2: { apply image_verify_ts_spec in H1. destruct H1 as (A & B & C & D & F & G & _).
       split; auto. split; auto. split; auto. split; auto. left. split; [now apply wrote_nil|eauto]. }
  apply image_verify_ts_spec in H1. destruct H1 as (A & B & C & D & F & G & Hau). specialize (Hau eq_refl).
  apply mbind_inv in H. destruct H as [(s2 & [] & H2 & H) | (e & H2 & ->)].
  2: { apply store_newer_spec in H2. destruct H2 as [(_ & ->) | (? & _)]; [|discriminate].
       split; auto. split; auto. split; auto. split; auto. left. split; [now apply wrote_nil|eauto]. }
  apply store_newer_spec in H2. destruct H2 as [((? & ?) & _) | (_ & Hle & Hw & Hr & Hd & Hi)]; [discriminate|].
  destruct Hi as (I1 & I2 & I3). destruct Hd as (Hd1 & Hd2). destruct D as (D1 & D2).
  apply gets_inv in H.
  assert (s' = s2 /\ (r = Ok tt -> is_expired (tm_base (u_itime s2)) (clk RTimestamp) = false)) as (-> & Hex).
  { unfold guard in H. destruct (is_expired _ _) eqn:Hx; inversion H; subst; split; auto. discriminate. }
  split. { intros rp. rewrite Hr. apply C. }
  split. { split; congruence. }
  split; [congruence|]. split; [congruence|]. right. exists raw, remote, local.
  do 4 (split; [assumption|]). rewrite I1 in *. split; auto. split; auto.
  destruct Hw as (W1 & W2). split; rewrite ?W1, ?W2, ?A, ?B; reflexivity.
Qed.

(** Fetching a Snapshot. *)
Lemma fetch_snap_spec E srv local s s' r : image_fetch_snapshot E srv local s = (s', r) ->
  same_roots s s' /\ same_director s s' /\ u_itime s' = u_itime s /\ u_itargets s' = u_itargets s /\
  ((wrote Image [] s s' /\ exists e, r = Throw e) \/
   exists raw remote, srv Image "snapshot" (-1) = Ok raw /\ extract_version_untrusted E raw = Ok remote /\ local <= remote /\
     snapshot_named E (get_root Image s) (u_itime s) raw (u_isnap s') /\
     wrote Image (if local <? remote then [(RSnapshot, raw)] else []) s s').
Proof.
  unfold image_fetch_snapshot. intros H.
  apply lift_inv in H. destruct H as [(raw & Hraw & H) | (e & _ & -> & ->)].
  2: { repeat (split; [repeat split|]). left. split; [now apply wrote_nil|eauto]. }
  apply lift_inv in H. destruct H as [(remote & Hrem & H) | (e & _ & -> & ->)].
  2: { repeat (split; [repeat split|]). left. split; [now apply wrote_nil|eauto]. }
  apply mbind_inv in H. destruct H as [(s1 & [] & H1 & H) | (e & H1 & ->)].
  2: { apply image_verify_snap_spec in H1. destruct H1 as ((A & B & C & D & F & G) & _).
       split; auto. split; auto. split; auto. split; auto. left. split; [now apply wrote_nil|eauto]. }
  apply image_verify_snap_spec in H1. destruct H1 as ((A & B & C & (D1 & D2) & F & G) & Hn). specialize (Hn eq_refl).
  apply store_newer_spec in H. destruct H as [(He & ->) | (-> & Hle & Hw & Hr & (Hd1 & Hd2) & (I1 & I2 & I3))].
  - split; auto. split; [split; auto|]. split; auto. split; auto. left. split; [now apply wrote_nil|eauto].
  - split. { intros rp. rewrite Hr. apply C. }
    split; [split; congruence|]. split; [congruence|]. split; [congruence|]. right. exists raw, remote.
    do 3 (split; [assumption|]). rewrite I2. split; auto.
    destruct Hw as (W1 & W2). split; rewrite ?W1, ?W2, ?A, ?B; reflexivity.
Qed.

Lemma wrote_trans_nil rp ws s s1 s' : u_db s1 = u_db s -> u_log s1 = u_log s -> wrote rp ws s1 s' -> wrote rp ws s s'.
Proof. intros A B (W1 & W2). split; rewrite ?W1, ?W2, ?A, ?B; reflexivity. Qed.

(** The Snapshot block. *)
Lemma snap_block_spec E srv clk s s' r : image_snapshot_block E srv clk s = (s', r) ->
  same_roots s s' /\ same_director s s' /\ u_itime s' = u_itime s /\ u_itargets s' = u_itargets s /\
  exists ws, wrote Image ws s s' /\
    (ws = [] \/ exists raw, ws = [(RSnapshot, raw)] /\ srv Image "snapshot" (-1) = Ok raw /\
        snapshot_named E (get_root Image s) (u_itime s) raw (u_isnap s')) /\
    (r = Ok tt -> is_expired (sn_base (u_isnap s')) (clk RSnapshot) = false /\
       exists raw, snapshot_named E (get_root Image s) (u_itime s) raw (u_isnap s')).
Proof.
  unfold image_snapshot_block. intros H. apply gets_inv in H.
  apply lift_inv in H. destruct H as [(so & Hso & H) | (e & _ & -> & ->)].
  2: { repeat (split; [repeat split|]). exists []. split; [now apply wrote_nil|]. split; auto. discriminate. }
  assert (Hpost : forall ws s2 x,
    same_roots s s2 -> same_director s s2 -> u_itime s2 = u_itime s -> u_itargets s2 = u_itargets s ->
    wrote Image ws s s2 ->
    (ws = [] \/ exists raw, ws = [(RSnapshot, raw)] /\ srv Image "snapshot" (-1) = Ok raw /\
        snapshot_named E (get_root Image s) (u_itime s) raw (u_isnap s2)) ->
    (x = Ok tt -> exists raw, snapshot_named E (get_root Image s) (u_itime s) raw (u_isnap s2)) ->
    ((exists e, x = Throw e /\ s' = s2 /\ r = Throw e) \/ (x = Ok tt /\ image_check_snapshot_expired clk s2 = (s', r))) ->
    same_roots s s' /\ same_director s s' /\ u_itime s' = u_itime s /\ u_itargets s' = u_itargets s /\
    exists ws, wrote Image ws s s' /\
    (ws = [] \/ exists raw, ws = [(RSnapshot, raw)] /\ srv Image "snapshot" (-1) = Ok raw /\
        snapshot_named E (get_root Image s) (u_itime s) raw (u_isnap s')) /\
    (r = Ok tt -> is_expired (sn_base (u_isnap s')) (clk RSnapshot) = false /\
       exists raw, snapshot_named E (get_root Image s) (u_itime s) raw (u_isnap s'))).
  { intros ws s2 x A B C D W K N [(e & -> & -> & ->) | (-> & Hx)].
    - do 4 (split; [assumption|]). exists ws. split; auto. split; auto. discriminate.
    - unfold image_check_snapshot_expired in Hx. apply gets_inv in Hx. unfold guard in Hx.
      destruct (is_expired _ _) eqn:He; inversion Hx; subst; do 4 (split; [assumption|]); exists ws; split; auto; split; auto.
      discriminate. }
  destruct so as [sraw|].
  - apply mbind_inv in H. rename H into H0.
    assert (exists s2 x, (let* fetch := catch (image_verify_snapshot E sraw ;; ret false) is_uptane (ret true) in
              let* local := gets (fun s => b_version (sn_base (u_isnap s))) in
              if fetch then image_fetch_snapshot E srv local else ret tt) s = (s2, x) /\
            ((exists e, x = Throw e /\ s' = s2 /\ r = Throw e) \/ (x = Ok tt /\ image_check_snapshot_expired clk s2 = (s', r)))) as (s2 & x & H & Hfin).
    { destruct H0 as [(s2 & [] & H1 & H) | (e & H1 & ->)]; [exists s2, (Ok tt); eauto | exists s', (Throw e); eauto 6]. }
    clear H0.
    apply mbind_inv in H. destruct H as [(s1 & fetch & H1 & H) | (e & H1 & ->)].
    + unfold catch in H1. destruct ((image_verify_snapshot E sraw ;; ret false) s) as [sa ra] eqn:Hv.
      apply mbind_inv in Hv. destruct Hv as [(sb & [] & Hv & Hret) | (e & Hv & ->)].
      * unfold ret in Hret. inversion Hret; subst; clear Hret. inversion H1; subst; clear H1.
        apply gets_inv in H. unfold ret in H. inversion H; subst; clear H.
        apply image_verify_snap_spec in Hv. destruct Hv as ((A & B & C & D & F & G) & Hn). specialize (Hn eq_refl).
        eapply (Hpost [] s2 (Ok tt)); eauto. { now apply wrote_nil. }
      * apply image_verify_snap_spec in Hv. destruct Hv as ((A & B & C & D & F & G) & _).
        destruct (is_uptane e); [|inversion H1]. unfold ret in H1. inversion H1; subst; clear H1.
        apply gets_inv in H. cbn beta iota in H. apply fetch_snap_spec in H.
        destruct H as (A2 & (B1 & B2) & C2 & D2 & Hw). destruct D as (D1 & D3).
        assert (SR : same_roots s s2) by (intros rp; rewrite A2; apply C).
        assert (SD : same_director s s2) by (split; congruence).
        destruct Hw as [(Hw & ex & Hex) | (raw & remote & K1 & K2 & K3 & K4 & Hw)].
        -- eapply (Hpost [] s2 x); eauto; try congruence; eapply wrote_trans_nil; eauto.
        -- rewrite (C Image), F in K4.
           refine (Hpost _ s2 x SR SD ltac:(congruence) ltac:(congruence) (wrote_trans_nil _ _ _ _ _ A B Hw) _ _ Hfin).
           ++ destruct (_ <? _); [right; eauto|left; auto].
           ++ eauto.
    + unfold catch in H1. destruct ((image_verify_snapshot E sraw ;; ret false) s) as [sa ra] eqn:Hv.
      apply mbind_inv in Hv. destruct Hv as [(sb & [] & Hv & Hret) | (e' & Hv & ->)].
      { unfold ret in Hret. inversion Hret; subst. inversion H1. }
      apply image_verify_snap_spec in Hv. destruct Hv as ((A & B & C & D & F & G) & _).
      assert (s2 = sa) by (destruct (is_uptane e'); inversion H1; auto). subst.
      eapply (Hpost [] sa (Throw e)); eauto. { now apply wrote_nil. } discriminate.
  - apply mbind_inv in H.
    assert (exists s2 x, image_fetch_snapshot E srv (-1) s = (s2, x) /\
            ((exists e, x = Throw e /\ s' = s2 /\ r = Throw e) \/ (x = Ok tt /\ image_check_snapshot_expired clk s2 = (s', r)))) as (s2 & x & H1 & Hfin).
    { destruct H as [(s2 & [] & H1 & H) | (e & H1 & ->)]; [exists s2, (Ok tt); eauto | exists s', (Throw e); eauto 6]. }
    apply fetch_snap_spec in H1. destruct H1 as (A2 & B2 & C2 & D2 & Hw).
    destruct Hw as [(Hw & ex & Hex) | (raw & remote & K1 & K2 & K3 & K4 & Hw)].
    + eapply (Hpost [] s2 x); eauto; try congruence.
    + eapply (Hpost _ s2 x); eauto. destruct (_ <? _); [right; eauto|left; auto].
Qed.

(** The Targets block. *)
Lemma fetch_tgt_spec E srv local s s' r : image_fetch_targets E srv local s = (s', r) ->
  same_roots s s' /\ same_director s s' /\ u_itime s' = u_itime s /\ u_isnap s' = u_isnap s /\
  ((wrote Image [] s s' /\ exists e, r = Throw e) \/
   exists raw remote t, srv Image "targets" (-1) = Ok raw /\ extract_version_untrusted E raw = Ok remote /\ local <= remote /\
     u_itargets s' = Some t /\ targets_named E (get_root Image s) (u_isnap s) raw t /\
     wrote Image (if local <? remote then [(RTargets, raw)] else []) s s').
Proof.
  unfold image_fetch_targets. intros H.
  apply lift_inv in H. destruct H as [(raw & Hraw & H) | (e & _ & -> & ->)].
  2: { repeat (split; [repeat split|]). left. split; [now apply wrote_nil|eauto]. }
  apply lift_inv in H. destruct H as [(remote & Hrem & H) | (e & _ & -> & ->)].
  2: { repeat (split; [repeat split|]). left. split; [now apply wrote_nil|eauto]. }
  apply mbind_inv in H. destruct H as [(s1 & [] & H1 & H) | (e & H1 & ->)].
  2: { apply image_verify_tgt_spec in H1. destruct H1 as ((A & B & C & D & F & G) & _).
       split; auto. split; auto. split; auto. split; auto. left. split; [now apply wrote_nil|eauto]. }
  apply image_verify_tgt_spec in H1. destruct H1 as ((A & B & C & (D1 & D2) & F & G) & Hn & _).
  destruct (Hn eq_refl) as (t & Ht & Hnm).
  apply store_newer_spec in H. destruct H as [(He & ->) | (-> & Hle & Hw & Hr & (Hd1 & Hd2) & (I1 & I2 & I3))].
  - split; auto. split; [split; auto|]. split; auto. split; auto. left. split; [now apply wrote_nil|eauto].
  - split. { intros rp. rewrite Hr. apply C. }
    split; [split; congruence|]. split; [congruence|]. split; [congruence|]. right. exists raw, remote, t.
    do 3 (split; [assumption|]). rewrite I3. split; auto. split; auto.
    destruct Hw as (W1 & W2). split; rewrite ?W1, ?W2, ?A, ?B; reflexivity.
Qed.

Lemma tgt_block_spec E srv clk s s' r : image_targets_block E srv clk s = (s', r) ->
  same_roots s s' /\ same_director s s' /\ u_itime s' = u_itime s /\ u_isnap s' = u_isnap s /\
  exists ws, wrote Image ws s s' /\
    (ws = [] \/ exists raw t, ws = [(RTargets, raw)] /\ srv Image "targets" (-1) = Ok raw /\
        targets_named E (get_root Image s) (u_isnap s) raw t) /\
    (r = Ok tt -> exists raw t, u_itargets s' = Some t /\ is_expired (tg_base t) (clk RTargets) = false /\
       targets_named E (get_root Image s) (u_isnap s) raw t /\
       (* rollback protection that does work: see C13 *)
       (forall sraw t0, load_nonroot Image RTargets (u_db s) = Ok (Some sraw) ->
          check_hashes E (canon E (parse E sraw)) (role_hashes (u_isnap s) "targets") false <> None ->
          targets_of_json_signed E (unpack_signed E (rt_ks (get_root Image s))) role_targets (parse E sraw) = Ok t0 ->
          0 <= tg_version t0 -> tg_version t0 <= tg_version t)).
Proof.
  unfold image_targets_block. intros H. apply gets_inv in H.
  apply lift_inv in H. destruct H as [(so & Hso & H) | (e & _ & -> & ->)].
  2: { repeat (split; [repeat split|]). exists []. split; [now apply wrote_nil|]. split; auto. discriminate. }
  set (good s2 := exists raw t, u_itargets s2 = Some t /\ targets_named E (get_root Image s) (u_isnap s) raw t /\
       (forall sraw t0, load_nonroot Image RTargets (u_db s) = Ok (Some sraw) ->
          check_hashes E (canon E (parse E sraw)) (role_hashes (u_isnap s) "targets") false <> None ->
          targets_of_json_signed E (unpack_signed E (rt_ks (get_root Image s))) role_targets (parse E sraw) = Ok t0 ->
          0 <= tg_version t0 -> tg_version t0 <= tg_version t)).
  assert (Hpost : forall ws s2 x,
    same_roots s s2 -> same_director s s2 -> u_itime s2 = u_itime s -> u_isnap s2 = u_isnap s ->
    wrote Image ws s s2 ->
    (ws = [] \/ exists raw t, ws = [(RTargets, raw)] /\ srv Image "targets" (-1) = Ok raw /\
        targets_named E (get_root Image s) (u_isnap s) raw t) ->
    (x = Ok tt -> good s2) ->
    ((exists e, x = Throw e /\ s' = s2 /\ r = Throw e) \/ (x = Ok tt /\ image_check_targets_expired clk s2 = (s', r))) ->
    same_roots s s' /\ same_director s s' /\ u_itime s' = u_itime s /\ u_isnap s' = u_isnap s /\
    exists ws, wrote Image ws s s' /\
    (ws = [] \/ exists raw t, ws = [(RTargets, raw)] /\ srv Image "targets" (-1) = Ok raw /\
        targets_named E (get_root Image s) (u_isnap s) raw t) /\
    (r = Ok tt -> exists raw t, u_itargets s' = Some t /\ is_expired (tg_base t) (clk RTargets) = false /\
       targets_named E (get_root Image s) (u_isnap s) raw t /\
       (forall sraw t0, load_nonroot Image RTargets (u_db s) = Ok (Some sraw) ->
          check_hashes E (canon E (parse E sraw)) (role_hashes (u_isnap s) "targets") false <> None ->
          targets_of_json_signed E (unpack_signed E (rt_ks (get_root Image s))) role_targets (parse E sraw) = Ok t0 ->
          0 <= tg_version t0 -> tg_version t0 <= tg_version t))).
  { intros ws s2 x A B C D W K N [(e & -> & -> & ->) | (-> & Hx)].
    - do 4 (split; [assumption|]). exists ws. split; auto. split; auto. discriminate.
    - destruct (N eq_refl) as (raw & t & Ht & Hn & Hroll).
      unfold image_check_targets_expired in Hx. apply gets_inv in Hx. rewrite Ht in Hx. unfold guard in Hx.
      destruct (is_expired _ _) eqn:He; inversion Hx; subst; do 4 (split; [assumption|]); exists ws; (split; [assumption|]); (split; [assumption|]).
      + discriminate.
      + intros _. exists raw, t. split; [assumption|]. split; [assumption|]. split; assumption. }
  destruct so as [sraw|].
  - apply mbind_inv in H. rename H into H0.
    assert (exists s2 x, (let* fetch := catch (image_verify_targets E sraw ;; ret false) any_exn (ret true) in
              let* local := gets (fun s => match u_itargets s with Some t => tg_version t | None => -1 end) in
              if fetch then image_fetch_targets E srv local else ret tt) s = (s2, x) /\
            ((exists e, x = Throw e /\ s' = s2 /\ r = Throw e) \/ (x = Ok tt /\ image_check_targets_expired clk s2 = (s', r)))) as (s2 & x & H & Hfin).
    { destruct H0 as [(s2 & [] & H1 & H) | (e & H1 & ->)]; [exists s2, (Ok tt); eauto | exists s', (Throw e); eauto 6]. }
    clear H0.
    apply mbind_inv in H. destruct H as [(s1 & fetch & H1 & H) | (e & H1 & ->)].
    + unfold catch in H1. destruct ((image_verify_targets E sraw ;; ret false) s) as [sa ra] eqn:Hv.
      apply mbind_inv in Hv. destruct Hv as [(sb & [] & Hv & Hret) | (e & Hv & ->)].
      * unfold ret in Hret. inversion Hret; subst; clear Hret. inversion H1; subst; clear H1.
        apply gets_inv in H. unfold ret in H. inversion H; subst; clear H.
        apply image_verify_tgt_spec in Hv. destruct Hv as ((A & B & C & D & F & G) & Hn & _ & Hset).
        destruct (Hn eq_refl) as (t & Ht & Hnm).
        eapply (Hpost [] s2 (Ok tt)); eauto. { now apply wrote_nil. }
        intros _. exists sraw, t. split; auto. split; auto. intros sraw' t0 Hl Hc Ht0 _.
        rewrite Hso in Hl. inversion Hl; subst sraw'. rewrite (Hset _ Hc Ht0) in Ht. inversion Ht; subst. lia.
      * apply image_verify_tgt_spec in Hv. destruct Hv as ((A & B & C & D & F & G) & _ & _ & Hset).
        unfold any_exn, ret in H1. inversion H1; subst; clear H1.
        apply gets_inv in H. cbn beta iota in H. apply fetch_tgt_spec in H.
        destruct H as (A2 & (B1 & B2) & C2 & D2 & Hw). destruct D as (D1 & D3).
        assert (SR : same_roots s s2) by (intros rp; rewrite A2; apply C).
        assert (SD : same_director s s2) by (split; congruence).
        destruct Hw as [(Hw & ex & Hex) | (raw & remote & t & K1 & K2 & K3 & K5 & K4 & Hw)].
        -- eapply (Hpost [] s2 x); eauto; try congruence; eapply wrote_trans_nil; eauto.
        -- rewrite (C Image), G in K4.
           refine (Hpost _ s2 x SR SD ltac:(congruence) ltac:(congruence) (wrote_trans_nil _ _ _ _ _ A B Hw) _ _ Hfin).
           ++ destruct (_ <? _); [right; eauto|left; auto].
           ++ intros _. exists raw, t. split; auto. split; auto. intros sraw' t0 Hl Hc Ht0 Hpos.
              rewrite Hso in Hl. inversion Hl; subst sraw'. rewrite (Hset _ Hc Ht0) in K3.
              destruct K4 as (_ & _ & (Kb & _) & _).
              assert (tg_version t = remote) by (apply (extract_base E raw); auto; lia). lia.
    + unfold catch in H1. destruct ((image_verify_targets E sraw ;; ret false) s) as [sa ra] eqn:Hv.
      apply mbind_inv in Hv. destruct Hv as [(sb & [] & Hv & Hret) | (e' & Hv & ->)].
      { unfold ret in Hret. inversion Hret; subst. inversion H1. }
      unfold any_exn, ret in H1. inversion H1.
  - apply mbind_inv in H.
    assert (exists s2 x, image_fetch_targets E srv (-1) s = (s2, x) /\
            ((exists e, x = Throw e /\ s' = s2 /\ r = Throw e) \/ (x = Ok tt /\ image_check_targets_expired clk s2 = (s', r)))) as (s2 & x & H1 & Hfin).
    { destruct H as [(s2 & [] & H1 & H) | (e & H1 & ->)]; [exists s2, (Ok tt); eauto | exists s', (Throw e); eauto 6]. }
    apply fetch_tgt_spec in H1. destruct H1 as (A2 & B2 & C2 & D2 & Hw).
    destruct Hw as [(Hw & ex & Hex) | (raw & remote & t & K1 & K2 & K3 & K5 & K4 & Hw)].
    + eapply (Hpost [] s2 x); eauto; try congruence.
    + eapply (Hpost _ s2 x); eauto. { destruct (_ <? _); [right; eauto|left; auto]. }
      intros _. exists raw, t. split; auto. split; auto. intros sraw t0 Hl. congruence.
Qed.
