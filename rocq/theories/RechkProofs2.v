From Verif Require Import Base Json TufModel TufSpec TufProofs MetaStore RepoModel RepoSpec RepoProofs RepoProofs2 RepoProofs3 RepoProofs4 RepoProofs5 RepoProofs6 RepoProofs7
  ClientModel ClientSpec ClientProofs ClientProofs2 IterProofs2 RechkSpec RechkProofs.

(** ** Image repository: what the blocks leave *)
Lemma verify_snap_fails E raw s s' e : image_verify_snapshot E raw s = (s', Throw e) ->
  u_isnap s' = u_isnap s \/ b_version (sn_base (u_isnap s')) <> tm_snap_version (u_itime s).
Proof.
  unfold image_verify_snapshot. intros H. apply gets_inv in H.
  destruct (check_hashes _ _ _ _) as [[]|]; [|injection H as <- _; now left..].
  apply gets_inv in H. apply lift_inv in H. destruct H as [(t & Ht & H) | (e0 & He & -> & _)]; [|now left].
  unfold mbind, set_isnap, modify, guard in H. cbn [u_isnap] in H.
  destruct (Z.eqb_spec (b_version (sn_base t)) (tm_snap_version (u_itime s))) as [Q|Q]; cbn [negb] in H; [discriminate|].
  injection H as <- _. right. exact Q.
Qed.
Lemma snapshot_version E R tm raw sn v : snapshot_named E R tm raw sn -> extract_version_untrusted E raw = Ok v -> 0 <= v -> v = tm_snap_version tm.
Proof. intros (_ & _ & (_ & (B & _)) & V) X L. rewrite <- V. symmetry. eapply extract_base; eauto. Qed.
Lemma wrote_load rp ty raw s s' : wrote rp [(ty, raw)] s s' -> nul_free raw -> load_nonroot rp ty (u_db s') = Ok (Some raw).
Proof. intros (W & _) N. rewrite W. cbn [stores]. now apply load_store_nonroot. Qed.

Definition one_of (ty : rkind) (ws : list (rkind * string)) : Prop := Forall (fun w => fst w = ty) ws.
Lemma one_of_other ty ty' ws : one_of ty ws -> ty' <> ty -> Forall (fun w => fst w <> ty') ws.
Proof. intros F N. eapply Forall_impl; [|exact F]. cbn. intros a ->. auto. Qed.

Lemma fetch_snap_stored E srv local s s' : image_fetch_snapshot E srv local s = (s', Ok tt) -> clean_server srv -> versioned_server E srv ->
  local = -1 \/ local <> tm_snap_version (u_itime s) ->
  same_roots s s' /\ same_director s s' /\ u_itime s' = u_itime s /\ u_itargets s' = u_itargets s /\
  exists raw, load_nonroot Image RSnapshot (u_db s') = Ok (Some raw) /\ snapshot_named E (get_root Image s) (u_itime s) raw (u_isnap s') /\
    exists ws, wrote Image ws s s' /\ one_of RSnapshot ws.
Proof.
  intros H Hcl Hv Hl. apply fetch_snap_spec in H. destruct H as (A & B & C & D & [(_ & e & Q)|(raw & remote & S & X & L & N & W)]); [discriminate|].
  do 4 (split; [assumption|]). exists raw. destruct (Hv _ _ _ S) as (v & X' & V). rewrite X in X'. injection X' as <-.
  assert (remote = tm_snap_version (u_itime s)) by (eapply snapshot_version; eauto).
  destruct (Z.ltb_spec local remote) as [Lt|Ge]; [|exfalso; destruct Hl; lia].
  split; [eapply wrote_load; eauto|]. split; [exact N|]. eexists. split; [exact W|]. repeat constructor.
Qed.
Lemma snap_block_stored E srv clk s s' : image_snapshot_block E srv clk s = (s', Ok tt) -> clean_server srv -> versioned_server E srv -> u_isnap s = snapshot_empty ->
  same_roots s s' /\ same_director s s' /\ u_itime s' = u_itime s /\ u_itargets s' = u_itargets s /\
  is_expired (sn_base (u_isnap s')) (clk RSnapshot) = false /\
  exists raw, load_nonroot Image RSnapshot (u_db s') = Ok (Some raw) /\ snapshot_named E (get_root Image s) (u_itime s) raw (u_isnap s') /\
    exists ws, wrote Image ws s s' /\ one_of RSnapshot ws.
Proof.
  intros H Hcl Hv He. assert (HS := H). apply snap_block_spec in HS. destruct HS as (_ & _ & _ & _ & _ & _ & _ & HS). destruct (HS eq_refl) as (EX & _). clear HS.
  unfold image_snapshot_block in H. apply gets_inv in H. apply lift_inv in H. destruct H as [(so & Hso & H) | (e & _ & _ & Q)]; [|discriminate].
  apply mbind_inv in H. destruct H as [(s1 & [] & H1 & H)|(e & _ & Q)]; [|discriminate].
  assert (s' = s1) as ->. { unfold image_check_snapshot_expired in H. apply gets_inv in H. apply guard_ok in H. destruct H as (-> & _). reflexivity. }
  clear H. cut (same_roots s s1 /\ same_director s s1 /\ u_itime s1 = u_itime s /\ u_itargets s1 = u_itargets s /\
    exists raw, load_nonroot Image RSnapshot (u_db s1) = Ok (Some raw) /\ snapshot_named E (get_root Image s) (u_itime s) raw (u_isnap s1) /\
      exists ws, wrote Image ws s s1 /\ one_of RSnapshot ws); [tauto|].
  destruct so as [sraw|]; [|eapply fetch_snap_stored; eauto].
  apply mbind_inv in H1. destruct H1 as [(s2 & fetch & H2 & H1)|(e & _ & Q)]; [|discriminate].
  apply gets_inv in H1. apply catch_inv in H2. destruct H2 as [H2|(s3 & e & H2 & _ & H3)].
  - apply mbind_inv in H2. destruct H2 as [(s3 & [] & H2 & H3)|(e & _ & Q)]; [|discriminate]. injection H3 as <- <-. injection H1 as <-.
    apply image_verify_snap_spec in H2. destruct H2 as ((A & B & C & D & F & G) & N). specialize (N eq_refl).
    do 4 (split; [assumption|]). exists sraw. rewrite A. split; [exact Hso|]. split; [exact N|]. exists []. split; [now apply wrote_nil|constructor].
  - injection H3 as <- <-. apply mbind_inv in H2. destruct H2 as [(s4 & [] & _ & Q)|(e' & H2 & Q)]; [discriminate|].
    assert (FF := H2). apply image_verify_snap_spec in FF. destruct FF as ((A & B & C & (D1 & D2) & F & G) & _).
    apply verify_snap_fails in H2. rewrite He in H2.
    apply fetch_snap_stored in H1; auto; [|rewrite F; destruct H2 as [->|H2]; [left; reflexivity|right; exact H2]].
    destruct H1 as (A1 & (B1 & B2) & C1 & D1' & raw & L & N & ws & W & O). rewrite (C Image), F in N.
    split; [intros rp; rewrite A1; apply C|]. split; [split; congruence|]. split; [congruence|]. split; [congruence|].
    exists raw. split; [exact L|]. split; [exact N|]. exists ws. split; [|exact O]. eapply wrote_trans_nil; eauto.
Qed.

Lemma verify_tgt_fails E raw s s' e : image_verify_targets E raw s = (s', Throw e) ->
  u_itargets s' = u_itargets s \/ exists t, u_itargets s' = Some t /\ tg_version t <> role_version (u_isnap s) "targets".
Proof.
  unfold image_verify_targets. intros H. apply gets_inv in H.
  apply lift_inv in H. destruct H as [([] & Hh & H) | (e0 & He & -> & _)]; [|now left].
  apply gets_inv in H. apply lift_inv in H. destruct H as [(t & Ht & H) | (e0 & He & -> & _)]; [|now left].
  unfold mbind, set_itargets, modify, guard in H. cbn [u_itargets] in H.
  destruct (Z.eqb_spec (tg_version t) (role_version (u_isnap s) "targets")) as [Q|Q]; cbn [negb] in H; [discriminate|].
  injection H as <- _. right. exists t. split; [reflexivity|exact Q].
Qed.
Lemma targets_version E R sn raw t v : targets_named E R sn raw t -> extract_version_untrusted E raw = Ok v -> 0 <= v -> v = role_version sn "targets".
Proof. intros (_ & _ & (B & _) & V) X L. rewrite <- V. unfold tg_version. symmetry. eapply extract_base; eauto. Qed.
Lemma fetch_tgt_stored E srv local s s' : image_fetch_targets E srv local s = (s', Ok tt) -> clean_server srv -> versioned_server E srv ->
  local = -1 \/ local <> role_version (u_isnap s) "targets" ->
  same_roots s s' /\ same_director s s' /\ u_itime s' = u_itime s /\ u_isnap s' = u_isnap s /\
  exists raw t, load_nonroot Image RTargets (u_db s') = Ok (Some raw) /\ u_itargets s' = Some t /\ targets_named E (get_root Image s) (u_isnap s) raw t /\
    exists ws, wrote Image ws s s' /\ one_of RTargets ws.
Proof.
  intros H Hcl Hv Hl. apply fetch_tgt_spec in H. destruct H as (A & B & C & D & [(_ & e & Q)|(raw & remote & t & S & X & L & T & N & W)]); [discriminate|].
  do 4 (split; [assumption|]). exists raw, t. destruct (Hv _ _ _ S) as (v & X' & V). rewrite X in X'. injection X' as <-.
  assert (remote = role_version (u_isnap s) "targets") by (eapply targets_version; eauto).
  destruct (Z.ltb_spec local remote) as [Lt|Ge]; [|exfalso; destruct Hl; lia].
  split; [eapply wrote_load; eauto|]. split; [exact T|]. split; [exact N|]. eexists. split; [exact W|]. repeat constructor.
Qed.
Lemma tgt_block_stored E srv clk s s' : image_targets_block E srv clk s = (s', Ok tt) -> clean_server srv -> versioned_server E srv -> u_itargets s = None ->
  same_roots s s' /\ same_director s s' /\ u_itime s' = u_itime s /\ u_isnap s' = u_isnap s /\
  exists raw t, load_nonroot Image RTargets (u_db s') = Ok (Some raw) /\ u_itargets s' = Some t /\ targets_named E (get_root Image s) (u_isnap s) raw t /\
    is_expired (tg_base t) (clk RTargets) = false /\ exists ws, wrote Image ws s s' /\ one_of RTargets ws.
Proof.
  intros H Hcl Hv He. assert (HS := H). apply tgt_block_spec in HS. destruct HS as (_ & _ & _ & _ & _ & _ & _ & HS). destruct (HS eq_refl) as (_ & t0 & TT & EX & _). clear HS.
  unfold image_targets_block in H. apply gets_inv in H. apply lift_inv in H. destruct H as [(so & Hso & H) | (e & _ & _ & Q)]; [|discriminate].
  apply mbind_inv in H. destruct H as [(s1 & [] & H1 & H)|(e & _ & Q)]; [|discriminate].
  assert (s' = s1) as ->. { unfold image_check_targets_expired in H. apply gets_inv in H. destruct (u_itargets s1); [|discriminate]. apply guard_ok in H. destruct H as (-> & _). reflexivity. }
  clear H. cut (same_roots s s1 /\ same_director s s1 /\ u_itime s1 = u_itime s /\ u_isnap s1 = u_isnap s /\
    exists raw t, load_nonroot Image RTargets (u_db s1) = Ok (Some raw) /\ u_itargets s1 = Some t /\ targets_named E (get_root Image s) (u_isnap s) raw t /\
      exists ws, wrote Image ws s s1 /\ one_of RTargets ws).
  { intros (A & B & C & D & raw & t & F1 & F2 & F3 & F4). do 4 (split; [assumption|]). exists raw, t. assert (t = t0) by congruence. subst t0. auto. }
  destruct so as [sraw|]; [|eapply fetch_tgt_stored; eauto].
  apply mbind_inv in H1. destruct H1 as [(s2 & fetch & H2 & H1)|(e & _ & Q)]; [|discriminate].
  apply gets_inv in H1. apply catch_inv in H2. destruct H2 as [H2|(s3 & e & H2 & _ & H3)].
  - apply mbind_inv in H2. destruct H2 as [(s3 & [] & H2 & H3)|(e & _ & Q)]; [|discriminate]. injection H3 as <- <-. injection H1 as <-.
    apply image_verify_tgt_spec in H2. destruct H2 as ((A & B & C & D & F & G) & N & _). destruct (N eq_refl) as (t & N1 & N2).
    do 4 (split; [assumption|]). exists sraw, t. rewrite A. split; [exact Hso|]. split; [exact N1|]. split; [exact N2|]. exists []. split; [now apply wrote_nil|constructor].
  - injection H3 as <- <-. apply mbind_inv in H2. destruct H2 as [(s4 & [] & _ & Q)|(e' & H2 & Q)]; [discriminate|].
    assert (FF := H2). apply image_verify_tgt_spec in FF. destruct FF as ((A & B & C & (D1 & D2) & F & G) & _).
    apply verify_tgt_fails in H2. rewrite He in H2.
    apply fetch_tgt_stored in H1; auto; [|rewrite G; destruct H2 as [->|(t & -> & H2)]; [left; reflexivity|right; exact H2]].
    destruct H1 as (A1 & (B1 & B2) & C1 & D1' & raw & t & L & T & N & ws & W & O). rewrite (C Image), G in N.
    split; [intros rp; rewrite A1; apply C|]. split; [split; congruence|]. split; [congruence|]. split; [congruence|].
    exists raw, t. split; [exact L|]. split; [exact T|]. split; [exact N|]. exists ws. split; [|exact O]. eapply wrote_trans_nil; eauto.
Qed.

Theorem image_update_in_force E srv clk s s' : image_update E srv clk s = (s', Ok tt) -> clean_server srv -> versioned_server E srv ->
  roots_numbered E srv Image (u_db s) -> no_equivocation E srv Image "timestamp" RTimestamp (u_db s) ->
  image_in_force E s' /\ is_expired (rt_base (u_iroot s')) (clk RRoot) = false /\ is_expired (tm_base (u_itime s')) (clk RTimestamp) = false /\
  is_expired (sn_base (u_isnap s')) (clk RSnapshot) = false /\ (forall t, u_itargets s' = Some t -> is_expired (tg_base t) (clk RTargets) = false) /\
  keeps_director s s' /\ (forall ty, latest_row Director ty (u_db s') = latest_row Director ty (u_db s)).
Proof.
  intros H Hcl Hv Hn He. assert (KD := image_update_director _ _ _ _ _ _ H).
  apply image_update_phases in H. destruct H as (s0 & s1 & x & D0 & L0 & Hu & I1 & I2 & Hc).
  destruct Hc as [(e & _ & _ & Q) | (Q & s2 & x2 & Hts & Hc)]; [discriminate|subst x].
  assert (HR : latest_root_at E Image (u_db s1) (get_root Image s1)) by (eapply update_root_latest; eauto; now rewrite D0).
  assert (HX : is_expired (rt_base (get_root Image s1)) (clk RRoot) = false).
  { apply update_root_spec in Hu. destruct Hu as (o1 & l1 & R1 & _ & _ & _ & _ & _ & _ & Q). now apply Q. }
  pose proof (update_root_nonroot _ _ _ _ _ _ _ RTimestamp Hu ltac:(discriminate)) as HN. rewrite D0 in HN.
  assert (HO : forall ty, latest_row Director ty (u_db s1) = latest_row Director ty (u_db s)). { intros ty. rewrite <- D0. eapply update_root_other; eauto. discriminate. }
  destruct Hc as [(e & _ & _ & Q) | (Q & s3 & x3 & Hsn & Hc)]; [discriminate|subst x2].
  destruct Hc as [(e & _ & _ & Q) | (Q & Htg)]; [discriminate|subst x3].
  apply ts_block_spec in Hts. destruct Hts as (R2 & _ & S2 & T2 & [(_ & e & Q)|(raw & remote & local & A1 & A2 & A3 & A4 & A5 & A6 & A7)]); [discriminate|]. specialize (A7 eq_refl).
  assert (ST : load_nonroot Image RTimestamp (u_db s2) = Ok (Some raw)).
  { destruct (Hv _ _ _ A1) as (v & V1 & V2). rewrite A2 in V1. injection V1 as <-. destruct (Z.ltb_spec local remote) as [Lt|Ge].
    - eapply wrote_load; eauto.
    - destruct A6 as (W & _). cbn [stores] in W. rewrite W. unfold local_version in A3.
      destruct (load_nonroot Image RTimestamp (u_db s1)) as [[sraw|]|] eqn:L; [|lia|contradiction].
      assert (local = remote) by lia. subst remote. f_equal. f_equal. symmetry. apply He; [exact A1| |congruence]. destruct HN as [HN|HN]; [congruence|discriminate]. }
  apply snap_block_stored in Hsn; auto; [|congruence]. destruct Hsn as (R3 & _ & S3 & T3 & X3 & snraw & B1 & B2 & ws3 & W3 & O3).
  apply tgt_block_stored in Htg; auto; [|congruence]. destruct Htg as (R4 & _ & S4 & T4 & tgraw & t & C1 & C2 & C3 & C4 & ws4 & W4 & O4).
  assert (RR : u_iroot s' = u_iroot s1). { pose proof (R4 Image) as Q4. pose proof (R3 Image) as Q3. pose proof (R2 Image) as Q2. cbn [get_root] in Q4, Q3, Q2. congruence. }
  destruct W4 as (W4 & _), W3 as (W3 & _), A6 as (W2 & _).
  assert (O2 : one_of RTimestamp (if local <? remote then [(RTimestamp, raw)] else [])) by (destruct (_ <? _); repeat constructor).
  pose proof (R3 Image) as Q3. pose proof (R2 Image) as Q2. cbn [get_root] in Q3, Q2, A5, B2, C3. rewrite Q2 in B2. rewrite Q3, Q2 in C3.
  split; [|rewrite S4, S3, T4, RR; cbn [get_root] in HX; split; [exact HX|]; split; [exact A7|]; split; [exact X3|]; split; [intros u U; rewrite C2 in U; injection U as <-; exact C4|]; split; [exact KD|]].
  2: { intros ty. rewrite W4, stores_other, W3, stores_other, W2, stores_other by discriminate. apply HO. }
  destruct HR as (w & rraw & P1 & P2 & P3 & _). exists rraw, raw, snraw, tgraw, t. rewrite RR, S4, S3, T4.
  split. { unfold load_latest_root. rewrite W4, stores_other_type by (eapply one_of_other; eauto; discriminate). rewrite W3, stores_other_type by (eapply one_of_other; eauto; discriminate).
    rewrite W2, stores_other_type by (eapply one_of_other; eauto; discriminate). rewrite P1. cbn [row_data]. rewrite P2. reflexivity. }
  split; [exact P3|].
  split. { unfold load_nonroot in *. rewrite W4, stores_other_type by (eapply one_of_other; eauto; discriminate). rewrite W3, stores_other_type by (eapply one_of_other; eauto; discriminate). exact ST. }
  split; [exact A5|].
  split. { unfold load_nonroot in *. rewrite W4, stores_other_type by (eapply one_of_other; eauto; discriminate). exact B1. }
  split; [rewrite <- S3 in B2; rewrite S3 in B2; exact B2|]. split; [exact C1|]. split; [exact C3|exact C2].
Qed.

(** ** Image repository: the check without the server *)
Lemma timestamp_signed_complete E ks j t : acceptable E ks role_timestamp j -> timestamp_doc j t -> timestamp_of_json_signed (unpack_signed E ks) j = Ok t.
Proof. intros Ha (Hb & Ht). unfold timestamp_of_json_signed. rewrite (base_signed_complete E ks role_timestamp j (tm_base t)); auto using standard_timestamp. Qed.
Lemma snapshot_signed_complete E ks j t : acceptable E ks role_snapshot j -> snapshot_doc j t -> snapshot_of_json_signed (unpack_signed E ks) j = Ok t.
Proof. intros Ha (Hb & Ht). unfold snapshot_of_json_signed. rewrite (base_signed_complete E ks role_snapshot j (sn_base t)); auto using standard_snapshot. Qed.
Lemma check_hashes_found E c : forall l f o, check_hashes E c l f = Some o -> f = true \/ (exists h, In h l /\ h_type h <> HUnknown) -> o = true.
Proof.
  induction l as [|h l IH]; intros f o H K; cbn [check_hashes] in H.
  - injection H as <-. destruct K as [K|(h & [] & _)]. exact K.
  - destruct (h_type h) eqn:T; try (destruct (hash_eqb _ _); [|discriminate]; eapply IH; eauto; fail).
    eapply IH; [exact H|]. destruct K as [K|(h' & [->|K] & N)]; [now left|contradiction|right; eauto].
Qed.
Lemma image_offline_complete E clk s : image_in_force E s -> is_expired (rt_base (u_iroot s)) (clk RRoot) = false -> is_expired (tm_base (u_itime s)) (clk RTimestamp) = false ->
  is_expired (sn_base (u_isnap s)) (clk RSnapshot) = false -> (forall t, u_itargets s = Some t -> is_expired (tg_base t) (clk RTargets) = false) ->
  exists s', image_offline E clk s = (s', Ok tt) /\ u_db s' = u_db s /\ u_isnap s' = u_isnap s /\ u_itargets s' = u_itargets s /\
    u_iroot s' = u_iroot s /\ u_itime s' = u_itime s /\ u_droot s' = u_droot s /\ u_dtargets s' = u_dtargets s.
Proof.
  intros (rraw & tsraw & snraw & tgraw & t & A & B & C & D & F & G & H & I & J) X1 X2 X3 X4. specialize (X4 t J). unfold image_offline, mbind.
  destruct (image_reset s) as (s0, x0) eqn:H0. apply image_reset_spec in H0. destruct H0 as (-> & D0 & _ & T0 & T0' & I0 & DR0 & (SD0 & _)).
  unfold gets at 1, lift at 1. rewrite D0, A. cbv beta iota zeta.
  destruct (init_root_complete E Image rraw (u_iroot s) s0 B) as (s1 & H1 & G1 & D1 & _). rewrite H1.
  apply init_root_spec in H1. destruct H1 as (_ & _ & (F0 & F1 & _ & F3 & F4 & F5) & _). specialize (F0 Director ltac:(discriminate)). cbn [get_root] in F0.
  unfold gets at 1, root_expired. cbn [get_root] in G1 |- *. rewrite G1, X1. unfold guard at 1, ret at 1. cbv beta iota zeta.
  unfold load_or_security, mbind, gets, lift. rewrite ?D1, ?D0, C. unfold ret at 1. cbv beta iota zeta.
  unfold image_verify_timestamp, mbind, gets, lift. cbn [get_root]. rewrite G1. destruct D as (Da & Dd). rewrite (timestamp_signed_complete E _ _ _ Da Dd).
  unfold set_itime, modify. cbv beta iota zeta. unfold image_check_timestamp_expired, mbind, gets, guard, ret. cbn [u_itime]. rewrite X2. cbv beta iota zeta.
  cbn [u_db]. rewrite ?D1, ?D0, F. cbv beta iota zeta.
  destruct G as (G0 & Gh & (Ga & Gd) & Gv).
  unfold image_verify_snapshot, mbind, gets, lift. cbn [u_itime].
  destruct (hashes_complete E snraw (tm_hashes (u_itime s)) false Gh) as (o & Ho). rewrite Ho.
  rewrite (check_hashes_found E _ _ _ _ Ho (or_intror G0)). cbn [get_root u_iroot]. rewrite ?G1, (snapshot_signed_complete E _ _ _ Ga Gd).
  unfold set_isnap, modify, guard. cbv beta iota zeta. rewrite Gv, Z.eqb_refl. cbn [negb]. unfold ret.
  unfold image_check_snapshot_expired, mbind, gets, guard, ret. cbn [u_isnap]. rewrite X3. cbv beta iota zeta.
  cbn [u_db]. rewrite ?D1, ?D0, H. cbv beta iota zeta.
  destruct I as (Ih & Ia & Id & Iv).
  unfold image_verify_targets, mbind, gets, lift. cbn [u_isnap get_root u_iroot]. unfold verify_role_hashes.
  destruct (hashes_complete E tgraw (role_hashes (u_isnap s) "targets") false Ih) as (o2 & Ho2). rewrite Ho2.
  rewrite ?G1, (targets_signed_complete E _ role_targets _ _ standard_targets Ia Id).
  unfold set_itargets, modify, guard. cbv beta iota zeta. rewrite Iv, Z.eqb_refl. cbn [negb]. unfold ret.
  unfold image_check_targets_expired, mbind, gets, guard, ret. cbn [u_itargets]. rewrite X4.
  eexists. split; [reflexivity|]. cbn. rewrite J. repeat split; congruence.
Qed.
