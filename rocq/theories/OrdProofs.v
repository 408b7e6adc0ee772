(** Metadata that is in order is accepted. *)
From Verif Require Import Base Json TufModel TufSpec TufProofs MetaStore RepoModel RepoSpec RepoProofs RepoProofs2 RepoProofs3 RepoProofs4 RepoProofs5 RepoProofs6 RepoProofs7
  ClientModel ClientSpec ClientProofs ClientProofs2 IterProofs2 RechkSpec RechkProofs RechkProofs2 OrdSpec.

Lemma mbind_ok {A B} (m : M A) (k : A -> M B) s s' a : m s = (s', Ok a) -> mbind m k s = k a s'.
Proof. intros H. unfold mbind. now rewrite H. Qed.

(** ** Roots *)
Lemma verify_root_complete E rp raw R R' s : get_root rp s = R -> rt_policy R = PCheck -> next_root E R raw R' ->
  exists s', verify_root E rp raw s = (s', Ok tt) /\ get_root rp s' = R' /\ u_db s' = u_db s /\ frame_root rp s s'.
Proof.
  intros G P N. unfold verify_root, mbind, gets, lift. rewrite G, (root_of_json_signed_complete E raw R R' P N).
  destruct (set_root rp R' s) as (s1, x) eqn:H. apply set_root_spec in H. destruct H as (-> & G1 & D1 & _ & F1).
  destruct N as (_ & _ & _ & V). unfold guard. rewrite V, Z.eqb_refl. cbn [negb]. exists s1. auto.
Qed.
Lemma root_loop_complete E srv rp : forall R l R', root_chain E R l R' -> (forall v raw, In (v, raw) l -> srv rp "root" v = Ok raw) ->
  (exists e, srv rp "root" (rt_version R' + 1) = Throw e) ->
  forall fuel s, get_root rp s = R -> rt_policy R = PCheck -> (List.length l <= fuel)%nat ->
  exists s', root_loop E srv rp fuel (rt_version R + 1) s = (s', Ok tt) /\ get_root rp s' = R' /\ u_db s' = chain_db rp l (u_db s) /\ frame_root rp s s'.
Proof.
  induction 1 as [R | R R' R'' raw l Hn Hc IH]; intros Hs Ht fuel s G P L.
  - exists s. destruct fuel; cbn [root_loop]; [repeat split; auto|]. destruct Ht as (e & ->). repeat split; auto.
  - destruct fuel as [|fuel]; [cbn in L; lia|]. cbn [root_loop]. pose proof Hn as (J & _ & _ & V). rewrite <- V, (Hs _ _ (or_introl eq_refl)).
    destruct (verify_root_complete E rp raw R R' s G P Hn) as (s1 & H1 & G1 & D1 & F1). rewrite (mbind_ok _ _ _ _ _ H1).
    destruct (write (store_root raw rp (rt_version R')) s1) as (s2, x2) eqn:H2. apply write_spec in H2 as K2. destruct K2 as (-> & D2 & _ & G2 & F2). rewrite (mbind_ok _ _ _ _ _ H2).
    destruct (write (clear_nonroot rp) s2) as (s3, x3) eqn:H3. apply write_spec in H3 as K3. destruct K3 as (-> & D3 & _ & G3 & F3). rewrite (mbind_ok _ _ _ _ _ H3).
    destruct (IH (fun v r h => Hs v r (or_intror h)) Ht fuel s3) as (s' & A & B & C & D).
    + rewrite G3, G2. exact G1.
    + eapply root_of_json_check; eauto.
    + cbn in L. lia.
    + exists s'. split; [exact A|]. split; [exact B|]. split; [cbn [chain_db]; rewrite C, D3, D2, D1; reflexivity|].
      eapply frame_root_trans; [exact F1|]. eapply frame_root_trans; [apply F2|]. eapply frame_root_trans; [apply F3|exact D].
Qed.
Lemma chain_length E R l R' : root_chain E R l R' -> rt_version R' = rt_version R + Z.of_nat (List.length l).
Proof. induction 1 as [R | R R' R'' raw l (_ & _ & _ & V) Hc IH]; cbn [List.length]; lia. Qed.
Lemma update_root_complete E srv clk rp s l R : roots_in_order E srv clk rp (u_db s) l R ->
  exists s', update_root E srv clk rp s = (s', Ok tt) /\ get_root rp s' = R /\ frame_root rp s s' /\
    (forall ty, ty <> RRoot -> load_nonroot rp ty (u_db s') = match l with [] => load_nonroot rp ty (u_db s) | _ => Ok None end).
Proof.
  intros (raw0 & R0 & Hl & Hss & Hc & Hs & Ht & Hv & Hx). unfold update_root.
  assert (A : exists s1, load_or_fetch_root E srv rp s = (s1, Ok tt) /\ get_root rp s1 = R0 /\ frame_root rp s s1 /\
    (u_db s1 = u_db s \/ u_db s1 = store_root raw0 rp 1 (u_db s))).
  { destruct (init_root_complete E rp raw0 R0 s Hss) as (s1 & Hi & G1 & D1 & _). pose proof Hi as Hf. apply init_root_spec in Hf. destruct Hf as (_ & _ & F1 & _).
    unfold load_or_fetch_root. rewrite (mbind_ok _ _ s s (load_latest_root rp (u_db s))) by reflexivity.
    destruct Hl as [Hl | (Hl & Hsv)]; rewrite Hl.
    - rewrite (mbind_ok _ _ s s (Some raw0)) by reflexivity. cbv beta iota. exists s1. auto.
    - rewrite (mbind_ok _ _ s s None) by reflexivity. cbv beta iota. rewrite Hsv, (mbind_ok _ _ s s raw0) by reflexivity. rewrite (mbind_ok _ _ _ _ _ Hi).
      destruct (write (store_root raw0 rp 1) s1) as (s2, x2) eqn:H2. apply write_spec in H2. destruct H2 as (-> & D2 & _ & G2 & F2).
      exists s2. split; [reflexivity|]. split; [now rewrite G2|]. split; [eapply frame_root_trans; [exact F1|apply F2]|]. right. now rewrite D2, D1. }
  destruct A as (s1 & A & G1 & F1 & D1). rewrite (mbind_ok _ _ _ _ _ A). rewrite (mbind_ok _ _ s1 s1 (rt_version R0)) by (unfold gets; now rewrite G1).
  pose proof (chain_length _ _ _ _ Hc) as Len.
  destruct (root_loop_complete E srv rp R0 l R Hc Hs Ht (Z.to_nat (kMaxRotations - (rt_version R0 + 1))) s1 G1) as (s2 & H2 & G2 & D2 & F2).
  { destruct Hss as (J & _). eapply root_of_json_check; eauto. }
  { unfold kMaxRotations. lia. }
  rewrite (mbind_ok _ _ _ _ _ H2). exists s2. split.
  { unfold mbind, gets, root_expired, guard. rewrite G2, Hx. reflexivity. }
  split; [exact G2|]. split; [eapply frame_root_trans; eauto|].
  intros ty Hty. rewrite D2. destruct l as [|p l].
  - cbn [chain_db]. unfold load_nonroot. destruct D1 as [-> | ->]; [reflexivity|]. rewrite latest_store_root_other; auto.
  - unfold load_nonroot. rewrite no_nonroot_latest; auto. apply chain_db_nonroot. discriminate.
Qed.

(** ** Director *)
Lemma director_verify_complete E raw t s : acceptable E (rt_ks (u_droot s)) role_targets (parse E raw) -> targets_doc E "targets" (parse E raw) t ->
  exists s', director_verify_targets E raw s = (s', Ok tt) /\ u_dlatest s' = t /\
    u_dtargets s' = (if negb (nilb (tg_targets (u_dtargets s))) && nilb (tg_targets t) then u_dtargets s else t) /\
    u_db s' = u_db s /\ same_roots s s' /\ same_image s s'.
Proof.
  intros A D. destruct (director_verify_targets E raw s) as (s', r) eqn:H. pose proof H as K. apply director_verify_spec in K.
  assert (X : targets_of_json_signed E (unpack_signed E (rt_ks (u_droot s))) role_targets (parse E raw) = Ok t)
    by exact (targets_signed_complete E _ role_targets _ _ standard_targets A D).
  destruct K as [(e & -> & _) | (-> & t' & (A' & D') & P1 & P2 & P3 & _ & P5 & P6)].
  - exfalso. unfold director_verify_targets, mbind, gets, lift in H. cbn [get_root] in H. rewrite X in H.
    unfold set_dlatest, set_dtargets, modify, ret in H. destruct (use_previous _); discriminate.
  - assert (t' = t). { pose proof (targets_signed_complete E _ role_targets _ _ standard_targets A' D') as X'. cbn [get_root] in X'. rewrite X in X'. congruence. }
    rename H0 into Q0; rewrite Q0 in P1, P2. exists s'. split; [reflexivity|]. do 4 (split; [assumption|]). exact P6.
Qed.
Lemma director_tail_complete clk s : is_expired (tg_base (u_dlatest s)) (clk RTargets) = false -> tg_deleg (u_dlatest s) = [] -> one_target_per_ecu (u_dtargets s) ->
  (director_check_expired clk ;; director_sanity) s = (s, Ok tt).
Proof.
  intros X1 X2 X3. unfold director_check_expired, director_sanity, mbind, gets, guard, ret. rewrite X1. cbv beta iota zeta. rewrite X2. cbn [nilb negb].
  replace (ecu_repeated [] (flat_map (fun x : target => map fst (t_ecus x)) (tg_targets (u_dtargets s)))) with false; [reflexivity|].
  symmetry. apply ecu_repeated_NoDup. split; [exact X3|]. intros y _ [].
Qed.
Lemma director_end_complete E srv clk s R t raw v local :
  u_droot s = R -> srv Director "targets" (-1) = Ok raw -> local <= v ->
  acceptable E (rt_ks R) role_targets (parse E raw) -> targets_doc E "targets" (parse E raw) t ->
  is_expired (tg_base t) (clk RTargets) = false -> tg_deleg t = [] -> one_target_per_ecu t ->
  (tg_targets t = [] -> tg_targets (u_dtargets s) <> [] -> one_target_per_ecu (u_dtargets s)) ->
  exists s', (director_verify_targets E raw ;;
    let* up := gets use_previous in
    (if v <? local then throw USecurity
     else if (local <? v) && negb up then write (store_nonroot raw Director RTargets)
     else ret tt) ;;
    director_check_expired clk ;;
    director_sanity) s = (s', Ok tt) /\ u_droot s' = R /\ u_dlatest s' = t /\ (tg_targets t <> [] -> u_dtargets s' = t) /\
    u_iroot s' = u_iroot s /\ same_image s s' /\
    (tg_targets t <> [] -> nul_free raw -> load_nonroot Director RTargets (u_db s') = if local <? v then Ok (Some raw) else load_nonroot Director RTargets (u_db s)).
Proof.
  intros G S L A D X1 X2 X3 X4. subst R. destruct (director_verify_complete E raw t s A D) as (s1 & H1 & T1 & T1' & D1 & R1 & I1).
  rewrite (mbind_ok _ _ _ _ _ H1). rewrite (mbind_ok _ _ s1 s1 (use_previous s1)) by reflexivity.
  destruct (Z.ltb_spec v local); [lia|].
  assert (K : exists s2, (if (local <? v) && negb (use_previous s1) then write (store_nonroot raw Director RTargets) else ret tt) s1 = (s2, Ok tt) /\
    u_droot s2 = u_droot s1 /\ u_dlatest s2 = u_dlatest s1 /\ u_dtargets s2 = u_dtargets s1 /\ u_iroot s2 = u_iroot s1 /\ same_image s1 s2 /\
    u_db s2 = if (local <? v) && negb (use_previous s1) then store_nonroot raw Director RTargets (u_db s1) else u_db s1).
  { destruct ((local <? v) && negb (use_previous s1)); [|exists s1; repeat split; reflexivity]. eexists. split; [reflexivity|]. repeat split. }
  destruct K as (s2 & H2 & G2 & T2 & T2' & I2 & SI2 & D2). rewrite (mbind_ok _ _ _ _ _ H2). exists s2.
  split.
  { apply director_tail_complete; rewrite ?T2, ?T1; auto. rewrite T2', T1'. destruct (tg_targets (u_dtargets s)) eqn:Q; cbn [nilb negb andb]; [exact X3|].
    destruct (tg_targets t) eqn:Q2; cbn [nilb]; [|exact X3]. apply X4; [reflexivity|discriminate]. }
  destruct I1 as (I1a & I1b & I1c). destruct SI2 as (Sa & Sb & Sc).
  pose proof (R1 Director) as RD. pose proof (R1 Image) as RI. cbn [get_root] in RD, RI.
  split; [congruence|]. split; [congruence|]. split.
  { intros N. rewrite T2', T1'. destruct (tg_targets t); [contradiction|]. cbn [nilb]. rewrite andb_false_r. reflexivity. }
  split; [congruence|]. split; [repeat split; congruence|].
  intros N Nf. rewrite D2. unfold use_previous. rewrite T1. destruct (tg_targets t); [contradiction|]. cbn [nilb]. rewrite andb_false_r. cbn [negb]. rewrite andb_true_r.
  destruct (local <? v); [now apply load_store_nonroot|]. now rewrite D1.
Qed.
Theorem director_update_complete E srv clk s l R t :
  roots_in_order E srv clk Director (u_db s) l R -> director_in_order E srv clk (u_db s) l R t ->
  exists s', director_update E srv clk s = (s', Ok tt) /\ u_droot s' = R /\ u_dlatest s' = t /\ (tg_targets t <> [] -> u_dtargets s' = t) /\
    (tg_targets t <> [] -> (forall raw, srv Director "targets" (-1) = Ok raw -> nul_free raw) -> exists sraw, load_nonroot Director RTargets (u_db s') = Ok (Some sraw)).
Proof.
  intros HR (raw & v & S & X & Vpos & A & D & X1 & X2 & X3 & Hst). unfold director_update.
  destruct (director_reset s) as (s0, x0) eqn:H0. apply director_reset_spec in H0 as K0. destruct K0 as (-> & D0 & _ & T0 & T0' & _). rewrite (mbind_ok _ _ _ _ _ H0).
  rewrite <- D0 in HR, Hst. destruct (update_root_complete E srv clk Director s0 l R HR) as (s1 & H1 & G1 & (_ & F1 & F2 & _) & N1). rewrite (mbind_ok _ _ _ _ _ H1).
  specialize (N1 RTargets ltac:(discriminate)). cbn [get_root] in G1. unfold director_targets_block.
  rewrite S, (mbind_ok _ _ s1 s1 raw) by reflexivity. rewrite X, (mbind_ok _ _ s1 s1 v) by reflexivity.
  rewrite (mbind_ok _ _ s1 s1 (load_nonroot Director RTargets (u_db s1))) by reflexivity. rewrite N1.
  assert (C : (match l with [] => load_nonroot Director RTargets (u_db s0) | _ => Ok None end = Ok None) \/
     exists sraw lv, l = [] /\ load_nonroot Director RTargets (u_db s0) = Ok (Some sraw) /\ extract_version_untrusted E sraw = Ok lv /\ lv <= v /\ (tg_targets t <> [] \/ stored_targets_sane E (u_db s0))).
  { destruct l; [|now left]. destruct Hst as [Hst | ([Hst | (sraw & lv & P1 & P2 & P3)] & Q)]; [now destruct Hst|now left|right; eauto 8]. }
  destruct C as [C | (sraw & lv & -> & C1 & C2 & C3 & C4)].
  - rewrite C. rewrite (mbind_ok _ _ s1 s1 None) by reflexivity. cbv beta iota. rewrite (mbind_ok _ _ s1 s1 (-1)) by reflexivity.
    destruct (director_end_complete E srv clk s1 R t raw v (-1) G1 S ltac:(lia) A D X1 X2 X3) as (s' & K & K1 & K2 & K3 & _ & _ & K4).
    { intros _ Q. rewrite F1, T0 in Q. now destruct Q. }
    exists s'. split; [exact K|]. do 3 (split; [assumption|]). intros N Cl. exists raw. rewrite (K4 N (Cl _ eq_refl)). destruct (Z.ltb_spec (-1) v); [reflexivity|lia].
  - rewrite C1. rewrite (mbind_ok _ _ s1 s1 (Some sraw)) by reflexivity. cbv beta iota.
    assert (KK : exists s2, (let* lv := lift (extract_version_untrusted E sraw) in catch (director_verify_targets E sraw) any_exn (ret tt) ;; ret lv) s1 = (s2, Ok lv) /\
      u_droot s2 = R /\ u_db s2 = u_db s1 /\ (tg_targets t = [] -> tg_targets (u_dtargets s2) <> [] -> one_target_per_ecu (u_dtargets s2))).
    { rewrite C2, (mbind_ok _ _ s1 s1 lv) by reflexivity. unfold catch, mbind. destruct (director_verify_targets E sraw s1) as (s2, x2) eqn:H2.
      apply director_verify_spec in H2. destruct H2 as [(e & -> & ->) | (-> & t' & (A' & D') & P1 & P2 & P3 & _ & P5 & P6)].
      - cbn [any_exn]. exists s1. split; [reflexivity|]. split; [exact G1|]. split; [reflexivity|]. intros _ Q. rewrite F1, T0 in Q. now destruct Q.
      - exists s2. split; [reflexivity|]. split; [specialize (P5 Director); cbn [get_root] in P5; congruence|]. split; [exact P3|]. intros Q _.
        rewrite P2, F1, T0. cbn [tg_targets targets_empty nilb negb andb]. destruct C4 as [C4 | C4]; [contradiction|]. eapply C4; eauto. }
    destruct KK as (s2 & H2 & G2 & D2 & Q2). rewrite (mbind_ok _ _ _ _ _ H2).
    destruct (director_end_complete E srv clk s2 R t raw v lv G2 S C3 A D X1 X2 X3 Q2) as (s' & K & K1 & K2 & K3 & _ & _ & K4). exists s'.
    split; [exact K|]. do 3 (split; [assumption|]). intros N Cl. rewrite (K4 N (Cl _ eq_refl)). destruct (lv <? v); [eauto|]. rewrite D2, N1, C1. eauto.
Qed.

(** ** Image repository *)
Lemma store_newer_complete local remote raw ty s : local <= remote ->
  exists s', store_newer local remote raw ty s = (s', Ok tt) /\ (forall rp, get_root rp s' = get_root rp s) /\ u_itime s' = u_itime s /\ u_isnap s' = u_isnap s /\ u_itargets s' = u_itargets s /\
    forall ty', ty' <> ty -> load_nonroot Image ty' (u_db s') = load_nonroot Image ty' (u_db s).
Proof.
  intros L. unfold store_newer. destruct (Z.ltb_spec remote local) as [Lt|_]; [lia|]. destruct (local <? remote); [|exists s; repeat split].
  destruct (write (store_nonroot raw Image ty) s) as (s', x) eqn:H. apply write_spec in H as K. destruct K as (-> & D & _ & G & F). destruct (F Image) as (_ & _ & _ & F1 & F2 & F3).
  exists s'. split; [reflexivity|]. split; [exact G|]. do 3 (split; [assumption|]). intros ty' N. unfold load_nonroot. rewrite D, latest_store_nonroot_other; auto.
Qed.
Lemma timestamp_block_complete E srv clk s R tm raw v : u_iroot s = R -> srv Image "timestamp" (-1) = Ok raw -> extract_version_untrusted E raw = Ok v -> 0 <= v ->
  authentic_timestamp E R raw tm -> is_expired (tm_base tm) (clk RTimestamp) = false -> not_newer E Image RTimestamp (u_db s) v ->
  exists s', image_timestamp_block E srv clk s = (s', Ok tt) /\ u_iroot s' = R /\ u_itime s' = tm /\ u_isnap s' = u_isnap s /\ u_itargets s' = u_itargets s /\
    forall ty', ty' <> RTimestamp -> load_nonroot Image ty' (u_db s') = load_nonroot Image ty' (u_db s).
Proof.
  intros G S X V (A & D) Hx N. subst R. unfold image_timestamp_block.
  rewrite S, (mbind_ok _ _ s s raw) by reflexivity. rewrite X, (mbind_ok _ _ s s v) by reflexivity.
  rewrite (mbind_ok _ _ s s (load_nonroot Image RTimestamp (u_db s))) by reflexivity.
  assert (K : exists o local, load_nonroot Image RTimestamp (u_db s) = Ok o /\ (match o with Some sraw => extract_version_untrusted E sraw | None => Ok (-1) end) = Ok local /\ local <= v).
  { destruct N as [N | (sraw & lv & N1 & N2 & N3)]; [exists None, (-1)|exists (Some sraw), lv]; repeat split; auto; lia. }
  destruct K as (o & local & K1 & K2 & K3). rewrite K1, (mbind_ok _ _ s s o) by reflexivity. rewrite K2, (mbind_ok _ _ s s local) by reflexivity.
  assert (H1 : exists s1, image_verify_timestamp E raw s = (s1, Ok tt) /\ (forall rp, get_root rp s1 = get_root rp s) /\ u_itime s1 = tm /\ u_isnap s1 = u_isnap s /\ u_itargets s1 = u_itargets s /\ u_db s1 = u_db s).
  { unfold image_verify_timestamp, mbind, gets, lift. cbn [get_root]. rewrite (timestamp_signed_complete E _ _ _ A D). eexists. split; [reflexivity|]. repeat split; intros []; reflexivity. }
  destruct H1 as (s1 & H1 & G1 & M1 & N1 & T1 & D1). rewrite (mbind_ok _ _ _ _ _ H1).
  destruct (store_newer_complete local v raw RTimestamp s1 K3) as (s2 & H2 & G2 & M2 & N2 & T2 & D2). rewrite (mbind_ok _ _ _ _ _ H2).
  exists s2. split. { unfold image_check_timestamp_expired, mbind, gets, guard. rewrite M2, M1, Hx. reflexivity. }
  specialize (G1 Image). specialize (G2 Image). cbn [get_root] in G1, G2. do 4 (split; [congruence|]). intros ty' Q. rewrite D2 by exact Q. now rewrite D1.
Qed.
Lemma verify_snapshot_complete E raw sn s : snapshot_named E (u_iroot s) (u_itime s) raw sn ->
  exists s', image_verify_snapshot E raw s = (s', Ok tt) /\ u_iroot s' = u_iroot s /\ u_itime s' = u_itime s /\ u_isnap s' = sn /\ u_itargets s' = u_itargets s /\ u_db s' = u_db s.
Proof.
  intros (G0 & Gh & (Ga & Gd) & Gv). unfold image_verify_snapshot, mbind, gets, lift.
  destruct (hashes_complete E raw (tm_hashes (u_itime s)) false Gh) as (o & Ho). rewrite Ho, (check_hashes_found E _ _ _ _ Ho (or_intror G0)).
  cbn [get_root]. rewrite (snapshot_signed_complete E _ _ _ Ga Gd). unfold set_isnap, modify, guard. rewrite Gv, Z.eqb_refl. cbn [negb]. unfold ret.
  eexists. split; [reflexivity|]. repeat split.
Qed.
Lemma fetch_snapshot_complete E srv s sn raw v local : srv Image "snapshot" (-1) = Ok raw -> extract_version_untrusted E raw = Ok v -> local <= v ->
  snapshot_named E (u_iroot s) (u_itime s) raw sn ->
  exists s', image_fetch_snapshot E srv local s = (s', Ok tt) /\ u_iroot s' = u_iroot s /\ u_isnap s' = sn /\ u_itime s' = u_itime s /\ u_itargets s' = u_itargets s /\
    forall ty', ty' <> RSnapshot -> load_nonroot Image ty' (u_db s') = load_nonroot Image ty' (u_db s).
Proof.
  intros S X L N. unfold image_fetch_snapshot. rewrite S, (mbind_ok _ _ s s raw) by reflexivity. rewrite X, (mbind_ok _ _ s s v) by reflexivity.
  destruct (verify_snapshot_complete E raw sn s N) as (s1 & H1 & G1 & M1 & N1 & T1 & D1). rewrite (mbind_ok _ _ _ _ _ H1).
  destruct (store_newer_complete local v raw RSnapshot s1 L) as (s2 & H2 & G2 & M2 & N2 & T2 & D2). exists s2. split; [exact H2|].
  specialize (G2 Image). cbn [get_root] in G2. do 4 (split; [congruence|]). intros ty' Q. rewrite D2 by exact Q. now rewrite D1.
Qed.
Lemma check_hashes_wrong E raw : forall l f, ~ (forall h, In h l -> digest_matches E raw h) -> check_hashes E (canon E (parse E raw)) l f = None.
Proof.
  induction l as [|h l IH]; intros f N; [destruct N; intros h []|]. cbn [check_hashes].
  destruct (check_hashes E (canon E (parse E raw)) (h :: l) f) as [o|] eqn:K.
  - exfalso. apply N. pose proof (check_hashes_spec E raw (h :: l) f o K) as Q. intros x Hx. now apply Q.
  - exact K.
Qed.
Lemma digests_dec E raw l : (forall h, In h l -> digest_matches E raw h) \/ ~ (forall h, In h l -> digest_matches E raw h).
Proof.
  induction l as [|h l IH]; [left; intros h []|].
  assert (D : digest_matches E raw h \/ ~ digest_matches E raw h).
  { unfold digest_matches. destruct (h_type h); [| |now left]; match goal with |- ?a = ?b \/ _ => destruct (string_dec a b) end; auto. }
  destruct D as [D | D]; [|right; intros Q; apply D, Q; now left].
  destruct IH as [IH | IH]; [left; intros x [<-|Hx]; auto|right; intros Q; apply IH; intros x Hx; apply Q; now right].
Qed.
Lemma snapshot_block_complete E srv clk s R tm sn raw v o : u_iroot s = R -> u_itime s = tm -> u_isnap s = snapshot_empty ->
  srv Image "snapshot" (-1) = Ok raw -> extract_version_untrusted E raw = Ok v -> 0 <= v -> snapshot_named E R tm raw sn -> is_expired (sn_base sn) (clk RSnapshot) = false ->
  load_nonroot Image RSnapshot (u_db s) = Ok o ->
  (forall sraw, o = Some sraw -> (forall h, In h (tm_hashes tm) -> digest_matches E sraw h) -> parse E sraw = parse E raw) ->
  exists s', image_snapshot_block E srv clk s = (s', Ok tt) /\ u_iroot s' = R /\ u_isnap s' = sn /\ u_itime s' = tm /\ u_itargets s' = u_itargets s /\
    forall ty', ty' <> RSnapshot -> load_nonroot Image ty' (u_db s') = load_nonroot Image ty' (u_db s).
Proof.
  intros G M E0 S X V N Hx Lo Hs. subst R tm. unfold image_snapshot_block.
  rewrite (mbind_ok _ _ s s (load_nonroot Image RSnapshot (u_db s))) by reflexivity. rewrite Lo, (mbind_ok _ _ s s o) by reflexivity.
  match goal with |- exists s', ?f s = _ /\ _ => assert (K : forall s1, u_iroot s1 = u_iroot s -> u_isnap s1 = sn -> u_itime s1 = u_itime s -> u_itargets s1 = u_itargets s ->
     (forall ty', ty' <> RSnapshot -> load_nonroot Image ty' (u_db s1) = load_nonroot Image ty' (u_db s)) ->
     exists s', image_check_snapshot_expired clk s1 = (s', Ok tt) /\ u_iroot s' = u_iroot s /\ u_isnap s' = sn /\ u_itime s' = u_itime s /\ u_itargets s' = u_itargets s /\
     (forall ty', ty' <> RSnapshot -> load_nonroot Image ty' (u_db s') = load_nonroot Image ty' (u_db s))) end.
  { intros s1 B1 B2 B3 B4 B5. exists s1. split; [|auto]. unfold image_check_snapshot_expired, mbind, gets, guard. rewrite B2, Hx. reflexivity. }
  destruct o as [sraw|].
  - destruct (digests_dec E sraw (tm_hashes (u_itime s))) as [Dg | Dg].
    + specialize (Hs sraw eq_refl Dg).
      assert (N' : snapshot_named E (u_iroot s) (u_itime s) sraw sn).
      { destruct N as (N0 & N1 & (N2a & N2b) & N3). unfold snapshot_named, authentic_snapshot. rewrite Hs. auto. }
      destruct (verify_snapshot_complete E sraw sn s N') as (s1 & H1 & G1 & M1 & N1 & T1 & D1).
      assert (H2 : (let* fetch := catch (image_verify_snapshot E sraw ;; ret false) is_uptane (ret true) in
         let* local := gets (fun s => b_version (sn_base (u_isnap s))) in if fetch then image_fetch_snapshot E srv local else ret tt) s = (s1, Ok tt)).
      { rewrite (mbind_ok _ _ s s1 false); [reflexivity|]. unfold catch. rewrite (mbind_ok _ _ _ _ _ H1). reflexivity. }
      rewrite (mbind_ok _ _ _ _ _ H2). apply K; auto. intros ty' _. now rewrite D1.
    + destruct (fetch_snapshot_complete E srv s sn raw v (-1) S X ltac:(lia) N) as (s1 & H1 & G1 & N1 & M1 & T1 & D1).
      assert (H2 : (let* fetch := catch (image_verify_snapshot E sraw ;; ret false) is_uptane (ret true) in
         let* local := gets (fun s => b_version (sn_base (u_isnap s))) in if fetch then image_fetch_snapshot E srv local else ret tt) s = (s1, Ok tt)).
      { rewrite (mbind_ok _ _ s s true).
        - rewrite (mbind_ok _ _ s s (-1)) by (unfold gets; rewrite E0; reflexivity). exact H1.
        - unfold catch, image_verify_snapshot. unfold mbind, gets. rewrite (check_hashes_wrong E sraw _ false Dg). reflexivity. }
      rewrite (mbind_ok _ _ _ _ _ H2). apply K; auto.
  - destruct (fetch_snapshot_complete E srv s sn raw v (-1) S X ltac:(lia) N) as (s1 & H1 & G1 & N1 & M1 & T1 & D1).
    rewrite (mbind_ok _ _ _ _ _ H1). apply K; auto.
Qed.
Lemma verify_targets_complete E raw t s : targets_named E (u_iroot s) (u_isnap s) raw t ->
  exists s', image_verify_targets E raw s = (s', Ok tt) /\ u_iroot s' = u_iroot s /\ u_itime s' = u_itime s /\ u_isnap s' = u_isnap s /\ u_itargets s' = Some t /\ u_db s' = u_db s.
Proof.
  intros (Ih & Ia & Id & Iv). unfold image_verify_targets, mbind, gets, lift. unfold verify_role_hashes.
  destruct (hashes_complete E raw (role_hashes (u_isnap s) "targets") false Ih) as (o & Ho). rewrite Ho. cbn [get_root].
  rewrite (targets_signed_complete E _ role_targets _ _ standard_targets Ia Id).
  unfold set_itargets, modify, guard. rewrite Iv, Z.eqb_refl. cbn [negb]. unfold ret. eexists. split; [reflexivity|]. repeat split.
Qed.
Lemma fetch_targets_complete E srv s t raw v local : srv Image "targets" (-1) = Ok raw -> extract_version_untrusted E raw = Ok v -> local <= v ->
  targets_named E (u_iroot s) (u_isnap s) raw t ->
  exists s', image_fetch_targets E srv local s = (s', Ok tt) /\ u_iroot s' = u_iroot s /\ u_isnap s' = u_isnap s /\ u_itime s' = u_itime s /\ u_itargets s' = Some t.
Proof.
  intros S X L N. unfold image_fetch_targets. rewrite S, (mbind_ok _ _ s s raw) by reflexivity. rewrite X, (mbind_ok _ _ s s v) by reflexivity.
  destruct (verify_targets_complete E raw t s N) as (s1 & H1 & G1 & M1 & N1 & T1 & D1). rewrite (mbind_ok _ _ _ _ _ H1).
  destruct (store_newer_complete local v raw RTargets s1 L) as (s2 & H2 & G2 & M2 & N2 & T2 & D2). exists s2. split; [exact H2|].
  specialize (G2 Image). cbn [get_root] in G2. repeat split; congruence.
Qed.
(** What the verification of the stored Targets leaves. *)
Lemma verify_targets_any E raw s s' r : image_verify_targets E raw s = (s', r) ->
  u_iroot s' = u_iroot s /\ u_itime s' = u_itime s /\ u_isnap s' = u_isnap s /\
  ((exists e, r = Throw e) /\ u_itargets s' = u_itargets s \/
   exists t, u_itargets s' = Some t /\ (forall h, In h (role_hashes (u_isnap s) "targets") -> digest_matches E raw h) /\ acceptable E (rt_ks (u_iroot s)) role_targets (parse E raw) /\
     targets_doc E "targets" (parse E raw) t /\ (r = Ok tt -> tg_version t = role_version (u_isnap s) "targets")).
Proof.
  unfold image_verify_targets. intros H. apply gets_inv in H.
  apply lift_inv in H. destruct H as [([] & Hh & H) | (e0 & He & -> & ->)]; [|repeat split; left; eauto].
  apply gets_inv in H. apply lift_inv in H. destruct H as [(t & Ht & H) | (e0 & He & -> & ->)]; [|repeat split; left; eauto].
  apply targets_signed_ok in Ht; [|apply standard_targets]. destruct Ht as (Ha & Hd). cbn [get_root] in Ha.
  unfold verify_role_hashes in Hh. destruct (check_hashes E (canon E (parse E raw)) (role_hashes (u_isnap s) "targets") false) as [o|] eqn:C; [|discriminate].
  pose proof (check_hashes_spec E raw _ _ _ C) as Q.
  unfold mbind, set_itargets, modify, guard in H. destruct (Z.eqb_spec (tg_version t) (role_version (u_isnap s) "targets")) as [Y|Y]; cbn [negb] in H.
  - inversion H; subst. repeat split. right. exists t. split; [reflexivity|]. split; [intros h Hh'; now apply Q|]. auto.
  - inversion H; subst. repeat split. right. exists t. split; [reflexivity|]. split; [intros h Hh'; now apply Q|]. split; [auto|]. split; [auto|discriminate].
Qed.
Lemma targets_block_complete E srv clk s R sn t raw v o : u_iroot s = R -> u_isnap s = sn -> u_itargets s = None ->
  srv Image "targets" (-1) = Ok raw -> extract_version_untrusted E raw = Ok v -> 0 <= v -> targets_named E R sn raw t -> is_expired (tg_base t) (clk RTargets) = false ->
  load_nonroot Image RTargets (u_db s) = Ok o ->
  (forall sraw st, o = Some sraw -> (forall h, In h (role_hashes sn "targets") -> digest_matches E sraw h) ->
         acceptable E (rt_ks R) role_targets (parse E sraw) -> targets_doc E "targets" (parse E sraw) st ->
         tg_version st <= tg_version t /\ (tg_version st = tg_version t -> st = t)) ->
  exists s', image_targets_block E srv clk s = (s', Ok tt) /\ u_iroot s' = R /\ u_isnap s' = sn /\ u_itime s' = u_itime s /\ u_itargets s' = Some t.
Proof.
  intros G M E0 S X V N Hx Lo Hs. subst R sn. unfold image_targets_block.
  rewrite (mbind_ok _ _ s s (load_nonroot Image RTargets (u_db s))) by reflexivity. rewrite Lo, (mbind_ok _ _ s s o) by reflexivity.
  assert (K : forall s1, u_iroot s1 = u_iroot s -> u_isnap s1 = u_isnap s -> u_itime s1 = u_itime s -> u_itargets s1 = Some t ->
     exists s', image_check_targets_expired clk s1 = (s', Ok tt) /\ u_iroot s' = u_iroot s /\ u_isnap s' = u_isnap s /\ u_itime s' = u_itime s /\ u_itargets s' = Some t).
  { intros s1 B1 B2 B3 B4. exists s1. split; [|auto]. unfold image_check_targets_expired, mbind, gets, guard. rewrite B4, Hx. reflexivity. }
  assert (Vv : v = tg_version t). { destruct N as (_ & _ & (B & _) & _). symmetry. unfold tg_version. eapply extract_base; eauto. }
  destruct o as [sraw|].
  - destruct (image_verify_targets E sraw s) as (s1, x1) eqn:H1. pose proof H1 as A. apply verify_targets_any in A. destruct A as (A1 & A2 & A3 & A4).
    assert (Nt : targets_named E (u_iroot s) (u_isnap s) raw t -> targets_named E (u_iroot s1) (u_isnap s1) raw t) by (rewrite A1, A3; auto).
    assert (C : (exists e, x1 = Throw e) /\ (exists lv, match u_itargets s1 with Some t => tg_version t | None => -1 end = lv /\ lv <= v) \/ x1 = Ok tt /\ u_itargets s1 = Some t).
    { destruct A4 as [(Ae & A4) | (t' & A4 & A5 & A6 & A7 & A8)].
      - left. split; [exact Ae|]. rewrite A4, E0. exists (-1). split; [reflexivity|lia].
      - destruct (Hs sraw t' eq_refl A5 A6 A7) as (Q1 & Q2). destruct x1 as [[]|e].
        + right. split; [reflexivity|]. destruct N as (_ & _ & _ & Nv). rewrite A4, Q2; [reflexivity|]. rewrite Nv. now apply A8.
        + left. split; [eauto|]. rewrite A4. exists (tg_version t'). split; [reflexivity|lia]. }
    destruct C as [((e & ->) & lv & C1 & C2) | (-> & C)].
    + destruct (fetch_targets_complete E srv s1 t raw v lv S X C2 (Nt N)) as (s2 & H2 & G2 & N2 & M2 & T2).
      assert (H3 : (let* fetch := catch (image_verify_targets E sraw ;; ret false) any_exn (ret true) in
         let* local := gets (fun s => match u_itargets s with Some t => tg_version t | None => -1 end) in if fetch then image_fetch_targets E srv local else ret tt) s = (s2, Ok tt)).
      { rewrite (mbind_ok _ _ s s1 true).
        - rewrite (mbind_ok _ _ s1 s1 lv) by (unfold gets; now rewrite C1). exact H2.
        - unfold catch, mbind. rewrite H1. reflexivity. }
      rewrite (mbind_ok _ _ _ _ _ H3). apply K; congruence.
    + assert (H3 : (let* fetch := catch (image_verify_targets E sraw ;; ret false) any_exn (ret true) in
         let* local := gets (fun s => match u_itargets s with Some t => tg_version t | None => -1 end) in if fetch then image_fetch_targets E srv local else ret tt) s = (s1, Ok tt)).
      { rewrite (mbind_ok _ _ s s1 false); [reflexivity|]. unfold catch. rewrite (mbind_ok _ _ _ _ _ H1). reflexivity. }
      rewrite (mbind_ok _ _ _ _ _ H3). apply K; congruence.
  - destruct (fetch_targets_complete E srv s t raw v (-1) S X ltac:(lia) N) as (s1 & H1 & G1 & N1 & M1 & T1).
    rewrite (mbind_ok _ _ _ _ _ H1). apply K; congruence.
Qed.
Theorem image_update_complete E srv clk s l R tm sn t :
  roots_in_order E srv clk Image (u_db s) l R -> image_in_order E srv clk (u_db s) l R tm sn t ->
  exists s', image_update E srv clk s = (s', Ok tt) /\ u_iroot s' = R /\ u_itime s' = tm /\ u_isnap s' = sn /\ u_itargets s' = Some t.
Proof.
  intros HR (HT & HS & HG). unfold image_update.
  destruct (image_reset s) as (s0, x0) eqn:H0. apply image_reset_spec in H0 as K0. destruct K0 as (-> & D0 & _ & T0 & S0 & I0 & _). rewrite (mbind_ok _ _ _ _ _ H0).
  rewrite <- D0 in HR, HT, HS, HG. destruct (update_root_complete E srv clk Image s0 l R HR) as (s1 & H1 & G1 & (_ & _ & _ & F1 & F2 & F3) & N1). rewrite (mbind_ok _ _ _ _ _ H1).
  cbn [get_root] in G1.
  destruct HT as (traw & tv & Ta & Tb & Tc & Td & Te & Tf).
  destruct (timestamp_block_complete E srv clk s1 R tm traw tv G1 Ta Tb Tc Td Te) as (s2 & H2 & G2 & M2 & P2 & Q2 & D2).
  { unfold not_newer. rewrite (N1 RTimestamp) by discriminate. destruct l; [|now left]. destruct Tf as [Tf|Tf]; [now destruct Tf|exact Tf]. }
  rewrite (mbind_ok _ _ _ _ _ H2).
  destruct HS as (sraw & sv & Sa & Sb & Sc & Sd & Se & Sf).
  assert (OS : exists o, load_nonroot Image RSnapshot (u_db s2) = Ok o /\ forall r, o = Some r -> (forall h, In h (tm_hashes tm) -> digest_matches E r h) -> parse E r = parse E sraw).
  { rewrite D2 by discriminate. rewrite (N1 RSnapshot) by discriminate. destruct l; [|exists None; split; [reflexivity|discriminate]]. destruct Sf as [Sf|Sf]; [now destruct Sf|exact Sf]. }
  destruct OS as (os & OS1 & OS2).
  destruct (snapshot_block_complete E srv clk s2 R tm sn sraw sv os G2 M2 ltac:(congruence) Sa Sb Sc Sd Se OS1 OS2) as (s3 & H3 & G3 & P3 & M3 & Q3 & D3).
  rewrite (mbind_ok _ _ _ _ _ H3).
  destruct HG as (graw & gv & Ga & Gb & Gc & Gd & Ge & Gf).
  assert (OG : exists o, load_nonroot Image RTargets (u_db s3) = Ok o /\ forall sraw st, o = Some sraw -> (forall h, In h (role_hashes sn "targets") -> digest_matches E sraw h) ->
         acceptable E (rt_ks R) role_targets (parse E sraw) -> targets_doc E "targets" (parse E sraw) st -> tg_version st <= tg_version t /\ (tg_version st = tg_version t -> st = t)).
  { rewrite D3, D2 by discriminate. rewrite (N1 RTargets) by discriminate. destruct l; [|exists None; split; [reflexivity|discriminate]]. destruct Gf as [Gf|Gf]; [now destruct Gf|exact Gf]. }
  destruct OG as (og & OG1 & OG2).
  destruct (targets_block_complete E srv clk s3 R sn t graw gv og G3 P3 ltac:(congruence) Ga Gb Gc Gd Ge OG1 OG2) as (s4 & H4 & G4 & P4 & M4 & Q4).
  exists s4. split; [exact H4|]. repeat split; congruence.
Qed.
