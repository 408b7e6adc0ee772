(** An online update of the Director that is repeated after a crash. *)
From Verif Require Import Base Json TufModel TufSpec TufProofs MetaStore RepoModel RepoSpec RepoProofs RepoProofs2 RepoProofs3 RepoProofs4 RepoProofs6 ClientProofs2 OrdSpec OrdProofs IpProofs2.

Lemma chain_dbs_last E rp : forall R l R', root_chain E R l R' -> forall d, l <> [] -> In (chain_db rp l d) (chain_dbs rp l d).
Proof.
  induction 1 as [R | R R' R'' raw l Hn Hc IH]; intros d N; [now destruct N|]. cbn [chain_db chain_dbs]. destruct l as [|p l].
  - cbn [chain_db]. right. now left.
  - right. right. apply IH. discriminate.
Qed.

(** From what is stored in [d], Roots of [L] lead to [Rf]. *)
Definition resumable (E : Env) (rp : repo) (L : list (Z * string)) (Rf : root) (d : db) : Prop :=
  exists raw R l, load_latest_root rp d = Ok (Some raw) /\ self_signed_root E raw R /\ root_chain E R l Rf /\ incl l L.
Lemma resumable_chain E rp L : forall R l Rf, root_chain E R l Rf -> incl l L -> chain_clean l ->
  forall d, resumable E rp L Rf d -> forall d', In d' (chain_db rp l d :: chain_dbs rp l d) -> resumable E rp L Rf d'.
Proof.
  induction 1 as [R | R R' R'' raw l Hn Hc IH]; intros Hi Hcl d Hd d' Hin.
  - destruct Hin as [<-|[]]. exact Hd.
  - assert (H1 : resumable E rp L R'' (store_root raw rp (rt_version R') d)).
    { destruct Hd as (raw0 & R0 & l0 & L0 & S0 & C0 & I0). unfold resumable, load_latest_root in *. rewrite latest_store_root.
      destruct (latest_row rp RRoot d) as [w|] eqn:Hw; [|discriminate]. destruct (rt_version R' <? w_ver w); [eauto 8|].
      exists raw, R', l. split; [cbn; now rewrite nul_free_blob by (eapply Hcl; left; reflexivity)|]. destruct Hn as (J & _ & A & _). split; [split; assumption|].
      split; [exact Hc|]. intros x Hx. apply Hi. now right. }
    assert (H2 : resumable E rp L R'' (clear_nonroot rp (store_root raw rp (rt_version R') d))).
    { unfold resumable, load_latest_root in *. now rewrite latest_clear_root. }
    cbn [chain_db chain_dbs] in Hin. assert (Hi' : incl l L) by (intros x Hx; apply Hi; now right). assert (Hcl' : chain_clean l) by (intros a b h; apply (Hcl a b); now right).
    destruct Hin as [Hin | [<- | [<- | Hin]]]; auto; apply (IH Hi' Hcl' _ H2); [now left|now right].
Qed.
(** The loop ends because the next Root is not there, or at the limit. *)
Lemma root_loop_end E srv rp : forall fuel v s s', rt_policy (get_root rp s) = PCheck -> v = rt_version (get_root rp s) + 1 ->
  root_loop E srv rp fuel v s = (s', Ok tt) ->
  (exists e, srv rp "root" (rt_version (get_root rp s') + 1) = Throw e) \/ rt_version (get_root rp s') = v - 1 + Z.of_nat fuel.
Proof.
  induction fuel as [|fuel IH]; intros v s s' Hp Hv H.
  - cbn [root_loop] in H. injection H as <-. right. lia.
  - cbn [root_loop] in H. destruct (srv rp "root" v) as [raw|e] eqn:Hs; [|injection H as <-; left; exists e; now rewrite <- Hv].
    apply mbind_inv in H. destruct H as [(s1 & [] & H1 & H) | (e & _ & H)]; [|discriminate].
    apply verify_root_spec in H1; auto. destruct H1 as (_ & _ & _ & N1). specialize (N1 eq_refl). destruct N1 as (J & _ & _ & V1).
    apply mbind_inv in H. destruct H as [(s2 & [] & H2 & H) | (e & _ & H)]; [|discriminate]. apply write_spec in H2. destruct H2 as (_ & _ & _ & G2 & _).
    apply mbind_inv in H. destruct H as [(s3 & [] & H3 & H) | (e & _ & H)]; [|discriminate]. apply write_spec in H3. destruct H3 as (_ & _ & _ & G3 & _).
    apply IH in H; [|rewrite G3, G2; eapply root_of_json_check; eauto|rewrite G3, G2, V1; lia]. destruct H as [H|H]; [now left|]. right. lia.
Qed.
Lemma update_root_end E srv clk rp s s' : update_root E srv clk rp s = (s', Ok tt) -> rt_version (get_root rp s') < 999 -> exists e, srv rp "root" (rt_version (get_root rp s') + 1) = Throw e.
Proof.
  unfold update_root. intros H B. apply mbind_inv in H. destruct H as [(s1 & [] & H1 & H) | (e & _ & H)]; [|discriminate].
  apply load_or_fetch_spec in H1. destruct H1 as (_ & Hcase). apply gets_inv in H.
  apply mbind_inv in H. destruct H as [(s2 & [] & H2 & H) | (e & _ & H)]; [|discriminate]. apply gets_inv in H. apply guard_ok in H. destruct H as (<- & _).
  assert (P : rt_policy (get_root rp s1) = PCheck).
  { destruct Hcase as [(_ & _ & Hc) | (_ & raw0 & _ & _ & (J & _) & _)]; [destruct (Hc eq_refl) as (raw0 & _ & (J & _))|]; eapply root_of_json_check; eauto. }
  apply root_loop_end in H2; auto. destruct H2 as [H2|H2]; [exact H2|]. unfold kMaxRotations in H2.
  destruct (Z.le_gt_cases (rt_version (get_root rp s1) + 1) 1000); lia.
Qed.

(** Every database state of a successful update of the Director: the Roots, and the served Targets. *)
Lemma director_update_states E srv clk s s1 : director_update E srv clk s = (s1, Ok tt) -> u_log s = [] -> clean_server srv ->
  rt_version (u_droot s1) < 999 ->
  (forall d', In d' (u_log s1) -> exists l, roots_in_order E srv clk Director d' l (u_droot s1)) /\
  exists raw v, srv Director "targets" (-1) = Ok raw /\ extract_version_untrusted E raw = Ok v /\ verified_targets E (u_droot s1) raw (u_dlatest s1) /\
    is_expired (tg_base (u_dlatest s1)) (clk RTargets) = false /\ tg_deleg (u_dlatest s1) = [] /\
    (tg_targets (u_dlatest s1) <> [] -> one_target_per_ecu (u_dlatest s1)).
Proof.
  intros H HL Hcl B. apply director_update_phases in H. destruct H as (s0 & s2 & x & D0 & L0 & Hu & T1 & T2 & [(e & _ & _ & X) | (-> & Hb)]); [discriminate|].
  apply director_block_spec in Hb; [|now rewrite T1]. destruct Hb as (Hsr & _ & [(_ & e & X) | (raw & v & local & S & Xv & _ & _ & V & W & Hok)]); [discriminate|].
  destruct (Hok eq_refl) as (X1 & X2 & X3). assert (G : u_droot s1 = u_droot s2) by exact (Hsr Director). cbn [get_root] in V. rewrite <- G in V.
  assert (W' : exists ws, Forall (fun w => fst w <> RRoot) ws /\ wrote Director ws s2 s1).
  { destruct W as [(_ & W) | (_ & W)]; [|exists []; split; [constructor|exact W]]. exists (if local <? v then [(RTargets, raw)] else []). split; [|exact W]. destruct (local <? v); [|constructor]. constructor; [discriminate|constructor]. }
  split.
  - assert (Ht : exists e, srv Director "root" (rt_version (u_droot s1) + 1) = Throw e) by (rewrite G; apply (update_root_end E srv clk Director s0 s2 Hu); cbn [get_root]; now rewrite <- G).
    pose proof Hu as Hs. apply update_root_spec in Hs. destruct Hs as (o & l & Ro & Ho & D & L & _ & Hfirst & Hserved & Hk). destruct (Hk eq_refl) as (-> & Hx). cbn [get_root] in Ho, Hx. rewrite <- G in Ho, Hx.
    rewrite L0, HL, app_nil_r in L. assert (Hcc : chain_clean l) by (intros a b h; eapply Hcl; eauto).
    assert (Hr : forall d', In d' (u_db s2 :: u_log s2) -> resumable E Director l (u_droot s1) d').
    { intros d' Hin. rewrite D, L in Hin. inversion Ho as [|raw0 R0 l' R Hload Hss Hc | raw0 R0 l' R Hload Hss Hc]; subst.
      - cbn [first_db first_dbs] in Hin. rewrite app_nil_r in Hin. apply (resumable_chain E Director l R0 l _ Hc (incl_refl _) Hcc (u_db s0)).
        + exists raw0, R0, l. repeat (split; auto; try apply Hss). apply incl_refl.
        + destruct Hin as [Hin|Hin]; [now left|]. right. now apply in_rev.
      - cbn [first_db first_dbs] in Hin. assert (F : resumable E Director l (u_droot s1) (store_root raw0 Director 1 (u_db s0))).
        { exists raw0, R0, l. split; [|split; [exact Hss|split; [exact Hc|apply incl_refl]]]. unfold load_latest_root in *. rewrite latest_store_root.
          destruct (latest_row Director RRoot (u_db s0)) as [w|] eqn:Hw.
          - cbn [row_data] in Hload. destruct (blob_to_string (w_data w)); discriminate.
          - cbn. rewrite nul_free_blob; [reflexivity|]. eapply Hcl. apply Hfirst. reflexivity. }
        destruct Hin as [Hin|Hin]; [apply (resumable_chain E Director l R0 l _ Hc (incl_refl _) Hcc _ F); now left|].
        apply in_app_or in Hin. destruct Hin as [Hin|[<-|[]]]; [|exact F].
        apply (resumable_chain E Director l R0 l _ Hc (incl_refl _) Hcc _ F). right. now apply in_rev. }
    destruct W' as (ws & Fw & W'). assert (Hr' : forall d', In d' (u_log s1) -> resumable E Director l (u_droot s1) d').
    { destruct W' as (Wd & Wl). intros d' Hin. rewrite Wl in Hin. apply in_app_or in Hin. destruct Hin as [Hin|Hin]; [|apply Hr; now right].
      apply in_rev in Hin. clear -Fw Hin Hr. specialize (Hr (u_db s2) (or_introl eq_refl)). revert Hin Hr. generalize (u_db s2). induction Fw as [|(ty, rw) ws F Fw IH]; intros d Hin Hd; [destruct Hin|].
      assert (N : resumable E Director l (u_droot s1) (store_nonroot rw Director ty d)).
      { unfold resumable, load_latest_root in *. rewrite latest_store_nonroot_other by (right; cbn in F; congruence). exact Hd. }
      destruct Hin as [<-|Hin]; [exact N|]. eapply IH; eauto. }
    intros d' Hin. destruct (Hr' d' Hin) as (raw0 & R0 & l0 & P1 & P2 & P3 & P4). exists l0, raw0, R0. split; [now left|]. split; [exact P2|]. split; [exact P3|].
    split; [intros a b h; apply Hserved, P4, h|]. split; [exact Ht|]. split; [lia|exact Hx].
  - exists raw, v. do 5 (split; [assumption|]). intros N. destruct W as [(<- & _) | ((Z & _) & _)]; [exact X3|contradiction].
Qed.
Theorem repeat_after_crash E srv clk s s1 d' : director_update E srv clk s = (s1, Ok tt) -> u_log s = [] -> clean_server srv ->
  rt_version (u_droot s1) < 999 -> In d' (u_log s1) ->
  (exists raw v, srv Director "targets" (-1) = Ok raw /\ extract_version_untrusted E raw = Ok v /\ 0 <= v /\ not_newer E Director RTargets d' v) ->
  tg_targets (u_dlatest s1) <> [] \/ stored_targets_sane E d' ->
  forall s', u_db s' = d' -> exists s2, director_update E srv clk s' = (s2, Ok tt) /\ u_droot s2 = u_droot s1 /\ u_dlatest s2 = u_dlatest s1.
Proof.
  intros H HL Hcl B Hin (raw & v & S & X & V & N) T s' Ds. destruct (director_update_states E srv clk s s1 H HL Hcl B) as (Hr & raw' & v' & S' & X' & (A & Dc) & X1 & X2 & X3).
  assert (raw' = raw) by congruence. subst raw'. assert (v' = v) by congruence. subst v'. destruct (Hr d' Hin) as (l & R).
  destruct (director_update_complete E srv clk s' l (u_droot s1) (u_dlatest s1)) as (s2 & K & K1 & K2 & _); [now rewrite Ds| |eauto].
  rewrite Ds. exists raw, v. do 7 (split; [assumption|]). split; [|right; split; [exact N|exact T]].
  destruct (tg_targets (u_dlatest s1)) eqn:Q; [unfold one_target_per_ecu; rewrite Q; constructor|]. apply X3. discriminate.
Qed.
(** Targets with a higher number in the storage, and no new Root: every update fails and changes nothing. *)
Theorem older_targets_refused E srv clk s s1 r lv :
  director_update E srv clk s = (s1, r) -> ~ rotation_offered E srv Director (u_db s) -> (exists raw0, load_latest_root Director (u_db s) = Ok (Some raw0)) ->
  stored_version E Director RTargets (u_db s) lv ->
  (forall raw v, srv Director "targets" (-1) = Ok raw -> extract_version_untrusted E raw = Ok v -> v < lv) ->
  (exists e, r = Throw e) /\ u_db s1 = u_db s /\ u_log s1 = u_log s.
Proof.
  intros H Hn Hroot Hst Hv. apply director_update_phases in H. destruct H as (s0 & s2 & x & D0 & L0 & Hu & T1 & T2 & Hc).
  destruct (no_rotation_root_phase E srv clk Director s0 s2 x Hu) as (D2 & L2); [now rewrite D0|now rewrite D0|].
  destruct Hc as [(e & -> & -> & ->) | (-> & Hb)]; [split; [eauto|]; split; congruence|].
  apply director_block_spec in Hb; [|now rewrite T1]. destruct Hb as (_ & _ & [((Wd & Wl) & e & ->) | (raw & v & local & S & Xv & Hloc & Hle & _)]).
  - split; [eauto|]. cbn in Wd, Wl. split; congruence.
  - rewrite D2, D0 in Hloc. rewrite (stored_version_local E Director RTargets (u_db s) lv local Hst Hloc) in Hv. specialize (Hv raw v S Xv). lia.
Qed.
