(** Proofs about aktualizr-secondary. *)
From Verif Require Import Base Json TufModel TufSpec TufProofs TufProofs2 MetaStore RepoModel RepoSpec RepoProofs RepoProofs2 RepoProofs3 RepoProofs4
  RepoProofs5 RepoProofs6 ClientProofs2 SndModel SndSpec.

(** ** The bundle *)
Lemma repo_eqb_true a b : repo_eqb a b = true -> a = b.
Proof. destruct a, b; simpl; auto; discriminate. Qed.
Lemma bget_app b1 b2 rp rn : bget (b1 ++ b2) rp rn = match bget b1 rp rn with Some d => Some d | None => bget b2 rp rn end.
Proof. induction b1 as [|((r, n), d) b1 IH]; simpl; auto. destruct (_ && _); auto. Qed.
Lemma bget_copy rp rn doc b rp' rn' : bget (copy_metadata rp rn doc b) rp' rn' =
  match bget b rp' rn' with Some d => Some d | None => if repo_eqb rp' rp && String.eqb rn' rn then Some doc else None end.
Proof.
  unfold copy_metadata. destruct (bget b rp rn) as [d|] eqn:H.
  - destruct (bget b rp' rn') eqn:H'; auto. destruct (repo_eqb rp' rp) eqn:R; auto. apply repo_eqb_true in R. subst.
    destruct (String.eqb_spec rn' rn); simpl; auto. subst. congruence.
  - rewrite bget_app. destruct (bget b rp' rn'); auto.
Qed.
Lemma bget_copy_all rp known l : forall b rp' rn', bget (copy_all rp known l b) rp' rn' =
  match bget b rp' rn' with Some d => Some d | None => if repo_eqb rp' rp && known rn' then aget rn' l else None end.
Proof.
  induction l as [|(rn, doc) l IH]; intros; simpl.
  - destruct (bget b rp' rn'); auto. now destruct (_ && _).
  - rewrite IH. destruct (known rn) eqn:K.
    + rewrite bget_copy. destruct (bget b rp' rn'); auto. destruct (repo_eqb rp' rp); auto. simpl.
      destruct (String.eqb_spec rn' rn); auto. subst. now rewrite K.
    + destruct (bget b rp' rn'); auto. destruct (repo_eqb rp' rp); auto. simpl.
      destruct (known rn') eqn:K'; auto. destruct (String.eqb_spec rn' rn); auto. congruence.
Qed.
Definition known_role (rp : repo) : string -> bool := match rp with Director => director_role | Image => image_role end.
Lemma put_bundle_get q rp rn : bget (put_bundle q) rp rn = if known_role rp rn then sent q rp rn else None.
Proof.
  unfold put_bundle, sent, known_role. destruct (pq_image q) as [li|]; [rewrite bget_copy_all|];
    (destruct (pq_director q) as [ld|]; [rewrite bget_copy_all|]; simpl; destruct rp; simpl; auto);
    try (destruct (director_role rn); auto; fail); try (destruct (image_role rn); auto; fail).
  destruct (director_role rn); auto. now destruct (aget rn ld).
Qed.
Lemma bundle_server_sent q vs rp rn v raw : bundle_server (put_bundle q) vs rp rn v = Ok raw -> sent q rp rn = Some raw.
Proof.
  unfold bundle_server, bundle_meta. destruct (_ && _); [discriminate|]. rewrite put_bundle_get.
  destruct (known_role rp rn); [|discriminate]. destruct (sent q rp rn); [congruence|discriminate].
Qed.

(** ** Roots *)
Lemma update_root_trusted E srv clk rp s s' q : update_root E srv clk rp s = (s', Ok tt) ->
  (forall v raw, srv rp "root" v = Ok raw -> sent q rp "root" = Some raw) ->
  trusted_root E rp (u_db s) q (get_root rp s') /\ is_expired (rt_base (get_root rp s')) (clk RRoot) = false.
Proof.
  intros H Hs. apply update_root_spec in H. destruct H as (o & l & Ro & Ho & _ & _ & _ & Hf & Hl & Hok).
  destruct (Hok eq_refl) as (-> & Hx). split; auto. inversion Ho; subst.
  - exists raw0, R0, l. split; [now left|]. split; auto. split; auto. intros v raw Hin. eauto.
  - exists raw0, R0, l. split; [right; split; eauto|]. split; auto. split; auto. intros v raw Hin. eauto.
Qed.
Lemma load_latest_chain rp rp' l : rp' <> rp -> forall d, load_latest_root rp' (chain_db rp l d) = load_latest_root rp' d.
Proof.
  intros Hne. induction l as [|(v, raw) l IH]; intros; simpl; auto. rewrite IH.
  unfold load_latest_root. rewrite latest_clear_root, latest_store_root_other; auto.
Qed.
Lemma load_latest_stores rp rp' ws : rp' <> rp -> forall d, load_latest_root rp' (stores rp ws d) = load_latest_root rp' d.
Proof.
  intros Hne. induction ws as [|(ty, raw) l IH]; intros; simpl; auto. rewrite IH.
  unfold load_latest_root. rewrite latest_store_nonroot_other; auto.
Qed.
(** A Director update does not change the Image root. *)
Lemma director_update_image_root E srv clk s s' r : director_update E srv clk s = (s', r) ->
  load_latest_root Image (u_db s') = load_latest_root Image (u_db s).
Proof.
  intros H. assert (Hne : Image <> Director) by discriminate. apply director_update_phases in H.
  destruct H as (s0 & s1 & x & D0 & _ & Hu & T1 & _ & Hc).
  apply update_root_spec in Hu. destruct Hu as (o & l & Ro & _ & D1 & _).
  assert (H1 : load_latest_root Image (u_db s1) = load_latest_root Image (u_db s)).
  { rewrite D1, load_latest_chain; auto. destruct o; simpl; rewrite <- D0; auto.
    unfold load_latest_root. rewrite latest_store_root_other; auto. }
  destruct Hc as [(e & _ & -> & _) | (_ & Hb)]; auto.
  apply director_block_spec in Hb; [|rewrite T1; reflexivity].
  destruct Hb as (_ & _ & [((W & _) & _) | (raw & remote & local & _ & _ & _ & _ & _ & [(_ & W & _) | (_ & W & _)] & _)]);
    rewrite W, load_latest_stores; auto.
Qed.
Lemma director_root_trusted E srv clk s s' q : director_update E srv clk s = (s', Ok tt) ->
  (forall v raw, srv Director "root" v = Ok raw -> sent q Director "root" = Some raw) ->
  trusted_root E Director (u_db s) q (u_droot s') /\ is_expired (rt_base (u_droot s')) (clk RRoot) = false.
Proof.
  intros H Hs. apply director_update_phases in H.
  destruct H as (s0 & s1 & x & D0 & _ & Hu & T1 & _ & [(e & _ & _ & He) | (-> & Hb)]); [discriminate|].
  apply (update_root_trusted _ _ _ _ _ _ q) in Hu; auto. rewrite D0 in Hu.
  apply director_block_spec in Hb; [|rewrite T1; reflexivity]. destruct Hb as (R & _). specialize (R Director). simpl in R, Hu.
  now rewrite R.
Qed.
Lemma image_root_trusted E srv clk s s' q : image_update E srv clk s = (s', Ok tt) ->
  (forall v raw, srv Image "root" v = Ok raw -> sent q Image "root" = Some raw) ->
  trusted_root E Image (u_db s) q (u_iroot s').
Proof.
  intros H Hs. apply image_update_phases in H.
  destruct H as (s0 & s1 & x & D0 & _ & Hu & _ & _ & [(e & _ & _ & He) | (-> & s2 & x2 & Hts & Hc)]); [discriminate|].
  destruct Hc as [(e & _ & _ & He) | (-> & s3 & x3 & Hsn & Hc)]; [discriminate|].
  destruct Hc as [(e & _ & _ & He) | (-> & Htg)]; [discriminate|].
  apply (update_root_trusted _ _ _ _ _ _ q) in Hu; auto. rewrite D0 in Hu.
  apply ts_block_spec in Hts. destruct Hts as (R1 & _). apply snap_block_spec in Hsn. destruct Hsn as (R2 & _).
  apply tgt_block_spec in Htg. destruct Htg as (R3 & _). specialize (R1 Image). specialize (R2 Image). specialize (R3 Image).
  simpl in *. rewrite R3, R2, R1. apply Hu.
Qed.

(** ** Full verification *)
Lemma get_targets_sole dt ecu hw t : get_targets dt ecu hw = [t] -> sole_target dt ecu hw t.
Proof.
  assert (Hm : forall x, existsb (fun p => String.eqb ecu (fst p) && String.eqb hw (snd p)) (t_ecus x) = true <-> In (ecu, hw) (t_ecus x)).
  { intros x. rewrite existsb_exists. split.
    - intros ((a, b) & Hin & Hp). simpl in Hp. apply andb_true_iff in Hp. rewrite !String.eqb_eq in Hp. destruct Hp as (-> & ->). exact Hin.
    - intros Hin. exists (ecu, hw). simpl. now rewrite !String.eqb_refl. }
  unfold get_targets, sole_target. set (f := fun x : target => existsb _ (t_ecus x)).
  assert (Hno : forall l, filter f l = [] -> forall x, In x l -> ~ In (ecu, hw) (t_ecus x)).
  { intros l Hl x Hx Hin. apply Hm in Hin. assert (In x (filter f l)) as Hi by (apply filter_In; split; [auto|exact Hin]). now rewrite Hl in Hi. }
  induction (tg_targets dt) as [|x l IH]; simpl; [discriminate|]. destruct (f x) eqn:Hf; intros H.
  - injection H as -> Hl. split; [now apply Hm|]. exists [], l. split; auto. exact (Hno _ Hl).
  - destruct (IH H) as (A & l1 & l2 & -> & B). split; auto. exists (x :: l1), l2. split; auto.
    intros y [<-|Hy]; [|auto]. intros Hin. apply Hm in Hin. unfold f in Hf. congruence.
Qed.
Lemma my_target_some ag ecu hw dt t : my_target ag ecu hw dt = Some t -> get_targets dt ecu hw = [t] /\ supported ag t = true.
Proof.
  unfold my_target. destruct (get_targets dt ecu hw) as [|x [|y l]]; try discriminate.
  destruct (supported ag x) eqn:S; [|discriminate]. intros H. injection H as <-. auto.
Qed.
Lemma full_verification_ok E ag ecu hw q vs ckd cki s s' t :
  full_verification E ag ecu hw (bundle_server (put_bundle q) vs) ckd cki s = (s', Ok (Some t)) ->
  fully_verified E ag ecu hw (u_db s) q ckd cki t.
Proof.
  unfold full_verification. intros H.
  destruct (director_update E _ ckd s) as (s1, [[]|e]) eqn:Hd; [|discriminate].
  destruct (image_update E _ cki s1) as (s2, [[]|e]) eqn:Hi; [|discriminate].
  destruct (u_itargets s2) as [it|] eqn:Hit; [|discriminate].
  destruct (match_with_image_targets (u_dtargets s2) it) eqn:Hm; [|discriminate].
  injection H as <- H. apply my_target_some in H. destruct H as (Hg & Hsup).
  assert (Hsent : forall rp rn v raw, bundle_server (put_bundle q) vs rp rn v = Ok raw -> sent q rp rn = Some raw)
    by (intros; eapply bundle_server_sent; eauto).
  pose proof (image_update_director _ _ _ _ _ _ Hi) as (_ & K2 & _). rewrite K2 in Hg.
  split; auto.
  - destruct (director_root_trusted _ _ _ _ _ q Hd (Hsent Director "root")) as (T & X).
    apply director_accepts in Hd. destruct Hd as (raw & A & B & C & D & F & G).
    exists (u_droot s1), raw, (u_dlatest s1), (u_dtargets s1). do 6 (split; [eauto|]). apply get_targets_sole in Hg. auto.
  - pose proof (image_root_trusted _ _ _ _ _ q Hi (Hsent Image "root")) as T.
    apply director_update_image_root in Hd. unfold trusted_root in T. rewrite Hd in T.
    apply image_accepts in Hi. destruct Hi as (rawt & raws & rawg & it' & A & B & C & D & F & G & K & L).
    assert (it' = it) by congruence. subst it'.
    unfold match_with_image_targets in Hm. rewrite K2 in Hm. rewrite forallb_forall in Hm.
    assert (In t (tg_targets (u_dtargets s1))) as Hin.
    { assert (In t (get_targets (u_dtargets s1) ecu hw)) as I by (rewrite Hg; now left). now apply filter_In in I. }
    apply Hm in Hin. apply existsb_exists in Hin. destruct Hin as (i & Hi1 & Hi2).
    exists (u_iroot s2), rawt, (u_itime s2), raws, (u_isnap s2), rawg, it, i. apply match_target_iff in Hi2. auto 12.
Qed.
(** The Image Targets are never dereferenced before they were loaded. *)
Lemma full_verification_defined E ag ecu hw srv ckd cki s s' r :
  full_verification E ag ecu hw srv ckd cki s = (s', r) -> exists o, r = Ok o.
Proof.
  unfold full_verification. intros H.
  destruct (director_update E _ ckd s) as (s1, [[]|e]) eqn:Hd; [|injection H as <- <-; eauto].
  destruct (image_update E _ cki s1) as (s2, [[]|e]) eqn:Hi; [|injection H as <- <-; eauto].
  apply image_accepts in Hi. destruct Hi as (rawt & raws & rawg & it' & _ & _ & _ & _ & _ & G & _). rewrite G in H.
  destruct (match_with_image_targets _ _); injection H as <- <-; eauto.
Qed.

(** ** Starting *)
Lemma director_offline_stored E clk s s' : director_offline E clk s = (s', Ok tt) ->
  exists rawr rawt, load_latest_root Director (u_db s) = Ok (Some rawr) /\ self_signed_root E rawr (u_droot s') /\
    is_expired (rt_base (u_droot s')) (clk RRoot) = false /\
    load_nonroot Director RTargets (u_db s) = Ok (Some rawt) /\ verified_targets E (u_droot s') rawt (u_dtargets s') /\
    is_expired (tg_base (u_dtargets s')) (clk RTargets) = false /\ tg_deleg (u_dtargets s') = [] /\ one_target_per_ecu (u_dtargets s').
Proof.
  unfold director_offline. intros H.
  apply mbind_inv in H. destruct H as [(s0 & [] & H0 & H) | (e & H0 & H)]; [|discriminate].
  apply director_reset_spec in H0. destruct H0 as (_ & D0 & _ & T0 & L0 & _).
  apply gets_inv in H. apply lift_inv in H. destruct H as [(so & Q0 & H) | (e & _ & _ & H)]; [|discriminate].
  destruct so as [raw|]; [|discriminate].
  apply mbind_inv in H. destruct H as [(s1 & [] & H1 & H) | (e & H1 & H)]; [|discriminate].
  apply init_root_spec in H1. destruct H1 as (D1 & _ & (_ & F1 & F2 & _) & Hi). specialize (Hi eq_refl). simpl in Hi.
  apply gets_inv in H. apply mbind_inv in H. destruct H as [(s2 & [] & H2 & H) | (e & H2 & H)]; [|discriminate].
  apply guard_ok in H2; destruct H2 as (-> & H2). apply proj1 in H2. specialize (H2 eq_refl). unfold root_expired in H2. simpl in H2.
  apply gets_inv in H. apply lift_inv in H. destruct H as [(to & Q1 & H) | (e & _ & _ & H)]; [|discriminate].
  destruct to as [traw|]; [|discriminate].
  apply mbind_inv in H. destruct H as [(s3 & [] & H3 & H) | (e & H3 & H)]; [|discriminate].
  apply director_verify_spec in H3. destruct H3 as [(e & H3 & _) | (_ & t & Hv & Hl & Hdt & _ & _ & R3 & _)]; [discriminate|].
  assert (Hemp : tg_targets (u_dtargets s1) = []) by (rewrite F1, T0; reflexivity). rewrite Hemp in Hdt. simpl in Hdt.
  apply director_tail_spec in H. destruct H as (-> & Hok). destruct (Hok eq_refl) as (X1 & X2 & X3). clear Hok.
  specialize (R3 Director). simpl in R3, Hv. rewrite R3, Hdt. rewrite Hl in X1, X2. rewrite Hdt in X3.
  rewrite <- D0. exists raw, traw. rewrite D1 in Q1. auto 12.
Qed.
Lemma start_justified E ag ecu hw k clk drop m t : sn_pending (do_start E ag ecu hw k clk drop m) = Some t ->
  stored_director_ok E ag ecu hw (start_db k m) clk t.
Proof.
  unfold do_start. destruct (director_offline E clk (boot (start_db k m))) as (s, [[]|e]) eqn:H; simpl; [|discriminate].
  intros Ht. apply my_target_some in Ht. destruct Ht as (G & S). apply get_targets_sole in G.
  apply director_offline_stored in H. destruct H as (rawr & rawt & A & B & C & D & F & G1 & G2 & G3). simpl in A, D.
  exists rawr, (u_droot s), rawt, (u_dtargets s). auto 12.
Qed.

(** ** The run *)
Definition justified (E : Env) (ag : agent) (ecu hw : string) (pre : list entry) (t : target) : Prop :=
  exists pre1 e mid, pre = pre1 ++ e :: mid /\ (forall x, In x mid -> ~ decides x) /\
    ((exists q ckd cki, en_op e = OPut q ckd cki /\ en_ev e = EAccepted /\ fully_verified E ag ecu hw (en_db e) q ckd cki t) \/
     (exists k clk b, en_op e = OStart k clk b /\ stored_director_ok E ag ecu hw (en_db e) clk t)).
Lemma justified_snoc E ag ecu hw pre t e : justified E ag ecu hw pre t -> ~ decides e -> justified E ag ecu hw (pre ++ [e]) t.
Proof.
  intros (p & x & mid & -> & Hm & H) Hd. exists p, x, (mid ++ [e]). split; [now rewrite <- app_assoc|]. split; auto.
  intros y Hy. apply in_app_or in Hy. destruct Hy as [Hy | [<- | []]]; auto.
Qed.

Lemma run_justified E ag ecu hw ops : forall m hist,
  (forall t, sn_pending m = Some t -> justified E ag ecu hw hist t) ->
  forall pre e t post, snd_run E ag ecu hw ops m = pre ++ e :: post -> en_ev e = EInstall t ->
  justified E ag ecu hw (hist ++ pre) t.
Proof.
  induction ops as [|o ops IH]; intros m hist Hinv pre e t post Hrun Hev; [destruct pre; discriminate|].
  simpl in Hrun. destruct (snd_step E ag ecu hw o m) as (m', ev) eqn:Hst.
  set (e0 := {| en_db := match o with OStart k _ _ => start_db k m | _ => u_db (sn_ust m) end; en_op := o; en_ev := ev |}) in Hrun.
  assert (Hnext : forall t', sn_pending m' = Some t' -> justified E ag ecu hw (hist ++ [e0]) t').
  { intros t' Ht'.
    assert (Hkeep : sn_pending m = Some t' -> ~ decides e0 -> justified E ag ecu hw (hist ++ [e0]) t')
      by (intros; apply justified_snoc; auto).
    assert (Hdec : (forall k c b, o <> OStart k c b) -> ev <> EAccepted -> ~ decides e0).
    { intros A B [D | (k & c & b & D)]; [exact (B D)|exact (A _ _ _ D)]. }
    destruct o as [q ckd cki | code | | k clk drop].
    - simpl in Hst. destruct (sn_alive m) eqn:Al; simpl in Hst;
        [|injection Hst as <- <-; apply Hkeep; auto; apply Hdec; discriminate].
      unfold do_put in Hst. destruct (metadata_ctor E (put_bundle q)) as [vs|ex]; [|injection Hst as <- <-; discriminate].
      destruct (full_verification E ag ecu hw _ ckd cki _) as (s, [[x|]|ex]) eqn:Hf; injection Hst as <- <-;
        simpl in Ht'; [|apply Hkeep; auto; apply Hdec; discriminate|discriminate].
      injection Ht' as ->. apply full_verification_ok in Hf. exists hist, e0, []. split; auto. split; [intros ? []|].
      left. exists q, ckd, cki. auto.
    - simpl in Hst. destruct (sn_alive m) eqn:Al; simpl in Hst;
        [|injection Hst as <- <-; apply Hkeep; auto; apply Hdec; discriminate].
      unfold do_install in Hst. destruct (sn_pending m) as [x|] eqn:P.
      + injection Hst as <- <-. simpl in Ht'. destruct (code =? 0); [discriminate|]. apply Hkeep; auto. apply Hdec; discriminate.
      + injection Hst as <- <-. congruence.
    - simpl in Hst. destruct (sn_alive m) eqn:Al; simpl in Hst;
        injection Hst as <- <-; apply Hkeep; try (apply Hdec; discriminate); auto.
      simpl in Ht'. destruct ag; auto; discriminate.
    - simpl in Hst. injection Hst as <- <-. apply start_justified in Ht'.
      exists hist, e0, []. split; auto. split; [intros ? []|]. right. exists k, clk, drop. auto. }
  destruct pre as [|e1 pre].
  - simpl in Hrun. injection Hrun as <- _. rewrite app_nil_r. apply Hinv. simpl in Hev.
    destruct o as [q ckd cki | code | | k clk drop]; simpl in Hst.
    + destruct (sn_alive m); simpl in Hst; [|injection Hst as <- <-; discriminate].
      unfold do_put in Hst. destruct (metadata_ctor E (put_bundle q)) as [vs|ex]; [|injection Hst as <- <-; discriminate].
      destruct (full_verification E ag ecu hw _ ckd cki _) as (s, [[x|]|ex]); injection Hst as <- <-; discriminate.
    + destruct (sn_alive m); simpl in Hst; [|injection Hst as <- <-; discriminate].
      unfold do_install in Hst. destruct (sn_pending m) as [x|] eqn:P; injection Hst as <- <-; [|discriminate].
      congruence.
    + destruct (sn_alive m); simpl in Hst; injection Hst as <- <-; discriminate.
    + injection Hst as <- <-; discriminate.
  - simpl in Hrun. injection Hrun as <- Hrun.
    replace (hist ++ e0 :: pre) with ((hist ++ [e0]) ++ pre) by (now rewrite <- app_assoc).
    exact (IH m' (hist ++ [e0]) Hnext pre e t post Hrun Hev).
Qed.
Theorem installed_justified E ag ecu hw d0 ops pre e t post :
  snd_run E ag ecu hw ops (snd_off d0) = pre ++ e :: post -> en_ev e = EInstall t -> justified E ag ecu hw pre t.
Proof. intros H Hev. apply (run_justified E ag ecu hw ops (snd_off d0) [] ltac:(discriminate) pre e t post H Hev). Qed.

(** The last entry with a property is unique. *)
Lemma last_unique {A} (P : A -> Prop) a x b a' x' b' : a ++ x :: b = a' ++ x' :: b' -> P x -> P x' ->
  (forall y, In y b -> ~ P y) -> (forall y, In y b' -> ~ P y) -> a = a' /\ x = x' /\ b = b'.
Proof.
  revert a'. induction a as [|h a IH]; intros a' H Px Px' Hb Hb'.
  - destruct a' as [|h' a']; simpl in H; injection H as -> H; auto. subst. exfalso. apply (Hb x'); auto. apply in_elt.
  - destruct a' as [|h' a']; simpl in H; injection H as -> H.
    + subst. exfalso. apply (Hb' x); auto. apply in_elt.
    + apply IH in H; auto. destruct H as (-> & -> & ->). auto.
Qed.
