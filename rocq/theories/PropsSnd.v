(** aktualizr-secondary: which targets it installs (C49) and whether a message can stop it (C64). *)
From Verif Require Import Base Json TufModel TufSpec TufProofs MetaStore RepoModel RepoSpec RepoProofs2 RepoProofs3 RepoProofs4 RepoProofs6 Toy SndModel SndSpec SndProofs.
From Coq Require Import Lia.

(** Requests built from the toy world: [good] verifies; in [bad] the Director assigns an image that the Image repository
    does not have; [no_root] lacks the Image root. *)
Definition img_docs := [("root", "R1"); ("timestamp", "TS5"); ("snapshot", "SN5"); ("targets", "TG5")].
Definition good : put_req := {| pq_director := Some [("root", "R1"); ("targets", "D5")]; pq_image := Some img_docs |}.
Definition bad : put_req := {| pq_director := Some [("root", "R1"); ("targets", "D6")]; pq_image := Some img_docs |}.
Definition no_root : put_req := {| pq_director := Some [("root", "R1"); ("targets", "D5")]; pq_image := None |}.
Definition snd_toy (ops : list snd_op) : list entry := snd_run W AgFile "ecu1" "hw1" ops (snd_off db_empty).
Definition put (q : put_req) : snd_op := OPut q now2020 now2020.
Definition start : snd_op := OStart 0 now2020 false.

(** ** C49: a Secondary only installs a target from its latest fully verified metadata *)

(** False: after metadata was accepted, later metadata that is rejected does not withdraw the target. *)
Theorem C49_refuted : ~ C49_statement.
Proof.
  intros H.
  destruct (nth_error (snd_toy [start; put good; put bad; OInstall 0]) 3) as [e|] eqn:He; [|vm_compute in He; discriminate].
  destruct (en_ev e) as [| | |t| |] eqn:Hev; try (vm_compute in He; injection He as <-; discriminate).
  specialize (H W AgFile "ecu1" "hw1" db_empty [start; put good; put bad; OInstall 0]
    (firstn 3 (snd_toy [start; put good; put bad; OInstall 0])) e t []).
  assert (Hr : snd_run W AgFile "ecu1" "hw1" [start; put good; put bad; OInstall 0] (snd_off db_empty) =
    firstn 3 (snd_toy [start; put good; put bad; OInstall 0]) ++ [e]).
  { vm_compute in He. injection He as <-. vm_compute. reflexivity. }
  destruct (H Hr Hev) as (pre1 & d & q & a & b & mid & Hp & Hno & _). clear H Hr.
  assert (Hop : map en_ev (firstn 3 (snd_toy [start; put good; put bad; OInstall 0])) = [EStarted; EAccepted; ERejected]) by (vm_compute; reflexivity).
  assert (Hlast : exists x, nth_error (firstn 3 (snd_toy [start; put good; put bad; OInstall 0])) 2 = Some x /\ en_op x = put bad)
    by (eexists; split; [vm_compute; reflexivity|reflexivity]).
  destruct Hlast as (x & Hx & Hxo).
  rewrite Hp in Hop, Hx. clear Hp He Hev.
  destruct pre1 as [|y1 [|y2 [|y3 pre1]]]; simpl in Hop; try discriminate.
  - destruct mid as [|y3 [|]]; try discriminate. simpl in Hx. injection Hx as ->.
    apply (Hno x bad now2020 now2020); [now left|exact Hxo].
  - destruct pre1; discriminate.
Qed.
Print Assumptions C49_refuted.

(** Worse: a Secondary may install a target although none of the metadata it was ever sent was accepted. Metadata
    rejected because the Image repository does not have the target is stored; a restart looks at the Director's only. *)
Theorem C49_restart_refuted : exists E ag ecu hw ops t,
  let run := snd_run E ag ecu hw ops (snd_off db_empty) in
  map en_ev run = [EStarted; ERejected; EStarted; EInstall t] /\
  (exists q ckd cki, nth_error ops 1 = Some (OPut q ckd cki)) /\
  (forall e, In e run -> en_ev e <> EAccepted).
Proof.
  exists W, AgFile, "ecu1", "hw1", [start; put bad; start; OInstall 0]. eexists. cbn zeta. split; [vm_compute; reflexivity|].
  split; [exists bad, now2020, now2020; reflexivity|].
  intros e He. vm_compute in He. destruct He as [<- | [<- | [<- | [<- | []]]]]; discriminate.
Qed.
Print Assumptions C49_restart_refuted.

(** What holds.  Look at the last time before the installation that metadata was accepted or the process was started.  If
    it was metadata, the target passed full verification of that metadata; if it was a start, the target is assigned to
    this ECU by the stored, authentic, unexpired Director metadata. *)
Theorem C49_installed_justified_partial E ag ecu hw d0 ops pre e t post :
  snd_run E ag ecu hw ops (snd_off d0) = pre ++ e :: post -> en_ev e = EInstall t ->
  exists pre1 e1 mid, pre = pre1 ++ e1 :: mid /\ (forall x, In x mid -> ~ decides x) /\
    ((exists q ckd cki, en_op e1 = OPut q ckd cki /\ en_ev e1 = EAccepted /\ fully_verified E ag ecu hw (en_db e1) q ckd cki t) \/
     (exists k clk b, en_op e1 = OStart k clk b /\ stored_director_ok E ag ecu hw (en_db e1) clk t)).
Proof. exact (installed_justified E ag ecu hw d0 ops pre e t post). Qed.
Print Assumptions C49_installed_justified_partial.

(** In particular, if the last metadata was accepted and the process has not been restarted since, the target installed is
    the one this metadata assigns (or, if its Director Targets are empty, one from earlier authentic Director Targets that
    the Image repository still lists). *)
Theorem C49_last_accepted_partial E ag ecu hw d0 ops pre1 d q ckd cki mid e t post :
  snd_run E ag ecu hw ops (snd_off d0) = (pre1 ++ {| en_db := d; en_op := OPut q ckd cki; en_ev := EAccepted |} :: mid) ++ e :: post ->
  en_ev e = EInstall t -> (forall x, In x mid -> ~ decides x) ->
  fully_verified E ag ecu hw d q ckd cki t /\
  (assigns E q ecu hw t \/ exists raw dt, sent q Director "targets" = Some raw /\ targets_doc E "targets" (parse E raw) dt /\ tg_targets dt = []).
Proof.
  intros H Hev Hmid. apply installed_justified with (t := t) in H; auto. destruct H as (p & x & m & Hp & Hm & Hj).
  assert (HF : fully_verified E ag ecu hw d q ckd cki t).
  { apply (last_unique decides) in Hp; auto; [|now left|].
    - destruct Hp as (_ & <- & _). destruct Hj as [(q' & a & b & Hq & _ & Hf) | (k & c & b & Hq & _)]; simpl in *; [|discriminate].
      injection Hq as <- <- <-. exact Hf.
    - destruct Hj as [(q' & a & b & _ & Ha & _) | (k & c & b & Hq & _)]; [now left|right; eauto]. }
  split; auto. destruct HF as [(DR & raw & lt & dt & _ & _ & Hs & (_ & Hd) & _ & _ & [-> | (Hemp & _)] & _ & Hg) _ _].
  - left. exists raw, lt. auto.
  - right. exists raw, lt. auto.
Qed.
Print Assumptions C49_last_accepted_partial.
(** A run that meets the hypotheses: start, accepted metadata, a failed and a successful installation, and one more
    request, which is refused. *)
Example C49_case : exists t,
  map en_ev (snd_toy [start; put good; OInstall 2; OInstall 0; OInstall 0]) = [EStarted; EAccepted; EInstall t; EInstall t; ENothing] /\
  t_filename t = "app" /\ t_length t = 7.
Proof. eexists. vm_compute. auto. Qed.
(** After a restart, a crash in the middle of the metadata update included, a target whose metadata was accepted can
    still be installed. *)
Example C49_restart_case : exists t,
  map en_ev (snd_toy [start; put good; start; OInstall 1; OStart 0 now2020 false; OInstall 0]) =
    [EStarted; EAccepted; EStarted; EInstall t; EStarted; EInstall t] /\
  map en_ev (snd_toy [start; put good; OStart 100 now2020 false; OInstall 0; OStart 6 now2020 false; OInstall 0]) =
    [EStarted; EAccepted; EStarted; EInstall t; EStarted; EInstall t].
Proof. eexists. vm_compute. auto. Qed.
(** A crash before the Director Targets were stored leaves nothing to install. *)
Example C49_crash_case :
  map en_ev (snd_toy [start; put good; OStart 5 now2020 false; OInstall 0]) = [EStarted; EAccepted; EStarted; ENothing].
Proof. vm_compute. auto. Qed.

(** The Root documents sent are offered for exactly the versions up to their own, for each repository by itself: this is what ends the
    chain of roots. *)
Theorem C49_root_source_partial E q vs rp raw w v :
  metadata_ctor E (put_bundle q) = Ok vs -> sent q rp "root" = Some raw -> extract_version_untrusted E raw = Ok w -> 0 <= v ->
  (v <= w -> bundle_server (put_bundle q) vs rp "root" v = Ok raw) /\ (w < v -> exists e, bundle_server (put_bundle q) vs rp "root" v = Throw e).
Proof.
  intros C S V P. assert (G : forall r, bget (put_bundle q) r "root" = sent q r "root") by (intros r; rewrite put_bundle_get; now destruct r).
  assert (Q : match rp with Director => fst vs | Image => snd vs end = w).
  { unfold metadata_ctor, bundle_meta in C. rewrite !G in C. destruct (sent q Director "root") as [dr|] eqn:SD; [|discriminate]. simpl in C.
    destruct (extract_version_untrusted E dr) as [dv|] eqn:VD; [|discriminate]. simpl in C. destruct (sent q Image "root") as [ir|] eqn:SI; [|discriminate]. simpl in C.
    destruct (extract_version_untrusted E ir) as [iv|] eqn:VI; [|discriminate]. simpl in C. injection C as <-. destruct rp; cbn [fst snd]; congruence. }
  unfold bundle_server. rewrite Q. replace (v =? -1) with false by (symmetry; apply Z.eqb_neq; lia). cbn [negb andb]. change (String.eqb "root" "root") with true. cbn [andb].
  unfold bundle_meta. rewrite G, S. destruct (Z.ltb_spec w v) as [L|L]; split; intros X; try lia; eauto.
Qed.
Print Assumptions C49_root_source_partial.
(** An OSTree Secondary that has finished a pending installation after a reboot does not offer the target again: whatever metadata is stored,
    started once more it has nothing to install. *)
Lemma finished_store E ecu hw k clk m : let m1 := do_start E AgOstree ecu hw k clk true m in
  sn_prev m1 = u_db (sn_ust m1) /\ u_log (sn_ust m1) = [] /\ u_db (sn_ust m1) = clear_nonroot Director (start_db k m).
Proof.
  unfold do_start. destruct (director_offline E clk (boot (start_db k m))) as (s, r) eqn:O.
  apply nw_director_offline in O. destruct O as [O _]. cbn [sn_prev sn_ust clear_log u_db u_log]. split; [reflexivity|]. split; [reflexivity|].
  change (start_db k m) with (u_db (boot (start_db k m))). rewrite <- O. reflexivity.
Qed.
Lemma nothing_stored E ag ecu hw k clk b m d : start_db k m = clear_nonroot Director d -> sn_pending (do_start E ag ecu hw k clk b m) = None.
Proof.
  intros D. unfold do_start. rewrite D. destruct (director_offline E clk (boot (clear_nonroot Director d))) as (s, [[]|e]) eqn:O; [|reflexivity].
  apply director_offline_stored in O. destruct O as (rr & rt & _ & _ & _ & L & _). cbn [boot u_db] in L. unfold load_nonroot, latest_row in L.
  assert (F : filter (is_row Director RTargets) (d_meta (clear_nonroot Director d)) = []).
  { destruct (filter _ _) as [|x l] eqn:Fi; [reflexivity|]. exfalso. assert (I : In x (x :: l)) by now left. rewrite <- Fi in I. apply filter_In in I. destruct I as [I1 I2].
    unfold is_row in I2. apply andb_true_iff in I2. destruct I2 as [I2 I3]. assert (R1 : w_repo x = Director) by (destruct (w_repo x); auto; discriminate).
    pose proof (clear_nonroot_none Director d x I1 R1) as R2. rewrite R2 in I3. discriminate. }
  rewrite F in L. discriminate.
Qed.
Lemma install_nothing E ag ecu hw code m : sn_pending m = None -> snd_step E ag ecu hw (OInstall code) m = (m, ENothing).
Proof. intros P. unfold snd_step, do_install. rewrite P. now destruct (negb (sn_alive m)). Qed.
Lemma start_step E ag ecu hw k clk b m : snd_step E ag ecu hw (OStart k clk b) m = (do_start E ag ecu hw k clk b m, EStarted).
Proof. reflexivity. Qed.
Theorem C49_finished_partial E ecu hw k clk k' clk' b code m :
  map en_ev (snd_run E AgOstree ecu hw [OStart k clk true; OStart k' clk' b; OInstall code] m) = [EStarted; EStarted; ENothing] /\
  forall ty, load_nonroot Image ty (u_db (sn_ust (fst (snd_step E AgOstree ecu hw (OStart k clk true) m)))) = load_nonroot Image ty (start_db k m).
Proof.
  destruct (finished_store E ecu hw k clk m) as (X1 & X2 & X3). split.
  - cbn [snd_run]. rewrite start_step. rewrite start_step. rewrite install_nothing; [reflexivity|].
    apply (nothing_stored _ _ _ _ _ _ _ _ (start_db k m)). unfold start_db at 1. rewrite X1, X2, X3. destruct k' as [|[|k']]; reflexivity.
  - intros ty. rewrite start_step. cbn [fst]. rewrite X3. unfold load_nonroot. rewrite latest_clear_other; [reflexivity|discriminate].
Qed.
Print Assumptions C49_finished_partial.

(** ** C64: no metadata message terminates the Secondary *)

(** False: the Metadata object is constructed outside the try blocks and requires both Root documents. *)
Theorem C64_refuted : ~ C64_statement.
Proof.
  intros H. specialize (H W AgFile "ecu1" "hw1" {| sn_ust := boot db_empty; sn_prev := db_empty; sn_pending := None; sn_alive := true |}
    no_root now2020 now2020 eq_refl). vm_compute in H. discriminate.
Qed.
Print Assumptions C64_refuted.
(** Exactly when: a running Secondary survives a metadata message if and only if the message has a Root document for both
    repositories and a version can be read from each; whatever else is wrong with it is answered with an error. *)
Theorem C64_survives_iff_partial E ag ecu hw m q ckd cki : sn_alive m = true ->
  (sn_alive (fst (snd_step E ag ecu hw (OPut q ckd cki) m)) = true <->
   exists dr dv ir iv, sent q Director "root" = Some dr /\ extract_version_untrusted E dr = Ok dv /\
     sent q Image "root" = Some ir /\ extract_version_untrusted E ir = Ok iv).
Proof.
  intros Al. simpl. rewrite Al. simpl. unfold do_put.
  assert (Hc : (exists vs, metadata_ctor E (put_bundle q) = Ok vs) <->
    exists dr dv ir iv, sent q Director "root" = Some dr /\ extract_version_untrusted E dr = Ok dv /\
      sent q Image "root" = Some ir /\ extract_version_untrusted E ir = Ok iv).
  { unfold metadata_ctor, bundle_meta. rewrite !put_bundle_get. simpl. split.
    - intros (vs & H). destruct (sent q Director "root") as [dr|]; [|discriminate]. simpl in H.
      destruct (extract_version_untrusted E dr) as [dv|] eqn:A; [|discriminate]. simpl in H.
      destruct (sent q Image "root") as [ir|]; [|discriminate]. simpl in H.
      destruct (extract_version_untrusted E ir) as [iv|] eqn:B; [|discriminate]. exists dr, dv, ir, iv. auto.
    - intros (dr & dv & ir & iv & -> & A & -> & B). simpl. rewrite A. simpl. rewrite B. simpl. eauto. }
  destruct (metadata_ctor E (put_bundle q)) as [vs|ex].
  - split; [|].
    + intros _. apply Hc. eauto.
    + intros _. destruct (full_verification E ag ecu hw _ ckd cki _) as (s, r) eqn:Hf.
      destruct (full_verification_defined _ _ _ _ _ _ _ _ _ _ Hf) as (o & ->). destruct o; reflexivity.
  - split; [discriminate|]. intros H. apply Hc in H. destruct H as (vs & H). discriminate.
Qed.
Print Assumptions C64_survives_iff_partial.
Example C64_case :
  map en_ev (snd_toy [start; put bad; put no_root; put good; start; put good]) =
    [EStarted; ERejected; EExit; ENothing; EStarted; ERejected].
Proof. vm_compute. reflexivity. Qed.
