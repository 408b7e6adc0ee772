(** Proofs about the whole cycle. *)
From Verif Require Import Base Json TufModel TufSpec TufProofs MetaStore RepoModel RepoSpec RepoProofs CodecModel CodecSpec DlModel DlSpec DlProofs InstModel InstSpec DevModel DevSpec DevProofs2 ClientModel ClientSpec ClientProofs2 UpdModel UpdSpec UpdProofs UpdProofs2 UpdProofs3 CycModel CycSpec CycProofs CycProofs2.

Section C.
Context (savec : json -> string) (loadc : string -> option json) (loadm : string -> json) (E : Env)
  (fnm : string -> string -> bool) (verifies : string -> json -> bool) (P : primary) (force : bool) (W : cworld).
Notation ev_idb := (ev_idb savec).
Notation step := (step savec).
Notation cycle := (uptane_cycle savec loadc loadm E fnm verifies P force W).
Notation fetch_c := (fetch_meta_c savec loadc loadm E fnm verifies P W).
Notation download := (download_images savec loadc E fnm P W).
Notation install := (install_c savec loadc E fnm P W).
Notation putm := (put_manifest savec loadm verifies P W).

(** The ways a cycle can go. *)
Inductive route (s s' : cst) (x : res bool) : Prop :=
| RFetchFailed e : fetch_c s = (s', Throw e) -> x = Throw e -> route s s' x
| RError s1 r : fetch_c s = (s1, Ok UcError) -> putm 1%nat s1 = (s', r) -> (x = match r with Ok _ => Ok true | Throw e => Throw e end) -> route s s' x
| RNone r : fetch_c s = (s', Ok r) -> (r = UcNone \/ exists n, r = UcUpdates [] n) -> x = Ok true -> route s s' x
| RDownloadBroke s1 l n e : fetch_c s = (s1, Ok (UcUpdates l n)) -> download l s1 = (s', Throw e) -> x = Throw e -> route s s' x
| RNothing s1 l n us : fetch_c s = (s1, Ok (UcUpdates l n)) -> download l s1 = (s', Ok (us, DsNothing)) -> x = Ok true -> route s s' x
| RDownloadFailed s1 l n s2 us st r : fetch_c s = (s1, Ok (UcUpdates l n)) -> download l s1 = (s2, Ok (us, st)) -> (st = DsError \/ st = DsPartial \/ us = []) ->
    putm 1%nat s2 = (s', r) -> (x = match r with Ok _ => Ok true | Throw e => Throw e end) -> route s s' x
| RInstallBroke s1 l n s2 us e : fetch_c s = (s1, Ok (UcUpdates l n)) -> download l s1 = (s2, Ok (us, DsSuccess)) -> us <> [] -> install us s2 = (s', Throw e) -> x = Throw e -> route s s' x
| RCompletionBroke s1 l n s2 us r e : fetch_c s = (s1, Ok (UcUpdates l n)) -> download l s1 = (s2, Ok (us, DsSuccess)) -> us <> [] -> install us s2 = (s', Ok r) ->
    completion_required P force s' = (s', Throw e) -> x = Throw e -> route s s' x
| RStop s1 l n s2 us r b : fetch_c s = (s1, Ok (UcUpdates l n)) -> download l s1 = (s2, Ok (us, DsSuccess)) -> us <> [] -> install us s2 = (s', Ok r) ->
    completion_required P force s' = (s', Ok b) -> (b = true /\ x = Ok false \/ b = false /\ has_pending (p_idb (y_p s')) = true /\ x = Ok true) -> route s s' x
| RDone s1 l n s2 us s3 r r2 : fetch_c s = (s1, Ok (UcUpdates l n)) -> download l s1 = (s2, Ok (us, DsSuccess)) -> us <> [] -> install us s2 = (s3, Ok r) ->
    completion_required P force s3 = (s3, Ok false) -> has_pending (p_idb (y_p s3)) = false -> putm 1%nat s3 = (s', r2) -> (x = match r2 with Ok _ => Ok true | Throw e => Throw e end) -> route s s' x.
Lemma routes s s' x : cycle s = (s', x) -> route s s' x.
Proof.
  unfold uptane_cycle. intros H. apply cbind_inv in H. destruct H as [(s1 & u & H1 & H)|(e & H1 & ->)]; [|eapply RFetchFailed; eauto].
  assert (PM : forall s0, cbind (putm 1%nat) (fun _ => cret true) s0 = (s', x) -> exists r, putm 1%nat s0 = (s', r) /\ x = match r with Ok _ => Ok true | Throw e => Throw e end).
  { intros s0 Q. apply cbind_inv in Q. destruct Q as [(s2 & b & Q1 & Q)|(e & Q1 & ->)]; [injection Q as <- <-|]; eexists; split; eauto. }
  destruct u as [| |[|t l] n].
  - apply PM in H. destruct H as (r & H & X). eapply RError; eauto.
  - injection H as <- <-. eapply RNone; eauto.
  - injection H as <- <-. eapply RNone; eauto.
  - apply cbind_inv in H. destruct H as [(s2 & (us, st) & H2 & H)|(e & H2 & ->)]; [|eapply RDownloadBroke; eauto].
    assert (FA : (st = DsError \/ st = DsPartial \/ us = []) -> st <> DsNothing -> route s s' x).
    { intros Q Q'. assert (H' : cbind (putm 1%nat) (fun _ => cret true) s2 = (s', x)).
      { destruct us; destruct st; try exact H; try congruence; exfalso; destruct Q as [Q|[Q|Q]]; discriminate. }
      apply PM in H'. destruct H' as (r & H' & X). eapply RDownloadFailed; eauto. }
    destruct st; [|apply FA; [auto|discriminate]| |apply FA; [auto|discriminate]].
    + destruct us as [|u us]; [refine (FA _ _); [right; right; reflexivity|discriminate]|].
      apply cbind_inv in H. destruct H as [(s3 & r & H3 & H)|(e & H3 & ->)]; [|eapply RInstallBroke; eauto; discriminate].
      apply cbind_inv in H. destruct H as [(s4 & stop & H4 & H)|(e & H4 & ->)].
      2:{ pose proof (completion_same _ _ _ _ _ H4) as ->. eapply RCompletionBroke; eauto; discriminate. }
      pose proof (completion_same _ _ _ _ _ H4) as ->. destruct stop.
      { injection H as <- <-. eapply RStop; eauto; discriminate. }
      apply cbind_inv in H. cbv [cpst pgets] in H. rewrite cst_eta in H. destruct H as [(s5 & d & H5 & H)|(e & H5 & _)]; [|discriminate]. injection H5 as <- <-.
      apply cbind_inv in H. destruct (has_pending (p_idb (y_p s3))) eqn:HP.
      * destruct H as [(s5 & b & H5 & H)|(e & H5 & _)]; [|discriminate]. injection H5 as <- <-. injection H as <- <-. eapply RStop; eauto; discriminate.
      * destruct H as [(s5 & b & H5 & H)|(e & H5 & ->)].
        -- injection H as <- <-. eapply RDone; eauto. discriminate.
        -- eapply RDone; eauto. discriminate.
    + assert (s' = s2 /\ x = Ok true) as (-> & ->) by (destruct us; injection H as <- <-; auto). eapply RNothing; eauto.
Qed.

(** ** Results are not lost *)
Lemma fetch_step s s1 r : fetch_c s = (s1, r) -> exists ue ce, step s s1 ue ce.
Proof. intros H. apply fetch_c_spec in H. destruct H as (_ & ue & ce & H & _). eauto. Qed.
Lemma put_step n s s1 r : putm n s = (s1, r) -> exists ue ce, step s s1 ue ce.
Proof. intros H. eapply put_manifest_spec in H. destruct H as (_ & _ & _ & ce & H & _). eauto. Qed.
Lemma dl_step l s s1 r : download l s = (s1, r) -> exists ue ce, step s s1 ue ce.
Proof. intros H. apply download_step in H. destruct H as (ue & ce & H & _). eauto. Qed.
Lemma inst_step l s s1 r : install l s = (s1, r) -> exists ue ce, step s s1 ue ce.
Proof. intros H. apply install_step in H. destruct H as (_ & _ & ue & H). eauto. Qed.
Lemma some_trans a b c : (exists ue ce, step a b ue ce) -> (exists ue ce, step b c ue ce) -> exists ue ce, step a c ue ce.
Proof. intros (u1 & c1 & A) (u2 & c2 & B). eauto using step_trans. Qed.
Theorem cycle_step s s' x : cycle s = (s', x) -> exists ue ce, step s s' ue ce.
Proof. intros H. apply routes in H. destruct H; eauto 8 using some_trans, fetch_step, put_step, dl_step, inst_step. Qed.
Lemma step_fun s s' u1 c1 u2 c2 : step s s' u1 c1 -> p_tr (y_p s') = p_tr (y_p s) ++ u2 -> y_ev s' = y_ev s ++ c2 -> u1 = u2 /\ c1 = c2.
Proof. intros (A & B & _) C D. rewrite A in C. rewrite B in D. apply app_inv_head in C. apply app_inv_head in D. auto. Qed.
(** Whatever result was stored last is still stored, or a manifest with it was accepted. *)
Theorem result_kept s s' x ue ce w raw corr : cycle s = (s', x) -> p_tr (y_p s') = p_tr (y_p s) ++ ue -> y_ev s' = y_ev s ++ ce ->
  dres_after (v_dres (p_dev (y_p s))) ue = Some (w, raw, corr) ->
  v_dres (p_dev (y_p s')) = Some (w, raw, corr) \/ v_dres (p_dev (y_p s')) = None /\ exists m, In (CManifest m true) ce /\ carries m w raw corr.
Proof.
  intros H A B D. destruct (cycle_step _ _ _ H) as (u1 & c1 & S). destruct (step_fun _ _ _ _ _ _ S A B) as (-> & ->). destruct S as (_ & _ & _ & [S|(S & S')]); [left; congruence|right; eauto].
Qed.
Lemma sent_quiet s s1 s2 ue ce ue2 ce2 : step s s1 ue ce -> sent (dres_after (v_dres (p_dev (y_p s))) ue) ce -> (forall o, dres_after o ue2 = o) ->
  step s1 s2 ue2 ce2 -> sent (dres_after (v_dres (p_dev (y_p s))) (ue ++ ue2)) (ce ++ ce2).
Proof. intros A B C D. rewrite dres_app, C. now apply sent_app. Qed.
Lemma none_pending d : has_pending d = false -> pending_ecus (il_log d) = Ok [].
Proof.
  unfold has_pending. induction (il_log d) as [|r l IH]; [reflexivity|]. cbn [existsb pending_ecus]. intros H. apply orb_false_iff in H. destruct H as (-> & H). auto.
Qed.
(** A cycle that ends with nothing pending has sent it. *)
Theorem result_sent s s' b ue ce : cycle s = (s', Ok b) -> p_tr (y_p s') = p_tr (y_p s) ++ ue -> y_ev s' = y_ev s ++ ce -> has_pending (p_idb (y_p s')) = false ->
  sent (dres_after (v_dres (p_dev (y_p s))) ue) ce.
Proof.
  intros H A B N. assert (Q : exists u1 c1, step s s' u1 c1 /\ sent (dres_after (v_dres (p_dev (y_p s))) u1) c1).
  2:{ destruct Q as (u1 & c1 & S & Q). destruct (step_fun _ _ _ _ _ _ S A B) as (-> & ->). exact Q. }
  clear A B ue ce. apply routes in H.
  assert (MS : forall a, (exists ue ce, step s a ue ce) -> forall r, putm 1%nat a = (s', r) -> Ok b = match r with Ok _ => Ok true | Throw e => Throw e end ->
     exists u1 c1, step s s' u1 c1 /\ sent (dres_after (v_dres (p_dev (y_p s))) u1) c1).
  { intros a (u1 & c1 & S) r K X. destruct r as [bb|]; [|discriminate]. assert (N' : has_pending (p_idb (y_p a)) = false).
    { eapply put_manifest_spec in K. destruct K as (_ & K & _). now rewrite <- K. }
    destruct (manifest_sent _ _ _ _ _ _ _ _ _ _ _ _ S K N') as (c2 & S2 & Q). eauto. }
  assert (FS : forall s1 r, fetch_c s = (s1, Ok r) -> r <> UcError -> exists ue ce, step s s1 ue ce /\ sent (dres_after (v_dres (p_dev (y_p s))) ue) ce).
  { intros s1 r F R. apply fetch_c_spec in F. destruct F as (_ & ue & ce & S & _ & _ & F & _). destruct (F r eq_refl R) as (_ & F'). eauto. }
  destruct H; try discriminate.
  - eapply MS; eauto using fetch_step.
  - eapply FS; eauto. intros ->. destruct H0 as [X|(k & X)]; discriminate X.
  - destruct (FS _ _ H) as (u1 & c1 & S & Q); [discriminate|]. pose proof H0 as D. apply download_outcome in D. destruct D as (u & r & _ & D1 & _ & D). 
    assert (step s1 s' [] []).
    { destruct r as [[| |]|]; try (destruct D as (_ & D & _); discriminate).
      - destruct D as (_ & _ & E1 & E2 & E3 & E4 & E5). now apply step_same.
      - destruct D as (oks & _ & _ & [(_ & _ & D & _)|(_ & D & _)]); [discriminate|]. destruct D as [(D & _)|(D & _)]; discriminate. }
    exists (u1 ++ []), (c1 ++ []). split; [eapply step_trans; eauto|]. rewrite app_nil_r. now apply sent_app.
  - eapply MS; [|eauto|eauto]. eauto using some_trans, fetch_step, dl_step.
  - exfalso. destruct H4 as [(-> & _)|(_ & H4 & _)]; [|congruence].
    unfold completion_required in H3. apply cbind_ok in H3. destruct H3 as (s4 & a & H3 & H5). cbv [cpst] in H3. rewrite none_pending in H3; [|exact N]. injection H3 as _ <-. discriminate.
  - eapply MS; [|eauto|eauto]. eauto 6 using some_trans, fetch_step, dl_step, inst_step.
Qed.

(** ** What is installed *)
Lemma not_in_quiet (ue pre post : list uev) e : Forall (fun e => ~ installs e) ue -> installs e -> ue = pre ++ e :: post -> False.
Proof. intros F I ->. apply Forall_app in F. destruct F as (_ & F). inversion F; auto. Qed.
Lemma install_at s s' x pre e post : cycle s = (s', x) -> p_tr (y_p s') = p_tr (y_p s) ++ pre ++ e :: post -> installs e ->
  exists s1 l n s2 s3 r pre1 pre2 post', fetch_c s = (s1, Ok (UcUpdates l n)) /\ download l s1 = (s2, Ok (l, DsSuccess)) /\ install l s2 = (s3, r) /\
    p_tr (y_p s3) = p_tr (y_p s2) ++ pre2 ++ e :: post' /\ pre = pre1 ++ pre2 /\ y_dl s' = y_dl s3 /\
    (exists ce, y_ev s' = y_ev s2 ++ ce /\ (p_ust (y_p s') = p_ust (y_p s3) \/ In CDropped ce)).
Proof.
  intros H T I. apply routes in H.
  assert (NF : forall s1 r, fetch_c s = (s1, r) -> exists ue, p_tr (y_p s1) = p_tr (y_p s) ++ ue /\ Forall (fun e => ~ installs e) ue).
  { intros s1 r F. apply fetch_c_spec in F. destruct F as (_ & ue & ce & (S & _) & N & _). eauto. }
  assert (NP : forall n a b r, putm n a = (b, r) -> p_tr (y_p b) = p_tr (y_p a)).
  { intros n a b r F. eapply put_manifest_spec in F. destruct F as (_ & _ & _ & ce & (S & _) & _). now rewrite app_nil_r in S. }
  assert (ND : forall l a b r, download l a = (b, r) -> exists ue, p_tr (y_p b) = p_tr (y_p a) ++ ue /\ Forall (fun e => ~ installs e) ue).
  { intros l a b r F. apply download_step in F. destruct F as (ue & ce & (S & _) & N & _). eauto. }
  assert (SUCC : forall s1 l us s2, download l s1 = (s2, Ok (us, DsSuccess)) -> us = l).
  { intros s1 l us s2 D. apply download_outcome in D. destruct D as (u & r & _ & _ & _ & D). destruct r as [[| |]|]; try (destruct D as (_ & D & _); discriminate).
    destruct D as (oks & _ & _ & [(_ & D & _)|(_ & D & _)]); [exact D|]. destruct D as [(D & _)|(D & _)]; discriminate. }
  assert (KEY : forall s1 l n s2 us s3 r tail, fetch_c s = (s1, Ok (UcUpdates l n)) -> download l s1 = (s2, Ok (us, DsSuccess)) -> install us s2 = (s3, r) ->
     p_tr (y_p s') = p_tr (y_p s3) -> y_dl s' = y_dl s3 -> y_ev s' = y_ev s2 ++ tail -> (p_ust (y_p s') = p_ust (y_p s3) \/ In CDropped tail) ->
     exists s1 l n s2 s3 r pre1 pre2 post', fetch_c s = (s1, Ok (UcUpdates l n)) /\ download l s1 = (s2, Ok (l, DsSuccess)) /\ install l s2 = (s3, r) /\
       p_tr (y_p s3) = p_tr (y_p s2) ++ pre2 ++ e :: post' /\ pre = pre1 ++ pre2 /\ y_dl s' = y_dl s3 /\ (exists ce, y_ev s' = y_ev s2 ++ ce /\ (p_ust (y_p s') = p_ust (y_p s3) \/ In CDropped ce))).
  { intros s1 l n s2 us s3 r tail F D IN TR DL EV US. assert (us = l) by eauto. subst us.
    destruct (NF _ _ F) as (u1 & T1 & N1). destruct (ND _ _ _ _ D) as (u2 & T2 & N2). destruct (install_step _ _ _ _ _ _ _ _ _ _ IN) as (_ & _ & u3 & (T3 & _)).
    rewrite TR, T3, T2, T1, <- !app_assoc in T. apply app_inv_head in T.
    destruct (app_cons_split _ _ _ _ _ T) as [(p & X & _)|(p & -> & X)]; [exfalso; eapply not_in_quiet; [exact N1|exact I|exact X]|].
    destruct (app_cons_split _ _ _ _ _ X) as [(p' & Y & _)|(p' & -> & Y)]; [exfalso; eapply not_in_quiet; [exact N2|exact I|exact Y]|].
    exists s1, l, n, s2, s3, r, (u1 ++ u2), p', post. split; [exact F|]. split; [exact D|]. split; [exact IN|]. split; [rewrite T3, Y; reflexivity|]. split; [now rewrite app_assoc|]. split; [exact DL|]. eauto. }
  assert (BAD : forall ue, p_tr (y_p s') = p_tr (y_p s) ++ ue -> Forall (fun e => ~ installs e) ue -> False).
  { intros ue A B. rewrite A in T. apply app_inv_head in T. eapply not_in_quiet; eauto. }
  assert (BAD2 : forall s1 r l s2 r2, fetch_c s = (s1, r) -> download l s1 = (s2, r2) -> p_tr (y_p s') = p_tr (y_p s2) -> False).
  { intros s1 r l s2 r2 A B C. destruct (NF _ _ A) as (u1 & T1 & N1). destruct (ND _ _ _ _ B) as (u2 & T2 & N2). apply (BAD (u1 ++ u2)); [now rewrite C, T2, T1, app_assoc|now apply Forall_app]. }
  destruct H.
  - exfalso. destruct (NF _ _ H) as (u1 & T1 & N1). eauto.
  - exfalso. destruct (NF _ _ H) as (u1 & T1 & N1). apply (BAD u1); [|exact N1]. now rewrite (NP _ _ _ _ H0).
  - exfalso. destruct (NF _ _ H) as (u1 & T1 & N1). eauto.
  - exfalso. eapply BAD2; eauto.
  - exfalso. eapply BAD2; eauto.
  - exfalso. eapply BAD2; eauto.
  - destruct (install_step _ _ _ _ _ _ _ _ _ _ H2) as (_ & _ & u3 & (_ & EV & _)). eapply KEY; eauto.
  - destruct (install_step _ _ _ _ _ _ _ _ _ _ H2) as (_ & _ & u3 & (_ & EV & _)). eapply KEY; eauto.
  - destruct (install_step _ _ _ _ _ _ _ _ _ _ H2) as (_ & _ & u3 & (_ & EV & _)). eapply KEY; eauto.
  - destruct (install_step _ _ _ _ _ _ _ _ _ _ H2) as (_ & _ & u3 & (_ & EV & _)). pose proof (NP _ _ _ _ H5) as TR.
    eapply put_manifest_spec in H5. destruct H5 as (DL & _ & _ & ce & (_ & EV2 & _) & _ & US & _). rewrite app_nil_r in EV. rewrite EV in EV2. eapply KEY; eauto.
Qed.

Lemma verify_image_good d t : verify_image E P W d t = Ok true -> image_good E P W d t.
Proof.
  unfold verify_image, image_good. destruct (is_ostree t && pr_ostree P); [auto|]. destruct (verify_target E (x_verify W) t d) as [[]|] eqn:V; try discriminate. intros _. eapply verify_good; eauto.
Qed.
Lemma inst_ok_mono (ts : list target) corr pre1 pre e : inst_ok P ts corr pre e -> inst_ok P ts corr (pre1 ++ pre) e.
Proof.
  destruct e; cbn; auto. intros (A & B & C & D & F). repeat (split; [assumption|]). apply in_or_app. now right.
Qed.
Theorem cycle_installs s s' x pre e post : cycle s = (s', x) -> p_tr (y_p s') = p_tr (y_p s) ++ pre ++ e :: post -> installs e ->
  let T := x_before_install W in
  exists s1 l n u ce, fetch_c s = (s1, Ok (UcUpdates l n)) /\ y_ev s' = y_ev s1 ++ ce /\ (p_ust (y_p s') = u \/ In CDropped ce) /\
    (forall t, In t l -> In (CFetched t true) ce) /\
    director_fresh E (t_dir T) u /\
    (exists top, u_itargets u = Some top /\ image_ok_but_targets E (t_img T) u top /\
      forall t, In t l -> (exists d, In d (tg_targets (u_dtargets u)) /\ same_target d t /\ fits_vehicle (vehicle_of loadc P (p_idb (y_p s1))) d /\
          exists serial hw, In (serial, hw) (t_ecus d) /\ news_for (vehicle_of loadc P (p_idb (y_p s1))) d serial) /\
        exists i, vouched E fnm (t_deleg T) (u_isnap u) top t i) /\
    (forall t, In t l -> held P t -> image_good E P W (y_dl s') t) /\
    (forall t ecu, In t l -> targets_ecu t ecu -> secondary P ecu -> In (UPutMeta ecu t true) pre /\ (ecu <> pr_serial P -> In (UPing ecu) pre)) /\
    inst_ok P l (tg_corr (u_dtargets u)) pre e.
Proof.
  intros H TR I. cbv zeta. destruct (install_at _ _ _ _ _ _ H TR I) as (s1 & l & n & s2 & s3 & r & pre1 & pre2 & post' & F & D & IN & T3 & -> & DL & ce & EV & US).
  destruct (install_step _ _ _ _ _ _ _ _ _ _ IN) as (DL2 & U & _).
  destruct (nothing_before_checks _ _ _ _ _ _ _ _ _ _ _ _ _ _ _ _ _ U T3 I) as ((K1 & top & K2 & K3 & K4) & K5 & K6 & K7).
  assert (D' := D). apply download_outcome in D. destruct D as (u2 & r2 & _ & D1 & _ & D). 
  destruct r2 as [[| |]|]; try (destruct D as (_ & D & _); discriminate). destruct D as (oks & L & PK & [(FA & _ & _ & EV2 & _)|(_ & D & _)]); [|destruct D as [(D & _)|(D & _)]; discriminate].
  exists s1, l, n, (p_ust (y_p s3)), (all_reports (tg_corr (u_dtargets u2)) l oks ++ ce). split; [exact F|]. split; [rewrite EV, EV2, app_assoc; reflexivity|].
  split; [destruct US as [US|US]; [now left|right; apply in_or_app; now right]|].
  split; [intros t Ht; apply in_or_app; left; apply picked_reported; [exact L|now rewrite <- PK]|]. split; [exact K1|]. split.
  { exists top. split; [exact K2|]. split; [exact K3|]. intros t Ht. rewrite <- D1. exact (K4 t Ht). }
  split; [intros t Ht Hh; rewrite DL, DL2; apply verify_image_good; exact (K5 t Ht Hh)|].
  split; [|now apply inst_ok_mono]. intros t ecu Ht He Hs. destruct (K6 t ecu Ht He Hs) as (A & B). split; [apply in_or_app; now right|intros N; apply in_or_app; right; auto].
Qed.
End C.
