(** Proofs about the update cycle: downloads. *)
From Verif Require Import Base Json TufModel TufProofs MetaStore RepoModel RepoSpec RepoProofs RepoProofs2 RepoProofs7 CodecModel CodecSpec DlModel DlSpec DlProofs InstModel InstSpec DevModel DevSpec DevProofs2 ClientModel ClientSpec ClientProofs2 UpdModel UpdSpec UpdProofs UpdProofs2 UpdProofs3 CycModel CycSpec.

Lemma cbind_inv {A B} (m : CM A) (k : A -> CM B) s s' x : cbind m k s = (s', x) ->
  (exists s1 a, m s = (s1, Ok a) /\ k a s1 = (s', x)) \/ (exists e, m s = (s', Throw e) /\ x = Throw e).
Proof. unfold cbind. destruct (m s) as (s1, [a|e]) eqn:M; intros H; [left; eauto|right; inversion H; subst; eauto]. Qed.
Lemma cbind_ok {A B} (m : CM A) (k : A -> CM B) s s' b : cbind m k s = (s', Ok b) -> exists s1 a, m s = (s1, Ok a) /\ k a s1 = (s', Ok b).
Proof. intros H. apply cbind_inv in H. destruct H as [H|(e & _ & H)]; [exact H|discriminate]. Qed.
Lemma cst_eta (s : cst) : {| y_p := y_p s; y_dl := y_dl s; y_ev := y_ev s |} = s.
Proof. now destruct s. Qed.

(** ** Dropping the Director's Targets *)
Lemma drop_spec s s' x : drop_targets s = (s', x) -> x = Ok tt /\ y_dl s' = y_dl s /\ y_ev s' = y_ev s ++ [CDropped] /\
  p_idb (y_p s') = p_idb (y_p s) /\ p_dev (y_p s') = p_dev (y_p s) /\ p_tr (y_p s') = p_tr (y_p s) /\
  u_db (p_ust (y_p s')) = clear_nonroot Director (u_db (p_ust (y_p s))) /\
  tg_targets (u_dtargets (p_ust (y_p s'))) = [] /\ tg_corr (u_dtargets (p_ust (y_p s'))) = "".
Proof. intros H. vm_compute in H. injection H as <- <-. destruct s as [[[] ? ? ?] ? ?]. cbn. auto 12. Qed.
Lemma cleared_targets d : load_nonroot Director RTargets (clear_nonroot Director d) = Ok None.
Proof. unfold load_nonroot. rewrite no_nonroot_latest; [reflexivity|apply clear_nonroot_none|discriminate]. Qed.
Definition early_code (c : Z) (text : string) : Prop :=
  (c = kVerificationFailed /\ text = "Metadata verification failed.") \/ (c = kInternalError /\ text = "Error rechecking stored metadata.") \/
  (c = kDownloadFailed /\ text = "Target download failed.").
Lemma early_row c text : early_code c text -> exists w r, to_row (mk_ires (num c) text) = Ok w /\ of_row w = Ok r /\ rc_num (ir_code r) = c /\ ir_success r = false /\ ir_desc r = text.
Proof.
  intros [(-> & ->)|[(-> & ->)|(-> & ->)]]; eexists; eexists; (split; [vm_compute; reflexivity|]); (split; [vm_compute; reflexivity|]); vm_compute; auto.
Qed.
Section C.
Context (savec : json -> string) (loadc : string -> option json) (loadm : string -> json) (E : Env)
  (fnm : string -> string -> bool) (verifies : string -> json -> bool) (P : primary) (force : bool) (W : cworld).

Lemma dev_res_eres d r raw corr : v_eres (ev_dev d (UDevRes r raw corr)) = v_eres d.
Proof. cbn [ev_dev]. unfold store_dres. destruct (to_row r); reflexivity. Qed.
Lemma store_failure_spec c text s s' x : early_code c text -> store_failure savec c text s = (s', x) ->
  x = Ok tt /\ y_dl s' = y_dl s /\ y_ev s' = y_ev s ++ [CDropped] /\ p_idb (y_p s') = p_idb (y_p s) /\
  p_tr (y_p s') = p_tr (y_p s) ++ [UDevRes (mk_ires (num c) text) "" (tg_corr (u_dtargets (p_ust (y_p s))))] /\
  p_dev (y_p s') = ev_dev (p_dev (y_p s)) (UDevRes (mk_ires (num c) text) "" (tg_corr (u_dtargets (p_ust (y_p s))))) /\
  failure_stored c (tg_corr (u_dtargets (p_ust (y_p s)))) (y_p s').
Proof.
  intros C H. destruct (early_row c text C) as (w & r & T & R & N & S & _). unfold store_failure in H.
  apply cbind_inv in H. destruct H as [(s1 & corr & H1 & H) | (e & H1 & _)]; [|cbv [cpst corr_id pgets] in H1; discriminate].
  cbv [cpst corr_id pgets] in H1. rewrite cst_eta in H1. injection H1 as <- <-.
  apply cbind_inv in H. unfold cpst at 1, cpst at 1, save_device, plift, pbind in H. rewrite T in H. cbn [tell ev_dev ev_idb fst snd] in H.
  unfold store_dres in H. rewrite T in H. cbn [fst] in H.
  destruct H as [(s2 & [] & H2 & H) | (e & H2 & _)]; [|discriminate]. injection H2 as <-.
  apply drop_spec in H. cbn [y_p y_dl y_ev p_idb p_dev p_tr p_ust] in H. destruct H as (-> & -> & -> & -> & D & -> & B & G & _).
  do 5 (split; [reflexivity|]). split; [rewrite D; cbn [ev_dev]; unfold store_dres; rewrite T; reflexivity|]. split; [|split; [rewrite B; apply cleared_targets|exact G]].
  exists w, r. rewrite D. auto.
Qed.

(** ** Downloads *)
Lemma fetch_one_keeps i t s s' x : fetch_one E P W i t s = (s', Ok x) -> y_p s' = y_p s /\ y_ev s' = y_ev s.
Proof.
  unfold fetch_one. destruct (_ || _); [|intros H; injection H as <- _; auto]. destruct (negb (x_keys W i)); [intros H; injection H as <- _; auto|].
  destruct (is_ostree t); [intros H; injection H as <- _; auto|]. destruct (fetch_tries _ _ _ _ _) as (r, d). destruct r; intros H; try discriminate; injection H as <- _; auto.
Qed.
Lemma download_image_spec i t s s' ok : download_image E P W i t s = (s', Ok ok) ->
  y_p s' = y_p s /\ y_ev s' = y_ev s ++ dl_reports (tg_corr (u_dtargets (p_ust (y_p s)))) t ok /\
  exists s1 s2, y_p s1 = y_p s /\ y_dl s1 = y_dl s /\ fetch_one E P W i t s1 = (s2, Ok ok) /\ y_dl s' = y_dl s2.
Proof.
  unfold download_image. intros H. apply cbind_ok in H. destruct H as (s1 & corr & H1 & H). cbv [cpst corr_id pgets] in H1. rewrite cst_eta in H1. injection H1 as <- <-.
  apply cbind_ok in H. destruct H as (s2 & [] & H2 & H). unfold ctell_all in H2. injection H2 as <-.
  apply cbind_ok in H. destruct H as (s3 & k & H3 & H). pose proof (fetch_one_keeps _ _ _ _ _ H3) as (A & B). cbn [y_p y_ev] in A, B.
  apply cbind_ok in H. destruct H as (s4 & [] & H4 & H). unfold ctell in H4. injection H4 as <-.
  apply cbind_ok in H. destruct H as (s5 & [] & H5 & H). unfold ctell_all in H5. injection H5 as <-. injection H as <- <-.
  cbn [y_p y_ev y_dl]. split; [exact A|]. split. { rewrite B. unfold dl_reports. rewrite <- !app_assoc. reflexivity. }
  eexists. exists s3. split; [|split; [|split; [exact H3|reflexivity]]]; reflexivity.
Qed.
Lemma pull_tries_iff a : pull_tries (map a [0%nat; 1%nat; 2%nat]) = true <-> pull_worked a.
Proof.
  unfold pull_worked. cbn [map pull_tries]. destruct (a 0%nat) as (b0, g0) eqn:A0, (a 1%nat) as (b1, g1) eqn:A1, (a 2%nat) as (b2, g2) eqn:A2. split.
  - destruct b0; [intros _; exists 0%nat; rewrite A0; split; [lia|split; [reflexivity|intros; lia]]|]. destruct g0; [|discriminate].
    destruct b1; [intros _; exists 1%nat; rewrite A1; split; [lia|split; [reflexivity|intros j L; replace j with 0%nat by lia; assumption]]|]. destruct g1; [|discriminate].
    destruct b2; [|destruct g2; discriminate]. intros _. exists 2%nat. rewrite A2. split; [lia|split; [reflexivity|]].
    intros j L. destruct j as [|[|j]]; [assumption|assumption|lia].
  - intros (k & L & F & B). destruct k as [|[|[|k]]]; [| | |lia].
    + rewrite A0 in F. cbn in F. subst b0. reflexivity.
    + rewrite A1 in F. cbn in F. subst b1. assert (X := B 0%nat ltac:(lia)). rewrite A0 in X. injection X as -> ->. reflexivity.
    + rewrite A2 in F. cbn in F. subst b2. assert (X := B 0%nat ltac:(lia)). assert (Y := B 1%nat ltac:(lia)). rewrite A0 in X. rewrite A1 in Y. injection X as -> ->. injection Y as -> ->. reflexivity.
Qed.
Lemma fetch_one_ostree i t s s' ok : is_ostree t = true -> fetch_one E P W i t s = (s', Ok ok) -> (ok = true <-> ostree_fetched P W i t).
Proof.
  unfold fetch_one, ostree_fetched. intros O. rewrite O. cbn [negb]. rewrite orb_false_r. destruct (for_ecu t (pr_serial P)).
  - destruct (x_keys W i); cbn [negb]; intros H; injection H as _ <-; [|split; [discriminate|intros (X & _); exact X]].
    rewrite andb_true_iff, (pull_tries_iff (x_pull W i)). tauto.
  - intros H. injection H as _ <-. split; [intros ->; split; [reflexivity|discriminate]|tauto].
Qed.
Lemma loop_spec : forall ts i s s' us, download_loop E P W i ts s = (s', Ok us) ->
  y_p s' = y_p s /\ exists oks, List.length oks = List.length ts /\ us = picked ts oks /\
    y_ev s' = y_ev s ++ all_reports (tg_corr (u_dtargets (p_ust (y_p s)))) ts oks /\
    (forall k t ok, nth_error ts k = Some t -> nth_error oks k = Some ok -> is_ostree t = true -> (ok = true <-> ostree_fetched P W (i + k) t)).
Proof.
  induction ts as [|t ts IH]; intros i s s' us H; cbn [download_loop] in H.
  - injection H as <- <-. split; [reflexivity|]. exists []. cbn. rewrite app_nil_r. do 3 (split; [reflexivity|]). intros [|k]; discriminate.
  - apply cbind_ok in H. destruct H as (s1 & ok & H1 & H). apply cbind_ok in H. destruct H as (s2 & rest & H2 & H). injection H as <- <-.
    apply download_image_spec in H1. destruct H1 as (A & B & a & b & _ & _ & F & _). apply IH in H2. destruct H2 as (C & oks & L & -> & D & G).
    split; [congruence|]. exists (ok :: oks). cbn [List.length picked all_reports]. split; [congruence|]. split; [reflexivity|].
    split; [rewrite D, B, A, <- app_assoc; reflexivity|]. intros [|k] u o; cbn [nth_error].
    + intros Q1 Q2 O. injection Q1 as <-. injection Q2 as <-. rewrite Nat.add_0_r. exact (fetch_one_ostree _ _ _ _ _ O F).
    + intros Q1 Q2 O. rewrite Nat.add_succ_r. exact (G k u o Q1 Q2 O).
Qed.
Lemma picked_length ts : forall oks, List.length oks = List.length ts -> (List.length (picked ts oks) <= List.length ts)%nat /\
  (List.length (picked ts oks) = List.length ts <-> Forall (eq true) oks) /\ (Forall (eq true) oks -> picked ts oks = ts).
Proof.
  induction ts as [|t ts IH]; intros [|ok oks] L; try discriminate; cbn [picked List.length].
  - split; [auto|]. split; [split; auto|auto].
  - injection L as L. destruct (IH oks L) as (A & B & C). destruct ok; cbn [List.length].
    + split; [lia|]. split; [|intros F; inversion F; f_equal; auto]. split; [intros Q; constructor; [reflexivity|]; apply B; lia|].
      intros F. inversion F; subst. apply B in H2. lia.
    + split; [lia|]. split; [|intros F; inversion F; discriminate]. split; [intros Q; lia|intros F; inversion F; discriminate].
Qed.
Lemma picked_in ts : forall oks t, In t (picked ts oks) -> In t ts.
Proof. induction ts as [|a ts IH]; intros [|[] oks] t; cbn [picked]; try (intros []; fail); [intros [->|H]; [now left|right; eauto]|right; eauto]. Qed.
Lemma picked_reported corr ts : forall oks t, List.length oks = List.length ts ->
  (In t (picked ts oks) <-> In (CFetched t true) (all_reports corr ts oks)).
Proof.
  clear -corr. induction ts as [|a ts IH]; intros [|ok oks] t L; try discriminate; cbn [picked all_reports]; [tauto|].
  injection L as L. specialize (IH oks t L). rewrite in_app_iff. unfold dl_reports. rewrite in_app_iff. cbn [In].
  assert (N1 : ~ In (CFetched t true) (map (fun e : string * string => CDlStarted (fst e) corr) (t_ecus a))) by (intros Q; apply in_map_iff in Q; destruct Q as (? & Q & _); discriminate).
  assert (N2 : ~ In (CFetched t true) (map (fun e : string * string => CDlCompleted (fst e) corr ok) (t_ecus a))) by (intros Q; apply in_map_iff in Q; destruct Q as (? & Q & _); discriminate).
  destruct ok; cbn [In]; rewrite IH; split.
  - intros [->|H]; [left; right; left; reflexivity|right; exact H].
  - intros [[H|[H|H]]|H]; try contradiction; [injection H as ->; now left|now right].
  - intros H; right; exact H.
  - intros [[H|[H|H]]|H]; try contradiction; [discriminate|exact H].
Qed.

(** What a download does. *)
Theorem download_outcome2 ts s s' us st : download_images savec loadc E fnm P W ts s = (s', Ok (us, st)) ->
  let T := x_before_download W in let v := vehicle_of loadc P (p_idb (y_p s)) in
  exists u r, check_updates_offline E fnm (x_srv W) (t_dir T) (t_img T) (t_deleg T) v ts (p_ust (y_p s)) = (u, r) /\
  p_idb (y_p s') = p_idb (y_p s) /\ v_eres (p_dev (y_p s')) = v_eres (p_dev (y_p s)) /\
  match r with
  | Ok OcAvailable => exists oks, List.length oks = List.length ts /\ us = picked ts oks /\
      (forall k t ok, nth_error ts k = Some t -> nth_error oks k = Some ok -> is_ostree t = true -> (ok = true <-> ostree_fetched P W k t)) /\
      ((Forall (eq true) oks /\ us = ts /\ st = DsSuccess /\ y_ev s' = y_ev s ++ all_reports (tg_corr (u_dtargets u)) ts oks /\
        p_ust (y_p s') = u /\ p_dev (y_p s') = p_dev (y_p s) /\ p_tr (y_p s') = p_tr (y_p s)) \/
       (~ Forall (eq true) oks /\ (st = DsError /\ us = [] \/ st = DsPartial /\ us <> []) /\
        y_ev s' = y_ev s ++ all_reports (tg_corr (u_dtargets u)) ts oks ++ [CDropped] /\
        failure_stored kDownloadFailed (tg_corr (u_dtargets u)) (y_p s') /\
        p_tr (y_p s') = p_tr (y_p s) ++ [UDevRes (mk_ires (num kDownloadFailed) "Target download failed.") "" (tg_corr (u_dtargets u))] /\
        p_dev (y_p s') = ev_dev (p_dev (y_p s)) (UDevRes (mk_ires (num kDownloadFailed) "Target download failed.") "" (tg_corr (u_dtargets u)))))
  | Ok OcNone => us = [] /\ st = DsNothing /\ y_ev s' = y_ev s /\ y_dl s' = y_dl s /\ p_ust (y_p s') = u /\ p_dev (y_p s') = p_dev (y_p s) /\ p_tr (y_p s') = p_tr (y_p s)
  | _ => us = [] /\ st = DsError /\ y_ev s' = y_ev s ++ [CDropped] /\ y_dl s' = y_dl s /\ failure_stored kInternalError (tg_corr (u_dtargets u)) (y_p s') /\
      p_tr (y_p s') = p_tr (y_p s) ++ [UDevRes (mk_ires (num kInternalError) "Error rechecking stored metadata.") "" (tg_corr (u_dtargets u))] /\
      p_dev (y_p s') = ev_dev (p_dev (y_p s)) (UDevRes (mk_ires (num kInternalError) "Error rechecking stored metadata.") "" (tg_corr (u_dtargets u)))
  end.
Proof.
  intros H. cbv zeta. unfold download_images in H. apply cbind_ok in H. destruct H as (s1 & d & H1 & H). cbv [cpst pgets] in H1. rewrite cst_eta in H1. injection H1 as <- <-.
  apply cbind_ok in H. destruct H as (s2 & oc & H2 & H). unfold ctry, cpst, pust in H2.
  destruct (check_updates_offline E fnm (x_srv W) _ _ _ _ ts (p_ust (y_p s))) as (u, r) eqn:C. cbn [fst snd] in H2. exists u, r. split; [reflexivity|].
  set (s3 := {| y_p := {| p_ust := u; p_idb := p_idb (y_p s); p_dev := p_dev (y_p s); p_tr := p_tr (y_p s) |}; y_dl := y_dl s; y_ev := y_ev s |}) in *.
  assert (Q : s2 = s3 /\ oc = match r with Ok o => o | Throw _ => OcError end). { destruct r; cbv [cret] in H2; injection H2 as <- <-; auto. }
  destruct Q as (-> & Q). clear H2.
  assert (F : oc = OcError -> us = [] /\ st = DsError /\ y_ev s' = y_ev s ++ [CDropped] /\ y_dl s' = y_dl s /\ failure_stored kInternalError (tg_corr (u_dtargets u)) (y_p s') /\
     p_tr (y_p s') = p_tr (y_p s) ++ [UDevRes (mk_ires (num kInternalError) "Error rechecking stored metadata.") "" (tg_corr (u_dtargets u))] /\ p_idb (y_p s') = p_idb (y_p s) /\
     p_dev (y_p s') = ev_dev (p_dev (y_p s)) (UDevRes (mk_ires (num kInternalError) "Error rechecking stored metadata.") "" (tg_corr (u_dtargets u)))).
  { intros ->. apply cbind_ok in H. destruct H as (s4 & [] & H4 & H). injection H as <- <- <-. apply store_failure_spec in H4; [|red; auto].
    destruct H4 as (_ & A & B & C' & D & F' & G). unfold s3 in *. cbn [y_p y_dl y_ev p_idb p_dev p_tr p_ust] in A, B, C', D, F', G. auto 10. }
  destruct r as [[| |]|e]; subst oc;
    [destruct (F eq_refl) as (?&?&?&?&?&?&?&DV); rewrite DV, dev_res_eres; auto 10 | | |destruct (F eq_refl) as (?&?&?&?&?&?&?&DV); rewrite DV, dev_res_eres; auto 10].
  - injection H as <- <- <-. cbn. auto 12.
  - apply cbind_ok in H. destruct H as (s4 & done & H4 & H). apply loop_spec in H4. destruct H4 as (A & oks & L & -> & B & OS). cbn in A, B.
    destruct (picked_length ts oks L) as (L1 & L2 & L3). destruct (Nat.eqb_spec (List.length ts) (List.length (picked ts oks))) as [Eq|Ne].
    + injection H as <- <- <-. rewrite A. cbn. split; [reflexivity|]. split; [reflexivity|]. exists oks. split; [exact L|]. split; [reflexivity|]. split; [exact OS|]. left.
      assert (FA : Forall (eq true) oks) by (apply L2; congruence). split; [exact FA|]. split; [now apply L3|]. auto.
    + apply cbind_ok in H. destruct H as (s5 & [] & H5 & H). injection H as <- <- <-. apply store_failure_spec in H5; [|red; auto].
      destruct H5 as (_ & A' & B' & C' & D & F' & G). rewrite A in C', D, F', G. cbn [y_p y_dl y_ev p_idb p_dev p_tr p_ust] in C', D, F', G. split; [exact C'|]. split; [rewrite F'; apply dev_res_eres|].
      exists oks. split; [exact L|]. split; [reflexivity|]. split; [exact OS|]. right. split; [intros FA; apply Ne; symmetry; now apply L2|].
      split. { destruct (picked ts oks); cbn [nilb]; [left; auto|right; split; [reflexivity|discriminate]]. }
      split; [rewrite B', B, <- app_assoc; reflexivity|]. auto.
Qed.
Theorem download_outcome ts s s' us st : download_images savec loadc E fnm P W ts s = (s', Ok (us, st)) ->
  let T := x_before_download W in let v := vehicle_of loadc P (p_idb (y_p s)) in
  exists u r, check_updates_offline E fnm (x_srv W) (t_dir T) (t_img T) (t_deleg T) v ts (p_ust (y_p s)) = (u, r) /\
  p_idb (y_p s') = p_idb (y_p s) /\ v_eres (p_dev (y_p s')) = v_eres (p_dev (y_p s)) /\
  match r with
  | Ok OcAvailable => exists oks, List.length oks = List.length ts /\ us = picked ts oks /\
      ((Forall (eq true) oks /\ us = ts /\ st = DsSuccess /\ y_ev s' = y_ev s ++ all_reports (tg_corr (u_dtargets u)) ts oks /\
        p_ust (y_p s') = u /\ p_dev (y_p s') = p_dev (y_p s) /\ p_tr (y_p s') = p_tr (y_p s)) \/
       (~ Forall (eq true) oks /\ (st = DsError /\ us = [] \/ st = DsPartial /\ us <> []) /\
        y_ev s' = y_ev s ++ all_reports (tg_corr (u_dtargets u)) ts oks ++ [CDropped] /\
        failure_stored kDownloadFailed (tg_corr (u_dtargets u)) (y_p s') /\
        p_tr (y_p s') = p_tr (y_p s) ++ [UDevRes (mk_ires (num kDownloadFailed) "Target download failed.") "" (tg_corr (u_dtargets u))] /\
        p_dev (y_p s') = ev_dev (p_dev (y_p s)) (UDevRes (mk_ires (num kDownloadFailed) "Target download failed.") "" (tg_corr (u_dtargets u)))))
  | Ok OcNone => us = [] /\ st = DsNothing /\ y_ev s' = y_ev s /\ y_dl s' = y_dl s /\ p_ust (y_p s') = u /\ p_dev (y_p s') = p_dev (y_p s) /\ p_tr (y_p s') = p_tr (y_p s)
  | _ => us = [] /\ st = DsError /\ y_ev s' = y_ev s ++ [CDropped] /\ y_dl s' = y_dl s /\ failure_stored kInternalError (tg_corr (u_dtargets u)) (y_p s') /\
      p_tr (y_p s') = p_tr (y_p s) ++ [UDevRes (mk_ires (num kInternalError) "Error rechecking stored metadata.") "" (tg_corr (u_dtargets u))] /\
      p_dev (y_p s') = ev_dev (p_dev (y_p s)) (UDevRes (mk_ires (num kInternalError) "Error rechecking stored metadata.") "" (tg_corr (u_dtargets u)))
  end.
Proof.
  intros H. destruct (download_outcome2 _ _ _ _ _ H) as (u & r & A & B & C & D). exists u, r. split; [exact A|]. split; [exact B|]. split; [exact C|].
  destruct r as [[| |]|]; [exact D|exact D| |exact D]. destruct D as (oks & D1 & D2 & _ & D3). exists oks. auto.
Qed.
End C.
