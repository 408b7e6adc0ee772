From Verif Require Import Base BootModel BootSpec.

(** ** Flags *)
Lemma fset_cases sup k f : fstep sup f (FSet k) = if sup then match k with O => f | 1%nat => set_sent true f | _ => {| fl_need := true; fl_sent := true |} end else f.
Proof. cbn [fstep]. unfold flag_set, crash. destruct sup; [|destruct k; reflexivity]. destruct k as [|[|[|k]]]; reflexivity. Qed.
Lemma fclear_cases sup k f : fstep sup f (FClear k) = if sup then match k with O => f | 1%nat => set_need false f | _ => {| fl_need := false; fl_sent := false |} end else f.
Proof. cbn [fstep]. unfold flag_clear, crash. destruct sup; [|destruct k; reflexivity]. destruct k as [|[|[|k]]]; reflexivity. Qed.

(** The flag is stored: set and not cleared since. *)
Definition armed (h : list fop) : Prop := exists h1 s h2, h = h1 ++ s :: h2 /\ completed_set s /\ (forall o, In o h2 -> ~ begun_clear o).
Lemma split_snoc {A} (h : list A) e h1 x h2 : h ++ [e] = h1 ++ x :: h2 -> (h2 = [] /\ h1 = h /\ x = e) \/ exists h2', h2 = h2' ++ [e] /\ h = h1 ++ x :: h2'.
Proof.
  destruct (@exists_last _ (x :: h2) ltac:(discriminate)) as (l & y & E). intros H. rewrite E, app_assoc in H. apply app_inj_tail in H. destruct H as [-> <-].
  destruct l as [|z l]; cbn in E; injection E as <- ->; [left; rewrite app_nil_r; auto|]. right. exists l. auto.
Qed.
Lemma armed_snoc h o : armed (h ++ [o]) <-> completed_set o \/ (armed h /\ ~ begun_clear o).
Proof.
  split.
  - intros (h1 & s & h2 & E & S & N). destruct (split_snoc _ _ _ _ _ E) as [(-> & -> & ->)|(h2' & -> & ->)]; [left; exact S|].
    right. split; [|apply N; apply in_or_app; right; left; reflexivity]. exists h1, s, h2'. repeat split; auto. intros o' Ho. apply N. apply in_or_app. left. exact Ho.
  - intros [S|[(h1 & s & h2 & -> & S & N) C]].
    + exists h, o, []. repeat split; auto.
    + exists h1, s, (h2 ++ [o]). rewrite <- app_assoc. repeat split; auto. intros o' Ho. apply in_app_or in Ho. destruct Ho as [Ho|[<-|[]]]; auto.
Qed.
Lemma rss_snoc h o : rebooted_since_set (h ++ [o]) <-> (o = FReboot /\ armed h) \/ (rebooted_since_set h /\ ~ begun_clear o /\ ~ begun_set o).
Proof.
  split.
  - intros (h1 & s & h2 & h3 & E & S & N & M). rewrite app_comm_cons, app_assoc in E.
    destruct (split_snoc _ _ _ _ _ E) as [(-> & E2 & E3)|(h3' & -> & E2)].
    + left. split; [congruence|]. exists h1, s, h2. repeat split; auto. intros o' Ho. apply N. apply in_or_app. left. exact Ho.
    + right. split; [|split; [apply N; apply in_or_app; right; apply in_or_app; right; left; reflexivity|apply M; apply in_or_app; right; left; reflexivity]].
      exists h1, s, h2, h3'. split; [rewrite E2, <- app_assoc; reflexivity|]. split; [exact S|]. split.
      * intros o' Ho. apply N. apply in_app_or in Ho. apply in_or_app. destruct Ho as [Ho|Ho]; [left; exact Ho|right; apply in_or_app; left; exact Ho].
      * intros o' Ho. apply M. apply in_or_app. left. exact Ho.
  - intros [(-> & h1 & s & h2 & -> & S & N)|((h1 & s & h2 & h3 & -> & S & N & M) & C & D)].
    + exists h1, s, h2, []. rewrite <- app_assoc. repeat split; auto. rewrite app_nil_r. exact N.
    + exists h1, s, h2, (h3 ++ [o]). split; [rewrite <- !app_assoc; cbn; rewrite <- app_assoc; reflexivity|]. split; [exact S|]. split.
      * intros o' Ho. rewrite app_assoc in Ho. apply in_app_or in Ho. destruct Ho as [Ho|[<-|[]]]; auto.
      * intros o' Ho. apply in_app_or in Ho. destruct Ho as [Ho|[<-|[]]]; auto.
Qed.
Lemma frun_snoc sup h o : frun sup (h ++ [o]) = fstep sup (frun sup h) o.
Proof. unfold frun. rewrite fold_left_app. reflexivity. Qed.
Lemma not_nil {A} (P : Prop) (a : A) l : [] = l ++ [a] -> P. Proof. destruct l; discriminate. Qed.
Lemma armed_nil : ~ armed []. Proof. intros (h1 & s & h2 & E & _). destruct h1; discriminate. Qed.
Lemma rss_nil : ~ rebooted_since_set []. Proof. intros (h1 & s & h2 & h3 & E & _). destruct h1; discriminate. Qed.
Lemma flags_inv h : (fl_need (frun true h) = true <-> armed h) /\ (fl_need (frun true h) = true /\ fl_sent (frun true h) = false <-> rebooted_since_set h).
Proof.
  induction h as [|o h [IA IR]] using rev_ind.
  - cbn. split; split; try discriminate; [intros H; destruct (armed_nil H)|intros [H _]; discriminate|intros H; destruct (rss_nil H)].
  - rewrite frun_snoc, armed_snoc, rss_snoc. destruct (frun true h) as [n s] eqn:F. cbn [fl_need fl_sent] in *.
    assert (NS : forall k, ~ completed_set (FClear k)) by (intros k (j & E & _); discriminate).
    assert (NB : forall k, ~ begun_set (FClear k)) by (intros k (j & E & _); discriminate).
    assert (NC : forall k, ~ begun_clear (FSet k)) by (intros k (j & E & _); discriminate).
    assert (R1 : ~ completed_set FReboot /\ ~ begun_set FReboot /\ ~ begun_clear FReboot) by (repeat split; intros (j & E & _); discriminate).
    assert (R2 : ~ completed_set FRestart /\ ~ begun_set FRestart /\ ~ begun_clear FRestart) by (repeat split; intros (j & E & _); discriminate).
    destruct o as [k|k| |].
    + rewrite fset_cases. specialize (NC k). destruct k as [|[|k]]; cbn [fl_need fl_sent set_sent].
      * assert (C : ~ completed_set (FSet 0)) by (intros (j & E & J); injection E as <-; lia). assert (B : ~ begun_set (FSet 0)) by (intros (j & E & J); injection E as <-; lia).
        split; [tauto|]. rewrite IR. split; [auto|intros [[E _]|X]; [discriminate|tauto]].
      * assert (C : ~ completed_set (FSet 1)) by (intros (j & E & J); injection E as <-; lia). assert (B : begun_set (FSet 1)) by (exists 1%nat; split; [reflexivity|lia]).
        split; [tauto|]. split; [intros [_ X]; discriminate|intros [[E _]|X]; [discriminate|tauto]].
      * assert (C : completed_set (FSet (S (S k)))) by (exists (S (S k)); split; [reflexivity|lia]). assert (B : begun_set (FSet (S (S k)))) by (exists (S (S k)); split; [reflexivity|lia]).
        split; [tauto|]. split; [intros [_ X]; discriminate|intros [[E _]|X]; [discriminate|tauto]].
    + rewrite fclear_cases. specialize (NS k). specialize (NB k). destruct k as [|[|k]]; cbn [fl_need fl_sent set_need].
      * assert (B : ~ begun_clear (FClear 0)) by (intros (j & E & J); injection E as <-; lia). split; [tauto|]. rewrite IR. split; [auto|intros [[E _]|X]; [discriminate|tauto]].
      * assert (B : begun_clear (FClear 1)) by (exists 1%nat; split; [reflexivity|lia]). split; [split; [discriminate|tauto]|]. split; [intros [X _]; discriminate|intros [[E _]|X]; [discriminate|tauto]].
      * assert (B : begun_clear (FClear (S (S k)))) by (exists (S (S k)); split; [reflexivity|lia]). split; [split; [discriminate|tauto]|]. split; [intros [X _]; discriminate|intros [[E _]|X]; [discriminate|tauto]].
    + cbn [fstep set_sent fl_need fl_sent]. split; [tauto|]. split; [intros [X _]; left; tauto|]. intros [[_ X]|[X _]]; [tauto|]. apply IR in X. tauto.
    + cbn [fstep fl_need fl_sent]. split; [tauto|]. rewrite IR. split; [tauto|intros [[E _]|X]; [discriminate|tauto]].
Qed.
Lemma detected_iff h : reboot_detected true (frun true h) = true <-> rebooted_since_set h.
Proof. unfold reboot_detected. cbn [andb]. rewrite Bool.andb_true_iff, Bool.negb_true_iff. apply flags_inv. Qed.

(** ** Updates *)
(** Waiting for a reboot; rebooted, to be completed; completed. *)
Definition waiting (t : string) (b : boot) : Prop := k_pend b = Some t /\ fl_need (k_flags b) = true /\ fl_sent (k_flags b) = true.
Definition rebooted (t : string) (b : boot) : Prop := k_pend b = Some t /\ fl_need (k_flags b) = true /\ fl_sent (k_flags b) = false.
Definition stuck (t : string) (b : boot) : Prop := k_pend b = Some t /\ fl_need (k_flags b) = false.
Lemma install_waits pm t b : waiting t (kstep pm true b (KInstall t full)).
Proof. destruct pm; cbn; repeat split; reflexivity. Qed.
Lemma crash_nil {A} k : @crash A k [] = []. Proof. destruct k; reflexivity. Qed.
Lemma waiting_init pm t b k : waiting t b -> kstep pm true b (KInit k) = b.
Proof. intros (P & N & S). cbn [kstep]. unfold finalize_steps, reboot_detected. rewrite P, N, S. cbn [andb negb]. rewrite crash_nil. reflexivity. Qed.
Lemma pend_reboot pm sup v b : k_pend (kstep pm sup b (KReboot v)) = k_pend b /\ fl_need (k_flags (kstep pm sup b (KReboot v))) = fl_need (k_flags b) /\ fl_sent (k_flags (kstep pm sup b (KReboot v))) = false.
Proof. repeat split. Qed.
Lemma waiting_reboot pm t b v : waiting t b \/ rebooted t b -> rebooted t (kstep pm true b (KReboot v)).
Proof. intros [(P & N & S)|(P & N & S)]; repeat split; cbn; assumption. Qed.
Lemma rebooted_init pm t b k : rebooted t b ->
  let b' := kstep pm true b (KInit k) in
  match k with
  | O => b' = b
  | 1%nat | 2%nat | 3%nat => stuck t b' /\ k_cur b' = k_cur b
  | _ => k_pend b' = None /\ k_ecu b' = Some (t, boot_ok pm t b) /\ k_cur b' = (if boot_ok pm t b then t else k_cur b) /\ fl_need (k_flags b') = false
  end.
Proof.
  intros (P & N & S). cbn [kstep]. unfold finalize_steps, reboot_detected. rewrite P, N, S. cbn [andb negb].
  destruct k as [|[|[|[|k]]]]; [reflexivity|repeat split; cbn; auto..|].
  destruct k as [|k]; cbn; [destruct (boot_ok pm t b); auto|]. unfold crash. rewrite firstn_nil. cbn. destruct (boot_ok pm t b); auto.
Qed.
Lemma stuck_step pm t b o : init_or_reboot o -> stuck t b -> stuck t (kstep pm true b o).
Proof.
  intros [(k & ->)|(v & ->)] (P & N); [|split; cbn; assumption]. cbn [kstep]. unfold finalize_steps, reboot_detected. rewrite P, N. cbn [andb negb]. rewrite crash_nil. split; assumption.
Qed.
Lemma stuck_run pm t ops : forall b, Forall init_or_reboot ops -> stuck t b -> stuck t (krun pm true b ops).
Proof. induction ops as [|o ops IH]; intros b F S; [exact S|]. inversion F; subst. apply IH; auto. apply stuck_step; auto. Qed.
(** completed: nothing pending any more *)
Definition done (t : string) (b : boot) : Prop := k_pend b = None /\ ((k_cur b = t /\ k_ecu b = Some (t, true)) \/ k_ecu b = Some (t, false)).
Lemma done_step pm t b o : init_or_reboot o -> done t b -> done t (kstep pm true b o).
Proof.
  intros [(k & ->)|(v & ->)] (P & H); [|split; cbn; assumption]. cbn [kstep]. unfold finalize_steps. rewrite P, crash_nil. split; assumption.
Qed.
Lemma done_run pm t ops : forall b, Forall init_or_reboot ops -> done t b -> done t (krun pm true b ops).
Proof. induction ops as [|o ops IH]; intros b F S; [exact S|]. inversion F; subst. apply IH; auto. apply done_step; auto. Qed.
Lemma rebooted_full pm t b k : rebooted t b -> (4 <= k)%nat -> done t (kstep pm true b (KInit k)).
Proof.
  intros R K. pose proof (rebooted_init pm t b k R) as H. cbv zeta in H. destruct k as [|[|[|[|k]]]]; try lia. destruct H as (A & B & C & _). split; [exact A|].
  rewrite B, C. destruct (boot_ok pm t b); auto.
Qed.
Lemma rebooted_run pm t ops : forall b, Forall init_or_reboot ops -> Forall no_bad_crash ops -> rebooted t b -> rebooted t (krun pm true b ops) \/ done t (krun pm true b ops).
Proof.
  induction ops as [|o ops IH]; intros b F C R; [left; exact R|]. inversion F as [|? ? I F']; subst. inversion C as [|? ? N C']; subst. cbn [krun fold_left] in *.
  destruct I as [(k & ->)|(v & ->)].
  - destruct (N k eq_refl) as [->|K].
    + pose proof (rebooted_init pm t b 0 R) as E. cbv zeta in E. rewrite E. apply IH; auto.
    + right. apply done_run; auto. apply rebooted_full; auto.
  - apply IH; auto. apply waiting_reboot. right. exact R.
Qed.
Lemma waiting_run pm t ops : forall b, Forall init_or_reboot ops -> Forall no_bad_crash ops -> waiting t b -> Exists is_reboot ops ->
  rebooted t (krun pm true b ops) \/ done t (krun pm true b ops).
Proof.
  induction ops as [|o ops IH]; intros b F C W X; [inversion X|]. inversion F as [|? ? I F']; subst. inversion C as [|? ? N C']; subst. cbn [krun fold_left].
  destruct I as [(k & ->)|(v & ->)].
  - rewrite waiting_init with (t := t) by exact W. apply IH; auto. inversion X as [? ? (v & E)|]; subst; [discriminate|assumption].
  - apply rebooted_run; auto. apply waiting_reboot. left. exact W.
Qed.
Lemma completes pm t b ops : Forall init_or_reboot ops -> Forall no_bad_crash ops -> Exists is_reboot ops ->
  done t (krun pm true b (KInstall t full :: ops ++ [KInit full])).
Proof.
  intros F C X. cbn [krun fold_left]. change (fold_left (kstep pm true) (ops ++ [KInit full]) ?x) with (krun pm true x (ops ++ [KInit full])).
  unfold krun. rewrite fold_left_app. cbn [fold_left].
  destruct (waiting_run pm t ops _ F C (install_waits pm t b) X) as [R|D].
  - apply rebooted_full; [exact R|unfold full; lia].
  - apply done_step; [left; eexists; reflexivity|exact D].
Qed.
Lemma waiting_stays pm t ops : forall b, Forall (fun o => exists k, o = KInit k) ops -> waiting t b -> waiting t (krun pm true b ops).
Proof.
  induction ops as [|o ops IH]; intros b F W; [exact W|]. inversion F as [|? ? (k & ->) F']; subst. cbn [krun fold_left]. rewrite waiting_init with (t := t) by exact W. apply IH; auto.
Qed.
