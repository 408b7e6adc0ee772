(** Proofs about the update cycle: what is installed, and what becomes of results. *)
From Verif Require Import Base Json TufModel TufProofs MetaStore RepoModel RepoSpec RepoProofs CodecModel CodecSpec DlModel DlSpec DlProofs InstModel InstSpec DevModel DevSpec DevProofs2 ClientModel ClientSpec ClientProofs2 UpdModel UpdSpec UpdProofs UpdProofs2 UpdProofs3 UpdProofs5 CycModel CycSpec CycProofs.

Section C.
Context (savec : json -> string) (loadc : string -> option json) (loadm : string -> json) (E : Env)
  (fnm : string -> string -> bool) (verifies : string -> json -> bool) (P : primary) (force : bool) (W : cworld).
Notation ev_idb := (ev_idb savec).

(** ** Bookkeeping *)
Definition devtrack (d d' : dev) (ue : list uev) (ce : list cev) : Prop :=
  v_dres d' = dres_after (v_dres d) ue \/
  (v_dres d' = None /\ forall w raw corr, dres_after (v_dres d) ue = Some (w, raw, corr) -> exists m, In (CManifest m true) ce /\ carries m w raw corr).
Definition step (s s' : cst) (ue : list uev) (ce : list cev) : Prop :=
  p_tr (y_p s') = p_tr (y_p s) ++ ue /\ y_ev s' = y_ev s ++ ce /\ p_idb (y_p s') = fold_left ev_idb ue (p_idb (y_p s)) /\ devtrack (p_dev (y_p s)) (p_dev (y_p s')) ue ce.
Lemma dres_app o a b : dres_after o (a ++ b) = dres_after (dres_after o a) b.
Proof. apply fold_left_app. Qed.
Lemma dres_cases ue : (forall o, dres_after o ue = o) \/ (exists x, forall o, dres_after o ue = Some x).
Proof.
  induction ue as [|e ue IH] using rev_ind; [left; reflexivity|]. 
  assert (Q : forall o, dres_after o (ue ++ [e]) = dres_after (dres_after o ue) [e]) by (intros; apply dres_app).
  assert (C : (forall o, dres_after o [e] = o) \/ exists x, forall o, dres_after o [e] = Some x).
  { destruct e; try (left; reflexivity). cbn. destruct (to_row r); [right; eauto|left; reflexivity]. }
  destruct C as [C|(x & C)]; [|right; exists x; intros o; rewrite Q; apply C].
  destruct IH as [IH|(x & IH)]; [left|right; exists x]; intros o; now rewrite Q, C, IH.
Qed.
Lemma dres_fold ue : forall d, v_dres (fold_left ev_dev ue d) = dres_after (v_dres d) ue.
Proof.
  induction ue as [|e ue IH]; intros d; [reflexivity|]. cbn [fold_left]. rewrite IH. unfold dres_after. cbn [fold_left]. f_equal.
  destruct e; cbn [ev_dev]; try reflexivity.
  - unfold save_eres. destruct (to_row r); reflexivity.
  - unfold store_dres. destruct (to_row r); reflexivity.
Qed.
Lemma devtrack_trans d d1 d2 u1 u2 c1 c2 : devtrack d d1 u1 c1 -> devtrack d1 d2 u2 c2 -> devtrack d d2 (u1 ++ u2) (c1 ++ c2).
Proof.
  unfold devtrack. rewrite dres_app. intros A B. destruct (dres_cases u2) as [Q|(x & Q)]; rewrite !Q in *.
  - destruct A as [A|(A & A')].
    + rewrite A in B. destruct B as [B|(B & B')]; [left; exact B|right]. split; [exact B|]. intros w raw corr D. destruct (B' w raw corr D) as (m & M1 & M2). exists m. split; [apply in_or_app; now right|exact M2].
    + right. split; [destruct B as [B|(B & _)]; congruence|]. intros w raw corr D. destruct (A' w raw corr D) as (m & M1 & M2). exists m. split; [apply in_or_app; now left|exact M2].
  - destruct B as [B|(B & B')]; [left; exact B|right]. split; [exact B|]. intros w raw corr D. destruct (B' w raw corr D) as (m & M1 & M2). exists m. split; [apply in_or_app; now right|exact M2].
Qed.
Lemma step_refl s : step s s [] [].
Proof. unfold step, devtrack. rewrite !app_nil_r. cbn. auto. Qed.
Lemma step_trans a b c u1 u2 c1 c2 : step a b u1 c1 -> step b c u2 c2 -> step a c (u1 ++ u2) (c1 ++ c2).
Proof.
  intros (A1 & A2 & A3 & A4) (B1 & B2 & B3 & B4). unfold step. rewrite B1, B2, B3, A1, A2, A3, !app_assoc, fold_left_app. repeat split; auto.
  eapply devtrack_trans; eauto.
Qed.
Lemma step_adv s s' ue : adv savec (y_p s) (y_p s') ue -> y_ev s' = y_ev s -> step s s' ue [].
Proof. intros (A1 & A2 & A3 & A4) B. unfold step. rewrite app_nil_r. repeat split; auto. left. rewrite A3. apply dres_fold. Qed.
Lemma step_same s s' : p_tr (y_p s') = p_tr (y_p s) -> p_idb (y_p s') = p_idb (y_p s) -> p_dev (y_p s') = p_dev (y_p s) -> y_ev s' = y_ev s -> step s s' [] [].
Proof. intros A B C D. unfold step, devtrack. rewrite !app_nil_r. cbn. rewrite A, B, C, D. auto. Qed.

(** ** Checks of pending updates install nothing *)
Definition still {A} (m : PM A) : Prop := forall s s' r, m s = (s', r) -> exists ue, adv savec s s' ue /\ Forall (fun e => ~ installs e) ue.
Lemma still_bind {A B} (m : PM A) (k : A -> PM B) : still m -> (forall a, still (k a)) -> still (pbind m k).
Proof.
  intros M K s s' r H. apply pbind_inv in H. destruct H as [(a & s1 & H1 & H2)|(e & H1 & _)]; [|eapply M; eauto].
  destruct (M _ _ _ H1) as (u1 & A1 & F1). destruct (K _ _ _ _ H2) as (u2 & A2 & F2). exists (u1 ++ u2). split; [eapply adv_trans; eauto|]. apply Forall_app; auto.
Qed.
Lemma still_read {A} (f : pst -> res A) : still (fun s => (s, f s)).
Proof. intros s s' r H. injection H as <- _. exists []. split; [apply adv_refl|constructor]. Qed.
Lemma still_ret {A} (a : A) : still (pret a). Proof. exact (still_read (fun _ => Ok a)). Qed.
Lemma still_throw {A} e : still (@pthrow A e). Proof. exact (still_read (fun _ => Throw e)). Qed.
Lemma still_lift {A} (x : res A) : still (plift x). Proof. exact (still_read (fun _ => x)). Qed.
Lemma still_gets {A} (f : pst -> A) : still (pgets f). Proof. exact (still_read (fun s => Ok (f s))). Qed.
Lemma still_tell e : ~ installs e -> still (tell savec e).
Proof. intros N s s' r H. apply adv_tell in H. exists [e]. split; [apply H|]. constructor; auto. Qed.
Ltac stl := repeat (first [apply still_bind | apply still_ret | apply still_throw | apply still_lift | apply still_gets | apply still_read | apply still_tell; intros [] | match goal with |- forall _, _ => intro end]).
Lemma check_one_still w ecu h : still (check_one savec loadc verifies P w ecu h).
Proof.
  unfold check_one. destruct (is_prim P ecu); [stl|]. destruct (negb (is_sec P ecu)); [stl|]. apply still_bind; [stl|]. intros tr.
  destruct (e_manifest w tr ecu) as [m|]; [|stl]. apply still_bind; [stl|]. intros _. destruct (is_empty_json m); [stl|]. destruct (negb (verifies ecu m)); [stl|].
  destruct (hash_eqb _ _); [|stl]. stl. destruct (snd _); stl; unfold save_result, save_device; stl.
Qed.
Lemma check_pending_still w l : still (check_pending savec loadc verifies P w l).
Proof. induction l as [|(ecu, h) l IH]; cbn [check_pending]; [stl|]. apply still_bind; [apply check_one_still|]. intros _. exact IH. Qed.
Lemma fetch_meta_still w : still (fetch_meta savec loadc verifies P w).
Proof.
  unfold fetch_meta. apply still_bind; [stl|]. intros d. apply still_bind; [|stl]. destruct (has_pending d); [|stl].
  unfold check_pending_secondaries. apply still_bind; [stl|]. intros l. apply check_pending_still.
Qed.

(** ** Manifests *)
Definition quiet_ev (e : cev) : Prop := match e with CFetched _ _ | CDlStarted _ _ | CDlCompleted _ _ _ => False | _ => True end.
Lemma assemble_keeps c ans saved d d1 rm : assemble savec loadm verifies c ans saved d = (d1, rm) ->
  v_dres d1 = v_dres d /\ v_eres d1 = v_eres d /\ v_ecus d1 = v_ecus d /\
  forall m, rm = Ok m -> match v_dres d with Some (w, raw, corr) => carries m w raw corr | None => m_report m = None end.
Proof.
  unfold assemble. destruct (match joined (v_ecus d) (v_cnt d) with [] => _ | _ => _ end) as (cnt, d0) eqn:C.
  assert (Q : v_dres d0 = v_dres d /\ v_eres d0 = v_eres d /\ v_ecus d0 = v_ecus d).
  { destruct (joined (v_ecus d) (v_cnt d)) as [|(a, n) l]; injection C as <- <-; [auto|]. destruct saved; auto. }
  destruct Q as (Q1 & Q2 & Q3). destruct (sec_versions _ _ _ _ _) as (vs, cache). intros H. injection H as <- <-. cbn. do 3 (split; [assumption|]).
  intros m H. unfold make_report in H. cbn [with_cache v_dres] in H. rewrite Q1 in H. destruct (v_dres d) as [((w, raw), corr)|]; [|now injection H as <-].
  destruct (of_row w) as [r|] eqn:R; [|discriminate]. cbn [bind] in H. destruct (to_res_json r) as [j|] eqn:J; [|discriminate]. cbn [bind] in H.
  destruct (load_eres _) as [l|]; [|discriminate]. cbn [bind] in H. destruct (report_items _) as [it|]; [|discriminate]. cbn [bind] in H. injection H as <-.
  eexists. exists r. cbn. split; [reflexivity|]. auto.
Qed.
Lemma put_manifest_spec n s s' x : put_manifest savec loadm verifies P W n s = (s', x) ->
  y_dl s' = y_dl s /\ p_idb (y_p s') = p_idb (y_p s) /\
  (p_ust (y_p s') = p_ust (y_p s) \/ p_ust (y_p s') = fst (director_drop_targets (p_ust (y_p s)))) /\
  exists ce, step s s' [] ce /\ Forall quiet_ev ce /\ (p_ust (y_p s') = p_ust (y_p s) \/ In CDropped ce) /\
   (has_pending (p_idb (y_p s)) = false -> forall b, x = Ok b -> exists m, In (CManifest m (x_accepted W n)) ce /\ b = x_accepted W n /\
      (match v_dres (p_dev (y_p s)) with Some (w, raw, corr) => carries m w raw corr | None => m_report m = None end) /\
      v_dres (p_dev (y_p s')) = if x_accepted W n then None else v_dres (p_dev (y_p s))).
Proof.
  unfold put_manifest. destruct (has_pending (p_idb (y_p s))) eqn:HP.
  { intros H. injection H as <- _. do 2 (split; [reflexivity|]). split; [now left|]. exists []. split; [apply step_refl|]. split; [constructor|]. split; [now left|]. discriminate. }
  destruct (assemble savec loadm verifies (client_of P) (x_answers W n) (x_saved W n) (p_dev (y_p s))) as (d1, rm) eqn:A.
  apply assemble_keeps in A. destruct A as (A1 & A2 & A3 & A4). intros H.
  apply cbind_inv in H. destruct H as [(s2 & [] & H1 & H)|(e & H1 & _)].
  2:{ exfalso. destruct (failed_result _); [apply drop_spec in H1; destruct H1; discriminate|discriminate]. }
  assert (Q : exists c1, y_dl s2 = y_dl s /\ p_idb (y_p s2) = p_idb (y_p s) /\ p_tr (y_p s2) = p_tr (y_p s) /\ p_dev (y_p s2) = d1 /\ y_ev s2 = y_ev s ++ c1 /\ Forall quiet_ev c1 /\
    (p_ust (y_p s2) = p_ust (y_p s) \/ p_ust (y_p s2) = fst (director_drop_targets (p_ust (y_p s)))) /\ (p_ust (y_p s2) = p_ust (y_p s) \/ In CDropped c1)).
  { destruct (failed_result _).
    - unfold drop_targets, cbind, cpst, pust in H1. cbn [set_dev_p y_p p_ust] in H1. destruct (director_drop_targets (p_ust (y_p s))) as (u, [[]|]) eqn:DD; [|discriminate].
      injection H1 as <-. exists [CDropped]. cbn. repeat split; auto. repeat constructor.
    - injection H1 as <-. exists []. cbn. rewrite app_nil_r. auto 12. }
  destruct Q as (c1 & Q1 & Q2 & Q3 & Q4 & Q5 & Q6 & Q7 & Q8). clear H1.
  destruct rm as [m|e].
  2:{ injection H as <- <-. do 3 (split; [assumption|]). exists c1. split; [|split; [exact Q6|split; [exact Q8|discriminate]]].
      unfold step. rewrite app_nil_r. cbn [fold_left]. repeat split; auto. left. rewrite Q4. exact A1. }
  specialize (A4 m eq_refl). unfold cbind, ctell in H. cbn in H.
  destruct (x_accepted W n) eqn:AC; injection H as <- <-; cbn; do 3 (split; [assumption|]); exists (c1 ++ [CManifest m (x_accepted W n)]); rewrite AC.
  - split; [|split; [apply Forall_app; split; [exact Q6|repeat constructor]|split; [destruct Q8 as [Q8|Q8]; [now left|right; apply in_or_app; now left]|]]].
    + unfold step. cbn. rewrite app_nil_r, Q5, app_assoc. do 3 (split; [assumption || reflexivity|]). right. split; [reflexivity|]. cbn. intros w raw corr D. rewrite D in A4.
      exists m. split; [apply in_or_app; right; left; reflexivity|exact A4].
    + intros _ b Hb. injection Hb as <-. exists m. split; [apply in_or_app; right; left; reflexivity|]. auto.
  - split; [|split; [apply Forall_app; split; [exact Q6|repeat constructor]|split; [destruct Q8 as [Q8|Q8]; [now left|right; apply in_or_app; now left]|]]].
    + unfold step. cbn. rewrite app_nil_r, Q5, app_assoc. do 3 (split; [assumption || reflexivity|]). left. rewrite Q4. exact A1.
    + intros _ b Hb. injection Hb as <-. exists m. split; [apply in_or_app; right; left; reflexivity|]. split; [reflexivity|]. split; [exact A4|]. now rewrite Q4.
Qed.

(** ** The update check *)
Definition set_ust (u : ust) (s : cst) : cst :=
  {| y_p := {| p_ust := u; p_idb := p_idb (y_p s); p_dev := p_dev (y_p s); p_tr := p_tr (y_p s) |}; y_dl := y_dl s; y_ev := y_ev s |}.
Lemma set_ust_same s : set_ust (p_ust (y_p s)) s = s.
Proof. destruct s as [[] ? ?]. reflexivity. Qed.
Lemma cpst_pust {A} (m : M A) s : cpst (pust m) s = (set_ust (fst (m (p_ust (y_p s)))) s, snd (m (p_ust (y_p s)))).
Proof. unfold cpst, pust. destruct (m (p_ust (y_p s))). reflexivity. Qed.
Lemma check_c_spec s s' x : check_updates_c savec loadc E fnm P W s = (s', x) ->
  let T := x_check W in let v := vehicle_of loadc P (p_idb (y_p s)) in
  exists u r, check_updates E fnm (x_srv W) (t_dir T) (t_img T) (t_deleg T) v (p_ust (y_p s)) = (u, r) /\ x = r /\
  (s' = set_ust u s \/
   r = Ok UcError /\ y_dl s' = y_dl s /\ failure_stored kVerificationFailed (tg_corr (u_dtargets u)) (y_p s') /\ p_idb (y_p s') = p_idb (y_p s) /\ y_ev s' = y_ev s ++ [CDropped] /\
   p_dev (y_p s') = ev_dev (p_dev (y_p s)) (UDevRes (mk_ires (num kVerificationFailed) "Metadata verification failed.") "" (tg_corr (u_dtargets u))) /\
   p_tr (y_p s') = p_tr (y_p s) ++ [UDevRes (mk_ires (num kVerificationFailed) "Metadata verification failed.") "" (tg_corr (u_dtargets u))]).
Proof.
  intros H. cbv zeta. unfold check_updates_c in H. unfold check_updates.
  set (v := vehicle_of loadc P (p_idb (y_p s))). set (T := x_check W) in *.
  destruct (uptane_iteration E (x_srv W) (t_dir T) (t_img T) v (p_ust (y_p s))) as (u1, r1) eqn:IT.
  unfold ctry at 1, cbind at 1 2, cpst at 1, pgets at 1 in H. cbn [y_p y_dl y_ev p_idb] in H. rewrite cst_eta in H.
  unfold cbind at 1 in H. rewrite cpst_pust in H. fold v in H. rewrite IT in H. cbn [fst snd] in H.
  unfold mbind at 1, catch at 1, mbind at 1. rewrite IT.
  destruct r1 as [(upd, cnt)|e]; cbn [cret ret] in *.
  2:{ cbn in H. injection H as <- <-. cbn. exists u1, (Ok UcError). auto. }
  unfold cbind at 1, cpst at 1 in H. cbn [y_p set_ust p_ust] in H.
  unfold mbind at 1, gets at 1, mbind at 1, lift at 1.
  destruct (load_nonroot Director RTargets (u_db u1)) as [[raw|]|e] eqn:LD; cbn [ret] in *.
  3:{ injection H as <- <-. exists u1, (Throw e). auto. }
  2:{ injection H as <- <-. exists u1, (Ok UcError). auto. }
  destruct (nilb upd). { injection H as <- <-. exists u1, (Ok UcNone). auto. }
  change {| y_p := _; y_dl := _; y_ev := _ |} with (set_ust u1 s) in H. unfold ctry at 1, cbind at 1 in H. rewrite cpst_pust in H. cbn [y_p set_ust p_ust] in H.
  unfold catch at 1, mbind at 1. destruct (confirm_with_image E fnm (x_srv W) (t_deleg T) upd u1) as (u2, r2) eqn:CF. cbn [fst snd] in H.
  destruct r2 as [l|e]; cbn [cret ret] in *.
  - injection H as <- <-. exists u2, (Ok (UcUpdates l cnt)). auto.
  - apply cbind_inv in H. destruct H as [(s3 & [] & H3 & H)|(e' & H3 & _)]; apply store_failure_spec in H3; try (red; auto).
    2:{ destruct H3; discriminate. }
    injection H as <- <-. destruct H3 as (_ & B & C & D & F & G & K). cbn [set_ust y_p y_dl y_ev p_idb p_dev p_tr p_ust] in B, C, D, F, G, K.
    cbn [any_exn]. exists u2, (Ok UcError). split; [reflexivity|]. split; [reflexivity|]. right. auto 10.
Qed.

Lemma sent_app o a b : sent o a -> sent o (a ++ b).
Proof. intros H w raw corr D. destruct (H w raw corr D) as (m & acc & M & C). exists m, acc. split; [apply in_or_app; now left|exact C]. Qed.
Lemma track_sent d d' ue ce : devtrack d d' ue ce -> v_dres d' = None -> sent (dres_after (v_dres d) ue) ce.
Proof. intros [H|(_ & H)] N w raw corr D; [congruence|]. destruct (H w raw corr D) as (m & M & C). eauto. Qed.
(** A manifest sent last carries whatever is outstanding. *)
Lemma manifest_sent n s s1 s' ue ce b : step s s1 ue ce -> put_manifest savec loadm verifies P W n s1 = (s', Ok b) -> has_pending (p_idb (y_p s1)) = false ->
  exists ce2, step s s' ue (ce ++ ce2) /\ sent (dres_after (v_dres (p_dev (y_p s))) ue) (ce ++ ce2).
Proof.
  intros A H N. apply put_manifest_spec in H. destruct H as (_ & _ & _ & ce2 & S2 & _ & _ & M). exists ce2. split.
  { rewrite <- (app_nil_r ue). eapply step_trans; eauto. }
  destruct (M N b eq_refl) as (m & M1 & _ & M2 & _). destruct A as (_ & _ & _ & [D|(D & D')]).
  - intros w raw corr Q. rewrite D, Q in M2. exists m, (x_accepted W n). split; [apply in_or_app; now right|exact M2].
  - apply sent_app. intros w raw corr Q. destruct (D' w raw corr Q) as (m' & X & Y). eauto.
Qed.

Lemma fetch_c_spec s s' x : fetch_meta_c savec loadc loadm E fnm verifies P W s = (s', x) ->
  y_dl s' = y_dl s /\ exists ue ce, step s s' ue ce /\ Forall (fun e => ~ installs e) ue /\ Forall quiet_ev ce /\
  (forall r, x = Ok r -> r <> UcError -> has_pending (p_idb (y_p s')) = false /\ sent (dres_after (v_dres (p_dev (y_p s))) ue) ce) /\
  (forall l n, x = Ok (UcUpdates l n) -> let T := x_check W in exists u0, (u0 = p_ust (y_p s) \/ u0 = fst (director_drop_targets (p_ust (y_p s)))) /\
     check_updates E fnm (x_srv W) (t_dir T) (t_img T) (t_deleg T) (vehicle_of loadc P (p_idb (y_p s'))) u0 = (p_ust (y_p s'), Ok (UcUpdates l n))).
Proof.
  unfold fetch_meta_c. intros H. apply cbind_inv in H.
  assert (F : forall s1 r1, cpst (fetch_meta savec loadc verifies P (x_upd W)) s = (s1, r1) -> y_dl s1 = y_dl s /\ p_ust (y_p s1) = p_ust (y_p s) /\
     (exists ue, step s s1 ue [] /\ Forall (fun e => ~ installs e) ue) /\ (r1 = Ok true -> has_pending (p_idb (y_p s1)) = false)).
  { intros s1 r1 H1. unfold cpst in H1. destruct (fetch_meta _ _ _ _ _ (y_p s)) as (p, r) eqn:FM. injection H1 as <- <-. cbn. split; [reflexivity|].
    pose proof (fetch_meta_still _ _ _ _ FM) as (ue & A & N). split; [apply A|]. split; [exists ue; split; [apply step_adv; [exact A|reflexivity]|exact N]|].
    intros ->. unfold fetch_meta in FM. apply gets_bind in FM. apply pbind_inv in FM. destruct FM as [(a & p1 & _ & FM)|(e & _ & FM)]; [|discriminate].
    apply gets_bind in FM. injection FM as <- FM. now apply negb_true_iff in FM. }
  destruct H as [(s1 & go & H1 & H)|(e & H1 & ->)].
  2:{ destruct (F _ _ H1) as (A & _ & (ue & B & C) & _). split; [exact A|]. exists ue, []. split; [exact B|]. split; [exact C|]. split; [constructor|]. split; discriminate. }
  destruct (F _ _ H1) as (A & AU & (ue & B & C) & G). clear F H1. destruct go.
  2:{ injection H as <- <-. split; [exact A|]. exists ue, []. split; [exact B|]. split; [exact C|]. split; [constructor|]. split; [|discriminate]. intros r [= <-] K; congruence. }
  specialize (G eq_refl). apply cbind_inv in H. destruct H as [(s2 & b & H2 & H)|(e & H2 & ->)].
  2:{ apply put_manifest_spec in H2. destruct H2 as (D1 & D2 & _ & ce & D3 & D4 & _). split; [congruence|]. exists (ue ++ []), ([] ++ ce). split; [eapply step_trans; eauto|].
      split; [rewrite app_nil_r; exact C|]. split; [exact D4|]. split; discriminate. }
  pose proof (put_manifest_spec _ _ _ _ H2) as (D1 & D2 & D5 & ce & D3 & D4 & _).
  destruct (manifest_sent _ _ _ _ _ _ _ B H2 G) as (ce2 & S2 & SE). cbn [app] in S2, SE.
  assert (ce2 = ce). { destruct S2 as (_ & S2 & _), D3 as (_ & D3 & _), B as (_ & B & _). rewrite app_nil_r in B. rewrite D3, B in S2. now apply app_inv_head in S2. } subst ce2.
  apply check_c_spec in H. destruct H as (u & r & CU & -> & K). destruct K as [->|(-> & K1 & K2 & K3 & K4 & K5 & K6)].
  - cbn. split; [congruence|]. exists ue, ce. split. { rewrite <- (app_nil_r ue), <- (app_nil_r ce). eapply step_trans; [exact S2|]. apply step_same; reflexivity. }
    split; [exact C|]. split; [exact D4|]. split; [intros _ _ _; split; [now rewrite D2|exact SE]|]. intros l n ->. exists (p_ust (y_p s2)). split; [rewrite AU in D5; exact D5|exact CU].
  - split; [congruence|]. exists (ue ++ [UDevRes (mk_ires (num kVerificationFailed) "Metadata verification failed.") "" (tg_corr (u_dtargets u))]), (ce ++ [CDropped]). split.
    { eapply step_trans; [exact S2|]. unfold step. split; [exact K6|]. split; [exact K4|]. split; [exact K3|]. left. rewrite K5, <- dres_fold. reflexivity. }
    split; [apply Forall_app; split; [exact C|repeat constructor; intros []]|]. split; [apply Forall_app; split; [exact D4|repeat constructor]|].
    split; [intros r [= <-] Q; congruence|discriminate].
Qed.

(** ** Downloads and installation *)
Definition grows (s s' : cst) : Prop := y_p s' = y_p s /\ exists ce, y_ev s' = y_ev s ++ ce.
Lemma grows_trans a b c : grows a b -> grows b c -> grows a c.
Proof. intros (A & x & B) (C & y & D). split; [congruence|]. exists (x ++ y). now rewrite D, B, app_assoc. Qed.
Lemma grows_bind {A B} (m : CM A) (k : A -> CM B) : (forall s s' r, m s = (s', r) -> grows s s') -> (forall a s s' r, k a s = (s', r) -> grows s s') ->
  forall s s' r, cbind m k s = (s', r) -> grows s s'.
Proof. intros M K s s' r H. apply cbind_inv in H. destruct H as [(s1 & a & H1 & H2)|(e & H1 & _)]; eauto using grows_trans. Qed.
Lemma grows_refl s : grows s s.
Proof. split; [reflexivity|]. exists []. now rewrite app_nil_r. Qed.
Lemma grows_all l s s' r : ctell_all l s = (s', r) -> grows s s'.
Proof. unfold ctell_all. intros H. injection H as <- _. split; [reflexivity|]. eexists. reflexivity. Qed.
Lemma grows_one e s s' r : ctell e s = (s', r) -> grows s s'.
Proof. unfold ctell. intros H. injection H as <- _. split; [reflexivity|]. eexists. reflexivity. Qed.
Lemma grows_ret {A} (a : A) s s' r : cret a s = (s', r) -> grows s s'.
Proof. intros H. injection H as <- _. apply grows_refl. Qed.
Lemma fetch_one_grows i t s s' x : fetch_one E P W i t s = (s', x) -> grows s s'.
Proof.
  unfold fetch_one. destruct (_ || _); [|apply grows_ret]. destruct (negb (x_keys W i)); [apply grows_ret|].
  destruct (is_ostree t); [apply grows_ret|]. destruct (fetch_tries _ _ _ _ _) as (r, d).
  destruct r; intros H; try (injection H as <- _; split; [reflexivity|]; cbn; (exists []; now rewrite app_nil_r) || eexists; reflexivity).
Qed.
Lemma image_grows i t s s' x : download_image E P W i t s = (s', x) -> grows s s'.
Proof.
  unfold download_image. apply grows_bind. { intros a b r H. cbv [cpst corr_id pgets] in H. rewrite cst_eta in H. injection H as <- _. apply grows_refl. }
  intros corr. apply grows_bind; [intros; eapply grows_all; eauto|]. intros _. apply grows_bind; [intros; eapply fetch_one_grows; eauto|]. intros ok.
  apply grows_bind; [intros; eapply grows_one; eauto|]. intros _. apply grows_bind; [intros; eapply grows_all; eauto|]. intros _. intros; eapply grows_ret; eauto.
Qed.
Lemma loop_grows : forall ts i s s' x, download_loop E P W i ts s = (s', x) -> grows s s'.
Proof.
  induction ts as [|t ts IH]; intros i s s' x; cbn [download_loop]; [apply grows_ret|]. apply grows_bind; [intros; eapply image_grows; eauto|].
  intros ok. apply grows_bind; [intros; eapply IH; eauto|]. intros l. intros; eapply grows_ret; eauto.
Qed.
Lemma grows_step s s' : grows s s' -> exists ce, step s s' [] ce.
Proof. intros (A & ce & B). exists ce. unfold step, devtrack. rewrite A, app_nil_r. cbn. auto. Qed.
Lemma early_internal : early_code kInternalError "Error rechecking stored metadata.". Proof. red; auto. Qed.
Lemma early_download : early_code kDownloadFailed "Target download failed.". Proof. red; auto. Qed.
Lemma failure_step c text s s' x : early_code c text -> store_failure savec c text s = (s', x) -> exists ue, step s s' ue [CDropped] /\ Forall (fun e => ~ installs e) ue.
Proof.
  intros K H. apply store_failure_spec in H; [|exact K]. destruct H as (_ & _ & A & B & C & D & _). eexists. split.
  - split; [exact C|]. split; [exact A|]. split; [exact B|]. left. rewrite D, <- dres_fold. reflexivity.
  - repeat constructor. intros [].
Qed.
Lemma download_step ts s s' x : download_images savec loadc E fnm P W ts s = (s', x) ->
  exists ue ce, step s s' ue ce /\ Forall (fun e => ~ installs e) ue /\ p_idb (y_p s') = p_idb (y_p s).
Proof.
  assert (Z : forall s s' ue ce, step s s' ue ce -> Forall (fun e => ~ installs e) ue /\ (forall a b c, ~ In (UVersion a b c) ue) -> exists ue ce, step s s' ue ce /\ Forall (fun e => ~ installs e) ue /\ p_idb (y_p s') = p_idb (y_p s)).
  { intros a b ue ce S (N & V). exists ue, ce. split; [exact S|]. split; [exact N|]. destruct S as (_ & _ & S & _). rewrite S. clear - V.
    revert V. generalize (p_idb (y_p a)). induction ue as [|e ue IH]; intros d V; [reflexivity|]. cbn [fold_left]. rewrite IH; [|intros; intro; eapply V; right; eauto].
    destruct e; try reflexivity. exfalso. eapply V. left. reflexivity. }
  unfold download_images. intros H. apply cbind_inv in H. destruct H as [(s1 & d & H1 & H)|(e & H1 & _)]; [|cbv [cpst pgets] in H1; discriminate].
  cbv [cpst pgets] in H1. rewrite cst_eta in H1. injection H1 as <- <-.
  apply cbind_inv in H. unfold ctry in H. rewrite cpst_pust in H.
  destruct (check_updates_offline E fnm (x_srv W) _ _ _ _ ts (p_ust (y_p s))) as (u, r). cbn [fst snd] in H.
  assert (S0 : step s (set_ust u s) [] []) by (apply step_same; reflexivity).
  destruct H as [(s2 & oc & H2 & H)|(e & H2 & _)]; [|destruct r; discriminate].
  assert (s2 = set_ust u s) by (destruct r; injection H2 as <- _; reflexivity). subst s2. clear H2.
  destruct oc.
  - apply cbind_inv in H. destruct H as [(s4 & [] & H4 & H)|(e & H4 & ->)].
    + injection H as <- <-. destruct (failure_step _ _ _ _ _ early_internal H4) as (ue & S & N). apply store_failure_spec in H4; [|red; auto]. destruct H4 as (_ & _ & _ & _ & C & _).
      assert (ue = [UDevRes (mk_ires (num kInternalError) "Error rechecking stored metadata.") "" (tg_corr (u_dtargets (p_ust (y_p (set_ust u s)))))]) by (destruct S as (S & _); rewrite S in C; now apply app_inv_head in C). subst ue.
      apply (Z _ _ _ _ (step_trans _ _ _ _ _ _ _ S0 S)). split; [exact N|]. intros a b c [Q|[]]. discriminate.
    + apply store_failure_spec in H4; [|red; auto]. destruct H4; discriminate.
  - injection H as <- <-. eapply Z; [exact S0|]. split; [constructor|intros a b c []].
  - apply cbind_inv in H. destruct H as [(s4 & done & H4 & H)|(e & H4 & ->)].
    2:{ apply loop_grows in H4. apply grows_step in H4. destruct H4 as (ce & S). apply (Z _ _ _ _ (step_trans _ _ _ _ _ _ _ S0 S)). split; [constructor|intros a b c []]. }
    apply loop_grows in H4. apply grows_step in H4. destruct H4 as (ce & S). destruct (Nat.eqb _ _).
    { injection H as <- <-. apply (Z _ _ _ _ (step_trans _ _ _ _ _ _ _ S0 S)). split; [constructor|intros a b c []]. }
    apply cbind_inv in H. destruct H as [(s5 & [] & H5 & H)|(e & H5 & ->)].
    2:{ apply store_failure_spec in H5; [|red; auto]. destruct H5; discriminate. }
    injection H as <- <-. destruct (failure_step _ _ _ _ _ early_download H5) as (ue & S' & N). apply store_failure_spec in H5; [|red; auto]. destruct H5 as (_ & _ & _ & _ & C & _).
    assert (ue = [UDevRes (mk_ires (num kDownloadFailed) "Target download failed.") "" (tg_corr (u_dtargets (p_ust (y_p s4))))]) by (destruct S' as (S' & _); rewrite S' in C; now apply app_inv_head in C). subst ue.
    apply (Z _ _ _ _ (step_trans _ _ _ _ _ _ _ (step_trans _ _ _ _ _ _ _ S0 S) S')). split; [exact N|]. intros a b c [Q|[]]. discriminate.
Qed.
Lemma install_step ts s s' x : install_c savec loadc E fnm P W ts s = (s', x) -> let T := x_before_install W in
  y_dl s' = y_dl s /\ uptane_install savec loadc E fnm P (ecus_world E P W (y_dl s)) (x_srv W) (t_dir T) (t_img T) (t_deleg T) ts (y_p s) = (y_p s', x) /\ exists ue, step s s' ue [].
Proof.
  cbv zeta. unfold install_c, cpst. destruct (uptane_install _ _ _ _ _ _ _ _ _ _ ts (y_p s)) as (p, r) eqn:U. intros H. injection H as <- <-. cbn. split; [reflexivity|]. split; [reflexivity|].
  apply tables_follow in U. destruct U as (ue & A & B & C). exists ue. unfold step. cbn. rewrite app_nil_r. repeat split; auto. left. rewrite C. apply dres_fold.
Qed.
Lemma completion_same s s' x : completion_required P force s = (s', x) -> s' = s.
Proof.
  unfold completion_required. intros H. apply cbind_inv in H. destruct H as [(s1 & a & H1 & H)|(e & H1 & _)]; cbv [cpst] in H1; rewrite cst_eta in H1; injection H1 as <- _; [|reflexivity].
  injection H as <- _. reflexivity.
Qed.
End C.
