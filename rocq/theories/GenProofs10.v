(** Every command of the generator keeps the repositories in order: the commands on the Director, and the first command. *)
From Verif Require Import Base Json TufModel TufSpec TufProofs MetaStore RepoModel RepoSpec RepoProofs RepoProofs4 GenModel GenSpec GenProofs GenProofs2 GenProofs3 GenProofs4 GenProofs5 GenProofs6 GenProofs7 GenProofs8 GenProofs9.

Section Keep.
Context (E : Env) (keyid : pubkey -> string) (depth : nat) (HE : env_ok E).
Context (K : repo_keys) (HK : keys_ok E keyid K).
Context (I : invocation) (d0 : side).
Notation tri := (tri E keyid Director K I d0).
Notation keep := (keep E keyid Director K d0).
Notation core := (core E keyid Director K).
Notation text_ok := (text_ok E keyid K).
Notation doc_at := (doc_at E keyid K).
Notation inv := (inv E keyid Director K I d0).
Notation ver := (ver E).

Lemma keep_staging d cu e ts v : keep d -> plain (tgt_shape cu None e ts v) = true -> custom_ok cu -> tlist_ok ts -> time_ok e -> ver "targets.json" d <= v < uint_mod ->
  bounded E (put_file staging (canon E (tgt_shape cu None e ts v)) d) -> keep (put_file staging (canon E (tgt_shape cu None e ts v)) d).
Proof.
  intros ((C1 & C2 & C3 & C4 & C5 & C6 & C7) & L) P G1 G3 G4 V B. split.
  - split; [exact C1|]. split; [refine (root_frame E keyid K d _ _ _ C2); [now rewrite aget_put_other by neq|intros; now rewrite aget_put_other by neq]|].
    split; [refine (targets_frame E keyid Director K d _ _ C3); now rewrite aget_put_other by neq|].
    split; [refine (snap_frame E keyid K d _ _ C4); now rewrite aget_put_other by neq|].
    split; [refine (ts_frame E keyid K d _ _ C5); now rewrite aget_put_other by neq|].
    split; [|exact B]. split.
    + intros n. unfold file_json. rewrite aget_put_other by neq. apply C6.
    + intros _. unfold staged_ok. rewrite aget_put_same. exists cu, e, ts, v. split; [reflexivity|]. split; [exact P|]. split.
      * split; [exact G1|]. split; [exact Logic.I|]. split; [exact G3|]. split; [exact G4|]. split; [unfold max_int; lia|reflexivity].
      * rewrite (ver_frame E "targets.json" d) by (now rewrite aget_put_other by neq). exact V.
  - refine (later_frame E Director d0 d _ _ _ _ L); intros; now rewrite aget_put_other by neq.
Qed.
Lemma keep_unstage d : keep d -> bounded E (del_file staging d) -> keep (del_file staging d).
Proof.
  intros ((C1 & C2 & C3 & C4 & C5 & C6 & C7) & L) B. split.
  - split; [exact C1|]. split; [refine (root_frame E keyid K d _ _ _ C2); [now rewrite aget_del_other by neq|intros; now rewrite aget_del_other by neq]|].
    split; [refine (targets_frame E keyid Director K d _ _ C3); now rewrite aget_del_other by neq|].
    split; [refine (snap_frame E keyid K d _ _ C4); now rewrite aget_del_other by neq|].
    split; [refine (ts_frame E keyid K d _ _ C5); now rewrite aget_del_other by neq|].
    split; [|exact B]. split.
    + intros n. unfold file_json. rewrite aget_del_other by neq. apply C6.
    + intros _. unfold staged_ok. rewrite aget_del_file. change (String.eqb staging staging) with true. exact Logic.I.
  - refine (later_frame E Director d0 d _ _ _ _ L); intros; now rewrite aget_del_other by neq.
Qed.

(** What is staged, or published. *)
Lemma staged_doc d : core d -> forall j, (if exists_file staging d then Ok (file_json E staging d) else if exists_file "targets.json" d then jget "signed" (file_json E "targets.json" d) else Throw EStd) = Ok j ->
  exists cu e ts v, j = tgt_shape cu None e ts v /\ plain j = true /\ custom_ok cu /\ tlist_ok ts /\ time_ok e /\ ver "targets.json" d <= v < uint_mod /\
    (exists_file staging d = false -> 0 <= v <= max_int /\ doc_at d "targets.json" role_targets j) /\ (exists_file staging d = true -> aget staging (f_files d) = Some (canon E j)).
Proof.
  intros (C1 & C2 & (cu & de & e & ts & v & (G1 & G2 & G3 & G4 & G5 & G6) & Dt) & C4 & C5 & (_ & C6) & C7) j. specialize (C6 eq_refl). unfold staged_ok in C6. unfold exists_file at 1 3 4.
  rewrite (G6 eq_refl) in *. clear G6. destruct (aget staging (f_files d)) as [x|] eqn:Gs.
  - destruct C6 as (cu' & e' & ts' & w & -> & P & (F1 & _ & F3 & F4 & _) & Lw). unfold file_json. rewrite Gs, (eo_round E HE _ P). intros H. injection H as <-.
    exists cu', e', ts', w. repeat (split; [assumption || reflexivity|]). split; [discriminate|reflexivity].
  - intros H. rewrite (signed_file E keyid HE K _ _ _ _ Dt) in H. destruct (exists_file "targets.json" d); [|discriminate]. injection H as <-.
    exists cu, e, ts, v. split; [reflexivity|]. split; [now apply file_doc in Dt as (kid & m & sg & _ & P)|]. repeat (split; [assumption|]).
    split; [rewrite (ver_doc E keyid HE K _ _ _ _ v Dt (jget_tgt_version _ _ _ _ _)) by (unfold uint_mod, max_int in *; lia); unfold uint_mod, max_int in *; lia|]. split; [auto|discriminate].
Qed.

Lemma tri_add_target s name target hw serial url expires : ascii_text name = true -> plain target = true -> good_target target -> hw_ok hw -> serial_ok serial -> ascii_text url = true ->
  (expires = "" \/ time_ok expires) -> tri s (add_target E keyid depth I name target hw serial url expires) (fun _ _ => True).
Proof.
  intros An Pt Gt (Hw1 & Hw2) (Hs1 & Hs2) Au Te. apply tri_inv. intros V. pose proof V as ((C & L) & _). unfold add_target.
  eapply tri_bind; [apply tri_pure|gr2|]. intros cur s1 _ (-> & Hc). destruct (staged_doc _ C _ Hc) as (cu & e & ts & v & -> & Pc & G1 & G3 & G4 & _). clear Hc.
  lift_ok dd H0. lift_ok t H1. lift_ok d1 H2.
  pose proof C as (_ & _ & (cu2 & de2 & e2 & ts2 & v2 & (_ & _ & _ & _ & G5 & _) & Dt) & _).
  eapply tri_bind; [apply (tri_read E keyid HE Director K I d0 s _ _ _ Dt)|gr2|]. intros a s1 _ (-> & ->).
  lift_ok vj H3. rewrite jget_tgt_version in H3. injection H3 as <-. lift_ok vv H3. rewrite jas_uint_ok in H3 by exact G5. injection H3 as <-. rewrite (proj1 (next_small v2 G5)). lift_ok d2 H4.
  assert (Gt' : good_target t) by exact (good_director _ _ _ _ _ Gt Hs2 Hw2 H1). assert (Pt' : plain t = true) by exact (plain_director _ _ _ _ _ Pt Hw1 Hs1 Au H1).
  assert (Pd : plain d2 = true).
  { refine (plain_jset "version" _ _ _ eq_refl _ _ H4); [apply plain_int; unfold max_int, max_uint64 in *; lia|].
    refine (plain_jmod "targets" _ _ _ eq_refl _ _ H2); [|intros a b Pa Hb; exact (plain_jset _ _ _ _ An Pt' Pa Hb)].
    destruct (String.eqb_spec expires "") as [->|Ne]; [now injection H0 as <-|]. refine (plain_jset "expires" _ _ _ eq_refl _ Pc H0). destruct Te as [->|(_ & Te)]; [contradiction|exact Te]. }
  assert (exists e' ts', d2 = tgt_shape cu None e' ts' (v2 + 1) /\ time_ok e' /\ tlist_ok ts') as (e' & ts' & -> & Te' & Tt').
  { assert (exists e', dd = tgt_shape cu None e' ts v /\ time_ok e') as (e' & -> & Te').
    { destruct (String.eqb_spec expires "") as [->|Ne]; [injection H0 as <-; eauto|]. rewrite jset_tgt_expires in H0. injection H0 as <-. destruct Te as [->|Te]; [contradiction|eauto]. }
    unfold jmod in H2. rewrite jget_tgt_targets in H2. cbn [bind] in H2. apply bind_ok in H2 as (ts' & H2 & H2'). rewrite jset_tgt_targets in H2'. injection H2' as <-. rewrite jset_tgt_version in H4. injection H4 as <-.
    exists e', ts'. split; [reflexivity|]. split; [exact Te'|exact (tlist_put _ _ _ _ G3 Gt' H2)]. }
  eapply tri_bind; [apply tri_change|gr2|].
  { intros B. apply keep_staging; try assumption; [apply V|]. rewrite (ver_doc E keyid HE K _ _ _ _ v2 Dt (jget_tgt_version _ _ _ _ _)) by (unfold uint_mod, max_int in *; lia). unfold uint_mod, max_int in *; lia. }
  intros u s1 V1 _. eapply tri_weaken; [apply tri_update; assumption|auto].
Qed.

Lemma tri_revoke_targets s names : aget staging (f_files (g_side s)) = None -> tri s (revoke_targets E keyid depth I names) (fun _ _ => True).
Proof.
  intros St. apply tri_inv. intros V. pose proof V as ((C & L) & _). unfold revoke_targets.
  pose proof C as (_ & _ & (cu & de & e & ts & v & (G1 & G2 & G3 & G4 & G5 & G6) & Dt) & _). rewrite (G6 eq_refl) in *.
  eapply tri_bind; [apply (tri_read E keyid HE Director K I d0 s _ _ _ Dt)|gr2|]. intros a s1 _ (-> & ->).
  lift_ok tsj H1. rewrite jget_tgt_targets in H1. injection H1 as <-. lift_ok t1 H2. lift_ok t2 H3.
  set (kept := filter (fun p => negb (mem_str (fst p) names)) (jiter ts)) in *. set (ts' := match kept with [] => JNull | _ :: _ => JObj kept end) in *.
  rewrite jset_tgt_targets in H2. injection H2 as <-. rewrite bump_tgt in H3 by exact G5. injection H3 as <-.
  assert (Pd : plain (tgt_shape cu None e ts v) = true) by (now apply file_doc in Dt as (kid & m & sg & _ & P)).
  assert (Pts : plain ts = true) by exact (plain_jget "targets" _ _ Pd (jget_tgt_targets _ _ _ _ _)).
  assert (Pts' : plain ts' = true /\ tlist_ok ts').
  { unfold ts', kept. destruct G3 as [->|(l & -> & G3)]; [split; [reflexivity|now left]|]. cbn [jiter]. apply plain_obj in Pts as (I1 & I2).
    destruct (filter _ l) eqn:F; [split; [reflexivity|now left]|]. rewrite <- F. split.
    - apply plain_obj. split; [now apply filter_increasing|]. intros k x i. apply filter_In in i as (i & _). eauto.
    - right. eexists. split; [reflexivity|]. intros n c i. apply filter_In in i as (i & _). eauto. }
  destruct Pts' as (Pts' & Tts').
  eapply tri_bind.
  { apply (tri_write E keyid Director K HK I d0 s role_targets "targets.json" _ "Targets"); [cbn; tauto|apply jget_tgt_type|reflexivity| |].
    - refine (plain_bump (tgt_shape cu None e ts' v) _ _ (bump_tgt _ _ _ _ _ G5)). exact (plain_jset "targets" _ _ _ eq_refl Pts' Pd (jset_tgt_targets _ _ _ _ _ _)).
    - intros text T B. refine (keep_tgt E keyid HE Director K d0 _ _ _ _ _ _ _ (conj C L) T G1 Logic.I Tts' G4 (fun _ => eq_refl) _ _ B); [unfold uint_mod, max_int in *; lia|].
      cbv iota. rewrite (ver_doc E keyid HE K _ _ _ _ v Dt (jget_tgt_version _ _ _ _ _)) by (unfold uint_mod, max_int in *; lia). split; [lia|]. intros x cu' e' ts2 w X. congruence. }
  { gr2. }
  intros text s1 V1 _. eapply tri_weaken; [apply tri_update; assumption|auto].
Qed.

Lemma tgt_inj cu e ts v cu' e' ts' v' : tgt_shape cu None e ts v = tgt_shape cu' None e' ts' v' -> v = v'.
Proof. intros H. assert (X : jget "version" (tgt_shape cu None e ts v) = jget "version" (tgt_shape cu' None e' ts' v')) by now rewrite H. rewrite !jget_tgt_version in X. now injection X. Qed.
Lemma tri_sign_targets s : tri s (sign_targets E keyid depth I) (fun _ _ => True).
Proof.
  apply tri_inv. intros V. pose proof V as ((C & L) & _). unfold sign_targets.
  eapply tri_bind; [apply tri_pure|gr2|]. intros j s1 _ (-> & Hc). destruct (staged_doc _ C _ Hc) as (cu & e & ts & v & -> & Pc & G1 & G3 & G4 & Lv & Hn & Hs). clear Hc.
  assert (V0 : 0 <= ver "targets.json" (g_side s)).
  { pose proof C as (_ & _ & (cu2 & de2 & e2 & ts2 & v2 & (_ & _ & _ & _ & G5 & _) & Dt) & _). rewrite (ver_doc E keyid HE K _ _ _ _ v2 Dt (jget_tgt_version _ _ _ _ _)); unfold uint_mod, max_int in *; lia. }
  eapply tri_bind.
  { apply (tri_write E keyid Director K HK I d0 s role_targets "targets.json" _ "Targets"); [cbn; tauto|apply jget_tgt_type|reflexivity|exact Pc|].
    intros text T B. refine (keep_tgt E keyid HE Director K d0 _ _ _ _ _ _ _ (conj C L) T G1 Logic.I G3 G4 (fun _ => eq_refl) _ _ B); [lia|].
    cbv iota. split; [lia|]. intros x cu' e' ts2 w X1 X2 X3. unfold exists_file in *. rewrite X1 in *. specialize (Hs eq_refl). injection Hs as Hs. rewrite Hs in X2.
    assert (Y : tgt_shape cu None e ts v = tgt_shape cu' None e' ts2 w) by (rewrite <- (eo_round E HE _ Pc), <- (eo_round E HE _ X3); congruence). apply tgt_inj in Y. lia. }
  { gr2. }
  intros text s1 V1 _. eapply tri_bind; [apply tri_change|gr2|]. { intros B. apply keep_unstage; [apply V1|exact B]. }
  intros u s2 V2 _. eapply tri_weaken; [apply tri_update; assumption|auto].
Qed.

Lemma tri_old_targets s : tri s (old_targets E) (fun _ _ => True).
Proof.
  apply tri_inv. intros V. pose proof V as ((C & L) & _). unfold old_targets.
  eapply tri_bind; [apply tri_pure|gr2|]. intros there s1 _ (-> & _). destruct (negb there); [apply tri_throw|].
  pose proof C as (_ & _ & (cu & de & e & ts & v & (G1 & G2 & G3 & G4 & G5 & G6) & Dt) & _). rewrite (G6 eq_refl) in *.
  eapply tri_bind; [apply (tri_read E keyid HE Director K I d0 s _ _ _ Dt)|gr2|]. intros a s1 _ (-> & ->).
  eapply tri_weaken; [apply tri_change|auto]. intros B. assert (Pd : plain (tgt_shape cu None e ts v) = true) by (now apply file_doc in Dt as (kid & m & sg & _ & P)).
  apply keep_staging; try assumption; [apply V|]. rewrite (ver_doc E keyid HE K _ _ _ _ v Dt (jget_tgt_version _ _ _ _ _)); unfold uint_mod, max_int in *; lia.
Qed.
Lemma corr_shape cu e ts v j : ascii_text (n_corr I) = true -> plain (tgt_shape cu None e ts v) = true -> custom_ok cu -> with_corr I Director (tgt_shape cu None e ts v) = Ok j ->
  exists cu', j = tgt_shape cu' None e ts v /\ plain j = true /\ custom_ok cu'.
Proof.
  intros A P G H. unfold with_corr in H. destruct (String.eqb (n_corr I) ""); [injection H as <-; eauto|].
  assert (Pj : plain j = true) by (refine (plain_jmod "custom" _ _ _ eq_refl P _ H); intros a b Pa Hb; exact (plain_jset "correlationId" (JStr (n_corr I)) _ _ eq_refl A Pa Hb)).
  unfold jmod in H. rewrite jget_tgt_custom in H. cbn [bind] in H. apply bind_ok in H as (c & H & H'). rewrite jset_tgt_custom in H'. injection H' as <-. exists (Some c). split; [reflexivity|]. split; [exact Pj|].
  destruct cu as [c0|]; [destruct G as (x & ->)|]; injection H as <-; eexists; reflexivity.
Qed.
Lemma tri_empty_targets s : time_ok (n_expires I) -> ascii_text (n_corr I) = true -> tri s (empty_targets E I) (fun _ _ => True).
Proof.
  intros Te Ac. apply tri_inv. intros V. pose proof V as ((C & L) & _). unfold empty_targets.
  pose proof C as (_ & _ & (cu & de & e & ts & v & (_ & _ & _ & _ & G5 & _) & Dt) & _ & _ & (_ & Sg) & _).
  eapply tri_bind; [apply (tri_read E keyid HE Director K I d0 s _ _ _ Dt)|gr2|]. intros a s1 _ (-> & ->).
  eapply tri_bind; [apply tri_pure|gr2|]. intros st s1 _ (-> & Hst). injection Hst as <-.
  lift_ok a H1. lift_ok b H2. lift_ok vj H3. rewrite jget_tgt_version in H3. injection H3 as <-. lift_ok vv H3. rewrite jas_uint_ok in H3 by exact G5. injection H3 as <-. rewrite (proj1 (next_small v G5)).
  lift_ok c H4. lift_ok dd H5. lift_ok ee H6.
  assert (Pi : plain (JInt (v + 1)) = true) by (apply plain_int; unfold max_int, max_uint64 in *; lia).
  assert (exists cu1, dd = tgt_shape cu1 None (n_expires I) (JObj []) (v + 1) /\ plain dd = true /\ custom_ok cu1) as (cu1 & -> & P1 & G1).
  { specialize (Sg eq_refl). unfold staged_ok in Sg. unfold file_json in H1. destruct (aget staging (f_files (g_side s))) as [x|].
    - destruct Sg as (cu' & e' & ts' & w & -> & P & (F1 & _) & _). rewrite (eo_round E HE _ P) in H1.
      assert (a = tgt_shape cu' None e' ts' w) as -> by (destruct cu'; injection H1 as <-; reflexivity). rewrite jset_tgt_expires in H2. injection H2 as <-. rewrite jset_tgt_version in H4. injection H4 as <-.
      rewrite jset_tgt_targets in H5. injection H5 as <-. exists cu'. split; [reflexivity|]. split; [|exact F1].
      refine (plain_jset "targets" (JObj []) (tgt_shape cu' None (n_expires I) ts' (v + 1)) _ eq_refl eq_refl _ (jset_tgt_targets _ _ _ _ _ _)).
      refine (plain_jset "version" (JInt (v + 1)) (tgt_shape cu' None (n_expires I) ts' w) _ eq_refl Pi _ (jset_tgt_version _ _ _ _ _ _)).
      refine (plain_jset "expires" (JStr (n_expires I)) (tgt_shape cu' None e' ts' w) _ eq_refl (proj2 Te) P (jset_tgt_expires _ _ _ _ _ _)).
    - rewrite (eo_empty E HE) in H1. injection H1 as <-. injection H2 as <-. injection H4 as <-. injection H5 as <-. exists None. split; [reflexivity|]. split; [|exact Logic.I].
      cbn [plain] in Pi. cbn. rewrite (proj2 Te). cbn [plain] in Pi. unfold min_int64, max_uint64 in *. rewrite Pi. reflexivity. }
  destruct (corr_shape _ _ _ _ _ Ac P1 G1 H6) as (cu2 & -> & P2 & G2).
  eapply tri_weaken; [apply tri_change|auto]. intros B. apply keep_staging; try assumption; [apply V|right; exists []; split; [reflexivity|intros ? ? []]|].
  rewrite (ver_doc E keyid HE K _ _ _ _ v Dt (jget_tgt_version _ _ _ _ _)); unfold uint_mod, max_int in *; lia.
Qed.
End Keep.
