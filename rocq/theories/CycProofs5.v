(** Proofs about the update cycle: the stored version of the Director's Targets, and when it is dropped. *)
From Verif Require Import Base Json TufModel TufSpec TufProofs MetaStore RepoModel RepoSpec RepoProofs RepoProofs2 RepoProofs3 RepoProofs4 RepoProofs5 RepoProofs6 CodecModel DlModel
  InstModel InstSpec DevModel DevSpec DevProofs ClientModel ClientSpec ClientProofs ClientProofs2 UpdModel UpdSpec UpdProofs UpdProofs2 UpdProofs3 CycModel CycSpec CycProofs CycProofs2 CycProofs3.

(** The Director's metadata is the same. *)
Definition same_dir (d d' : db) : Prop := forall ty, latest_row Director ty d' = latest_row Director ty d.
Lemma sd_refl d : same_dir d d. Proof. intros ty. reflexivity. Qed.
Lemma sd_trans a b c : same_dir a b -> same_dir b c -> same_dir a c. Proof. intros A B ty. now rewrite B, A. Qed.
Lemma sd_deleg s s' : only_deleg s s' -> same_dir (u_db s) (u_db s').
Proof. intros (H & _) ty. unfold latest_row. now rewrite H. Qed.
Lemma sd_eq d d' : d' = d -> same_dir d d'. Proof. intros ->. apply sd_refl. Qed.
Lemma sd_stores ws : forall d, same_dir d (stores Image ws d).
Proof.
  induction ws as [|(ty, raw) ws IH]; intros d; cbn [stores]; [apply sd_refl|]. eapply sd_trans; [|apply IH].
  intros ty'. apply latest_store_nonroot_other. left. discriminate.
Qed.
Lemma sd_chain l : forall d, same_dir d (chain_db Image l d).
Proof.
  induction l as [|(v, raw) l IH]; intros d; cbn [chain_db]; [apply sd_refl|]. eapply sd_trans; [|apply IH].
  intros ty. rewrite latest_clear_other by discriminate. apply latest_store_root_other. left. discriminate.
Qed.
Lemma sd_first o d : same_dir d (first_db Image o d).
Proof. destruct o; [|apply sd_refl]. intros ty. apply latest_store_root_other. left. discriminate. Qed.
Lemma sd_image_update E srv clk s s' r : image_update E srv clk s = (s', r) -> same_dir (u_db s) (u_db s').
Proof.
  intros H. apply image_update_phases in H. destruct H as (s0 & s1 & x & D0 & _ & U & _ & _ & K).
  apply update_root_spec in U. destruct U as (o & l & Ro & _ & D1 & _).
  assert (A : same_dir (u_db s) (u_db s1)) by (rewrite <- D0, D1; eapply sd_trans; [apply sd_first|apply sd_chain]).
  destruct K as [(e & _ & -> & _)|(_ & s2 & x2 & T & K)]; [exact A|]. apply ts_block_spec in T. destruct T as (_ & _ & _ & _ & T).
  assert (B : same_dir (u_db s) (u_db s2)).
  { eapply sd_trans; [exact A|]. destruct T as [((D2 & _) & _)|(raw & re & lo & _ & _ & _ & _ & _ & (D2 & _) & _)]; rewrite D2; apply sd_stores. }
  destruct K as [(e & _ & -> & _)|(_ & s3 & x3 & N & K)]; [exact B|]. apply snap_block_spec in N. destruct N as (_ & _ & _ & _ & ws & (D3 & _) & _).
  assert (C : same_dir (u_db s) (u_db s3)) by (eapply sd_trans; [exact B|]; rewrite D3; apply sd_stores).
  destruct K as [(e & _ & -> & _)|(_ & K)]; [exact C|]. apply tgt_block_spec in K. destruct K as (_ & _ & _ & _ & ws2 & (D4 & _) & _).
  eapply sd_trans; [exact C|]. rewrite D4. apply sd_stores.
Qed.
Lemma sd_offline E fnm srv clkd clki now v ts s s' r : check_updates_offline E fnm srv clkd clki now v ts s = (s', r) -> same_dir (u_db s) (u_db s').
Proof.
  unfold check_updates_offline. destruct (v_pending v); [intros H; injection H as <- _; apply sd_refl|]. destruct (nilb ts); [intros H; injection H as <- _; apply sd_refl|].
  assert (N : nowrite (uptane_offline_iteration E clkd clki v)).
  { unfold uptane_offline_iteration. apply nw_bind; [apply nw_director_offline|]. intros _. apply nw_bind; [apply nw_gets|]. intros dt. apply nw_bind; [apply nw_lift|]. intros p.
    apply nw_bind; [|intros _; apply nw_ret]. destruct (nilb (fst p)); [apply nw_ret|]. unfold check_image_meta_offline, catch. intros a b q H.
    destruct (image_offline E clki a) as (a1, [u|e]) eqn:I; apply nw_image_offline in I; [injection H as <- _; exact I|]. cbn in H. injection H as <- _. exact I. }
  intros H. apply mbind_inv in H. destruct H as [(s1 & p & H1 & H)|(e & H1 & _)]; apply N in H1; destruct H1 as (H1 & _); [|now apply sd_eq].
  destruct (nilb (fst p)); [injection H as <- _; now apply sd_eq|]. apply mbind_inv in H.
  assert (K : exists q, confirm_offline E fnm srv now (fst p) ts s1 = (s', q)). { destruct H as [(s2 & a & H2 & H)|(e & H2 & _)]; [injection H as <- _; eauto|eauto]. }
  destruct K as (q & K). apply confirm_offline_spec in K. destruct K as (K & _). apply sd_deleg in K. intros ty. rewrite (K ty). now rewrite H1.
Qed.

Lemma no_older_sd E a b c : no_older E a b -> same_dir b c -> no_older E a c.
Proof.
  intros A B v V P. destruct (A v V P) as (v' & (raw & L & X) & K). exists v'. split; [|exact K]. exists raw. split; [|exact X]. unfold load_nonroot in *. now rewrite (B RTargets).
Qed.
Lemma sd_no_older E a b : same_dir a b -> no_older E a b.
Proof. intros B. eapply no_older_sd; [|exact B]. intros v V P. exists v. split; [exact V|lia]. Qed.
Lemma sd_root d d' : same_dir d d' -> load_latest_root Director d' = load_latest_root Director d.
Proof. intros B. unfold load_latest_root. now rewrite (B RRoot). Qed.
Lemma director_update_keeps E srv clk s s' r : clean_server srv -> root_stored (u_db s) -> ~ rotation_offered E srv Director (u_db s) ->
  director_update E srv clk s = (s', r) -> no_older E (u_db s) (u_db s') /\ load_latest_root Director (u_db s') = load_latest_root Director (u_db s).
Proof.
  intros Hcl Hroot Hno H. apply director_update_phases in H. destruct H as (s0 & s1 & x & D0 & _ & Hu & T1 & _ & Hc).
  assert (D1 : u_db s1 = u_db s). { rewrite <- D0 in *. destruct (no_rotation_root_phase E srv clk Director s0 s1 x Hu Hno Hroot) as (A & _). exact A. }
  destruct Hc as [(e & _ & -> & _)|(_ & Hb)]; [rewrite D1; split; [apply sd_no_older, sd_refl|reflexivity]|].
  apply director_block_spec in Hb; [|rewrite T1; reflexivity].
  assert (R : forall ws, Forall (fun w => fst w <> RRoot) ws -> forall d, load_latest_root Director (stores Director ws d) = load_latest_root Director d).
  { induction ws as [|(ty, raw) ws IH]; intros F d; [reflexivity|]. inversion F; subst. cbn [stores]. rewrite IH by assumption. unfold load_latest_root.
    rewrite latest_store_nonroot_other; [reflexivity|]. right. cbn in H1. congruence. }
  destruct Hb as (_ & _ & [((W1 & W2) & e & _)|(raw & remote & local & Hs & He & Hloc & Hle & Hvt & Hcase & _)]).
  { rewrite W1, D1. cbn. split; [apply sd_no_older, sd_refl|reflexivity]. }
  rewrite D1 in Hloc. destruct Hcase as [(_ & (W1 & _))|(_ & (W1 & _))]; rewrite W1, D1; [|cbn; split; [apply sd_no_older, sd_refl|reflexivity]].
  split; [|apply R; destruct (local <? remote); repeat constructor; discriminate].
  intros v V _. pose proof (stored_version_local E Director RTargets (u_db s) v local V Hloc) as ->. destruct (Z.ltb_spec local remote).
  - exists remote. split; [|lia]. cbn [stores]. exists raw. split; [|exact He]. apply load_store_nonroot. exact (Hcl _ _ _ _ Hs).
  - exists local. cbn [stores]. split; [exact V|lia].
Qed.
Lemma check_updates_keeps E fnm srv clkd clki now v s s' r : clean_server srv -> root_stored (u_db s) -> ~ rotation_offered E srv Director (u_db s) ->
  check_updates E fnm srv clkd clki now v s = (s', r) -> no_older E (u_db s) (u_db s') /\ load_latest_root Director (u_db s') = load_latest_root Director (u_db s).
Proof.
  intros Hcl Hroot Hno H. unfold check_updates in H.
  assert (IT : forall s1 x, uptane_iteration E srv clkd clki v s = (s1, x) -> no_older E (u_db s) (u_db s1) /\ load_latest_root Director (u_db s1) = load_latest_root Director (u_db s)).
  { intros s1 x K. unfold uptane_iteration in K. apply mbind_inv in K. destruct K as [(s2 & [] & K1 & K)|(e & K1 & _)]; apply director_update_keeps in K1; auto.
    destruct K1 as (A & B). apply mbind_inv in K. destruct K as [(s3 & dt & K2 & K)|(e & K2 & _)]; injection K2 as <- _; auto.
    apply mbind_inv in K. destruct K as [(s4 & p & K2 & K)|(e & K2 & _)].
    2:{ unfold lift in K2. injection K2 as <- _. auto. }
    unfold lift in K2. injection K2 as <- _.
    assert (Q : exists y, (if nilb (fst p) then ret tt else image_update E srv clki) s2 = (s1, y)).
    { apply mbind_inv in K. destruct K as [(s5 & [] & K3 & K)|(e & K3 & _)]; [injection K as <- _; eauto|eauto]. }
    destruct Q as (y & Q). destruct (nilb (fst p)); [injection Q as <- _; auto|]. apply sd_image_update in Q. split; [eapply no_older_sd; eauto|]. rewrite (sd_root _ _ Q). exact B. }
  apply mbind_inv in H. destruct H as [(s1 & it & H1 & H)|(e & H1 & _)]; unfold catch, mbind at 1 in H1;
    destruct (uptane_iteration E srv clkd clki v s) as (s2, [p|e2]) eqn:K0; pose proof (IT _ _ eq_refl) as K; clear IT; cbn in H1; try discriminate; injection H1 as <- <-.
  2:{ cbn in H. injection H as <- _. exact K. }
  destruct p as (upd, cnt). apply mbind_inv in H. destruct H as [(s3 & ld & H1 & H)|(e & H1 & _)]; [|discriminate]. injection H1 as <- <-.
  apply mbind_inv in H. destruct H as [(s3 & st & H1 & H)|(e & H1 & _)]; unfold lift in H1; injection H1 as <- _; [|exact K].
  destruct st as [raw|]; [|injection H as <- _; exact K]. destruct (nilb upd); [injection H as <- _; exact K|].
  unfold catch, mbind in H. destruct (confirm_with_image E fnm srv now upd s2) as (s3, [l|e3]) eqn:C; apply confirm_spec in C; destruct C as (C & _); apply sd_deleg in C; cbn in H; injection H as <- _;
    (split; [eapply no_older_sd; [apply K|exact C]|rewrite (sd_root _ _ C); apply K]).
Qed.

Section C.
Context (savec : json -> string) (loadc : string -> option json) (loadm : string -> json) (E : Env)
  (fnm : string -> string -> bool) (verifies : string -> json -> bool) (P : primary) (force : bool) (W : cworld).
Notation step := (step savec).
Notation cycle := (uptane_cycle savec loadc loadm E fnm verifies P force W).

Lemma body_ust w srv clkd clki now ts s s' x : install_body savec loadc E fnm P w srv clkd clki now ts s = (s', x) ->
  p_ust s' = fst (check_updates_offline E fnm srv clkd clki now (vehicle_of loadc P (p_idb s)) ts (p_ust s)).
Proof.
  unfold install_body. intros H. apply gets_bind in H. set (chk := check_updates_offline E fnm srv clkd clki now (vehicle_of loadc P (p_idb s)) ts) in *.
  apply pbind_inv in H. assert (Q : forall a b, (match pust chk s with (s', Ok o) => (s', Ok o) | (s', Throw _) => (s', Ok OcError) end) = (a, b) -> p_ust a = fst (chk (p_ust s)) /\ exists o, b = Ok o).
  { intros a b. unfold pust. destruct (chk (p_ust s)) as (u, [o|e]); intros K; injection K as <- <-; eauto. }
  destruct H as [(oc & s1 & C & H)|(e & C & ->)]; apply Q in C; destruct C as (C & o & O); [|discriminate]. injection O as <-. clear Q. rewrite <- C. clear C chk.
  destruct oc; try (injection H as <- _; reflexivity).
  apply pbind_inv in H. destruct H as [(good & s2 & RI & H)|(e & RI & _)]; apply recheck_spec in RI; destruct RI as (-> & _); [|reflexivity].
  destruct good; cbn [negb] in H; [|injection H as <- _; reflexivity].
  apply pbind_inv in H. destruct H as [(up & s2 & WR & H)|(e & WR & _)]; apply wait_spec in WR; destruct WR as (pings & (_ & _ & _ & A1) & _); [|exact A1].
  destruct up; cbn [negb] in H; [|injection H as <- _; exact A1].
  apply pbind_inv in H. unfold send_metadata_to_ecus in H.
  assert (M : forall a b, (let! err := send_metadata savec E P w srv (pairs ts) "" in
                pret (if String.eqb err "" then None else Some (mk_ires {| rc_num := kVerificationFailed; rc_text := err |} "Sending metadata to one or more ECUs failed"))) s2 = (a, b) -> p_ust a = p_ust s2).
  { intros a b K. apply pbind_inv in K. destruct K as [(err & s3 & K & K')|(e & K & _)]; apply meta_spec in K; destruct K as (ms & (_ & _ & _ & A2) & _); [injection K' as <- _|]; exact A2. }
  destruct H as [(m & s3 & K & H)|(e & K & _)]; apply M in K; [|congruence]. destruct m as [mr|]; [injection H as <- _; congruence|].
  apply pbind_inv in H. destruct H as [(pr & s4 & IP & H)|(e & IP & _)]; apply install_primary_spec in IP; destruct IP as (pe & (_ & _ & _ & A3) & _); [|congruence].
  apply pbind_inv in H. destruct H as [(sr & s5 & SI & H)|(e & SI & _)]; apply send_images_spec in SI; destruct SI as (s6 & evs & _ & (_ & _ & _ & A4) & _ & A5); [|congruence].
  apply gets_bind in H. apply lift_bind in H. destruct H as [(y & _ & H)|(e & _ & H & _)]; [injection H as <- _|rewrite H]; congruence.
Qed.
Lemma install_dir ts s s' x : install_c savec loadc E fnm P W ts s = (s', x) -> same_dir (u_db (p_ust (y_p s))) (u_db (p_ust (y_p s'))).
Proof.
  intros H. apply install_step in H. destruct H as (_ & U & _). apply run_spec in U. destruct U as (s1 & y & tl & B & (_ & _ & _ & A) & _).
  apply body_ust in B. rewrite A, B. destruct (check_updates_offline _ _ _ _ _ _ _ ts (p_ust (y_p s))) as (u, r) eqn:C. eapply sd_offline; eauto.
Qed.
Lemma put_dir n s s' x ce : put_manifest savec loadm verifies P W n s = (s', x) -> y_ev s' = y_ev s ++ ce -> In CDropped ce \/ same_dir (u_db (p_ust (y_p s))) (u_db (p_ust (y_p s'))).
Proof.
  intros H EV. apply put_manifest_spec in H. destruct H as (_ & _ & _ & ce' & (_ & S & _) & _ & [U|D] & _); [right; rewrite U; apply sd_refl|left].
  rewrite S in EV. apply app_inv_head in EV. now subst.
Qed.
Lemma loop_same ts i s s' x : download_loop E P W i ts s = (s', x) -> p_ust (y_p s') = p_ust (y_p s).
Proof. intros H. apply loop_grows in H. destruct H as (-> & _). reflexivity. Qed.
Lemma download_dir ts s s' x ce : download_images savec loadc E fnm P W ts s = (s', x) -> y_ev s' = y_ev s ++ ce -> In CDropped ce \/ same_dir (u_db (p_ust (y_p s))) (u_db (p_ust (y_p s'))).
Proof.
  intros H EV. unfold download_images in H. apply cbind_inv in H. destruct H as [(s1 & d & H1 & H)|(e & H1 & _)]; [|cbv [cpst pgets] in H1; discriminate].
  cbv [cpst pgets] in H1. rewrite cst_eta in H1. injection H1 as <- <-. apply cbind_inv in H. unfold ctry in H. rewrite cpst_pust in H.
  destruct (check_updates_offline E fnm (x_srv W) _ _ _ _ ts (p_ust (y_p s))) as (u, r) eqn:C. apply sd_offline in C. cbn [fst snd] in H.
  destruct H as [(s2 & oc & H2 & H)|(e & H2 & _)]; [|destruct r; discriminate].
  assert (s2 = set_ust u s) by (destruct r; injection H2 as <- _; reflexivity). subst s2. clear H2.
  assert (SF : forall c text a b y pre, early_code c text -> store_failure savec c text a = (b, y) -> y_ev a = y_ev s ++ pre -> y_ev b = y_ev s ++ ce -> In CDropped ce).
  { intros c text a b y pre EC K A B. apply store_failure_spec in K; [|exact EC]. destruct K as (_ & _ & K & _). rewrite K, A, <- app_assoc in B. apply app_inv_head in B. subst ce.
    apply in_or_app. right. now left. }
  destruct oc.
  - left. apply cbind_inv in H. destruct H as [(s4 & [] & H4 & H)|(e & H4 & _)].
    + injection H as <- _. eapply (SF _ _ _ _ _ [] early_internal H4); [cbn; now rewrite app_nil_r|exact EV].
    + eapply (SF _ _ _ _ _ [] early_internal H4); [cbn; now rewrite app_nil_r|exact EV].
  - injection H as <- _. right. exact C.
  - apply cbind_inv in H. destruct H as [(s4 & done & H4 & H)|(e & H4 & _)].
    2:{ right. apply loop_same in H4. rewrite H4. exact C. }
    pose proof (loop_same _ _ _ _ _ H4) as U4. apply loop_grows in H4. destruct H4 as (_ & c4 & H4). destruct (Nat.eqb _ _).
    { injection H as <- _. right. rewrite U4. exact C. }
    left. apply cbind_inv in H. destruct H as [(s5 & [] & H5 & H)|(e & H5 & _)]; [injection H as <- _|]; eapply (SF _ _ _ _ _ c4 early_download H5); [exact H4|exact EV|exact H4|exact EV].
Qed.
Definition held_dir (s s' : cst) : Prop := no_older E (u_db (p_ust (y_p s))) (u_db (p_ust (y_p s'))) /\ load_latest_root Director (u_db (p_ust (y_p s'))) = load_latest_root Director (u_db (p_ust (y_p s))).
Lemma held_sd a b c : held_dir a b -> same_dir (u_db (p_ust (y_p b))) (u_db (p_ust (y_p c))) -> held_dir a c.
Proof. intros (A & B) D. split; [eapply no_older_sd; eauto|]. rewrite (sd_root _ _ D). exact B. Qed.
Lemma fetch_dir s s' x ce : clean_server (x_srv W) -> root_stored (u_db (p_ust (y_p s))) -> ~ rotation_offered E (x_srv W) Director (u_db (p_ust (y_p s))) ->
  fetch_meta_c savec loadc loadm E fnm verifies P W s = (s', x) -> y_ev s' = y_ev s ++ ce -> In CDropped ce \/ held_dir s s'.
Proof.
  intros Hcl Hroot Hno H EV. unfold fetch_meta_c in H. apply cbind_inv in H.
  assert (F : forall a b, cpst (fetch_meta savec loadc verifies P (x_upd W)) s = (a, b) -> p_ust (y_p a) = p_ust (y_p s) /\ y_ev a = y_ev s).
  { intros a b K. unfold cpst in K. destruct (fetch_meta _ _ _ _ _ (y_p s)) as (p, r) eqn:FM. injection K as <- _. apply fetch_meta_still in FM. destruct FM as (ue & (_ & _ & _ & A) & _). auto. }
  assert (K0 : held_dir s s) by (split; [apply sd_no_older, sd_refl|reflexivity]).
  destruct H as [(s1 & go & H1 & H)|(e & H1 & _)]; apply F in H1; destruct H1 as (U1 & E1).
  2:{ right. unfold held_dir. rewrite U1. exact K0. }
  assert (K1 : held_dir s s1) by (unfold held_dir; rewrite U1; exact K0).
  destruct go; [|injection H as <- _; now right]. apply cbind_inv in H.
  assert (PM : forall a b, put_manifest savec loadm verifies P W 0 s1 = (a, b) -> exists c1, y_ev a = y_ev s ++ c1 /\ (In CDropped c1 \/ held_dir s a)).
  { intros a b K. pose proof (put_manifest_spec _ _ _ _ _ _ _ _ _ K) as (_ & _ & _ & c1 & (_ & S & _) & _). exists c1. split; [congruence|].
    destruct (put_dir _ _ _ _ _ K S) as [D|D]; [now left|right]. eapply held_sd; eauto. }
  destruct H as [(s2 & b & H2 & H)|(e & H2 & _)]; apply PM in H2; destruct H2 as (c1 & E2 & D2).
  2:{ rewrite E2 in EV. apply app_inv_head in EV. now subst. }
  apply check_c_spec in H. destruct H as (u & r & CU & _ & [->|(_ & _ & _ & _ & EV2 & _)]).
  - destruct D2 as [D2|(D2 & D3)].
    { left. cbn in EV. rewrite E2 in EV. apply app_inv_head in EV. now subst. }
    right. apply check_updates_keeps in CU; [|exact Hcl|destruct Hroot as (raw & R); exists raw; congruence|].
    2:{ intros (raw0 & R0 & raw1 & R1 & A1 & A2). apply Hno. exists raw0, R0, raw1, R1. split; [congruence|exact A2]. }
    destruct CU as (A & B). split; cbn.
    + intros v V Pv. destruct (D2 v V Pv) as (v1 & V1 & L1). destruct (A v1 V1 ltac:(lia)) as (v2 & V2 & L2). exists v2. split; [exact V2|lia].
    + congruence.
  - left. rewrite EV2, E2, <- app_assoc in EV. apply app_inv_head in EV. subst ce. apply in_or_app. right. now left.
Qed.
(** A cycle leaves no older Targets of the Director unless it deletes them. *)
Theorem cycle_no_older s s' x ce : clean_server (x_srv W) -> root_stored (u_db (p_ust (y_p s))) -> ~ rotation_offered E (x_srv W) Director (u_db (p_ust (y_p s))) ->
  cycle s = (s', x) -> y_ev s' = y_ev s ++ ce -> In CDropped ce \/ held_dir s s'.
Proof.
  intros Hcl Hroot Hno H EV. apply routes in H.
  assert (FT : forall a b, fetch_meta_c savec loadc loadm E fnm verifies P W s = (a, b) -> exists c1, y_ev a = y_ev s ++ c1 /\ (In CDropped c1 \/ held_dir s a)).
  { intros a b K. pose proof (fetch_c_spec _ _ _ _ _ _ _ _ _ _ _ K) as (_ & ue & c1 & (_ & S & _) & _). exists c1. split; [exact S|]. eapply fetch_dir; eauto. }
  assert (PM : forall a b n r c1, y_ev a = y_ev s ++ c1 -> (In CDropped c1 \/ held_dir s a) -> put_manifest savec loadm verifies P W n a = (b, r) -> exists c2, y_ev b = y_ev s ++ c2 /\ (In CDropped c2 \/ held_dir s b)).
  { intros a b n r c1 A D K. pose proof (put_manifest_spec _ _ _ _ _ _ _ _ _ K) as (_ & _ & _ & c2 & (_ & S & _) & _). exists (c1 ++ c2). split; [rewrite S, A; now rewrite app_assoc|].
    destruct D as [D|D]; [left; apply in_or_app; now left|]. destruct (put_dir _ _ _ _ _ K S) as [D2|D2]; [left; apply in_or_app; now right|right]. eapply held_sd; eauto. }
  assert (DL : forall a b l r c1, y_ev a = y_ev s ++ c1 -> (In CDropped c1 \/ held_dir s a) -> download_images savec loadc E fnm P W l a = (b, r) -> exists c2, y_ev b = y_ev s ++ c2 /\ (In CDropped c2 \/ held_dir s b)).
  { intros a b l r c1 A D K. pose proof (download_step savec _ _ _ _ _ _ _ _ _ K) as (ue & c2 & (_ & S & _) & _). exists (c1 ++ c2). split; [rewrite S, A; now rewrite app_assoc|].
    destruct D as [D|D]; [left; apply in_or_app; now left|]. destruct (download_dir _ _ _ _ _ K S) as [D2|D2]; [left; apply in_or_app; now right|right]. eapply held_sd; eauto. }
  assert (IN : forall a b l r c1, y_ev a = y_ev s ++ c1 -> (In CDropped c1 \/ held_dir s a) -> install_c savec loadc E fnm P W l a = (b, r) -> exists c2, y_ev b = y_ev s ++ c2 /\ (In CDropped c2 \/ held_dir s b)).
  { intros a b l r c1 A D K. pose proof (install_step savec _ _ _ _ _ _ _ _ _ K) as (_ & _ & ue & (_ & S & _)). exists c1. rewrite app_nil_r in S. split; [congruence|].
    destruct D as [D|D]; [now left|right]. eapply held_sd; [exact D|]. eapply install_dir; eauto. }
  assert (Q : exists c2, y_ev s' = y_ev s ++ c2 /\ (In CDropped c2 \/ held_dir s s')).
  { destruct H; repeat match goal with
      | K : fetch_meta_c _ _ _ _ _ _ _ _ s = _ |- _ => apply FT in K; destruct K as (? & ? & ?)
      | A : y_ev ?a = y_ev s ++ ?c, D : In CDropped ?c \/ held_dir s ?a, K : download_images _ _ _ _ _ _ _ ?a = _ |- _ => pose proof (DL _ _ _ _ _ A D K) as (? & ? & ?); clear K
      | A : y_ev ?a = y_ev s ++ ?c, D : In CDropped ?c \/ held_dir s ?a, K : install_c _ _ _ _ _ _ _ ?a = _ |- _ => pose proof (IN _ _ _ _ _ A D K) as (? & ? & ?); clear K
      | A : y_ev ?a = y_ev s ++ ?c, D : In CDropped ?c \/ held_dir s ?a, K : put_manifest _ _ _ _ _ _ ?a = _ |- _ => pose proof (PM _ _ _ _ _ A D K) as (? & ? & ?); clear K
      end; eauto. }
  destruct Q as (c2 & A & B). rewrite A in EV. apply app_inv_head in EV. now subst.
Qed.
End C.

(** When the Director's Targets are deleted. *)
Section D.
Context (savec : json -> string) (loadc : string -> option json) (loadm : string -> json) (E : Env)
  (fnm : string -> string -> bool) (verifies : string -> json -> bool) (P : primary) (force : bool) (W : cworld).
Notation step := (step savec).
Notation cycle := (uptane_cycle savec loadc loadm E fnm verifies P force W).
Lemma not_waits r : need_completion r = Ok false -> ~ waits r.
Proof.
  intros H WA. assert (C : exists c, rc_string (ir_code r) = Ok c).
  { unfold need_completion, rc_eq in H. destruct WA as (W0 & _). rewrite W0 in H. cbn [num rc_num] in H. rewrite Z.eqb_refl in H. cbn [negb] in H. destruct (rc_string (ir_code r)); [eauto|discriminate]. }
  destruct (need_completion_spec r C) as (b & B & WB). rewrite H in B. injection B as <-. apply WB in WA. discriminate.
Qed.
Lemma dres_from ue : forall o w raw corr, dres_after o ue = Some (w, raw, corr) -> o = Some (w, raw, corr) \/ exists r0, In (UDevRes r0 raw corr) ue /\ to_row r0 = Ok w.
Proof.
  induction ue as [|e ue IH] using rev_ind; intros o w raw corr H; [now left|]. rewrite dres_app in H. cbn in H.
  assert (G : dres_after o ue = Some (w, raw, corr) -> o = Some (w, raw, corr) \/ exists r0, In (UDevRes r0 raw corr) (ue ++ [e]) /\ to_row r0 = Ok w).
  { intros K. apply IH in K. destruct K as [K|(r0 & K & T)]; [now left|right]. exists r0. split; [apply in_or_app; now left|exact T]. }
  destruct e; auto. destruct (to_row _) as [w0|] eqn:T; auto. injection H as <- <- <-. right. eexists. split; [apply in_or_app; right; left; reflexivity|exact T].
Qed.
Lemma failing_mono o a b : failing o a -> failing o (a ++ b).
Proof. intros (w & raw & corr & r & H & K). exists w, raw, corr, r. split; [|exact K]. destruct H as [H|(r0 & H & T)]; [now left|right]. exists r0. split; [apply in_or_app; now left|exact T]. Qed.
Lemma failing_step s s1 ue ce ue2 : step s s1 ue ce -> failing (v_dres (p_dev (y_p s1))) ue2 -> failing (v_dres (p_dev (y_p s))) (ue ++ ue2).
Proof.
  intros (_ & _ & _ & S) (w & raw & corr & r & H & K). exists w, raw, corr, r. split; [|exact K]. destruct H as [H|(r0 & H & T)].
  - destruct S as [S|(S & _)]; [|congruence]. rewrite S in H. apply dres_from in H. destruct H as [H|(r0 & H & T)]; [now left|right]. exists r0. split; [apply in_or_app; now left|exact T].
  - right. exists r0. split; [apply in_or_app; now right|exact T].
Qed.
Lemma put_drops n s s' x ce : put_manifest savec loadm verifies P W n s = (s', x) -> y_ev s' = y_ev s ++ ce -> In CDropped ce -> failing (v_dres (p_dev (y_p s))) [].
Proof.
  unfold put_manifest. destruct (has_pending (p_idb (y_p s))).
  { intros H A B. injection H as <- _. rewrite <- (app_nil_r (y_ev s)) in A at 1. apply app_inv_head in A. subst. contradiction. }
  destruct (assemble _ _ _ _ _ _ _) as (d1, rm). destruct (failed_result (p_dev (y_p s))) eqn:F.
  - intros _ _ _. unfold failed_result in F. destruct (v_dres (p_dev (y_p s))) as [((w, raw), corr)|]; [|discriminate]. exists w, raw, corr.
    destruct (of_row w) as [r|] eqn:R; [|discriminate]. exists r. destruct (ir_success r); [discriminate|]. destruct (need_completion r) as [[|]|] eqn:NC; try discriminate. apply not_waits in NC. auto.
  - intros H A B. exfalso. apply cbind_inv in H. destruct H as [(s2 & [] & H1 & H)|(e & H1 & _)]; [|discriminate]. injection H1 as <-. destruct rm as [m|e].
    + unfold cbind, ctell in H. cbn in H. destruct (x_accepted W n); injection H as <- _; cbn in A; apply app_inv_head in A; subst; destruct B as [B|[]]; discriminate.
    + injection H as <- _. cbn in A. rewrite <- (app_nil_r (y_ev s)) in A at 1. apply app_inv_head in A. subst. contradiction.
Qed.
Lemma early_failing c text o corr : early_code c text -> failing o [UDevRes (mk_ires (num c) text) "" corr].
Proof.
  intros H. destruct (early_row c text H) as (w & r & T & R & N & S & _). exists w, "", corr, r. split; [right; exists (mk_ires (num c) text); split; [now left|exact T]|].
  split; [exact R|]. split; [exact S|]. intros (Q & _). rewrite N in Q. destruct H as [(-> & _)|[(-> & _)|(-> & _)]]; discriminate Q.
Qed.
Definition drops_for (s s' : cst) : Prop := exists ue ce, step s s' ue ce /\ (In CDropped ce -> failing (v_dres (p_dev (y_p s))) ue).
Lemma drops_trans a b c : drops_for a b -> drops_for b c -> drops_for a c.
Proof.
  intros (u1 & c1 & S1 & F1) (u2 & c2 & S2 & F2). exists (u1 ++ u2), (c1 ++ c2). split; [eapply step_trans; eauto|]. intros H. apply in_app_or in H. destruct H as [H|H].
  - apply failing_mono. auto.
  - eapply failing_step; eauto.
Qed.
Lemma put_for n s s' x : put_manifest savec loadm verifies P W n s = (s', x) -> drops_for s s'.
Proof. intros H. pose proof (put_manifest_spec _ _ _ _ _ _ _ _ _ H) as (_ & _ & _ & ce & S & _). exists [], ce. split; [exact S|]. intros D. eapply put_drops; eauto. apply S. Qed.
Lemma failure_for c text s s' x : early_code c text -> store_failure savec c text s = (s', x) -> drops_for s s'.
Proof.
  intros K H. destruct (failure_step savec c text s s' x K H) as (ue & S & _). exists ue, [CDropped]. split; [exact S|]. intros _. apply store_failure_spec in H; [|exact K].
  destruct H as (_ & _ & _ & _ & H & _). destruct S as (S & _). rewrite S in H. apply app_inv_head in H. subst. now apply early_failing.
Qed.
Lemma same_for s s' : (exists ue ce, step s s' ue ce /\ ~ In CDropped ce) -> drops_for s s'.
Proof. intros (ue & ce & S & N). exists ue, ce. split; [exact S|]. contradiction. Qed.
Lemma ust_for u s : drops_for s (set_ust u s).
Proof. apply same_for. exists [], []. split; [|intros []]. unfold step, CycProofs2.step. cbn. rewrite !app_nil_r. repeat split; auto. left. reflexivity. Qed.
Lemma grow_for s s' c : y_p s' = y_p s -> y_ev s' = y_ev s ++ c -> ~ In CDropped c -> drops_for s s'.
Proof. intros A B N. apply same_for. exists [], c. split; [|exact N]. unfold CycProofs2.step. rewrite A. cbn. rewrite app_nil_r. repeat split; auto. left. reflexivity. Qed.
Lemma one_drops i t s s' x : fetch_one E P W i t s = (s', x) -> exists c, y_ev s' = y_ev s ++ c /\ ~ In CDropped c.
Proof.
  intros H. unfold fetch_one in H. assert (Z : exists c, y_ev s = y_ev s ++ c /\ ~ In CDropped c) by (exists []; rewrite app_nil_r; auto).
  destruct (_ || _); [|injection H as <- _; exact Z]. destruct (negb _); [injection H as <- _; exact Z|]. destruct (is_ostree t); [injection H as <- _; exact Z|].
  destruct (fetch_tries _ _ _ _ _) as (r, d). destruct r; [injection H as <- _; exact Z|injection H as <- _; exact Z| |];
    unfold cbind, ctell, cthrow in H; cbn in H; injection H as <- _; cbn; eexists; (split; [reflexivity|]); intros [K|[]]; discriminate.
Qed.
Lemma tell_all_ev l : forall s s' x, ctell_all l s = (s', x) -> y_ev s' = y_ev s ++ l.
Proof. intros s s' x H. injection H as <- _. reflexivity. Qed.
Lemma image_drops i t s s' x : download_image E P W i t s = (s', x) -> exists c, y_ev s' = y_ev s ++ c /\ ~ In CDropped c.
Proof.
  intros H. unfold download_image in H. apply cbind_inv in H. destruct H as [(s1 & corr & H1 & H)|(e & H1 & _)]; [|cbv [cpst corr_id pgets] in H1; discriminate].
  cbv [cpst corr_id pgets] in H1. rewrite cst_eta in H1. injection H1 as <- <-.
  assert (M : forall (f : string * string -> cev) l, (forall e, f e <> CDropped) -> ~ In CDropped (map f l)). { intros f l N I0. apply in_map_iff in I0. destruct I0 as (e & I0 & _). now apply N in I0. }
  apply cbind_inv in H. destruct H as [(s2 & [] & H2 & H)|(e & H2 & _)]; apply tell_all_ev in H2.
  2:{ eexists. split; [exact H2|]. apply M. discriminate. }
  apply cbind_inv in H. destruct H as [(s3 & ok & H3 & H)|(e & H3 & _)]; apply one_drops in H3; destruct H3 as (c & H3 & N).
  2:{ rewrite H2, <- app_assoc in H3. eexists. split; [exact H3|]. intros K. apply in_app_or in K. destruct K as [K|K]; [revert K; apply M; discriminate|auto]. }
  apply cbind_inv in H. destruct H as [(s4 & [] & H4 & H)|(e & H4 & _)]; [|discriminate]. injection H4 as <-.
  apply cbind_inv in H. assert (Q : exists l, y_ev s' = (y_ev s3 ++ [CFetched t ok]) ++ l /\ ~ In CDropped l).
  { destruct H as [(s5 & [] & H5 & H)|(e & H5 & _)]; apply tell_all_ev in H5; [injection H as <- _|]; (eexists; split; [exact H5|apply M; discriminate]). }
  destruct Q as (l & Q & NL). rewrite H3, H2, <- !app_assoc in Q. eexists. split; [exact Q|]. intros K. apply in_app_or in K. destruct K as [K|K]; [revert K; apply M; discriminate|].
  apply in_app_or in K. destruct K as [K|K]; [auto|]. destruct K as [K|K]; [discriminate|auto].
Qed.
Lemma loop_drops ts : forall i s s' x, download_loop E P W i ts s = (s', x) -> exists c, y_ev s' = y_ev s ++ c /\ ~ In CDropped c.
Proof.
  induction ts as [|t ts IH]; intros i s s' x H; cbn [download_loop] in H; [injection H as <- _; exists []; rewrite app_nil_r; auto|].
  apply cbind_inv in H. destruct H as [(s1 & ok & H1 & H)|(e & H1 & _)]; apply image_drops in H1; [|exact H1]. destruct H1 as (c1 & E1 & N1).
  assert (Q : exists y, download_loop E P W (S i) ts s1 = (s', y)). { apply cbind_inv in H. destruct H as [(s2 & r & H2 & H)|(e & H2 & _)]; [injection H as <- _|]; eauto. }
  destruct Q as (y & Q). apply IH in Q. destruct Q as (c2 & E2 & N2). exists (c1 ++ c2). split; [rewrite E2, E1; now rewrite app_assoc|]. intros K. apply in_app_or in K. tauto.
Qed.
Lemma download_for ts s s' x : download_images savec loadc E fnm P W ts s = (s', x) -> drops_for s s'.
Proof.
  intros H. unfold download_images in H. apply cbind_inv in H. destruct H as [(s1 & d & H1 & H)|(e & H1 & _)]; [|cbv [cpst pgets] in H1; discriminate].
  cbv [cpst pgets] in H1. rewrite cst_eta in H1. injection H1 as <- <-. apply cbind_inv in H. unfold ctry in H. rewrite cpst_pust in H.
  destruct (check_updates_offline E fnm (x_srv W) _ _ _ _ ts (p_ust (y_p s))) as (u, r). cbn [fst snd] in H.
  destruct H as [(s2 & oc & H2 & H)|(e & H2 & _)]; [|destruct r; discriminate].
  assert (s2 = set_ust u s) by (destruct r; injection H2 as <- _; reflexivity). subst s2. clear H2. pose proof (ust_for u s) as U. destruct oc.
  - apply cbind_inv in H. destruct H as [(s4 & [] & H4 & H)|(e & H4 & _)]; [injection H as <- _|]; (eapply drops_trans; [exact U|eapply failure_for; [apply early_internal|exact H4]]).
  - injection H as <- _. exact U.
  - assert (L : forall a y, download_loop E P W 0 ts (set_ust u s) = (a, y) -> drops_for s a).
    { intros a y K. eapply drops_trans; [exact U|]. pose proof (loop_grows _ _ _ _ _ _ _ _ K) as (G & _). apply loop_drops in K. destruct K as (c & K & N). eapply grow_for; eauto. }
    apply cbind_inv in H. destruct H as [(s4 & done & H4 & H)|(e & H4 & _)]; apply L in H4; [|exact H4]. destruct (Nat.eqb _ _); [injection H as <- _; exact H4|].
    apply cbind_inv in H. destruct H as [(s5 & [] & H5 & H)|(e & H5 & _)]; [injection H as <- _|]; (eapply drops_trans; [exact H4|eapply failure_for; [apply early_download|exact H5]]).
Qed.
Lemma install_for ts s s' x : install_c savec loadc E fnm P W ts s = (s', x) -> drops_for s s'.
Proof. intros H. apply install_step in H. destruct H as (_ & _ & ue & H). apply same_for. eauto. Qed.
Lemma fetch_for s s' x : fetch_meta_c savec loadc loadm E fnm verifies P W s = (s', x) -> drops_for s s'.
Proof.
  intros H. unfold fetch_meta_c in H. apply cbind_inv in H.
  assert (F : forall a b, cpst (fetch_meta savec loadc verifies P (x_upd W)) s = (a, b) -> drops_for s a).
  { intros a b K. unfold cpst in K. destruct (fetch_meta _ _ _ _ _ (y_p s)) as (p, r) eqn:FM. injection K as <- _. apply fetch_meta_still in FM. destruct FM as (ue & A & _). apply same_for.
    exists ue, []. split; [|intros []]. eapply step_adv; [exact A|reflexivity]. }
  destruct H as [(s1 & go & H1 & H)|(e & H1 & _)]; apply F in H1; [|exact H1]. destruct go; [|injection H as <- _; exact H1].
  apply cbind_inv in H. destruct H as [(s2 & b & H2 & H)|(e & H2 & _)]; apply put_for in H2; [|eapply drops_trans; eauto].
  eapply drops_trans; [exact H1|]. eapply drops_trans; [exact H2|]. apply check_c_spec in H. destruct H as (u & r & _ & _ & [->|(_ & _ & _ & I0 & EV & DV & TR)]); [apply ust_for|].
  exists [UDevRes (mk_ires (num kVerificationFailed) "Metadata verification failed.") "" (tg_corr (u_dtargets u))], [CDropped]. split.
  - split; [exact TR|]. split; [exact EV|]. split; [exact I0|]. left. rewrite DV, <- dres_fold. reflexivity.
  - intros _. apply early_failing. unfold early_code. auto.
Qed.
(** The Director's Targets are deleted only if a failed result of the device was stored. *)
Theorem cycle_drops s s' x ue ce : cycle s = (s', x) -> p_tr (y_p s') = p_tr (y_p s) ++ ue -> y_ev s' = y_ev s ++ ce -> In CDropped ce -> failing (v_dres (p_dev (y_p s))) ue.
Proof.
  intros H A B. assert (Q : drops_for s s').
  { apply routes in H. destruct H; repeat match goal with
      | K : fetch_meta_c _ _ _ _ _ _ _ _ _ = _ |- _ => apply fetch_for in K
      | K : download_images _ _ _ _ _ _ _ _ = _ |- _ => apply download_for in K
      | K : install_c _ _ _ _ _ _ _ _ = _ |- _ => apply install_for in K
      | K : put_manifest _ _ _ _ _ _ _ = _ |- _ => apply put_for in K end; eauto 8 using drops_trans. }
  destruct Q as (u1 & c1 & S & Q). destruct (step_fun savec _ _ _ _ _ _ S A B) as (-> & ->). exact Q.
Qed.
End D.
