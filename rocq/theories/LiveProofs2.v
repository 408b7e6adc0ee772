(** Proofs: a cycle in which all cooperate installs what was found. *)
From Verif Require Import Base Json TufModel TufSpec TufProofs MetaStore RepoModel RepoSpec RepoProofs RepoProofs3 CodecModel CodecSpec DlModel DlSpec DlProofs ClientModel ClientSpec ClientProofs2 RechkSpec RechkProofs3
  InstModel InstSpec InstProofs DevModel DevSpec UpdModel UpdSpec UpdProofs3 CycModel CycSpec CycProofs CycProofs2 CycProofs3 CycProofs4 LiveSpec LiveProofs.

Lemma newest_of E d rp raw R : load_latest_root rp d = Ok (Some raw) -> self_signed_root E raw R -> exists last, newest_root E d rp last.
Proof.
  intros L (H & _). unfold root_of_json in H. apply bind_ok in H. destruct H as (b & H & _). unfold base_init in H.
  destruct (negb (jis_object (parse E raw))); [discriminate|]. apply bind_ok in H. destruct H as (hs & _ & H). destruct (negb hs); [discriminate|].
  apply bind_ok in H. destruct H as (sg & H1 & H). apply bind_ok in H. destruct H as (vj & H2 & H). apply bind_ok in H. destruct H as (v & H3 & _).
  exists (if negb (jis_integral vj) then -1 else v). exists raw. split; [exact L|]. unfold extract_version_untrusted. rewrite H1. cbn [bind]. rewrite H2. cbn [bind]. destruct (negb (jis_integral vj)); [reflexivity|exact H3].
Qed.

Section C.
Context (savec : json -> string) (loadc : string -> option json) (loadm : string -> json) (E : Env)
  (fnm : string -> string -> bool) (verifies : string -> json -> bool) (P : primary) (force : bool) (W : cworld).
Notation cycle := (uptane_cycle savec loadc loadm E fnm verifies P force W).
Notation fetch_c := (fetch_meta_c savec loadc loadm E fnm verifies P W).
Notation putm := (put_manifest savec loadm verifies P W).

(** ** Downloads *)
Lemma live_fetch_one i t s : x_fuel W <> 0%nat -> downloadable E P W i t -> exists s', fetch_one E P W i t s = (s', Ok true) /\ y_p s' = y_p s.
Proof.
  intros HF (K & HO & HB). unfold fetch_one. rewrite K. cbn [negb].
  destruct (for_ecu t (pr_serial P)) eqn:FE; cbn [orb].
  - apply for_ecu_iff in FE. destruct (is_ostree t) eqn:O.
    + destruct (HO eq_refl FE) as (-> & PW & _). apply pull_tries_iff in PW. rewrite PW. exists s. auto.
    + destruct (HB eq_refl) as (_ & G & image & DI & HH). destruct (x_fuel W) as [|fuel] eqn:F; [contradiction|].
      destruct (x_fetch W i 0) as (w0, b0) eqn:X0. destruct (x_fetch W i 1) as (w1, b1) eqn:X1. cbn [snd] in G. subst b0.
      destruct (honest_tries E t image fuel (y_dl s) w0 w1 b1 (map (x_fetch W i) [2%nat])) as (d & T & _); [|exact DI|].
      { intros w [->| ->]; [specialize (HH 0%nat); rewrite X0 in HH|specialize (HH 1%nat); rewrite X1 in HH]; exact HH. }
      cbn [map] in T |- *. rewrite X0, X1, T. eexists. split; reflexivity.
  - destruct (is_ostree t) eqn:O; cbn [negb]; [exists s; auto|].
    destruct (HB eq_refl) as (_ & G & image & DI & HH). destruct (x_fuel W) as [|fuel] eqn:F; [contradiction|].
    destruct (x_fetch W i 0) as (w0, b0) eqn:X0. destruct (x_fetch W i 1) as (w1, b1) eqn:X1. cbn [snd] in G. subst b0.
    destruct (honest_tries E t image fuel (y_dl s) w0 w1 b1 (map (x_fetch W i) [2%nat])) as (d & T & _); [|exact DI|].
    { intros w [->| ->]; [specialize (HH 0%nat); rewrite X0 in HH|specialize (HH 1%nat); rewrite X1 in HH]; exact HH. }
    cbn [map] in T |- *. rewrite X0, X1, T. eexists. split; reflexivity.
Qed.
Lemma live_loop : x_fuel W <> 0%nat -> forall l i s, (forall k t, nth_error l k = Some t -> downloadable E P W (i + k) t) ->
  exists s', download_loop E P W i l s = (s', Ok l) /\ y_p s' = y_p s.
Proof.
  intros HF. induction l as [|t l IH]; intros i s H; cbn [download_loop]; [exists s; auto|].
  assert (D := H 0%nat t eq_refl). rewrite Nat.add_0_r in D.
  assert (DI : exists s1, download_image E P W i t s = (s1, Ok true) /\ y_p s1 = y_p s).
  { unfold download_image. unfold cbind at 1, cpst, corr_id, pgets. unfold cbind at 1, ctell_all. cbn [y_p y_dl y_ev].
    match goal with |- exists _, cbind (fetch_one E P W i t) ?k ?a = _ /\ _ => set (sx := a); set (kk := k) end.
    destruct (live_fetch_one i t sx HF D) as (s1 & F1 & F2). unfold cbind. rewrite F1. unfold kk, cbind, ctell, cret. cbn. eexists. split; [reflexivity|]. cbn. rewrite F2. reflexivity. }
  destruct DI as (s1 & D1 & D2). unfold cbind at 1. rewrite D1.
  destruct (IH (S i) s1) as (s2 & L1 & L2). { intros k u Hk. replace (S i + k)%nat with (i + S k)%nat by lia. apply (H (S k)). exact Hk. }
  unfold cbind at 1. rewrite L1. exists s2. split; [reflexivity|congruence].
Qed.

(** ** The check *)
Lemma put_clears n s s' b : putm n s = (s', Ok b) -> has_pending (p_idb (y_p s)) = false -> x_accepted W n = true ->
  v_eres (p_dev (y_p s')) = [] /\ v_ecus (p_dev (y_p s')) = v_ecus (p_dev (y_p s)).
Proof.
  unfold put_manifest. intros H HP HA. rewrite HP in H.
  destruct (assemble savec loadm verifies (client_of P) (x_answers W n) (x_saved W n) (p_dev (y_p s))) as (d1, rm) eqn:A.
  assert (V : v_ecus d1 = v_ecus (p_dev (y_p s))).
  { unfold assemble in A. destruct (joined (v_ecus (p_dev (y_p s))) (v_cnt (p_dev (y_p s)))) as [|(sr, k) j]; cbn in A;
      match type of A with context [sec_versions ?a ?b ?c ?d ?e ?f] => destruct (sec_versions a b c d e f) as (vs, cache) end; injection A as <- _; [reflexivity|]. destruct (x_saved W n); reflexivity. }
  apply cbind_inv in H. destruct H as [(s2 & [] & H1 & H)|(e & _ & H)]; [|discriminate].
  assert (D2 : p_dev (y_p s2) = d1).
  { destruct (failed_result _); [|injection H1 as <-; reflexivity]. unfold drop_targets, cbind, cpst, pust in H1.
    cbn [set_dev_p y_p p_ust] in H1. destruct (director_drop_targets (p_ust (y_p s))) as (u, [[]|]); [|discriminate]. injection H1 as <-. reflexivity. }
  destruct rm as [m|e]; [|discriminate]. unfold cbind, ctell in H. rewrite HA in H. injection H as <- _. cbn. rewrite D2. auto.
Qed.
Lemma clear_numbered rp rp' d srv : roots_numbered E srv rp d -> roots_numbered E srv rp (clear_nonroot rp' d).
Proof. intros (A & B). split; [|exact B]. intros w raw R Hw. cbn in Hw. apply filter_In in Hw. apply A, Hw. Qed.
Lemma fetch_found s s1 l n : has_pending (p_idb (y_p s)) = false -> x_accepted W 0 = true -> fetch_c s = (s1, Ok (UcUpdates l n)) ->
  let T := x_check W in
  exists sa u, check_updates E fnm (x_srv W) (t_dir T) (t_img T) (t_deleg T) (vehicle_of loadc P (p_idb (y_p s))) (p_ust (y_p sa)) = (u, Ok (UcUpdates l n)) /\
    s1 = set_ust u sa /\ p_idb (y_p sa) = p_idb (y_p s) /\ y_dl sa = y_dl s /\ v_eres (p_dev (y_p sa)) = [] /\ v_ecus (p_dev (y_p sa)) = v_ecus (p_dev (y_p s)) /\
    (p_ust (y_p sa) = p_ust (y_p s) \/ p_ust (y_p sa) = fst (director_drop_targets (p_ust (y_p s)))).
Proof.
  intros HP HA H. cbv zeta. unfold fetch_meta_c in H. unfold cbind at 1, cpst at 1 in H.
  unfold fetch_meta, pbind at 1, pgets at 1 in H. rewrite HP in H. unfold pbind, pret, pgets in H. rewrite HP in H. cbn [negb] in H. rewrite cst_eta in H.
  apply cbind_inv in H. destruct H as [(sa & b & H1 & H)|(e & _ & H)]; [|discriminate].
  assert (PC := put_clears _ _ _ _ H1 HP HA). apply put_manifest_spec in H1. destruct H1 as (Q1 & Q2 & Q3 & _).
  apply check_c_spec in H. cbv zeta in H. destruct H as (u & r & H & X & [->|(X' & _)]); [|congruence]. subst r. rewrite Q2 in H.
  exists sa, u. destruct PC as (PC1 & PC2). auto 10.
Qed.

Lemma one_each_serials l : NoDup (serials l) -> one_each l.
Proof.
  unfold one_each. intros H. replace (map fst (flat_map t_ecus l)) with (serials l); [exact H|].
  clear H. induction l as [|a l IH]; [reflexivity|]. cbn [flat_map]. rewrite map_app, IH. reflexivity.
Qed.

(** ** The cycle *)
Theorem cycle_works s s1 l n : has_pending (p_idb (y_p s)) = false -> wf savec (good_target savec loadc) (p_idb (y_p s)) ->
  registered P (p_dev (y_p s)) -> nonempty_serials P -> x_accepted W 0 = true ->
  clean_server (x_srv W) -> versioned_server E (x_srv W) -> director_lists_targets E (x_srv W) ->
  (forall rp, roots_numbered E (x_srv W) rp (u_db (p_ust (y_p s)))) ->
  no_equivocation E (x_srv W) Director "targets" RTargets (u_db (p_ust (y_p s))) -> no_equivocation E (x_srv W) Image "timestamp" RTimestamp (u_db (p_ust (y_p s))) ->
  x_before_download W = x_check W -> x_before_install W = x_check W ->
  fetch_c s = (s1, Ok (UcUpdates l n)) -> Forall (good_target savec loadc) l -> Forall hashes_agree l ->
  downloads_work E P W (y_dl s) l -> ecus_cooperate E P (x_upd W) (x_srv W) (u_db (p_ust (y_p s1))) ->
  exists s' x, cycle s = (s', x) /\
    forall t ecu, In t l -> targets_ecu t ecu -> ecu = pr_serial P \/ secondary P ecu ->
      runs loadc (p_idb (y_p s')) ecu t /\
      exists r w raw corr, ir_success r = true /\ to_row r = Ok w /\
        (v_dres (p_dev (y_p s')) = Some (w, raw, corr) \/ exists m, In (CManifest m true) (y_ev s') /\ carries m w raw corr).
Proof.
  intros HP HWF HREG HNE HACC HCL HVS HDL HRN HND HNI TD TI HF HG HA (DW & DA & DD & DF & DR) HC.
  destruct (fetch_found s s1 l n HP HACC HF) as (sa & u & CU & S1 & IDB & DLS & ER & EC & UST).
  assert (RN : forall rp, roots_numbered E (x_srv W) rp (u_db (p_ust (y_p sa)))).
  { intros rp. destruct UST as [->| ->]; [apply HRN|]. cbn. apply clear_numbered, HRN. }
  assert (ND : no_equivocation E (x_srv W) Director "targets" RTargets (u_db (p_ust (y_p sa)))).
  { destruct UST as [->| ->]; [apply HND|]. cbn. intros raw sraw _ L. rewrite cleared_targets in L. discriminate. }
  assert (NI : no_equivocation E (x_srv W) Image "timestamp" RTimestamp (u_db (p_ust (y_p sa)))).
  { destruct UST as [->| ->]; [apply HNI|]. cbn. intros raw sraw A L. apply HNI; [exact A|]. unfold load_nonroot in *. erewrite <- latest_clear_other; [exact L|discriminate]. }
  set (v := vehicle_of loadc P (p_idb (y_p s))) in *. assert (VP : ClientModel.v_pending v = false) by exact HP.
  destruct (recheck_repeats E fnm (x_srv W) (x_srv W) _ _ _ v _ u l n CU VP HCL HVS (RN Director) (RN Image) ND NI HDL HA) as (DIF & IIF & NDL & RR).
  assert (NR : forall rp, exists last, newest_root E (u_db u) rp last).
  { intros [|]; [destruct DIF as (a & b & A & B & _); exact (newest_of _ _ _ _ _ A B)|destruct IIF as (a & b & c & d & t & A & B & _); exact (newest_of _ _ _ _ _ A B)]. }
  assert (PU1 : p_ust (y_p s1) = u) by (subst s1; reflexivity).
  assert (PI1 : p_idb (y_p s1) = p_idb (y_p s)) by (subst s1; exact IDB).
  assert (PD1 : p_dev (y_p s1) = p_dev (y_p sa)) by (subst s1; reflexivity).
  assert (PL1 : y_dl s1 = y_dl s) by (subst s1; exact DLS).
  (* the download *)
  destruct (RR u (same_meta_refl u)) as (u2 & O1 & SM2).
  assert (DI : exists s2, download_images savec loadc E fnm P W l s1 = (s2, Ok (l, DsSuccess)) /\ y_p s2 = y_p (set_ust u2 s1)).
  { unfold download_images. unfold cbind at 1, cpst at 1, pgets at 1. rewrite cst_eta. cbn [y_p]. unfold cbind at 1, ctry at 1. rewrite cpst_pust. rewrite PU1, PI1, TD. fold v. rewrite O1. cbn [fst snd].
    destruct (live_loop DF l 0 (set_ust u2 s1)) as (s2 & L1 & L2); [exact DW|]. unfold cbind at 1. rewrite L1, Nat.eqb_refl. exists s2. split; [reflexivity|exact L2]. }
  destruct DI as (s2 & D1 & D2).
  assert (VER : forall t, In t l -> held P t -> verify_image E P W (y_dl s2) t = Ok true).
  { intros t Ht Hh. destruct (is_ostree t) eqn:O.
    - destruct Hh as [Hh|Hh]; [|congruence]. apply In_nth_error in Ht. destruct Ht as (i & Ht). destruct (DW i t Ht) as (_ & X & _). destruct (X O Hh) as (Y1 & _ & Y2).
      unfold verify_image. rewrite O, Y1. exact Y2.
    - refine (download_rechecked savec loadc E fnm P W l s1 s2 l DsSuccess DD DR D1 _ _ t Ht O); [rewrite PL1; exact DA|].
      intros x Hx Ox. apply In_nth_error in Hx. destruct Hx as (i & Hx). destruct (DW i x Hx) as (_ & _ & X). apply X, Ox. }
  (* the installation *)
  destruct (RR u2 SM2) as (u3 & O2 & SM3).
  assert (P2 : p_ust (y_p s2) = u2) by (rewrite D2; reflexivity).
  assert (I2 : p_idb (y_p s2) = p_idb (y_p s)) by (rewrite D2; exact PI1).
  assert (V2 : p_dev (y_p s2) = p_dev (y_p sa)) by (rewrite D2; exact PD1).
  assert (DB3 : u_db u3 = u_db u) by apply SM3.
  set (U := ecus_world E P W (y_dl s2)).
  assert (HC' : ecus_cooperate E P U (x_srv W) (u_db u3)) by (rewrite DB3, <- PU1; exact HC).
  destruct (install_works savec loadc E fnm P U (x_srv W) (t_dir (x_check W)) (t_img (x_check W)) (t_deleg (x_check W)) l (y_p s2) u3) as (p3 & dr & reps & R & SU & (w & raw & TR & DV) & RUN & _).
  { rewrite P2, I2. exact O2. }
  { exact HC'. } { rewrite DB3. exact NR. } { exact VER. } { rewrite V2. destruct HREG as (A & B). split; [exact A|]. rewrite EC. exact B. } { rewrite V2. exact ER. }
  { rewrite I2. exact HWF. } { exact HG. } { exact (one_each_serials l NDL). } { exact HNE. }
  set (s3 := {| y_p := p3; y_dl := y_dl s2; y_ev := y_ev s2 |}).
  assert (IN : install_c savec loadc E fnm P W l s2 = (s3, Ok (dr, reps))).
  { unfold install_c, cpst. rewrite TI. fold U. rewrite R. reflexivity. }
  destruct (cycle s) as (s', x) eqn:CY. exists s', x. split; [reflexivity|]. intros t ecu Ht He K.
  assert (Sd : ir_success dr = true) by (apply SU; exists t, ecu; auto).
  assert (FIN : p_idb (y_p s') = p_idb p3 /\ exists ce, y_ev s' = y_ev s3 ++ ce /\ devtrack (p_dev p3) (p_dev (y_p s')) [] ce).
  { apply routes in CY. assert (LN : l <> []) by (destruct l; [destruct Ht|discriminate]).
    assert (SAME : s' = s3 -> p_idb (y_p s') = p_idb p3 /\ exists ce, y_ev s' = y_ev s3 ++ ce /\ devtrack (p_dev p3) (p_dev (y_p s')) [] ce).
    { intros ->. split; [reflexivity|]. exists []. rewrite app_nil_r. split; [reflexivity|]. left. reflexivity. }
    destruct CY as [e C0 _|sx r C0 _ _|r C0 C1 _|sx lx nx e C0 C1 _|sx lx nx us C0 C1 _|sx lx nx sy us st r C0 C1 C2 _ _|sx lx nx sy us e C0 C1 C2 C3 _|sx lx nx sy us r e C0 C1 C2 C3 _ _|sx lx nx sy us r b C0 C1 C2 C3 _ _|sx lx nx sy us sz r r2 C0 C1 C2 C3 _ HPn C4 _];
      rewrite HF in C0; try discriminate C0.
    - injection C0 as <- <-. destruct C1 as [C1|(k & C1)]; [discriminate|]. injection C1 as -> _. contradiction.
    - injection C0 as <- <- <-. rewrite D1 in C1. discriminate.
    - injection C0 as <- <- <-. rewrite D1 in C1. discriminate.
    - injection C0 as <- <- <-. rewrite D1 in C1. injection C1 as <- <- <-. destruct C2 as [?|[?|?]]; [discriminate|discriminate|contradiction].
    - injection C0 as <- <- <-. rewrite D1 in C1. injection C1 as <- <-. rewrite IN in C3. discriminate.
    - injection C0 as <- <- <-. rewrite D1 in C1. injection C1 as <- <-. rewrite IN in C3. injection C3 as <- _. apply SAME. reflexivity.
    - injection C0 as <- <- <-. rewrite D1 in C1. injection C1 as <- <-. rewrite IN in C3. injection C3 as <- _. apply SAME. reflexivity.
    - injection C0 as <- <- <-. rewrite D1 in C1. injection C1 as <- <-. rewrite IN in C3. injection C3 as <- _. apply put_manifest_spec in C4.
      destruct C4 as (_ & C4 & _ & ce & (_ & S2 & _ & S4) & _). split; [exact C4|]. exists ce. auto. }
  destruct FIN as (FI & ce & FE & FD). split; [rewrite FI; apply RUN; auto|].
  exists dr, w, raw, (tg_corr (u_dtargets (p_ust p3))). split; [exact Sd|]. split; [exact TR|]. cbn [dres_after fold_left] in FD. unfold devtrack in FD. cbn [dres_after fold_left] in FD. rewrite DV in FD.
  destruct FD as [FD|(_ & FD)]; [left; exact FD|right]. destruct (FD _ _ _ eq_refl) as (m & M1 & M2). exists m. split; [rewrite FE; apply in_or_app; now right|exact M2].
Qed.
End C.
