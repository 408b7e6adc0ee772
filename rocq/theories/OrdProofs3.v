(** A whole cycle installs what is wanted if the metadata is in order and all cooperate. *)
From Verif Require Import Base Json TufModel TufSpec TufProofs MetaStore RepoModel RepoSpec RepoProofs RepoProofs2 RepoProofs3 RepoProofs7 CodecModel DlModel InstModel InstSpec InstProofs DevModel
  InstLogProofs   ClientModel ClientSpec ClientProofs ClientProofs2 ChkSpec ChkProofs RechkSpec OrdSpec OrdProofs OrdProofs2 CycModel CycSpec CycProofs CycProofs2 LiveSpec LiveProofs LiveProofs2 UpdModel UpdSpec UpdProofs.

Section Cycle.
Context (savec : json -> string) (loadc : string -> option json) (loadm : string -> json) (E : Env)
  (fnm : string -> string -> bool) (verifies : string -> json -> bool) (P : primary) (force : bool) (W : cworld).

Lemma manifest_works n s r : has_pending (p_idb (y_p s)) = false -> make_report (p_dev (y_p s)) = Ok r ->
  exists s' b, put_manifest savec loadm verifies P W n s = (s', Ok b).
Proof.
  intros HP MR. unfold put_manifest. rewrite HP.
  destruct (assemble savec loadm verifies (client_of P) (x_answers W n) (x_saved W n) (p_dev (y_p s))) as (d1, rm) eqn:A.
  assert (exists m, rm = Ok m) as (m & ->).
  { unfold assemble in A. destruct (match joined _ _ with [] => _ | _ => _ end) as (cnt, d0) eqn:J.
    destruct (sec_versions _ _ _ _ _ _) as (vs, cache). injection A as _ <-.
    assert (X : make_report (with_cache d0 cache) = Ok r).
    { rewrite <- MR. destruct (joined (v_ecus (p_dev (y_p s))) (v_cnt (p_dev (y_p s)))) as [|(a, k) ?]; [injection J as _ <-; reflexivity|].
      destruct (x_saved W n); injection J as _ <-; reflexivity. }
    rewrite X. cbn [bind]. eauto. }
  unfold cbind, drop_targets, cpst, pust, ctell, cret.
  destruct (failed_result (p_dev (y_p s))).
  - unfold cbind. destruct (director_drop_targets _) as (u, q) eqn:D. assert (q = Ok tt) as -> by (unfold director_drop_targets, mbind, write, modify, director_reset in D; cbn in D; now inversion D).
    cbn. destruct (x_accepted W n); eauto.
  - cbn. destruct (x_accepted W n); eauto.
Qed.
Lemma in_order_dropped srv clk u l R tm sn t : let u' := fst (director_drop_targets u) in
  (forall Rd ld dt, roots_in_order E srv clk Director (u_db u) ld Rd -> roots_in_order E srv clk Director (u_db u') ld Rd /\
     (director_in_order E srv clk (u_db u) ld Rd dt -> director_in_order E srv clk (u_db u') ld Rd dt)) /\
  (roots_in_order E srv clk Image (u_db u) l R -> roots_in_order E srv clk Image (u_db u') l R) /\
  (image_in_order E srv clk (u_db u) l R tm sn t -> image_in_order E srv clk (u_db u') l R tm sn t).
Proof.
  cbv zeta. assert (D : u_db (fst (director_drop_targets u)) = clear_nonroot Director (u_db u)) by reflexivity. rewrite D.
  assert (X0 : forall rp, load_latest_root rp (clear_nonroot Director (u_db u)) = load_latest_root rp (u_db u)) by (intros rp; unfold load_latest_root; now rewrite latest_clear_root).
  assert (X1 : forall ty, load_nonroot Image ty (clear_nonroot Director (u_db u)) = load_nonroot Image ty (u_db u)) by (intros ty; unfold load_nonroot; rewrite latest_clear_other; [reflexivity|discriminate]).
  assert (X2 : load_nonroot Director RTargets (clear_nonroot Director (u_db u)) = Ok None).
  { unfold load_nonroot. rewrite no_nonroot_latest; [reflexivity|apply clear_nonroot_none|discriminate]. }
  split; [|split].
  - intros Rd ld dt H. split; [unfold roots_in_order; rewrite X0; exact H|].
    intros (raw & v & A1 & A2 & A3 & A4 & A5 & A6 & A7 & A8 & _). exists raw, v. do 8 (split; [assumption|]). right. split; [now left|].
    right. intros sraw st L. rewrite X2 in L. discriminate.
  - unfold roots_in_order. now rewrite X0.
  - unfold image_in_order, timestamp_in_order, snapshot_in_order, targets_in_order, not_newer. now rewrite !X1.
Qed.

Theorem fetch_finds s r ld Rd dt li Ri tm sn it : let d := u_db (p_ust (y_p s)) in let v := vehicle_of loadc P (p_idb (y_p s)) in let T := x_check W in
  has_pending (p_idb (y_p s)) = false -> make_report (p_dev (y_p s)) = Ok r -> clean_server (x_srv W) ->
  roots_in_order E (x_srv W) (t_dir T) Director d ld Rd -> director_in_order E (x_srv W) (t_dir T) d ld Rd dt -> tg_targets dt <> [] ->
  roots_in_order E (x_srv W) (t_img T) Image d li Ri -> image_in_order E (x_srv W) (t_img T) d li Ri tm sn it ->
  installed_answers v -> pr_ostree P = false ->
  (forall t, In t (tg_targets dt) -> fits_vehicle v t /\ listed it t /\ no_clash v t) -> (exists t, In t (tg_targets dt) /\ wanted v t) ->
  exists s1 l n l0, fetch_meta_c savec loadc loadm E fnm verifies P W s = (s1, Ok (UcUpdates l n)) /\ selected (wanted v) (tg_targets dt) l0 /\ Forall2 but_uri l0 l.
Proof.
  intros d v T HP MR CL A1 A2 NE B1 B2 IA OS ALL (tw & TW1 & TW2).
  unfold fetch_meta_c.
  assert (F : cpst (fetch_meta savec loadc verifies P (x_upd W)) s = (s, Ok true)).
  { unfold cpst, fetch_meta. unfold pbind, pgets. rewrite HP. unfold pret. cbn. rewrite HP. cbn. now rewrite cst_eta. }
  unfold cbind at 1. rewrite F. destruct (manifest_works 0 s r HP MR) as (s2 & b & M). unfold cbind. rewrite M.
  apply put_manifest_spec in M. destruct M as (_ & M2 & M3 & _).
  destruct (check_updates_c savec loadc E fnm P W s2) as (s1, x) eqn:C. apply check_c_spec in C. cbv zeta in C. rewrite M2 in C. fold v T in C. destruct C as (u & r0 & CU & -> & K).
  assert (Q : roots_in_order E (x_srv W) (t_dir T) Director (u_db (p_ust (y_p s2))) ld Rd /\ director_in_order E (x_srv W) (t_dir T) (u_db (p_ust (y_p s2))) ld Rd dt /\
    roots_in_order E (x_srv W) (t_img T) Image (u_db (p_ust (y_p s2))) li Ri /\ image_in_order E (x_srv W) (t_img T) (u_db (p_ust (y_p s2))) li Ri tm sn it).
  { destruct M3 as [-> | ->]; [auto|]. destruct (in_order_dropped (x_srv W) (t_dir T) (p_ust (y_p s)) li Ri tm sn it) as (Z1 & _).
    destruct (in_order_dropped (x_srv W) (t_img T) (p_ust (y_p s)) li Ri tm sn it) as (_ & Z2 & Z3). destruct (Z1 Rd ld dt A1). auto. }
  destruct Q as (Q1 & Q2 & Q3 & Q4).
  destruct (check_finds E fnm (x_srv W) (t_dir T) (t_img T) (t_deleg T) v (p_ust (y_p s2)) ld Rd dt li Ri tm sn it (CL Director "targets" (-1)) Q1 Q2 NE Q3 Q4 IA OS ALL) as (s' & r' & CU' & _ & X).
  rewrite CU in CU'. injection CU' as _ ->. destruct r' as [| |l n]; [contradiction|exfalso; exact (X tw TW1 TW2)|].
  destruct X as (l0 & X1 & _ & X3). exists s1, l, n, l0. auto.
Qed.
Lemma selected_keeps {A} (Q : A -> Prop) l l0 x : selected Q l l0 -> In x l -> Q x -> In x l0.
Proof. induction 1; intros Hi Hq; [destruct Hi| |]; destruct Hi as [<- | Hi]; auto; [now left|right; auto|contradiction]. Qed.
Lemma but_uri_key a b : but_uri a b -> same_key b a /\ t_ecus b = t_ecus a.
Proof. intros (_ & F & _ & X & H & _). split; [split; [now symmetry|]|now symmetry]. unfold sha256_hash, hash_string. now rewrite H. Qed.
Theorem cycle_finds_and_works s r ld Rd dt li Ri tm sn it : let d := u_db (p_ust (y_p s)) in let v := vehicle_of loadc P (p_idb (y_p s)) in let T := x_check W in
  has_pending (p_idb (y_p s)) = false -> ireach savec (good_target savec loadc) (p_idb (y_p s)) -> make_report (p_dev (y_p s)) = Ok r ->
  registered P (p_dev (y_p s)) -> nonempty_serials P -> x_accepted W 0 = true ->
  clean_server (x_srv W) -> versioned_server E (x_srv W) -> director_lists_targets E (x_srv W) ->
  (forall rp, roots_numbered E (x_srv W) rp d) ->
  no_equivocation E (x_srv W) Director "targets" RTargets d -> no_equivocation E (x_srv W) Image "timestamp" RTimestamp d ->
  x_before_download W = x_check W -> x_before_install W = x_check W ->
  roots_in_order E (x_srv W) (t_dir T) Director d ld Rd -> director_in_order E (x_srv W) (t_dir T) d ld Rd dt -> tg_targets dt <> [] ->
  roots_in_order E (x_srv W) (t_img T) Image d li Ri -> image_in_order E (x_srv W) (t_img T) d li Ri tm sn it ->
  installed_answers v -> pr_ostree P = false ->
  (forall t, In t (tg_targets dt) -> fits_vehicle v t /\ listed it t /\ no_clash v t) -> (exists t, In t (tg_targets dt) /\ wanted v t) ->
  (forall s1 l n, fetch_meta_c savec loadc loadm E fnm verifies P W s = (s1, Ok (UcUpdates l n)) -> Forall (good_target savec loadc) l /\ Forall hashes_agree l /\
     downloads_work E P W (y_dl s) l /\ ecus_cooperate E P (x_upd W) (x_srv W) (u_db (p_ust (y_p s1)))) ->
  exists s' x, uptane_cycle savec loadc loadm E fnm verifies P force W s = (s', x) /\
    forall t ecu, In t (tg_targets dt) -> wanted v t -> targets_ecu t ecu -> ecu = pr_serial P \/ secondary P ecu ->
      runs loadc (p_idb (y_p s')) ecu t /\
      exists r w raw corr, ir_success r = true /\ to_row r = Ok w /\
        (v_dres (p_dev (y_p s')) = Some (w, raw, corr) \/ exists m, In (CManifest m true) (y_ev s') /\ carries m w raw corr).
Proof.
  intros d v T HP HWF MR HREG HNE HACC CL VS DL RN ND NI TD TI A1 A2 NE B1 B2 IA OS ALL WA HX.
  destruct (fetch_finds s r ld Rd dt li Ri tm sn it HP MR CL A1 A2 NE B1 B2 IA OS ALL WA) as (s1 & l & n & l0 & F & S & FB).
  destruct (HX s1 l n F) as (G1 & G2 & G3 & G4). apply reach_wf in HWF.
  destruct (cycle_works savec loadc loadm E fnm verifies P force W s s1 l n HP HWF HREG HNE HACC CL VS DL RN ND NI TD TI F G1 G2 G3 G4) as (s' & x & C & K).
  exists s', x. split; [exact C|]. intros t ecu Ht Hw He Hv. pose proof (selected_keeps _ _ _ _ S Ht Hw) as Hl0.
  destruct (Forall2_in_l _ _ _ _ FB Hl0) as (t' & Hin & Hbu). destruct (but_uri_key _ _ Hbu) as ((KF & KH) & KE).
  assert (He' : targets_ecu t' ecu) by (unfold targets_ecu in *; now rewrite KE).
  destruct (K t' ecu Hin He' Hv) as ((y & Y1 & Y2a & Y2b) & Z). split; [|exact Z]. exists y. split; [exact Y1|]. split; congruence.
Qed.
End Cycle.
