(** What is reported after a version was recorded. *)
From Verif Require Import Base Json TufModel CodecModel CodecSpec CodecProofs InstModel InstSpec InstProofs.

Section P.
Context (savec : json -> string) (loadc : string -> option json).
Notation wf := (wf savec (good_target savec loadc)).
Notation save := (save_installed savec).
Notation load := (load_installed loadc).

(** ** Reading a row back *)
Lemma bind_ok {A B} (r : res A) (f : A -> res B) b : (do x <- r; f x) = Ok b -> exists a, r = Ok a /\ f a = Ok b.
Proof. destruct r; simpl; [intros; eauto|discriminate]. Qed.
Lemma parse_hwids_ok l : forall a b x, parse_hwids l a = Ok x -> exists y, parse_hwids l b = Ok y.
Proof.
  induction l as [|(k, j) l IH]; intros a b x; simpl; [eauto|]. intros H. apply bind_ok in H. destruct H as (s & -> & H).
  apply bind_ok in H. destruct H as (h & E & H). simpl. rewrite E. simpl. eapply IH; eauto.
Qed.
Lemma parse_ecus_ok l : forall a b x, parse_ecus l a = Ok x -> exists y, parse_ecus l b = Ok y.
Proof.
  induction l as [|(k, j) l IH]; intros a b x; simpl; [eauto|]. intros H. apply bind_ok in H. destruct H as (s & E1 & H). rewrite E1. simpl.
  apply bind_ok in H. destruct H as (h & E2 & H). rewrite E2. simpl. apply bind_ok in H. destruct H as (h2 & E3 & H). rewrite E3. simpl.
  apply bind_ok in H. destruct H as (h3 & E4 & H). rewrite E4. simpl. eapply IH; eauto.
Qed.
Lemma update_custom_ok t t0 c x : update_custom t0 c = Ok x ->
  exists y, update_custom t c = Ok y /\ t_filename y = t_filename t /\ t_hashes y = t_hashes t /\ t_length y = t_length t /\ t_corr y = t_corr t.
Proof.
  unfold update_custom. intros H. apply bind_ok in H. destruct H as (hw & E1 & H). rewrite E1. cbn [bind].
  apply bind_ok in H. destruct H as (hwids & E2 & H).
  assert (exists hw', (if hw then do hj <- jget "hardwareIds" c; parse_hwids (jiter hj) (t_hwids t) else Ok (t_hwids t)) = Ok hw') as (hw' & E2').
  { destruct hw; [|eauto]. apply bind_ok in E2. destruct E2 as (hj & E & E2). rewrite E. cbn [bind]. eapply parse_hwids_ok; eauto. }
  rewrite E2'. cbn [bind]. apply bind_ok in H. destruct H as (ej & E3 & H). rewrite E3. cbn [bind].
  apply bind_ok in H. destruct H as (ecus & E4 & H). destruct (parse_ecus_ok _ _ (t_ecus t) _ E4) as (ecus' & E4'). rewrite E4'. cbn [bind].
  apply bind_ok in H. destruct H as (hf & E5 & H). rewrite E5. cbn [bind]. apply bind_ok in H. destruct H as (ty & E6 & H).
  assert (exists ty', (if hf then do fj <- jget "targetFormat" c; jas_string fj else Ok (t_type t)) = Ok ty') as (ty' & E6') by (destruct hf; eauto).
  rewrite E6'. cbn [bind]. apply bind_ok in H. destruct H as (hu & E7 & H). rewrite E7. cbn [bind]. apply bind_ok in H. destruct H as (uri & E8 & H).
  assert (exists u', (if hu then do uj <- jget "uri" c; do u <- jas_string uj; Ok (if String.eqb u "https://example.com/" then t_uri t else u) else Ok (t_uri t)) = Ok u') as (u' & E8').
  { destruct hu; [|eauto]. apply bind_ok in E8. destruct E8 as (uj & E & E8). rewrite E. cbn [bind]. apply bind_ok in E8. destruct E8 as (u & Eu & _). rewrite Eu. cbn [bind]. eauto. }
  rewrite E8'. cbn [bind]. eexists. split; [reflexivity|]. simpl. auto.
Qed.
Lemma sort_in h l : In h (sort_hashes l) <-> In h l.
Proof.
  unfold sort_hashes. rewrite !in_app_iff, !filter_In. split; [tauto|]. intros H. destruct (h_type h) eqn:E; simpl; tauto.
Qed.
(** A row describes [t] if it holds what was recorded for it. *)
Definition describes (r : irow) (t : target) : Prop :=
  good_target savec loadc t /\ i_sha r = sha256_hash t /\ i_name r = t_filename t /\ i_hashes r = encode_vector (t_hashes t) /\
  i_len r = to_int64 (t_length t) /\ i_custom r = savec (t_custom t).
Lemma read_describes d s r t : describes r t -> exists x, read_target loadc d s r = Ok x /\
  t_filename x = t_filename t /\ t_hashes x = t_hashes t /\ t_length x = t_length t /\ t_corr x = i_corr r.
Proof.
  intros (G & D1 & D2 & D3 & D4 & D5). destruct G as (G1 & G2 & (h & Hh & Ht) & G4 & G5). unfold read_target. rewrite D3, hash_list_round_trip by auto.
  assert (E : existsb (fun h => htype_eqb (h_type h) Sha256) (t_hashes t) = true) by (apply existsb_exists; exists h; rewrite Ht; auto). rewrite E.
  assert (L : i_len r mod 18446744073709551616 = t_length t).
  { rewrite D4. unfold to_int64. destruct (Z.ltb_spec (t_length t) 9223372036854775808); Z.to_euclidean_division_equations; lia. }
  rewrite L, D2, D5. set (t0 := target_internal _ _ _ _ _).
  assert (H0 : t_filename t0 = t_filename t /\ t_hashes t0 = t_hashes t /\ t_length t0 = t_length t /\ t_corr t0 = i_corr r) by (simpl; auto).
  destruct (String.eqb (savec (t_custom t)) ""); [exists t0; auto|]. destruct (loadc (savec (t_custom t))) as [c|] eqn:El; [|exists t0; auto].
  destruct (G5 c eq_refl) as (t' & Et'). destruct (update_custom_ok t0 _ _ _ Et') as (y & Hy & Y1 & Y2 & Y3 & Y4). exists y.
  split; [exact Hy|]. rewrite Y1, Y2, Y3, Y4. exact H0.
Qed.
Lemma sha_of_hashes a b : t_hashes a = t_hashes b -> sha256_hash a = sha256_hash b.
Proof. unfold sha256_hash, hash_string. now intros ->. Qed.
Lemma read_ok d s r : wf d -> In r (il_log d) -> exists x, read_target loadc d s r = Ok x /\ t_filename x = i_name r /\ sha256_hash x = i_sha r /\ t_corr x = i_corr r.
Proof.
  intros W Hr. destruct (wf_rows _ _ d W r Hr) as (t & D). destruct (read_describes d s r t D) as (x & Hx & X1 & X2 & X3 & X4).
  exists x. destruct D as (G & D1 & D2 & _). rewrite D1, D2. rewrite (sha_of_hashes x t X2). auto.
Qed.

(** ** The single current (pending) row *)
Lemma find_unique (P : irow -> bool) l x : In x l -> P x = true -> (forall y, In y l -> P y = true -> y = x) -> find P l = Some x.
Proof.
  intros Hx Px H. destruct (find P l) as [y|] eqn:E; [apply find_some in E; destruct E as (Hy & Py); now rewrite (H y Hy Py)|].
  rewrite (find_none _ _ E x Hx) in Px. discriminate.
Qed.
Lemma find_empty (P : irow -> bool) l : (forall y, In y l -> P y = false) -> find P l = None.
Proof. intros H. destruct (find P l) as [y|] eqn:E; auto. apply find_some in E. destruct E as (Hy & Py). rewrite H in Py by auto. discriminate. Qed.
Lemma cur_row_spec s l r : cur_row s l = Some r -> In r l /\ i_ecu r = s /\ i_cur r = true.
Proof. intros H. apply find_some in H. destruct H as (H & E). apply andb_prop in E. destruct E as (E & C). apply String.eqb_eq in E. auto. Qed.
Lemma pend_row_spec s l r : pend_row s l = Some r -> In r l /\ i_ecu r = s /\ i_pend r = true.
Proof. intros H. apply find_some in H. destruct H as (H & E). apply andb_prop in E. destruct E as (E & C). apply String.eqb_eq in E. auto. Qed.

(** Reading does not depend on the flags. *)
Lemma read_flags d s r c p : read_target loadc d s (set_flags c p r) = read_target loadc d s r.
Proof. reflexivity. Qed.
Lemma reset_read d m s0 s r : read_target loadc d s (reset_flags m s0 r) = read_target loadc d s r.
Proof. unfold reset_flags. destruct (String.eqb (i_ecu r) s0), m; reflexivity. Qed.
Lemma read_ecus d d' s r : il_ecus d' = il_ecus d -> read_target loadc d' s r = read_target loadc d s r.
Proof. unfold read_target, ecu_map. now intros ->. Qed.
Lemma save_ecus s t m d : il_ecus (save s t m d) = il_ecus d.
Proof. reflexivity. Qed.
Lemma save_real s t m d s2 : real_serial (save s t m d) s2 = real_serial d s2.
Proof. reflexivity. Qed.

(** Loading never throws on a reachable table. *)
Lemma load_total d s : wf d -> exists c p, load s d = Ok (c, p).
Proof.
  intros W. unfold load_installed. set (k := real_serial d s).
  assert (H : forall o, (forall r, o = Some r -> In r (il_log d)) -> exists x, read_opt loadc d k o = Ok x).
  { intros [r|] Ho; simpl; [|eauto]. destruct (read_ok d k r W (Ho r eq_refl)) as (x & -> & _). simpl. eauto. }
  destruct (H (cur_row k (il_log d))) as (c & ->); [intros r Hr; now apply cur_row_spec in Hr|]. cbn [bind].
  destruct (H (pend_row k (il_log d))) as (p & ->); [intros r Hr; now apply pend_row_spec in Hr|]. cbn [bind]. eauto.
Qed.

(** ** Other ECUs *)
Lemma other_find (P : irow -> bool) k s0 t m d : (forall r, P r = true -> i_ecu r = k) -> (forall a b, i_ecu a = i_ecu b -> i_cur a = i_cur b -> i_pend a = i_pend b -> P a = P b) ->
  k <> real_serial d s0 -> wf d -> find P (il_log (save s0 t m d)) = find P (il_log d).
Proof.
  intros Pk Pf Hk W. rewrite save_log. set (s := real_serial d s0) in *.
  assert (Hreset : forall l, find P (map (reset_flags m s) l) = find P l).
  { induction l as [|r l IH]; auto. simpl. destruct (string_dec (i_ecu r) s) as [E | E].
    - assert (P r = false) by (destruct (P r) eqn:X; auto; apply Pk in X; congruence).
      assert (P (reset_flags m s r) = false). { destruct (P (reset_flags m s r)) eqn:X; auto. apply Pk in X. destruct (reset_id m s r) as (_ & R & _). congruence. }
      rewrite H, H0. exact IH.
    - rewrite (proj1 (reset_flags_flags m s r) E). rewrite IH. reflexivity. }
  destruct (old_of s t d) as [o|] eqn:Eo.
  - destruct (old_of_in _ _ _ _ Eo) as (Ho & He & _). rewrite map_map.
    assert (forall l, (forall r, In r l -> In r (il_log d)) -> find P (map (fun r => update_row m t o (reset_flags m s r)) l) = find P l) as H; [|apply H; auto].
    induction l as [|r l IH]; intros Hl; auto. simpl. rewrite IH by (intros; apply Hl; now right). destruct (string_dec (i_ecu r) s) as [E | E].
    + assert (P r = false) by (destruct (P r) eqn:X; auto; apply Pk in X; congruence).
      assert (P (update_row m t o (reset_flags m s r)) = false) as ->.
      { destruct (P (update_row m t o (reset_flags m s r))) eqn:X; auto. apply Pk in X.
        destruct (update_id m t o (reset_flags m s r)) as (_ & U & _). destruct (reset_id m s r) as (_ & R & _). congruence. }
      now rewrite H.
    + rewrite (proj1 (reset_flags_flags m s r) E). unfold update_row. destruct (Z.eqb_spec (i_id r) (i_id o)) as [X|]; auto.
      exfalso. apply E. rewrite <- He. f_equal. eapply ids_inj; [apply W| | |]; auto. apply Hl. now left.
  - assert (Hl : forall l x, P x = false -> find P (l ++ [x]) = find P l).
    { induction l as [|r l IH]; intros x Hx; simpl; [now rewrite Hx|]. destruct (P r); auto. }
    rewrite Hl; [apply Hreset|]. destruct (P _) eqn:X; auto. apply Pk in X. simpl in X. congruence.
Qed.
Theorem others_unaffected d s0 s2 t m : wf d -> real_serial d s2 <> real_serial d s0 -> load s2 (save s0 t m d) = load s2 d.
Proof.
  intros W Hk. unfold load_installed. rewrite save_real. set (k := real_serial d s2) in *.
  assert (Hc : cur_row k (il_log (save s0 t m d)) = cur_row k (il_log d)).
  { apply other_find with k; auto; [|intros a b -> -> _; reflexivity]. intros r H. apply andb_prop in H. now apply String.eqb_eq. }
  assert (Hp : pend_row k (il_log (save s0 t m d)) = pend_row k (il_log d)).
  { apply other_find with k; auto; [|intros a b -> _ ->; reflexivity]. intros r H. apply andb_prop in H. now apply String.eqb_eq. }
  rewrite Hc, Hp. unfold read_opt. destruct (cur_row k (il_log d)), (pend_row k (il_log d)); reflexivity.
Qed.

(** ** The log *)
Lemma log_total d k : wf d -> forall l, (forall r, In r l -> In r (il_log d)) -> exists ts, read_log loadc d k false l = Ok ts /\
  forall r, In r l -> i_ecu r = k -> exists x, In x ts /\ t_filename x = i_name r /\ sha256_hash x = i_sha r.
Proof.
  intros W. induction l as [|r l IH]; intros Hl; [exists []; split; [reflexivity|intros r []]|].
  destruct IH as (ts & E & H); [intros; apply Hl; now right|]. cbn [read_log negb orb]. rewrite Bool.andb_true_r.
  destruct (String.eqb_spec (i_ecu r) k) as [Ek|Ek].
  - destruct (read_ok d k r W (Hl r (or_introl eq_refl))) as (x & -> & X1 & X2 & X3). cbn [bind]. rewrite E. cbn [bind].
    exists (x :: ts). split; [reflexivity|]. intros r' [<- | Hr'] Er'; [exists x; split; [now left|auto]|].
    destruct (H r' Hr' Er') as (y & Hy & Y). exists y. split; [now right|auto].
  - exists ts. split; [exact E|]. intros r' [<- | Hr'] Er'; [contradiction|auto].
Qed.
Lemma never_old d s t : wf d -> never_recorded loadc d s t -> old_of (real_serial d s) t d = None.
Proof.
  intros W N. destruct (old_of (real_serial d s) t d) as [o|] eqn:E; auto. exfalso. destruct (old_of_in _ _ _ _ E) as (Ho & He & Hs & Hn).
  destruct (log_total d (real_serial d s) W (il_log d)) as (ts & Ets & H); auto. destruct (H o Ho He) as (x & Hx & X1 & X2).
  apply (N ts Ets x Hx). split; congruence.
Qed.

(** ** Current *)
Lemma eqb_and_false s a c : (a = s -> c = false) -> String.eqb a s && c = false.
Proof. destruct (String.eqb_spec a s); simpl; auto. Qed.
Theorem current_reported d s t : wf d -> good_target savec loadc t ->
  exists x, load s (save s t ModeCurrent d) = Ok (Some x, None) /\ reported x t /\
    (old_of (real_serial d s) t d = None -> t_hashes x = t_hashes t /\ t_length x = t_length t).
Proof.
  intros W G. pose proof (save_rows savec (good_target savec loadc) s t ModeCurrent d W) as (x & Hx & X1 & X2 & X3 & X4 & X5 & X6 & X7 & Hrows).
  set (k := real_serial d s) in *. set (d' := save s t ModeCurrent d) in *.
  assert (W' : wf d') by (now apply save_wf).
  assert (Hflags : forall y, In y (il_log d') -> i_ecu y = k -> y = x \/ (i_cur y = false /\ i_pend y = false)).
  { intros y Hy Ey. apply Hrows in Hy. destruct Hy as [-> | (r & Hr & -> & _)]; auto. right.
    destruct (reset_id ModeCurrent k r) as (_ & R & _). rewrite R in Ey. apply (proj2 (reset_flags_flags ModeCurrent k r) Ey). }
  unfold load_installed. change (real_serial d' s) with k.
  assert (Hc : cur_row k (il_log d') = Some x).
  { apply find_unique; auto; [rewrite X1, X2, String.eqb_refl; reflexivity|]. intros y Hy Py. apply andb_prop in Py. destruct Py as (Py & Cy).
    apply String.eqb_eq in Py. destruct (Hflags y Hy Py) as [| (F & _)]; auto. congruence. }
  assert (Hp : pend_row k (il_log d') = None).
  { apply find_empty. intros y Hy. apply eqb_and_false. intros Ey. destruct (Hflags y Hy Ey) as [-> | (_ & F)]; auto. }
  rewrite Hc, Hp. cbn [read_opt]. destruct (read_ok d' k x W' Hx) as (v & Hv & V1 & V2 & V3). rewrite Hv. cbn [bind].
  exists v. split; [reflexivity|]. split; [split; [split; congruence|congruence]|]. intros Ho. destruct (X7 Ho) as (Y1 & Y2 & Y3).
  destruct (read_describes d' k x t) as (v' & Hv' & Z1 & Z2 & Z3 & Z4); [repeat split; auto; apply G|]. rewrite Hv in Hv'. injection Hv' as <-. auto.
Qed.

(** ** Pending and none *)
Notation not_current := (not_current loadc).
Lemma old_not_current d s t o : wf d -> not_current d s t -> old_of (real_serial d s) t d = Some o -> i_cur o = false.
Proof.
  intros W N E. destruct (i_cur o) eqn:C; auto. exfalso. destruct (old_of_in _ _ _ _ E) as (Ho & He & Hs & Hn).
  assert (Hc : cur_row (real_serial d s) (il_log d) = Some o).
  { apply find_unique; auto; [rewrite He, C, String.eqb_refl; reflexivity|]. intros y Hy Py. apply andb_prop in Py. destruct Py as (Py & Cy).
    apply String.eqb_eq in Py. eapply (wf_cur _ _ d W); auto. congruence. }
  destruct (load_total d s W) as (c & p & Hl). pose proof Hl as Hl'. unfold load_installed in Hl'. rewrite Hc in Hl'. cbn [read_opt] in Hl'.
  destruct (read_ok d (real_serial d s) o W Ho) as (v & Hv & V1 & V2 & V3). rewrite Hv in Hl'. cbn [bind] in Hl'.
  apply bind_ok in Hl'. destruct Hl' as (p' & _ & E'). injection E' as <- <-. apply (N v p' Hl). split; congruence.
Qed.
Lemma same_current d s t m : wf d -> good_target savec loadc t -> m <> ModeCurrent -> not_current d s t ->
  read_opt loadc (save s t m d) (real_serial d s) (cur_row (real_serial d s) (il_log (save s t m d))) =
  read_opt loadc d (real_serial d s) (cur_row (real_serial d s) (il_log d)).
Proof.
  intros W G Hm N. pose proof (save_rows savec (good_target savec loadc) s t m d W) as (x & Hx & X1 & X2 & X3 & X4 & X5 & X6 & X7 & Hrows).
  set (k := real_serial d s) in *. set (d' := save s t m d) in *. assert (W' : wf d') by (now apply save_wf).
  assert (Xc : i_cur x = false) by (rewrite X2; destruct m; auto; congruence).
  destruct (cur_row k (il_log d)) as [r|] eqn:Er.
  - destruct (cur_row_spec _ _ _ Er) as (Hr & Ek & Cr).
    assert (Hr' : In (reset_flags m k r) (il_log d')).
    { apply Hrows. right. exists r. split; auto. split; auto. intros Eo. apply (old_not_current d s t r W N) in Eo. congruence. }
    assert (cur_row k (il_log d') = Some (reset_flags m k r)) as ->.
    { destruct (reset_id m k r) as (_ & R & _). destruct (proj2 (reset_flags_flags m k r) Ek) as (F & _).
      assert (C' : i_cur (reset_flags m k r) = true) by (rewrite F; destruct m; auto; congruence).
      apply find_unique; auto; [rewrite R, Ek, C', String.eqb_refl; reflexivity|].
      intros y Hy Py. apply andb_prop in Py. destruct Py as (Py & Cy). apply String.eqb_eq in Py. apply (wf_cur _ _ d' W'); auto. congruence. }
    cbn [read_opt]. rewrite reset_read. reflexivity.
  - assert (cur_row k (il_log d') = None) as ->; [|reflexivity].
    apply find_empty. intros y Hy. apply eqb_and_false. intros Ey. apply Hrows in Hy. destruct Hy as [-> | (r & Hr & -> & _)]; auto.
    destruct (reset_id m k r) as (_ & R & _). rewrite R in Ey. destruct (proj2 (reset_flags_flags m k r) Ey) as (F & _). rewrite F.
    assert (i_cur r = false). { pose proof (find_none _ _ Er r Hr) as Q. cbn beta in Q. rewrite Ey, String.eqb_refl in Q. exact Q. }
    destruct m; auto.
Qed.
Theorem pending_reported d s t c p : wf d -> good_target savec loadc t -> load s d = Ok (c, p) -> not_current d s t ->
  exists x, load s (save s t ModePending d) = Ok (c, Some x) /\ reported x t /\
    (old_of (real_serial d s) t d = None -> t_hashes x = t_hashes t /\ t_length x = t_length t).
Proof.
  intros W G Hl N. pose proof (same_current d s t ModePending W G ltac:(discriminate) N) as Hc.
  pose proof (save_rows savec (good_target savec loadc) s t ModePending d W) as (x & Hx & X1 & X2 & X3 & X4 & X5 & X6 & X7 & Hrows).
  set (k := real_serial d s) in *. set (d' := save s t ModePending d) in *. assert (W' : wf d') by (now apply save_wf).
  unfold load_installed in *. change (real_serial d' s) with k. fold k in Hl. rewrite Hc. apply bind_ok in Hl. destruct Hl as (c0 & Ec & Hl). rewrite Ec. cbn [bind].
  apply bind_ok in Hl. destruct Hl as (p0 & _ & Hl). injection Hl as -> ->.
  assert (pend_row k (il_log d') = Some x) as ->.
  { apply find_unique; auto; [rewrite X1, X3, String.eqb_refl; reflexivity|]. intros y Hy Py. apply andb_prop in Py. destruct Py as (Py & Cy).
    apply String.eqb_eq in Py. apply (wf_pend _ _ d' W'); auto. congruence. }
  cbn [read_opt]. destruct (read_ok d' k x W' Hx) as (v & Hv & V1 & V2 & V3). rewrite Hv. cbn [bind]. exists v. split; [reflexivity|].
  split; [split; [split; congruence|congruence]|]. intros Ho. destruct (X7 Ho) as (Y1 & Y2 & Y3).
  destruct (read_describes d' k x t) as (v' & Hv' & Z1 & Z2 & Z3 & Z4); [repeat split; auto; apply G|]. rewrite Hv in Hv'. injection Hv' as <-. auto.
Qed.
Theorem failure_keeps_current d s t c p : wf d -> good_target savec loadc t -> load s d = Ok (c, p) -> not_current d s t ->
  exists p', load s (save s t ModeNone d) = Ok (c, p') /\ (p' = p \/ (p' = None /\ exists x, p = Some x /\ same_key x t)).
Proof.
  intros W G Hl N. pose proof (same_current d s t ModeNone W G ltac:(discriminate) N) as Hc.
  pose proof (save_rows savec (good_target savec loadc) s t ModeNone d W) as (x & Hx & X1 & X2 & X3 & X4 & X5 & X6 & X7 & Hrows).
  set (k := real_serial d s) in *. set (d' := save s t ModeNone d) in *. assert (W' : wf d') by (now apply save_wf).
  unfold load_installed in *. change (real_serial d' s) with k. fold k in Hl. rewrite Hc. apply bind_ok in Hl. destruct Hl as (c0 & Ec & Hl). rewrite Ec. cbn [bind].
  apply bind_ok in Hl. destruct Hl as (p0 & Ep & Hl). injection Hl as -> ->.
  destruct (pend_row k (il_log d)) as [r|] eqn:Er.
  - destruct (pend_row_spec _ _ _ Er) as (Hr & Ek & Pr). destruct (old_of k t d) as [o|] eqn:Eo.
    + destruct (old_of_in _ _ _ _ Eo) as (Ho & He & Hs & Hn). destruct (i_pend o) eqn:Po.
      * assert (o = r) by (apply (wf_pend _ _ d W); auto; congruence). subst o.
        assert (pend_row k (il_log d') = None) as ->.
        { apply find_empty. intros y Hy. apply eqb_and_false. intros Ey. apply Hrows in Hy. destruct Hy as [-> | (r2 & Hr2 & -> & Nr2)]; auto.
          destruct (reset_id ModeNone k r2) as (_ & R & _). rewrite R in Ey. destruct (proj2 (reset_flags_flags ModeNone k r2) Ey) as (_ & F). rewrite F.
          destruct (i_pend r2) eqn:P2; auto. exfalso. apply Nr2. f_equal. apply (wf_pend _ _ d W); auto. congruence. }
        cbn [read_opt bind]. exists None. split; [reflexivity|]. right. split; auto. cbn [read_opt] in Ep.
        destruct (read_ok d k r W Hr) as (v & Hv & V1 & V2 & V3). rewrite Hv in Ep. cbn [bind] in Ep. injection Ep as <-. exists v. split; auto. split; congruence.
      * assert (Hr' : In (reset_flags ModeNone k r) (il_log d')).
        { apply Hrows. right. exists r. repeat split; auto. intros E. inversion E; subst. congruence. }
        assert (pend_row k (il_log d') = Some (reset_flags ModeNone k r)) as ->.
        { destruct (reset_id ModeNone k r) as (_ & R & _). destruct (proj2 (reset_flags_flags ModeNone k r) Ek) as (_ & F).
          apply find_unique; auto; [rewrite R, Ek, F, Pr, String.eqb_refl; reflexivity|].
          intros y Hy Py. apply andb_prop in Py. destruct Py as (Py & Cy). apply String.eqb_eq in Py. apply (wf_pend _ _ d' W'); auto; congruence. }
        cbn [read_opt] in *. rewrite reset_read. exists p. split; auto. rewrite (read_ecus d d' k r eq_refl). rewrite Ep. reflexivity.
    + assert (Hr' : In (reset_flags ModeNone k r) (il_log d')).
      { apply Hrows. right. exists r. repeat split; auto. discriminate. }
      assert (pend_row k (il_log d') = Some (reset_flags ModeNone k r)) as ->.
      { destruct (reset_id ModeNone k r) as (_ & R & _). destruct (proj2 (reset_flags_flags ModeNone k r) Ek) as (_ & F).
        apply find_unique; auto; [rewrite R, Ek, F, Pr, String.eqb_refl; reflexivity|].
        intros y Hy Py. apply andb_prop in Py. destruct Py as (Py & Cy). apply String.eqb_eq in Py. apply (wf_pend _ _ d' W'); auto; congruence. }
      cbn [read_opt] in *. rewrite reset_read. exists p. split; auto. rewrite (read_ecus d d' k r eq_refl). rewrite Ep. reflexivity.
  - assert (pend_row k (il_log d') = None) as ->.
    { apply find_empty. intros y Hy. apply eqb_and_false. intros Ey. apply Hrows in Hy. destruct Hy as [-> | (r & Hr & -> & _)]; auto.
      destruct (reset_id ModeNone k r) as (_ & R & _). rewrite R in Ey. destruct (proj2 (reset_flags_flags ModeNone k r) Ey) as (_ & F). rewrite F.
      pose proof (find_none _ _ Er r Hr) as Q. cbn beta in Q. rewrite Ey, String.eqb_refl in Q. exact Q. }
    cbn [read_opt] in *. cbn [bind]. injection Ep as <-. exists None. auto.
Qed.
End P.
