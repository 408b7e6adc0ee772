(** What a device that follows a repository stores. *)
From Verif Require Import Base Json TufModel TufSpec TufProofs MetaStore RepoModel RepoSpec RepoProofs RepoProofs2 RepoProofs3 RepoProofs4 RepoProofs5 RepoProofs6 OrdSpec CodecModel CodecSpec CodecProofs GenModel GenSpec GenProofs GenProofs2 GenProofs3 GenProofs4 GenProofs5 GenProofs6 GenProofs11.

Section Client.
Context (E : Env) (keyid : pubkey -> string) (HE : env_ok E).
Context (rp : repo) (K : repo_keys) (HK : keys_ok E keyid K).

(** No two targets of the document are for the same ECU. *)
Definition sane (raw : string) : Prop := forall t, targets_doc E "targets" (parse E raw) t -> one_target_per_ecu t.
Definition row_ok (d : side) (w : row) : Prop :=
  w_repo w = rp ->
  match w_type w with
  | RRoot => 1 <= w_ver w /\ (forall u, 1 <= u <= w_ver w -> aget (root_file u) (f_files d) <> None) /\ aget (root_file (w_ver w)) (f_files d) = Some (w_data w)
  | RTimestamp => exists e a b len sv v, text_ok E keyid K role_timestamp (w_data w) (ts_shape e a b len sv v) /\ 0 <= v <= max_int /\ v <= ver E "timestamp.json" d
  | RSnapshot => exists j, plain j = true /\ w_data w = canon E j
  | RTargets => exists cu de e ts v, text_ok E keyid K role_targets (w_data w) (tgt_shape cu de e ts v) /\ good_tgt rp cu de e ts v /\
      match rp with
      | Image => aget "targets.json" (f_files d) = Some (w_data w) \/ v < ver E "targets.json" d
      | Director => v <= ver E "targets.json" d /\ sane (w_data w)
      end
  | _ => True
  end.
Definition rows_ok (d : side) (D : db) : Prop := Forall (row_ok d) (d_meta D).

Lemma ver_targets d cu de e ts v raw : text_ok E keyid K role_targets raw (tgt_shape cu de e ts v) -> good_tgt rp cu de e ts v -> aget "targets.json" (f_files d) = Some raw -> ver E "targets.json" d = v.
Proof.
  intros T (_ & _ & _ & _ & V & _) A. eapply (ver_doc E keyid HE K); [exists raw; eauto|apply jget_tgt_version|unfold uint_mod, max_int in *; lia].
Qed.
Lemma rows_later d d' D : later E rp d d' -> rows_ok d D -> rows_ok d' D.
Proof.
  intros (A & B & C) H. refine (Forall_impl _ _ H). intros w Hw R. specialize (Hw R). destruct (w_type w).
  - destruct Hw as (H1 & H2 & H3). split; [exact H1|]. split; [|apply A; [lia|exact H3]].
    intros u Hu. specialize (H2 u Hu). destruct (aget (root_file u) (f_files d)) as [x|] eqn:X; [|congruence]. rewrite (A u x ltac:(lia) X). discriminate.
  - exact Hw.
  - destruct Hw as (cu & de & e & ts & v & H1 & H2 & H3). exists cu, de, e, ts, v. split; [exact H1|]. split; [exact H2|].
    pose proof (fun d x => ver_targets d cu de e ts v x) as VT.
    destruct rp.
    + destruct H3. split; [lia|auto].
    + destruct C as [C|C].
      * destruct H3 as [H3|H3]; [left; congruence|right]. rewrite (ver_frame E "targets.json" d d' C). exact H3.
      * right. destruct H3 as [H3|H3]; [|lia]. rewrite (VT d _ H1 H2 H3) in C. exact C.
  - destruct Hw as (e & a & b & len & sv & v & H1 & H2 & H3). exists e, a, b, len, sv, v. split; [exact H1|]. split; [exact H2|]. lia.
  - exact Hw.
  - exact Hw.
Qed.
Lemma rows_empty d : rows_ok d db_empty. Proof. constructor. Qed.

(** ** Storing *)
Lemma rows_filter d D D' p : d_meta D' = filter p (d_meta D) -> rows_ok d D -> rows_ok d D'.
Proof. intros H A. unfold rows_ok in *. rewrite H. apply Forall_forall. intros w Hw. apply filter_In in Hw as (Hw & _). rewrite Forall_forall in A. now apply A. Qed.
Lemma rows_meta d D D' : d_meta D' = d_meta D -> rows_ok d D -> rows_ok d D'.
Proof. unfold rows_ok. now intros ->. Qed.
Lemma rows_store d D D' p w : d_meta D' = filter p (d_meta D) ++ [w] -> row_ok d w -> rows_ok d D -> rows_ok d D'.
Proof.
  intros H W A. unfold rows_ok in *. rewrite H. apply Forall_app. split; [|now constructor].
  apply Forall_forall. intros x Hx. apply filter_In in Hx as (Hx & _). rewrite Forall_forall in A. now apply A.
Qed.
Lemma other_row d w : w_repo w <> rp -> row_ok d w. Proof. intros H R. contradiction. Qed.

(** Everything written leaves acceptable rows. *)
Definition leaves (d : side) (s s' : ust) : Prop :=
  exists new, u_log s' = new ++ u_log s /\ (rows_ok d (u_db s) -> Forall (rows_ok d) (u_db s' :: new)).
Lemma leaves_same d s s' : u_db s' = u_db s -> u_log s' = u_log s -> leaves d s s'.
Proof. intros A B. exists []. split; [exact B|]. intros H. rewrite A. now repeat constructor. Qed.
Lemma leaves_trans d a b c : leaves d a b -> leaves d b c -> leaves d a c.
Proof.
  intros (n1 & L1 & H1) (n2 & L2 & H2). exists (n2 ++ n1). split; [now rewrite L2, L1, app_assoc|]. intros H.
  apply H1 in H. inversion H as [|? ? Ha Hb]; subst. apply H2 in Ha. inversion Ha as [|? ? Hc Hd]; subst. constructor; [exact Hc|]. apply Forall_app. auto.
Qed.
Lemma leaves_write d f s s' (x : res unit) : (rows_ok d (u_db s) -> rows_ok d (f (u_db s))) -> write f s = (s', x) -> leaves d s s'.
Proof.
  intros H W. apply write_spec in W as (_ & A & B & _). exists [f (u_db s)]. split; [exact B|]. rewrite A. intros X. specialize (H X). now repeat constructor.
Qed.
Lemma leaves_wrote d rp' ws s s' : (rp' = rp -> Forall (fun w => row_ok d {| w_data := snd w; w_repo := rp; w_type := fst w; w_ver := -1 |}) ws) -> wrote rp' ws s s' -> leaves d s s'.
Proof.
  intros Hw (A & B). exists (rev (stores_dbs rp' ws (u_db s))). split; [exact B|]. rewrite A. clear A B. generalize (u_db s). clear s s'.
  assert (Hw' : Forall (fun w => row_ok d {| w_data := snd w; w_repo := rp'; w_type := fst w; w_ver := -1 |}) ws).
  { assert ({rp' = rp} + {rp' <> rp}) as [->|N] by (destruct rp, rp'; auto; right; discriminate); [now apply Hw|].
    apply Forall_forall. intros w _. now apply other_row. }
  clear Hw. induction Hw' as [|(ty, raw) ws W _ IH]; intros D H; cbn [stores stores_dbs rev]; [now repeat constructor|]. cbn [fst snd] in W.
  assert (H1 : rows_ok d (store_nonroot raw rp' ty D)) by (eapply rows_store; [reflexivity|exact W|exact H]).
  specialize (IH _ H1). inversion IH as [|? ? Ha Hb]; subst. constructor; [exact Ha|]. apply Forall_app. split; [exact Hb|]. now repeat constructor.
Qed.

(** ** Roots *)
Lemma root_path v : 0 <= v -> document_path "root" v = root_file v.
Proof. intros H. unfold document_path. destruct (Z.eqb_spec v (-1)); [lia|reflexivity]. Qed.
Lemma publish_get k rn v raw : publish k rp rn v = Ok raw -> aget (document_path rn v) (f_files (side_of rp k)) = Some raw.
Proof. unfold publish. destruct (aget _ _) as [x|]; [|discriminate]. destruct (_ <? _); [discriminate|]. intros H. now injection H as <-. Qed.

Lemma root_row k : core E keyid rp K (side_of rp k) -> forall v raw, 0 <= v -> aget (root_file v) (f_files (side_of rp k)) = Some raw ->
  (forall u, 1 <= u <= v -> aget (root_file u) (f_files (side_of rp k)) <> None) ->
  1 <= v -> exists R, self_signed_root E raw R /\ rt_ks R = root_keyset E keyid K /\ rt_version R = v /\ nul_free raw.
Proof.
  intros (_ & (V & N & e & A1 & A2 & A3 & A4 & A5 & A6 & A7) & _) v raw P H F Pv.
  assert (v <= N) by (destruct (Z.le_gt_cases v N); [assumption|exfalso; apply (F (N + 1)); [lia|exact A6]]).
  destruct (A5 v ltac:(lia)) as (e' & Te & (text & B1 & B2)). rewrite H in B1. injection B1 as <-.
  pose proof B2 as (kid & m & sg & -> & Q & _). pose proof (eo_text E HE _ Q) as NF. apply (parse_text E keyid HE K) in B2 as (kid' & m' & sg' & C1 & C2 & C3 & C4).
  eexists. split; [split; [rewrite C1; apply root_parse; [exact HK|unfold Json.in_range, min_int, max_int in *; lia|apply Te]|]|]; cbn [rt_ks rt_base]; [exact C3|]. split; [reflexivity|]. split; [reflexivity|exact NF].
Qed.
Lemma latest_data D w : latest_row rp RRoot D = Some w -> In w (d_meta D) /\ w_repo w = rp /\ w_type w = RRoot.
Proof.
  intros H. apply max_row_in in H as (H & _). apply filter_In in H as (H1 & H2). unfold is_row in H2. apply andb_true_iff in H2 as (A & B). split; [exact H1|].
  split; [destruct (w_repo w), rp; auto; discriminate|destruct (w_type w); auto; discriminate].
Qed.
(** The newest stored Root. *)
Lemma stored_latest k D : core E keyid rp K (side_of rp k) -> rows_ok (side_of rp k) D ->
  load_latest_root rp D = Ok None \/
  exists v raw R, load_latest_root rp D = Ok (Some raw) /\ 1 <= v /\ aget (root_file v) (f_files (side_of rp k)) = Some raw /\
    (forall u, 1 <= u <= v -> aget (root_file u) (f_files (side_of rp k)) <> None) /\ self_signed_root E raw R /\ rt_ks R = root_keyset E keyid K /\ rt_version R = v.
Proof.
  intros C H. unfold load_latest_root. destruct (latest_row rp RRoot D) as [w|] eqn:W; [right|now left].
  apply latest_data in W as (W1 & W2 & W3). unfold rows_ok in H. rewrite Forall_forall in H. specialize (H w W1 W2). rewrite W3 in H. destruct H as (H1 & H2 & H3).
  destruct (root_row k C (w_ver w) (w_data w) ltac:(lia) H3 H2 H1) as (R & R1 & R2 & R3 & R4). exists (w_ver w), (w_data w), R.
  cbn [row_data]. rewrite nul_free_blob by exact R4. cbn [bind]. auto 8.
Qed.
Lemma chain_rows k D : core E keyid rp K (side_of rp k) -> forall R l R', root_chain E R l R' -> 1 <= rt_version R ->
  (forall u, 1 <= u <= rt_version R -> aget (root_file u) (f_files (side_of rp k)) <> None) ->
  (forall w raw, In (w, raw) l -> publish k rp "root" w = Ok raw) -> rows_ok (side_of rp k) D ->
  Forall (rows_ok (side_of rp k)) (chain_db rp l D :: chain_dbs rp l D).
Proof.
  intros C R l R' H. revert D. induction H as [R | R R' R'' raw l Hn Hc IH]; intros D P F S H; cbn [chain_db chain_dbs]; [now repeat constructor|].
  destruct Hn as (N1 & _ & _ & N4).
  assert (Fl : aget (root_file (rt_version R')) (f_files (side_of rp k)) = Some raw).
  { specialize (S (rt_version R') raw (or_introl eq_refl)). apply publish_get in S. now rewrite root_path in S by lia. }
  assert (F' : forall u, 1 <= u <= rt_version R' -> aget (root_file u) (f_files (side_of rp k)) <> None).
  { intros u Hu. destruct (Z.eq_dec u (rt_version R')) as [->|Ne]; [congruence|]. apply F. lia. }
  assert (H1 : rows_ok (side_of rp k) (store_root raw rp (rt_version R') D)).
  { eapply rows_store; [reflexivity| |exact H]. intros _. cbn [w_type w_ver w_data]. split; [lia|]. auto. }
  assert (H2 : rows_ok (side_of rp k) (clear_nonroot rp (store_root raw rp (rt_version R') D))) by (eapply rows_filter; [reflexivity|exact H1]).
  specialize (IH _ ltac:(lia) F' (fun w x i => S w x (or_intror i)) H2). inversion IH; subst. repeat constructor; auto.
Qed.
Lemma other_chain d : forall rp' l D, rp' <> rp -> rows_ok d D -> Forall (rows_ok d) (chain_db rp' l D :: chain_dbs rp' l D).
Proof.
  intros rp' l. induction l as [|(v, raw) l IH]; intros D N H; cbn [chain_db chain_dbs]; [now repeat constructor|].
  assert (H1 : rows_ok d (store_root raw rp' v D)) by (eapply rows_store; [reflexivity|now apply other_row|exact H]).
  assert (H2 : rows_ok d (clear_nonroot rp' (store_root raw rp' v D))) by (eapply rows_filter; [reflexivity|exact H1]).
  specialize (IH _ N H2). inversion IH; subst. repeat constructor; auto.
Qed.

Lemma leaves_root k rp' clk s s' r : core E keyid rp K (side_of rp k) -> update_root E (publish k) clk rp' s = (s', r) -> leaves (side_of rp k) s s'.
Proof.
  intros C H. apply update_root_spec in H as (o & l & Ro & Ho & D & L & _ & Hf & Hs & _).
  exists (rev (chain_dbs rp' l (first_db rp' o (u_db s))) ++ first_dbs rp' o (u_db s)). split; [now rewrite L, app_assoc|]. rewrite D. clear D L. intros H.
  assert (X : Forall (rows_ok (side_of rp k)) (first_dbs rp' o (u_db s)) /\ Forall (rows_ok (side_of rp k)) (chain_db rp' l (first_db rp' o (u_db s)) :: chain_dbs rp' l (first_db rp' o (u_db s)))).
  2: { destruct X as (X1 & X2). inversion X2; subst. constructor; [assumption|]. apply Forall_app. split; [now apply Forall_rev|exact X1]. }
  assert ({rp' = rp} + {rp' <> rp}) as [->|Ne] by (destruct rp, rp'; auto; right; discriminate).
  - inversion Ho as [|raw0 R0 l' R Hl Hss Hc|raw0 R0 l' R Hl Hss Hc]; subst; cbn [first_dbs first_db chain_db chain_dbs].
    + split; [constructor|]. now repeat constructor.
    + split; [constructor|]. destruct (stored_latest k (u_db s) C H) as [X|(v & raw & R1 & X1 & X2 & X3 & X4 & X5 & X6 & X7)]; [congruence|].
      rewrite Hl in X1. injection X1 as <-. assert (R1 = R0) by (destruct X5 as (X5 & _), Hss as (Hss & _); congruence). subst R1.
      eapply chain_rows; eauto; [lia|]. now rewrite X7.
    + assert (F1 : aget (root_file 1) (f_files (side_of rp k)) = Some raw0) by (specialize (Hf raw0 eq_refl); apply publish_get in Hf; now rewrite root_path in Hf by lia).
      assert (F : forall u, 1 <= u <= 1 -> aget (root_file u) (f_files (side_of rp k)) <> None) by (intros u Hu; replace u with 1 by lia; congruence).
      destruct (root_row k C 1 raw0 ltac:(lia) F1 F ltac:(lia)) as (R1 & X5 & X6 & X7 & _).
      assert (R1 = R0) by (destruct X5 as (X5 & _), Hss as (Hss & _); congruence). subst R1.
      assert (H1 : rows_ok (side_of rp k) (store_root raw0 rp 1 (u_db s))) by (eapply rows_store; [reflexivity| |exact H]; intros _; cbn [w_type w_ver w_data]; split; [lia|auto]).
      split; [now repeat constructor|]. eapply chain_rows; eauto; [lia|]. now rewrite X7.
  - split; [|apply other_chain; [exact Ne|]]; destruct o as [raw|]; cbn [first_dbs first_db]; auto.
    + constructor; [|constructor]. eapply rows_store; [reflexivity|now apply other_row|exact H].
    + eapply rows_store; [reflexivity|now apply other_row|exact H].
Qed.

(** ** Updates of a device *)
Definition may_look (k : disk) : Prop := rp = Director -> forall raw, publish k Director "targets" (-1) = Ok raw -> sane raw.
Lemma targets_row k raw : core E keyid rp K (side_of rp k) -> may_look k -> publish k rp "targets" (-1) = Ok raw ->
  row_ok (side_of rp k) {| w_data := raw; w_repo := rp; w_type := RTargets; w_ver := -1 |}.
Proof.
  intros C L H. pose proof (publish_get _ _ _ _ H) as G. change (document_path "targets" (-1)) with "targets.json" in G.
  destruct C as (_ & _ & (cu & de & e & ts & v & T1 & (x & T2 & T3)) & _). rewrite G in T2. injection T2 as <-.
  intros _. cbn [w_type w_data]. exists cu, de, e, ts, v. split; [exact T3|]. split; [exact T1|].
  pose proof (ver_targets _ _ _ _ _ _ _ T3 T1 G) as X. destruct rp eqn:R; [|now left]. split; [lia|]. now apply L.
Qed.
Lemma leaves_director k clk s s' r : core E keyid rp K (side_of rp k) -> may_look k -> director_update E (publish k) clk s = (s', r) -> leaves (side_of rp k) s s'.
Proof.
  intros C M H. apply director_update_phases in H as (s0 & s1 & x & D & L & Hu & T1 & _ & Hc).
  eapply leaves_trans; [eapply leaves_same; [exact D|exact L]|]. eapply leaves_trans; [eapply leaves_root; eauto|].
  destruct Hc as [(e & _ & -> & _)|(_ & Hb)]; [now apply leaves_same|].
  apply director_block_spec in Hb; [|rewrite T1; reflexivity].
  destruct Hb as (_ & _ & [(W & _)|(raw & remote & local & S & _ & _ & _ & _ & [(_ & W)|(_ & W)] & _)]); eapply leaves_wrote; try exact W; try (intros; constructor).
  intros Hrp. destruct (_ <? _); constructor; [|constructor]. cbn [fst snd]. apply targets_row; auto. now rewrite <- Hrp.
Qed.
Lemma leaves_image k clk s s' r : core E keyid rp K (side_of rp k) -> image_update E (publish k) clk s = (s', r) -> leaves (side_of rp k) s s'.
Proof.
  intros C H. apply image_update_phases in H as (s0 & s1 & x & D & L & Hu & _ & _ & Hc).
  eapply leaves_trans; [eapply leaves_same; [exact D|exact L]|]. eapply leaves_trans; [eapply leaves_root; eauto|].
  destruct Hc as [(e & _ & -> & _)|(_ & s2 & x2 & Hts & Hc)]; [now apply leaves_same|].
  eapply leaves_trans with s2.
  { apply ts_block_spec in Hts as (_ & _ & _ & _ & [(W & _)|(raw & remote & local & S & _ & _ & _ & _ & W & _)]); eapply leaves_wrote; try exact W; try (intros; constructor).
    intros Hrp. destruct (_ <? _); constructor; [|constructor]. intros _. cbn [fst snd w_type w_data]. rewrite Hrp in S. pose proof (publish_get _ _ _ _ S) as G.
    change (document_path "timestamp" (-1)) with "timestamp.json" in G. destruct C as (_ & _ & _ & _ & (e & a & b & len & sv & v & T1 & T2 & (y & T3 & T4)) & _). rewrite G in T3. injection T3 as <-.
    exists e, a, b, len, sv, v. split; [exact T4|]. split; [exact T2|].
    rewrite (ver_doc E keyid HE K (side_of rp k) "timestamp.json" role_timestamp (ts_shape e a b len sv v) v); [lia|exists raw; auto|reflexivity|unfold uint_mod, max_int in *; lia]. }
  destruct Hc as [(e & _ & -> & _)|(_ & s3 & x3 & Hsn & Hc)]; [now apply leaves_same|].
  eapply leaves_trans with s3.
  { apply snap_block_spec in Hsn as (_ & _ & _ & _ & ws & W & Hws & _). eapply leaves_wrote; [|exact W]. intros Hrp.
    destruct Hws as [->|(raw & -> & S & _)]; constructor; [|constructor]. intros _. cbn [fst snd w_type w_data]. rewrite Hrp in S. pose proof (publish_get _ _ _ _ S) as G.
    change (document_path "snapshot" (-1)) with "snapshot.json" in G. destruct C as (_ & _ & _ & (e & ml & v & T1 & T2 & (y & T3 & T4)) & _). rewrite G in T3. injection T3 as <-.
    destruct T4 as (kid & m & sg & -> & Q & _). eauto. }
  destruct Hc as [(e & _ & -> & _)|(_ & Htg)]; [now apply leaves_same|].
  apply tgt_block_spec in Htg as (_ & _ & _ & _ & ws & W & Hws & _). eapply leaves_wrote; [|exact W]. intros Hrp.
  destruct Hws as [->|(raw & t & -> & S & _)]; constructor; [|constructor]. cbn [fst snd]. apply targets_row; [exact C|intros X; congruence|]. now rewrite Hrp in S.
Qed.

(** Whatever a device does, to its end or to a crash. *)
Theorem device_rows k o s s' r d' : core E keyid rp K (side_of rp k) -> may_look k -> device_op k o -> u_log s = [] ->
  run_op E o s = (s', r) -> In d' (u_db s' :: u_log s') -> rows_ok (side_of rp k) (u_db s) -> rows_ok (side_of rp k) d'.
Proof.
  intros C M Ho L H Hin HR.
  assert (leaves (side_of rp k) s s') as (new & Ln & Hn).
  { destruct o; cbn [run_op device_op] in *; subst.
    - eapply leaves_director; eauto.
    - eapply leaves_image; eauto.
    - apply nw_director_offline in H as (A & B). now apply leaves_same.
    - apply nw_image_offline in H as (A & B). now apply leaves_same.
    - unfold director_drop_targets in H. apply mbind_inv in H as [(s1 & [] & H1 & H)|(e & H1 & ->)].
      + eapply leaves_trans; [eapply leaves_write; [|exact H1]|].
        * intros X. eapply rows_filter; [reflexivity|exact X].
        * apply director_reset_spec in H as (_ & D & L' & _). now apply leaves_same.
      + apply write_spec in H1. destruct H1; discriminate.
    - eapply leaves_write; [|exact H]. intros X. eapply rows_meta; [reflexivity|exact X].
    - eapply leaves_write; [|exact H]. intros X. eapply rows_meta; [reflexivity|exact X]. }
  rewrite L, app_nil_r in Ln. rewrite <- Ln in Hn. specialize (Hn HR). rewrite Forall_forall in Hn. now apply Hn.
Qed.
End Client.
