From Verif Require Import Base Json TufModel TufSpec TufProofs TufProofs2 MetaStore RepoModel RepoSpec RepoProofs RepoProofs2
  RepoProofs3 RepoProofs4 RepoProofs5 RepoProofs6 ClientModel ClientSpec ClientProofs.

(** ** Serial numbers *)
Lemma ecu_insert_in k v m x : In x (ecu_insert k v m) -> In x m \/ x = (k, v).
Proof. unfold ecu_insert. destruct (aget k m); auto. intros H. apply in_app_or in H. destruct H as [|[<-|[]]]; auto. Qed.
Lemma parse_ecus_nonempty : forall l acc m, parse_ecus l acc = Ok m -> (forall s h, In (s, h) acc -> s <> "") ->
  forall s h, In (s, h) m -> s <> "".
Proof.
  induction l as [|(k, j) l IH]; intros acc m H Ha; simpl in H; [inversion H; subst; auto|].
  apply bind_ok in H; destruct H as (e & He & H). repeat (apply bind_ok in H; destruct H as (? & ? & H)).
  eapply IH; [exact H|]. intros s h Hi. apply ecu_insert_in in Hi. destruct Hi as [Hi | Hi]; [eauto|].
  inversion Hi; subst. unfold ecu_serial in He. destruct (Nat.ltb (String.length k) 1) eqn:Hl; [discriminate|].
  destruct (Nat.ltb 64 _); inversion He; subst. intros ->. discriminate.
Qed.
Lemma update_custom_nonempty t c t' : update_custom t c = Ok t' -> serials_nonempty t -> serials_nonempty t'.
Proof.
  unfold update_custom, serials_nonempty. intros H Ht.
  apply bind_ok in H; destruct H as (? & _ & H). apply bind_ok in H; destruct H as (? & _ & H).
  apply bind_ok in H; destruct H as (ej & _ & H). apply bind_ok in H; destruct H as (ecus & He & H).
  repeat (apply bind_ok in H; destruct H as (? & _ & H)).
  inversion H; subst; simpl. eapply parse_ecus_nonempty; eauto.
Qed.
Lemma target_of_json_nonempty fn c t : target_of_json fn c = Ok t -> serials_nonempty t.
Proof.
  unfold target_of_json. intros H. apply bind_ok in H; destruct H as (hc & _ & H). apply bind_ok in H; destruct H as (t0 & H0 & H).
  repeat (apply bind_ok in H; destruct H as (? & _ & H)). inversion H; subst.
  assert (Ht0 : serials_nonempty t0).
  { destruct hc.
    - apply bind_ok in H0; destruct H0 as (cu & _ & H0). apply update_custom_nonempty in H0; auto. intros ? ? [].
    - inversion H0; subst. intros ? ? []. }
  exact Ht0.
Qed.
Lemma parse_target_list_nonempty : forall l ts, parse_target_list l = Ok ts -> Forall serials_nonempty ts.
Proof.
  induction l as [|(k, j) l IH]; intros ts H; simpl in H; [inversion H; constructor|].
  apply bind_ok in H; destruct H as (t & Ht & H). apply bind_ok in H; destruct H as (ts' & Hts & H). inversion H; subst.
  constructor; [eapply target_of_json_nonempty; eauto|auto].
Qed.
Lemma parse_deleg_targets : forall l t t', parse_deleg_roles l t = Ok t' -> tg_targets t' = tg_targets t.
Proof.
  induction l as [|(k, rj) l IH]; intros t t' H; simpl in H; [inversion H; auto|].
  repeat (apply bind_ok in H; destruct H as (? & ? & H)). apply IH in H. exact H.
Qed.
Lemma targets_doc_nonempty E n j t : targets_doc E n j t -> Forall serials_nonempty (tg_targets t).
Proof.
  intros (_ & H). unfold targets_init in H. destruct (negb (jis_object j)); [discriminate|].
  apply bind_ok in H; destruct H as (s & _ & H). apply bind_ok in H; destruct H as (ty & _ & H).
  destruct (negb (jeq_str ty "Targets")); [discriminate|].
  apply bind_ok in H; destruct H as (tl & _ & H). apply bind_ok in H; destruct H as (ts & Hts & H).
  apply bind_ok in H; destruct H as (dj & _ & H). apply bind_ok in H; destruct H as (t1 & Ht1 & H).
  apply bind_ok in H; destruct H as (cj & _ & H). apply bind_ok in H; destruct H as (co & _ & H).
  injection H as <-. cbn [tg_targets].
  assert (He : tg_targets t1 = ts).
  { destruct (jis_object dj).
    - repeat (apply bind_ok in Ht1; destruct Ht1 as (? & ? & Ht1)). apply parse_deleg_targets in Ht1. exact Ht1.
    - inversion Ht1; reflexivity. }
  rewrite He. eapply parse_target_list_nonempty; eauto.
Qed.

(** ** Selection of new targets *)
Lemma hwid_present v serial hw : serial <> "" -> (get_ecu_hwid v serial = Some hw <-> ecu_present v serial hw).
Proof.
  intros Hne. unfold get_ecu_hwid, ecu_present. destruct (String.eqb_spec serial (v_primary v)) as [->|Hp]; simpl.
  - destruct (String.eqb_spec (v_primary_hw v) "Unknown") as [Hu|Hu].
    + split; [discriminate|]. intros [(_ & -> & ?) | (? & _)]; congruence.
    + split; [intros H; inversion H; subst; auto|]. intros [(_ & -> & ?) | (? & _)]; congruence.
  - destruct (String.eqb_spec serial ""); [contradiction|]. split; [auto|]. intros [(? & _) | (_ & ?)]; congruence.
Qed.

Lemma scan_spec v t : forall ecus n c n' c', scan_ecus v t ecus n c = Ok (n', c') -> installed_readable v ->
  (forall s h, In (s, h) ecus -> s <> "") ->
  (forall s h, In (s, h) ecus -> ecu_present v s h) /\
  (n' = true <-> n = true \/ exists s h, In (s, h) ecus /\ news_for v t s).
Proof.
  induction ecus as [|(serial, hw) rest IH]; intros n c n' c' H Hr Hne; simpl in H.
  - inversion H; subst. split; [intros ? ? []|]. split; auto. intros [|(? & ? & [] & _)]; auto.
  - assert (Hs : serial <> "") by (eapply Hne; left; reflexivity).
    assert (Hrest : forall s h, In (s, h) rest -> s <> "") by (intros; eapply Hne; right; eauto).
    destruct (get_ecu_hwid v serial) as [known|] eqn:Hk; [|discriminate].
    destruct (String.eqb_spec known hw) as [->|]; simpl in H; [|discriminate].
    apply bind_ok in H. destruct H as (cur & Hc & H). destruct cur as [current|]; [|exfalso; eapply Hr; eauto].
    apply bind_ok in H. destruct H as (n1 & Hn1 & H).
    destruct (_ && _)%bool; [discriminate|].
    apply IH in H; auto. destruct H as (H1 & H2). split.
    + intros s h [Hi | Hi]; [|eauto]. inversion Hi; subst. now apply hwid_present.
    + rewrite H2. clear H2.
      assert (Hthis : n1 = true <-> n = true \/ news_for v t serial).
      { unfold news_for. destruct current as [c0|].
        - destruct (match_target c0 t) eqn:Hm.
          + inversion Hn1; subst. split; auto. intros [|(cur & Hcur & Hx)]; auto. rewrite Hc in Hcur. inversion Hcur; subst.
            apply match_target_iff in Hm. tauto.
          + destruct (String.eqb_spec (t_filename c0) (t_filename t)); [discriminate|]. inversion Hn1; subst. split; auto.
            intros _. right. exists (Some c0). split; auto. split; auto. rewrite <- match_target_iff. congruence.
        - inversion Hn1; subst. split; auto. intros _. right. exists None. auto. }
      split.
      * intros [Hn | (s & h & Hi & Hw)].
        -- apply Hthis in Hn. destruct Hn; auto. right. exists serial, hw. split; [now left|auto].
        -- right. exists s, h. split; [now right|auto].
      * intros [Hn | (s & h & [Hi | Hi] & Hw)].
        -- left. apply Hthis. auto.
        -- inversion Hi; subst. left. apply Hthis. auto.
        -- right. eauto.
Qed.
Lemma new_targets_spec v : forall ts acc c l c', get_new_targets v ts acc c = Ok (l, c') -> installed_readable v ->
  Forall serials_nonempty ts ->
  (forall t, In t ts -> fits_vehicle v t) /\
  (forall t, In t l <-> In t acc \/ (In t ts /\ exists s h, In (s, h) (t_ecus t) /\ news_for v t s)).
Proof.
  induction ts as [|t ts IH]; intros acc c l c' H Hr Hne; simpl in H.
  - inversion H; subst. split; [intros ? []|]. intros t. split; auto. intros [|([] & _)]; auto.
  - inversion Hne as [|? ? Hne1 Hne2]; subst. apply bind_ok in H. destruct H as ((n, c1) & Hsc & H). simpl in H.
    apply scan_spec in Hsc; auto. destruct Hsc as (Hf & Hn). apply IH in H; auto. destruct H as (H1 & H2). split.
    + intros x [<- | Hx]; auto.
    + intros x. rewrite H2. clear H2. destruct n.
      * rewrite in_app_iff. simpl. split.
        -- intros [[Ha | [<- | []]] | (Ha & Hb)]; [now left| |right; split; [now right|exact Hb]].
           right. split; [now left|]. destruct (proj1 Hn eq_refl) as [? | ?]; [discriminate|assumption].
        -- intros [Ha | ([<- | Hx] & Hw)]; [left; now left|left; right; now left|right; split; assumption].
      * split.
        -- intros [Ha | (Ha & Hb)]; [now left|right; split; [now right|exact Hb]].
        -- intros [Ha | ([<- | Hx] & Hw)]; [now left| |right; split; assumption].
           assert (false = true) by (apply Hn; right; exact Hw). discriminate.
Qed.

(** An ECU that is not present makes the selection fail. *)
Lemma scan_absent v t : forall ecus n c serial hw, installed_readable v -> (forall s h, In (s, h) ecus -> s <> "") ->
  In (serial, hw) ecus -> ~ ecu_present v serial hw -> exists e, scan_ecus v t ecus n c = Throw e.
Proof.
  intros ecus n c serial hw Hr Hne Hi Hp. destruct (scan_ecus v t ecus n c) as [(n', c')|e] eqn:H; [|eauto].
  apply scan_spec in H; auto. destruct H as (H & _). exfalso. eauto.
Qed.
Lemma new_targets_absent v ts t serial hw acc c : installed_readable v -> Forall serials_nonempty ts -> In t ts ->
  In (serial, hw) (t_ecus t) -> ~ ecu_present v serial hw -> exists e, get_new_targets v ts acc c = Throw e.
Proof.
  intros Hr Hne Hi He Hp. destruct (get_new_targets v ts acc c) as [(l, c')|e] eqn:H; [|eauto].
  apply new_targets_spec in H; auto. destruct H as (H & _). exfalso. apply Hp. eapply H; eauto.
Qed.

(** ** Image updates leave the Director's objects alone *)
Definition keeps_director (s s' : ust) : Prop := u_droot s' = u_droot s /\ u_dtargets s' = u_dtargets s /\ u_dlatest s' = u_dlatest s.
Lemma image_update_director E srv clk s s' r : image_update E srv clk s = (s', r) -> keeps_director s s'.
Proof.
  unfold image_update. intros H.
  apply mbind_inv in H. destruct H as [(s0 & [] & H0 & H) | (e & H0 & ->)].
  2: { apply image_reset_spec in H0. destruct H0; discriminate. }
  apply image_reset_spec in H0. destruct H0 as (_ & _ & _ & _ & _ & _ & K0 & (K1 & K2)).
  apply mbind_inv in H.
  assert (exists s1 x, update_root E srv clk Image s0 = (s1, x) /\ ((s1 = s') \/
    (image_timestamp_block E srv clk ;; (image_snapshot_block E srv clk ;; image_targets_block E srv clk)) s1 = (s', r))) as (s1 & x & Hu & Hc).
  { destruct H as [(s1 & [] & H1 & H) | (e & H1 & ->)]; eauto 6. }
  apply update_root_spec in Hu. destruct Hu as (o & l & Ro & _ & _ & _ & (F0 & F1 & F2 & _) & _).
  specialize (F0 Director ltac:(discriminate)). simpl in F0.
  assert (K : keeps_director s s1) by (repeat split; congruence).
  destruct Hc as [<- | Hc0]; [exact K|]. clear -K Hc0. rename Hc0 into H.
  assert (Htr : forall a b c, keeps_director a b -> same_roots b c -> same_director b c -> keeps_director a c).
  { intros a b c (A1 & A2 & A3) R (B1 & B2). specialize (R Director). simpl in R. repeat split; congruence. }
  apply mbind_inv in H.
  assert (exists s2 x, image_timestamp_block E srv clk s1 = (s2, x) /\ ((s2 = s') \/
    (image_snapshot_block E srv clk ;; image_targets_block E srv clk) s2 = (s', r))) as (s2 & x2 & Hts & Hc).
  { destruct H as [(s2 & [] & H1 & H) | (e & H1 & ->)]; eauto 6. }
  apply ts_block_spec in Hts. destruct Hts as (R1 & D1 & _). assert (K2 : keeps_director s s2) by (eapply Htr; eauto).
  destruct Hc as [<- | Hc]; [exact K2|]. apply mbind_inv in Hc.
  assert (exists s3 x, image_snapshot_block E srv clk s2 = (s3, x) /\ ((s3 = s') \/ image_targets_block E srv clk s3 = (s', r)))
    as (s3 & x3 & Hsn & Hc3).
  { destruct Hc as [(s3 & [] & H1 & H') | (e & H1 & ->)]; eauto 6. }
  apply snap_block_spec in Hsn. destruct Hsn as (R2 & D2 & _). assert (K3 : keeps_director s s3) by (eapply Htr; eauto).
  destruct Hc3 as [<- | Htg]; [exact K3|].
  apply tgt_block_spec in Htg. destruct Htg as (R3 & D3 & _). eapply Htr; eauto.
Qed.

(** ** Confirmation by the Image repository *)
Lemma but_uri_set t u : but_uri t (set_uri t u). Proof. repeat split. Qed.
Lemma but_uri_refl t : but_uri t t. Proof. repeat split. Qed.
Lemma confirm_spec E fnm srv now : forall l s s' r, confirm_with_image E fnm srv now l s = (s', r) ->
  only_deleg s s' /\
  forall l', r = Ok l' -> Forall2 (fun t t' => but_uri t t' /\ exists top i, u_itargets s = Some top /\
    vouched E fnm now (u_isnap s) top t i) l l'.
Proof.
  induction l as [|t l IH]; intros s s' r H; simpl in H.
  - inversion H; subst. split; [apply od_refl|]. intros l' Hl. inversion Hl; constructor.
  - apply mbind_inv in H. destruct H as [(s1 & it & H1 & H) | (e & H1 & ->)].
    2:{ apply find_target_sound in H1. split; [apply H1|discriminate]. }
    apply find_target_sound in H1. destruct H1 as (O1 & F1).
    destruct it as [i|]; [|inversion H; subst; split; [exact O1|discriminate]].
    apply mbind_inv in H. destruct H as [(s2 & rest & H2 & H) | (e & H2 & ->)].
    2:{ apply IH in H2. split; [eapply od_trans; [exact O1|apply H2]|discriminate]. }
    apply IH in H2. destruct H2 as (O2 & F2). inversion H; subst; clear H. split; [eapply od_trans; eauto|].
    intros l' Hl. inversion Hl; subst; clear Hl.
    destruct O1 as (_ & _ & _ & _ & _ & _ & Os & Ot). constructor.
    + split.
      * destruct (_ && _)%bool; [apply but_uri_set|apply but_uri_refl].
      * destruct (F1 i eq_refl) as (top & Ht & Hv). eauto.
    + rewrite <- Os, <- Ot. apply F2. reflexivity.
Qed.

Lemma confirm_offline_spec E fnm srv now dts : forall ts s s' r, confirm_offline E fnm srv now dts ts s = (s', r) ->
  only_deleg s s' /\
  (r = Ok tt -> forall t, In t ts -> (exists d, In d dts /\ same_target d t) /\
     exists top i, u_itargets s = Some top /\ vouched E fnm now (u_isnap s) top t i).
Proof.
  induction ts as [|t ts IH]; intros s s' r H; simpl in H.
  - inversion H; subst. split; [apply od_refl|]. intros _ t [].
  - destruct (existsb _ dts) eqn:Hex; [|inversion H; subst; split; [apply od_refl|discriminate]].
    apply mbind_inv in H. destruct H as [(s1 & it & H1 & H) | (e & H1 & ->)].
    2:{ apply find_target_sound in H1. split; [apply H1|discriminate]. }
    apply find_target_sound in H1. destruct H1 as (O1 & F1).
    destruct it as [i|]; [|inversion H; subst; split; [exact O1|discriminate]].
    apply IH in H. destruct H as (O2 & F2). split; [eapply od_trans; eauto|].
    intros Hr x [<- | Hx].
    + split.
      * apply existsb_exists in Hex. destruct Hex as (d & Hd & Hm). exists d. split; auto. now apply match_target_iff.
      * destruct (F1 i eq_refl) as (top & Ht & Hv). eauto.
    + destruct O1 as (_ & _ & _ & _ & _ & _ & Os & Ot). rewrite <- Os, <- Ot. now apply F2.
Qed.

(** ** The update checks *)
Lemma catch_inv {A} (m : M A) sel h s s' r : catch m sel h s = (s', r) ->
  (m s = (s', r)) \/ (exists s1 e, m s = (s1, Throw e) /\ sel e = true /\ h s1 = (s', r)).
Proof.
  unfold catch. destruct (m s) as [s1 [a|e]]; auto. destruct (sel e) eqn:Hs; [|auto]. intros H. right. eauto.
Qed.

Theorem director_targets_nonempty E srv clk s s' : director_update E srv clk s = (s', Ok tt) ->
  Forall serials_nonempty (tg_targets (u_dtargets s')).
Proof.
  intros H. apply director_accepts in H. destruct H as (raw & _ & (_ & Hd) & _ & _ & _ & Hc).
  destruct Hc as [-> | (_ & sraw & (_ & Hd2))]; eapply targets_doc_nonempty; eauto.
Qed.

Theorem check_updates_sound E fnm srv clkd clki now v s s' l n :
  check_updates E fnm srv clkd clki now v s = (s', Ok (UcUpdates l n)) -> installed_readable v ->
  (exists raw, verified_targets E (u_droot s') raw (u_dtargets s')) /\
  (exists rawt raws rawg top,
    is_expired (rt_base (u_iroot s')) (clki RRoot) = false /\
    authentic_timestamp E (u_iroot s') rawt (u_itime s') /\ is_expired (tm_base (u_itime s')) (clki RTimestamp) = false /\
    snapshot_named E (u_iroot s') (u_itime s') raws (u_isnap s') /\ is_expired (sn_base (u_isnap s')) (clki RSnapshot) = false /\
    u_itargets s' = Some top /\ targets_named E (u_iroot s') (u_isnap s') rawg top /\ is_expired (tg_base top) (clki RTargets) = false /\
    forall t', In t' l -> exists t i, In t (tg_targets (u_dtargets s')) /\ but_uri t t' /\ fits_vehicle v t /\
      (exists serial hw, In (serial, hw) (t_ecus t) /\ news_for v t serial) /\
      vouched E fnm now (u_isnap s') top t i).
Proof.
  intros H Hrd. unfold check_updates in H.
  apply mbind_inv in H. destruct H as [(s1 & it & Hit & H) | (e & _ & H)]; [|discriminate].
  destruct it as [(updates, count)|]; [|discriminate].
  apply gets_inv in H. apply lift_inv in H. destruct H as [(st & _ & H) | (e & _ & _ & H)]; [|discriminate].
  destruct st as [st|]; [|discriminate].
  destruct (nilb updates) eqn:Hnil; [discriminate|].
  apply catch_inv in H. destruct H as [H | (sx & e & _ & _ & H)]; [|discriminate].
  apply mbind_inv in H. destruct H as [(s2 & l2 & Hcf & H) | (e & _ & H)]; [|discriminate].
  inversion H; subst; clear H.
  apply catch_inv in Hit. destruct Hit as [Hit | (sx & e & _ & _ & Hit)]; [|discriminate].
  apply mbind_inv in Hit. destruct Hit as [(s3 & p & Hup & Hit) | (e & _ & Hit)]; [|discriminate].
  inversion Hit; subst; clear Hit.
  unfold uptane_iteration in Hup.
  apply mbind_inv in Hup. destruct Hup as [(s4 & [] & Hd & Hup) | (e & _ & Hup)]; [|discriminate].
  apply gets_inv in Hup. apply lift_inv in Hup. destruct Hup as [(p & Hnew & Hup) | (e & _ & _ & Hup)]; [|discriminate].
  apply mbind_inv in Hup. destruct Hup as [(s5 & [] & Himg & Hup) | (e & _ & Hup)]; [|discriminate].
  inversion Hup; subst; clear Hup. simpl in Himg. rewrite Hnil in Himg.
  assert (Hne := director_targets_nonempty _ _ _ _ _ Hd).
  apply new_targets_spec in Hnew; auto. destruct Hnew as (Hfit & Hin).
  assert (Hkd := image_update_director _ _ _ _ _ _ Himg). destruct Hkd as (K1 & K2 & K3).
  apply confirm_spec in Hcf. destruct Hcf as ((O1 & O2 & O3 & O4 & O5 & O6 & O7 & O8) & Hcf). specialize (Hcf _ eq_refl).
  apply image_accepts in Himg. destruct Himg as (rawt & raws & rawg & top & I1 & I2 & I3 & I4 & I5 & I6 & I7 & I8).
  apply director_accepts in Hd. destruct Hd as (raw & _ & Hv & _ & _ & _ & Hcase).
  split.
  - rewrite O2, O3, K1, K2. destruct Hcase as [-> | (_ & sraw & Hs)]; eauto.
  - exists rawt, raws, rawg, top. rewrite O3, O5, O6, O7, O8, K2.
    do 8 (split; [assumption|]).
    assert (Hfwd : forall t', In t' l -> exists t, In t updates /\ but_uri t t' /\ exists tp i, u_itargets s1 = Some tp /\
      vouched E fnm now (u_isnap s1) tp t i).
    { clear -Hcf. induction Hcf as [|x y xs ys Hxy Hf IH]; intros t' Hi; [destruct Hi|].
      destruct Hi as [<- | Hi].
      - exists x. split; [now left|exact Hxy].
      - destruct (IH _ Hi) as (t & Ht & Hr). exists t. split; [now right|exact Hr]. }
    intros t' Hi. destruct (Hfwd t' Hi) as (t & Ht & Hb & tp & i & Htp & Hvo).
    assert (Heq : tp = top) by congruence. subst tp. apply Hin in Ht. destruct Ht as [[] | (Ht & Hnews)]. exists t, i. auto 10.
Qed.

(** An assignment to an absent ECU or with a wrong hardware id: the check fails. *)
Theorem check_updates_absent E fnm srv clkd clki now v s s1 t serial hw :
  director_update E srv clkd s = (s1, Ok tt) -> installed_readable v -> In t (tg_targets (u_dtargets s1)) ->
  In (serial, hw) (t_ecus t) -> ~ ecu_present v serial hw ->
  check_updates E fnm srv clkd clki now v s = (s1, Ok UcError).
Proof.
  intros Hd Hr Ht He Hp. assert (Hne := director_targets_nonempty _ _ _ _ _ Hd).
  destruct (new_targets_absent v _ t serial hw [] 0 Hr Hne Ht He Hp) as (e & Hnew).
  unfold check_updates, mbind, catch, uptane_iteration, mbind. rewrite Hd. unfold gets, lift. rewrite Hnew. reflexivity.
Qed.

(** ** The offline check *)
Definition image_ok_but_targets (E : Env) (clk : clock) (s : ust) (top : targets) : Prop :=
  exists raw rawt raws rawg,
    self_signed_root E raw (u_iroot s) /\ is_expired (rt_base (u_iroot s)) (clk RRoot) = false /\
    authentic_timestamp E (u_iroot s) rawt (u_itime s) /\ is_expired (tm_base (u_itime s)) (clk RTimestamp) = false /\
    snapshot_named E (u_iroot s) (u_itime s) raws (u_isnap s) /\ is_expired (sn_base (u_isnap s)) (clk RSnapshot) = false /\
    (forall h, In h (role_hashes (u_isnap s) "targets") -> digest_matches E rawg h) /\
    acceptable E (rt_ks (u_iroot s)) role_targets (parse E rawg) /\ targets_doc E "targets" (parse E rawg) top.

Lemma guard_ok b e s s' (r : res unit) : guard b e s = (s', r) -> s' = s /\ (r = Ok tt <-> b = false).
Proof. unfold guard. destruct b; intros H; inversion H; split; auto; split; auto; discriminate. Qed.

Lemma load_sec_same ty s s' r : load_or_security ty s = (s', r) -> s' = s.
Proof.
  unfold load_or_security. intros H. apply gets_inv in H. apply lift_inv in H.
  destruct H as [([x|] & _ & H) | (e & _ & H & _)]; [inversion H; auto..|exact H].
Qed.
Lemma image_verify_tgt_set E raw s s' r top : image_verify_targets E raw s = (s', r) -> u_itargets s = None -> u_itargets s' = Some top ->
  frame_tgt s s' /\ (forall h, In h (role_hashes (u_isnap s) "targets") -> digest_matches E raw h) /\ acceptable E (rt_ks (u_iroot s)) role_targets (parse E raw) /\ targets_doc E "targets" (parse E raw) top.
Proof.
  unfold image_verify_targets. intros H N T. apply gets_inv in H.
  apply lift_inv in H. destruct H as [([] & Hh & H) | (e & He & -> & ->)]; [|congruence].
  unfold verify_role_hashes in Hh. destruct (check_hashes _ _ _ _) as [o|] eqn:Hc; [|discriminate].
  apply check_hashes_spec in Hc. destruct Hc as (Hc1 & Hc2).
  apply gets_inv in H.
  apply lift_inv in H. destruct H as [(t & Ht & H) | (e & He & -> & ->)]; [|congruence].
  apply targets_signed_ok in Ht; [|apply standard_targets]. destruct Ht as (Ha & Hd).
  unfold mbind, set_itargets, modify, guard in H. cbn [u_itargets] in H.
  destruct (tg_version t =? role_version (u_isnap s) "targets"); simpl in H; inversion H; subst; clear H; simpl in T; inversion T; subst;
  (split; [repeat split; intros []; reflexivity|]); auto.
Qed.

(** Whatever the outcome of the Image check (its exceptions are dropped), loaded Targets were verified. *)
Lemma image_offline_targets E clk s s' r top : image_offline E clk s = (s', r) -> u_itargets s' = Some top ->
  image_ok_but_targets E clk s' top.
Proof.
  unfold image_offline. intros H Htop.
  apply mbind_inv in H. destruct H as [(s0 & [] & H0 & H) | (e & H0 & ->)].
  2: { apply image_reset_spec in H0. destruct H0; discriminate. }
  apply image_reset_spec in H0. destruct H0 as (_ & _ & _ & _ & _ & N0 & _).
  apply gets_inv in H. apply lift_inv in H. destruct H as [(so & _ & H) | (e & _ & -> & _)]; [|congruence].
  destruct so as [raw|]; [|inversion H; subst; congruence].
  apply mbind_inv in H. destruct H as [(s1 & [] & H1 & H) | (e & H1 & ->)].
  2:{ apply init_root_spec in H1. destruct H1 as (_ & _ & (_ & _ & _ & _ & _ & F) & _). congruence. }
  apply init_root_spec in H1. destruct H1 as (_ & _ & (_ & _ & _ & F1 & F2 & F3) & Hi).
  specialize (Hi eq_refl). simpl in Hi. assert (N1 : u_itargets s1 = None) by congruence. clear F1 F2 F3 N0.
  apply gets_inv in H.
  apply mbind_inv in H. destruct H as [(s2 & [] & H2 & H) | (e & H2 & ->)]; apply guard_ok in H2; destruct H2 as (-> & H2); [|congruence].
  assert (Hex := proj1 H2 eq_refl). clear H2. unfold root_expired in Hex. simpl in Hex.
  apply mbind_inv in H. destruct H as [(s3 & tr & H3 & H) | (e & H3 & ->)]; apply load_sec_same in H3; subst; [|congruence].
  apply mbind_inv in H. destruct H as [(s4 & [] & H4 & H) | (e & H4 & ->)]; apply image_verify_ts_spec in H4;
    destruct H4 as (_ & _ & R4 & _ & I4 & T4 & A4); [|congruence].
  specialize (A4 eq_refl). specialize (R4 Image). simpl in R4, A4. rewrite <- R4 in *. rewrite <- T4 in N1.
  apply mbind_inv in H. destruct H as [(s5 & [] & H5 & H) | (e & H5 & ->)]; apply gets_inv in H5; apply guard_ok in H5;
    destruct H5 as (-> & H5); [|congruence].
  apply (proj1) in H5. specialize (H5 eq_refl).
  apply mbind_inv in H. destruct H as [(s6 & sr & H6 & H) | (e & H6 & ->)]; apply load_sec_same in H6; subst; [|congruence].
  apply mbind_inv in H. destruct H as [(s7 & [] & H7 & H) | (e & H7 & ->)]; apply image_verify_snap_spec in H7;
    destruct H7 as ((_ & _ & R7 & _ & I7 & T7) & A7); [|congruence].
  specialize (A7 eq_refl). specialize (R7 Image). simpl in R7, A7. rewrite <- R7 in *. rewrite <- T7 in N1. rewrite <- I7 in *.
  apply mbind_inv in H. destruct H as [(s8 & [] & H8 & H) | (e & H8 & ->)]; apply gets_inv in H8; apply guard_ok in H8;
    destruct H8 as (-> & H8); [|congruence].
  apply (proj1) in H8. specialize (H8 eq_refl).
  apply mbind_inv in H. destruct H as [(s9 & gr & H9 & H) | (e & H9 & ->)]; apply load_sec_same in H9; subst; [|congruence].
  assert (exists s10 x, image_verify_targets E gr s7 = (s10, x) /\ s' = s10) as (s10 & x & Hv & ->).
  { apply mbind_inv in H. destruct H as [(s10 & [] & H10 & H) | (e & H10 & ->)]; [|eauto].
    exists s10, (Ok tt). split; auto. apply gets_inv in H.
    destruct (u_itargets s10); [apply guard_ok in H; apply H|inversion H; auto]. }
  apply (image_verify_tgt_set _ _ _ _ _ top) in Hv; auto. destruct Hv as ((_ & _ & R & _ & I & S) & D1 & D2 & D3).
  specialize (R Image). simpl in R. unfold image_ok_but_targets. rewrite R, I, S.
  exists raw, tr, sr, gr. do 8 (split; [assumption|]). assumption.
Qed.

Definition director_fresh (E : Env) (clk : clock) (s : ust) : Prop :=
  (exists raw, self_signed_root E raw (u_droot s)) /\ is_expired (rt_base (u_droot s)) (clk RRoot) = false /\ (exists raw, verified_targets E (u_droot s) raw (u_dtargets s)) /\ is_expired (tg_base (u_dtargets s)) (clk RTargets) = false /\ tg_deleg (u_dtargets s) = [] /\ one_target_per_ecu (u_dtargets s).
Lemma director_offline_accepts E clk s s' : director_offline E clk s = (s', Ok tt) -> director_fresh E clk s'.
Proof.
  unfold director_offline. intros H.
  apply mbind_inv in H. destruct H as [(s0 & [] & H0 & H) | (e & H0 & H)]; [|discriminate].
  apply director_reset_spec in H0. destruct H0 as (_ & _ & _ & T0 & L0 & _).
  apply gets_inv in H. apply lift_inv in H. destruct H as [(so & _ & H) | (e & _ & _ & H)]; [|discriminate].
  destruct so as [raw|]; [|discriminate].
  apply mbind_inv in H. destruct H as [(s1 & [] & H1 & H) | (e & H1 & H)]; [|discriminate].
  apply init_root_spec in H1. destruct H1 as (_ & _ & (_ & F1 & F2 & _) & Hi). specialize (Hi eq_refl). simpl in Hi.
  apply gets_inv in H. apply mbind_inv in H. destruct H as [(s2 & [] & H2 & H) | (e & H2 & H)]; [|discriminate].
  apply guard_ok in H2; destruct H2 as (-> & H2). apply proj1 in H2. specialize (H2 eq_refl). unfold root_expired in H2. simpl in H2.
  apply gets_inv in H. apply lift_inv in H. destruct H as [(to & _ & H) | (e & _ & _ & H)]; [|discriminate].
  destruct to as [traw|]; [|discriminate].
  apply mbind_inv in H. destruct H as [(s3 & [] & H3 & H) | (e & H3 & H)]; [|discriminate].
  apply director_verify_spec in H3. destruct H3 as [(e & H3 & _) | (_ & t & Hv & Hl & Hdt & _ & _ & R3 & _)]; [discriminate|].
  assert (Hemp : tg_targets (u_dtargets s1) = []) by (rewrite F1, T0; reflexivity). rewrite Hemp in Hdt. simpl in Hdt.
  apply director_tail_spec in H. destruct H as (-> & Hok). destruct (Hok eq_refl) as (X1 & X2 & X3). clear Hok.
  specialize (R3 Director). simpl in R3, Hv. unfold director_fresh. rewrite R3, Hdt. rewrite Hl in X1, X2. rewrite Hdt in X3.
  split; [eauto|]. split; [exact H2|]. split; [eauto|]. auto.
Qed.

Lemma image_offline_director E clk s s' r : image_offline E clk s = (s', r) -> keeps_director s s'.
Proof.
  assert (Hb : forall A B (m : M A) (k : A -> M B), (forall s s' r, m s = (s', r) -> keeps_director s s') ->
    (forall a s s' r, k a s = (s', r) -> keeps_director s s') -> forall s s' r, mbind m k s = (s', r) -> keeps_director s s').
  { intros A B m k Hm Hk a b x Hx. apply mbind_inv in Hx. destruct Hx as [(s1 & y & H1 & H2) | (e & H1 & _)].
    - apply Hm in H1. apply Hk in H2. destruct H1 as (?&?&?), H2 as (?&?&?). repeat split; congruence.
    - eapply Hm; eauto. }
  assert (Hi : forall raw s s' r, init_root E Image raw s = (s', r) -> keeps_director s s').
  { intros raw a b x Hx. apply init_root_spec in Hx. destruct Hx as (_ & _ & (F0 & F1 & F2 & _) & _).
    specialize (F0 Director ltac:(discriminate)). simpl in F0. repeat split; congruence. }
  revert s s' r.
  unfold image_offline, image_reset, load_or_security, image_verify_timestamp, image_check_timestamp_expired, image_verify_snapshot,
    image_check_snapshot_expired, image_verify_targets, image_check_targets_expired.
  repeat first [ apply Hb; [|intro]
    | match goal with |- forall s s' r, (match ?x with _ => _ end) s = _ -> _ => destruct x end
    | apply Hi
    | let H := fresh in intros ? ? ? H; cbv beta in H; first [apply guard_ok in H; destruct H as (-> & _); repeat split; fail
         | unfold set_root, set_itargets, set_isnap, set_itime, modify, gets, lift, throw, ret in H; inversion H; subst; repeat split] ].
Qed.

Theorem check_updates_offline_sound E fnm srv clkd clki now v ts s s' :
  check_updates_offline E fnm srv clkd clki now v ts s = (s', Ok OcAvailable) ->
  director_fresh E clkd s' /\
  exists top, u_itargets s' = Some top /\ image_ok_but_targets E clki s' top /\
  forall t, In t ts ->
    (exists d, In d (tg_targets (u_dtargets s')) /\ same_target d t /\
       (installed_readable v -> fits_vehicle v d /\ exists serial hw, In (serial, hw) (t_ecus d) /\ news_for v d serial)) /\
    exists i, vouched E fnm now (u_isnap s') top t i.
Proof.
  unfold check_updates_offline. intros H. destruct (v_pending v); [discriminate|]. destruct (nilb ts) eqn:Hts; [discriminate|].
  apply mbind_inv in H. destruct H as [(s1 & p & Hit & H) | (e & _ & H)]; [|discriminate].
  destruct (nilb (fst p)) eqn:Hnil; [discriminate|].
  apply mbind_inv in H. destruct H as [(s2 & [] & Hcf & H) | (e & _ & H)]; [|discriminate]. inversion H; subst; clear H.
  unfold uptane_offline_iteration in Hit.
  apply mbind_inv in Hit. destruct Hit as [(s3 & [] & Hd & Hit) | (e & _ & Hit)]; [|discriminate].
  apply gets_inv in Hit. apply lift_inv in Hit. destruct Hit as [(q & Hnew & Hit) | (e & _ & _ & Hit)]; [|discriminate].
  apply mbind_inv in Hit. destruct Hit as [(s4 & [] & Himg & Hit) | (e & _ & Hit)]; [|discriminate].
  inversion Hit; subst; clear Hit. rewrite Hnil in Himg.
  apply director_offline_accepts in Hd.
  assert (Hx : exists s5 x, image_offline E clki s3 = (s5, x) /\ s1 = s5).
  { unfold check_image_meta_offline in Himg. apply catch_inv in Himg. destruct Himg as [Hi | (s5 & e & Hi & _ & Hr)]; [eauto|].
    inversion Hr; subst. eauto. }
  destruct Hx as (s5 & x & Hi & <-). clear Himg.
  assert (Hk := image_offline_director _ _ _ _ _ Hi). destruct Hk as (K1 & K2 & K3).
  apply confirm_offline_spec in Hcf. destruct Hcf as ((O1 & O2 & O3 & O4 & O5 & O6 & O7 & O8) & Hcf). specialize (Hcf eq_refl).
  assert (Hne : Forall serials_nonempty (tg_targets (u_dtargets s3))).
  { destruct Hd as (_ & _ & (raw & (_ & Hdoc)) & _). eapply targets_doc_nonempty; eauto. }
  split.
  { unfold director_fresh in *. rewrite O2, O3, K1, K2. exact Hd. }
  destruct ts as [|t0 ts']; [discriminate|].
  destruct (Hcf t0 (or_introl eq_refl)) as (_ & top & i0 & Htop & _).
  exists top. split; [congruence|]. split.
  { apply (image_offline_targets _ _ _ _ _ top) in Hi; [|congruence]. unfold image_ok_but_targets in *. rewrite O5, O6, O7. exact Hi. }
  intros t Ht. destruct (Hcf t Ht) as ((d & Hdi & Hds) & top' & i & Htop' & Hv).
  assert (Htt : top' = top) by congruence. subst top'. rewrite O7, O3, K2. split; [|eauto].
  exists d. 
  assert (Hin : In d (tg_targets (u_dtargets s3))).
  { clear -Hnew Hdi. destruct p as (l, c). simpl in Hdi.
    assert (G : forall ts acc c l c', get_new_targets v ts acc c = Ok (l, c') -> forall d, In d l -> In d acc \/ In d ts).
    { induction ts as [|t ts IH]; intros acc c0 l0 c' H x Hx; simpl in H; [inversion H; subst; auto|].
      apply bind_ok in H. destruct H as ((n, c1) & _ & H). apply (IH _ _ _ _ H) in Hx.
      destruct Hx as [Hx|Hx]; [|right; now right]. simpl in Hx. destruct n; auto.
      apply in_app_or in Hx. destruct Hx as [|[<-|[]]]; auto. right; now left. }
    destruct (G _ _ _ _ _ Hnew d Hdi) as [[]|]; auto. }
  split; [exact Hin|]. split; [exact Hds|]. intros Hr. destruct p as (l, c). apply new_targets_spec in Hnew; auto.
  destruct Hnew as (Hf & Hn). split; [now apply Hf|]. apply Hn in Hdi. destruct Hdi as [[]|(_ & ?)]; auto.
Qed.

Theorem check_updates_offline_absent E fnm srv clkd clki now v ts s s1 t serial hw :
  director_offline E clkd s = (s1, Ok tt) -> installed_readable v -> In t (tg_targets (u_dtargets s1)) ->
  In (serial, hw) (t_ecus t) -> ~ ecu_present v serial hw ->
  forall s' r, check_updates_offline E fnm srv clkd clki now v ts s = (s', r) -> r = Ok OcError \/ exists e, r = Throw e.
Proof.
  intros Hd Hr Ht He Hp s' r H.
  assert (Hne : Forall serials_nonempty (tg_targets (u_dtargets s1))).
  { pose proof (director_offline_accepts _ _ _ _ Hd) as (_ & _ & (raw & (_ & Hdoc)) & _). eapply targets_doc_nonempty; eauto. }
  destruct (new_targets_absent v _ t serial hw [] 0 Hr Hne Ht He Hp) as (e & Hnew).
  unfold check_updates_offline in H. destruct (v_pending v); [inversion H; auto|]. destruct (nilb ts); [inversion H; auto|].
  unfold mbind, uptane_offline_iteration, mbind in H. rewrite Hd in H. unfold gets, lift in H. rewrite Hnew in H.
  inversion H; subst. right. eauto.
Qed.

(** ** Offline, the server is not asked *)
Lemma gtd_offline E a b name parent s : get_trusted_delegation E a true name parent s = get_trusted_delegation E b true name parent s.
Proof. reflexivity. Qed.
Lemma bind_ext {A B} (m1 m2 : M A) (k1 k2 : A -> M B) s :
  m1 s = m2 s -> (forall x s', k1 x s' = k2 x s') -> (let* x := m1 in k1 x) s = (let* x := m2 in k2 x) s.
Proof. intros H K. unfold mbind. rewrite H. destruct (m2 s) as (s', [x|e]); auto. Qed.
Lemma helper_offline E fnm a b now q fuel : forall term cur s,
  find_target_helper E fnm a now true q fuel term cur s = find_target_helper E fnm b now true q fuel term cur s.
Proof.
  induction fuel as [|f IH]; intros term cur s; cbn [find_target_helper].
  - reflexivity.
  - destruct (find _ _); [reflexivity|]. destruct term; [reflexivity|].
    generalize (tg_deleg cur) as names. intros names. revert s. induction names as [|n rest IHn]; intros s; [reflexivity|].
    apply bind_ext; [reflexivity|]. intros r s1. destruct (aget (r_name r) (tg_paths cur)) as [ps|]; [|apply IHn].
    destruct (existsb _ ps); [|apply IHn]. apply bind_ext; [apply gtd_offline|]. intros d s2.
    destruct (is_expired _ _); [apply IHn|]. destruct (aget (r_name r) (tg_term cur)) as [tm|]; [|reflexivity].
    apply bind_ext; [apply IH|]. intros [t|] s3; [reflexivity|apply IHn].
Qed.
Lemma tree_offline E fnm a b now q s : find_target_in_tree E fnm a now true q s = find_target_in_tree E fnm b now true q s.
Proof. apply bind_ext; [reflexivity|]. intros [t|] s'; [apply helper_offline|reflexivity]. Qed.
Lemma confirm_offline_same E fnm a b now dts ts : forall s, confirm_offline E fnm a now dts ts s = confirm_offline E fnm b now dts ts s.
Proof.
  induction ts as [|t ts IH]; intros s; [reflexivity|]. cbn [confirm_offline]. destruct (existsb _ dts); [|reflexivity].
  apply bind_ext; [apply tree_offline|]. intros [x|] s'; [apply IH|reflexivity].
Qed.
Lemma offline_same E fnm a b clkd clki now v ts s :
  check_updates_offline E fnm a clkd clki now v ts s = check_updates_offline E fnm b clkd clki now v ts s.
Proof.
  unfold check_updates_offline. destruct (v_pending v); [reflexivity|]. destruct (nilb ts); [reflexivity|].
  apply bind_ext; [reflexivity|]. intros p s1. destruct (nilb (fst p)); [reflexivity|].
  apply bind_ext; [apply confirm_offline_same|]. reflexivity.
Qed.
