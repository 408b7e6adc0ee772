(** The update check finds exactly the targets that are news, and the ECU count. *)
From Verif Require Import Base Json TufModel TufSpec TufProofs TufProofs2 MetaStore RepoModel RepoSpec RepoProofs RepoProofs2 RepoProofs3 RepoProofs4
  ClientModel ClientSpec ClientProofs ClientProofs2 ChkSpec CycProofs5.

Lemma selected_nil {A} (P : A -> Prop) l : selected P l [] -> forall x, In x l -> ~ P x.
Proof.
  remember [] as l0 eqn:E. induction 1; intros y Hy; [destruct Hy|discriminate|]. destruct Hy as [<- | Hy]; auto.
Qed.
Lemma new_targets_selected v : forall ts acc c l c', get_new_targets v ts acc c = Ok (l, c') -> installed_readable v ->
  Forall serials_nonempty ts -> exists l0, l = acc ++ l0 /\ selected (wanted v) ts l0.
Proof.
  induction ts as [|t ts IH]; intros acc c l c' H Hr Hne; simpl in H.
  - inversion H; subst. exists []. split; [now rewrite app_nil_r|constructor].
  - inversion Hne as [|? ? Hne1 Hne2]; subst. apply bind_ok in H. destruct H as ((n, c1) & Hsc & H). simpl in H.
    apply scan_spec in Hsc; auto. destruct Hsc as (_ & Hn). apply IH in H; auto. destruct H as (l0 & -> & Hs).
    destruct n.
    + exists (t :: l0). split; [now rewrite <- app_assoc|]. constructor; auto.
      destruct (proj1 Hn eq_refl) as [? | ?]; [discriminate|assumption].
    + exists l0. split; [reflexivity|]. apply sel_drop; auto. intros W.
      assert (false = true) by (apply Hn; right; exact W). discriminate.
Qed.

(** The check, step by step. *)
Lemma check_updates_inv E fnm srv clkd clki now v s s' r : check_updates E fnm srv clkd clki now v s = (s', Ok r) -> r <> UcError ->
  exists s1 updates count, director_update E srv clkd s = (s1, Ok tt) /\
    get_new_targets v (tg_targets (u_dtargets s1)) [] 0 = Ok (updates, count) /\
    u_dtargets s' = u_dtargets s1 /\
    ((updates = [] /\ r = UcNone /\ s' = s1) \/
     (updates <> [] /\ exists l s2, image_update E srv clki s1 = (s2, Ok tt) /\ r = UcUpdates l count /\
        confirm_with_image E fnm srv now updates s2 = (s', Ok l))).
Proof.
  intros H Hr. unfold check_updates in H.
  apply mbind_inv in H. destruct H as [(s1 & it & Hit & H) | (e & _ & H)]; [|discriminate].
  destruct it as [(updates, count)|]; [|inversion H; congruence].
  apply gets_inv in H. apply lift_inv in H. destruct H as [(st & _ & H) | (e & _ & _ & H)]; [|discriminate].
  destruct st as [st|]; [|inversion H; congruence].
  apply catch_inv in Hit. destruct Hit as [Hit | (sx & e & _ & _ & Hit)]; [|discriminate].
  apply mbind_inv in Hit. destruct Hit as [(s3 & p & Hup & Hit) | (e & _ & Hit)]; [|discriminate].
  inversion Hit; subst; clear Hit.
  unfold uptane_iteration in Hup.
  apply mbind_inv in Hup. destruct Hup as [(s4 & [] & Hd & Hup) | (e & _ & Hup)]; [|discriminate].
  apply gets_inv in Hup. apply lift_inv in Hup. destruct Hup as [(p & Hnew & Hup) | (e & _ & _ & Hup)]; [|discriminate].
  apply mbind_inv in Hup. destruct Hup as [(s5 & [] & Himg & Hup) | (e & _ & Hup)]; [|discriminate].
  inversion Hup; subst; clear Hup. simpl in Himg. exists s4, updates, count. split; [exact Hd|]. split; [exact Hnew|].
  destruct updates as [|u us]; cbn [nilb fst] in H, Himg.
  - inversion Himg; inversion H; subst. split; [congruence|]. left. auto.
  - assert (Hkd := image_update_director _ _ _ _ _ _ Himg). destruct Hkd as (_ & K2 & _).
    apply catch_inv in H. destruct H as [H | (sx & e & _ & _ & H)]; [|inversion H; congruence].
    apply mbind_inv in H. destruct H as [(s2 & l2 & Hcf & H) | (e & _ & H)]; [|discriminate].
    inversion H; subst; clear H.
    assert (Hc2 := Hcf). apply confirm_spec in Hc2. destruct Hc2 as ((O1 & O2 & O3 & _) & _).
    split; [congruence|]. right. split; [discriminate|]. exists l2, s1. auto.
Qed.

Theorem check_updates_exact E fnm srv clkd clki now v s s' l n :
  check_updates E fnm srv clkd clki now v s = (s', Ok (UcUpdates l n)) -> installed_readable v ->
  l <> [] /\ exists l0, selected (wanted v) (tg_targets (u_dtargets s')) l0 /\ Forall2 but_uri l0 l.
Proof.
  intros H Hr. apply check_updates_inv in H; [|discriminate].
  destruct H as (s1 & us & c & Hd & Hn & Ht & [(_ & H & _) | (Hne & l1 & s2 & Hi & H & Hc)]); [discriminate|].
  inversion H; subst; clear H. apply director_targets_nonempty in Hd.
  apply new_targets_selected in Hn; auto. destruct Hn as (l0 & -> & Hs).
  apply confirm_spec in Hc. destruct Hc as (_ & Hc). specialize (Hc _ eq_refl).
  assert (F : Forall2 but_uri l0 l1) by (clear -Hc; simpl in Hc; induction Hc as [|x y xs ys (Hb & _)]; constructor; auto).
  split; [intros ->; inversion F; subst; now apply Hne|]. exists l0. rewrite Ht. auto.
Qed.
Theorem check_updates_none E fnm srv clkd clki now v s s' :
  check_updates E fnm srv clkd clki now v s = (s', Ok UcNone) -> installed_readable v ->
  forall t, In t (tg_targets (u_dtargets s')) -> ~ wanted v t.
Proof.
  intros H Hr. apply check_updates_inv in H; [|discriminate].
  destruct H as (s1 & us & c & Hd & Hn & Ht & [(-> & _ & _) | (Hne & l1 & s2 & Hi & H & Hc)]); [|discriminate].
  apply director_targets_nonempty in Hd. apply new_targets_selected in Hn; auto. destruct Hn as (l0 & E0 & Hs).
  simpl in E0. subst l0. rewrite Ht. now apply selected_nil.
Qed.

(** ** When the check succeeds *)
Lemma scan_ok v t : forall ecus n c, installed_answers v -> (forall s h, In (s, h) ecus -> s <> "" /\ ecu_present v s h) ->
  (forall serial hw c, In (serial, hw) ecus -> v_installed v serial = Ok (Some (Some c)) -> t_filename c = t_filename t -> same_target c t) ->
  v_ostree v = false \/ is_ostree t = true ->
  exists p, scan_ecus v t ecus n c = Ok p.
Proof.
  induction ecus as [|(serial, hw) rest IH]; intros n c Ha Hp Hc Ho; simpl; [eauto|].
  destruct (Hp serial hw (or_introl eq_refl)) as (Hne & Hpr). apply hwid_present in Hpr; auto. rewrite Hpr, String.eqb_refl. simpl.
  destruct (Ha serial) as (cur & Hcur). rewrite Hcur. simpl.
  assert (Hos : (String.eqb (v_primary v) serial && (negb (is_ostree t) && v_ostree v))%bool = false)
    by (destruct Ho as [-> | ->]; rewrite ?Bool.andb_false_r; simpl; rewrite ?Bool.andb_false_r; reflexivity).
  assert (Hrest : forall n c, exists p, scan_ecus v t rest n c = Ok p)
    by (intros; apply IH; auto; [intros; apply Hp; now right|intros x y z Hx; apply (Hc x y z); now right]).
  destruct cur as [k|]; [|simpl; rewrite Hos; apply Hrest].
  destruct (match_target k t) eqn:Hm; simpl; [rewrite Hos; apply Hrest|].
  destruct (String.eqb_spec (t_filename k) (t_filename t)) as [Hf|]; simpl; [|rewrite Hos; apply Hrest].
  exfalso. assert (same_target k t) by (eapply Hc; eauto; now left). apply match_target_iff in H. congruence.
Qed.
Lemma new_targets_ok v : forall ts acc c, installed_answers v -> Forall serials_nonempty ts -> Forall (fits_vehicle v) ts ->
  Forall (no_clash v) ts -> Forall (fun t => v_ostree v = false \/ is_ostree t = true) ts ->
  exists p, get_new_targets v ts acc c = Ok p.
Proof.
  induction ts as [|t ts IH]; intros acc c Ha H1 H2 H3 H4; simpl; [eauto|].
  inversion H1; inversion H2; inversion H3; inversion H4; subst.
  destruct (scan_ok v t (t_ecus t) false c Ha) as (p & ->); auto. { intros s h Hi. split; [eauto|auto]. }
  simpl. now apply IH.
Qed.
Lemma confirm_ok E fnm srv now top s : u_itargets s = Some top -> forall l, Forall (listed top) l ->
  exists l', confirm_with_image E fnm srv now l s = (s, Ok l').
Proof.
  intros Ht. induction l as [|t l IH]; intros H; simpl; [now exists []|]. inversion H; subst.
  destruct (find_target_toplevel E fnm srv now false t s top Ht) as (i & Hf & _); [assumption|].
  unfold mbind. rewrite Hf. destruct IH as (l' & ->); [assumption|]. unfold ret. eauto.
Qed.
Lemma selected_in {A} (P : A -> Prop) l l0 : selected P l l0 -> forall x, In x l0 -> In x l.
Proof. induction 1; simpl; intros y; tauto || intuition. Qed.

Theorem check_succeeds E fnm srv clkd clki now v s s1 s2 top raw :
  director_update E srv clkd s = (s1, Ok tt) -> image_update E srv clki s1 = (s2, Ok tt) -> u_itargets s2 = Some top ->
  load_nonroot Director RTargets (u_db s1) = Ok (Some raw) ->
  installed_answers v -> v_ostree v = false ->
  (forall t, In t (tg_targets (u_dtargets s1)) -> fits_vehicle v t /\ listed top t /\ no_clash v t) ->
  exists s' r, check_updates E fnm srv clkd clki now v s = (s', Ok r) /\ r <> UcError.
Proof.
  intros Hd Hi Ht Hl Ha Ho Hall.
  assert (Hne := director_targets_nonempty _ _ _ _ _ Hd).
  destruct (new_targets_ok v (tg_targets (u_dtargets s1)) [] 0 Ha Hne) as ((us, c) & Hn).
  { apply Forall_forall. intros t H. now apply Hall. } { apply Forall_forall. intros t H. now apply Hall. }
  { apply Forall_forall. auto. }
  assert (Hr : installed_readable v) by (intros x Hx; destruct (Ha x) as (k & Hk); congruence).
  assert (Hs := Hn). apply new_targets_selected in Hs; auto. destruct Hs as (l0 & E0 & Hs). simpl in E0. subst l0.
  unfold check_updates, mbind, catch, uptane_iteration, mbind. rewrite Hd. unfold gets, lift. rewrite Hn. cbn [fst].
  destruct us as [|u us]; cbn [nilb]; unfold ret.
  - rewrite Hl. exists s1, UcNone. split; [reflexivity|discriminate].
  - rewrite Hi.
    assert (Hd2 := sd_image_update _ _ _ _ _ _ Hi RTargets).
    assert (Hl2 : load_nonroot Director RTargets (u_db s2) = Ok (Some raw)).
    { unfold load_nonroot in *. rewrite Hd2. exact Hl. }
    rewrite Hl2. destruct (confirm_ok E fnm srv now top s2 Ht (u :: us)) as (l' & Hc).
    { apply Forall_forall. intros t Hx. apply Hall. eapply selected_in; eauto. }
    cbn [nilb]. rewrite Hc. exists s2, (UcUpdates l' c). split; [reflexivity|discriminate].
Qed.

(** ** The number of ECUs *)
Lemma scan_count v t : forall ecus n c n' c', scan_ecus v t ecus n c = Ok (n', c') -> installed_readable v ->
  exists k, c' = c + Z.of_nat k /\ (k <= List.length ecus)%nat /\
  (exists l0, selected (fun e => news_for v t (fst e)) ecus l0 /\ (List.length l0 <= k)%nat /\
    (n = false -> (forall e, In e ecus -> news_for v t (fst e)) \/ (forall e, In e ecus -> ~ news_for v t (fst e)) -> k = List.length l0)) /\
  (n = true -> k = List.length ecus).
Proof.
  induction ecus as [|(serial, hw) rest IH]; intros n c n' c' H Hr; simpl in H.
  - inversion H; subst. exists 0%nat. split; [lia|]. split; [simpl; lia|]. split; [exists []; split; [constructor|auto]|auto].
  - destruct (get_ecu_hwid v serial) as [known|] eqn:Hk; [|discriminate].
    destruct (String.eqb_spec known hw) as [->|]; simpl in H; [|discriminate].
    apply bind_ok in H. destruct H as (cur & Hc & H). destruct cur as [current|]; [|exfalso; eapply Hr; eauto].
    apply bind_ok in H. destruct H as (n1 & Hn1 & H).
    destruct (_ && _)%bool; [discriminate|].
    assert (Hthis : (news_for v t serial /\ n1 = true) \/ (~ news_for v t serial /\ n1 = n)).
    { unfold news_for. destruct current as [c0|].
      - destruct (match_target c0 t) eqn:Hm.
        + right. inversion Hn1; subst. split; auto. intros (cur & Hcur & Hx). rewrite Hc in Hcur. inversion Hcur; subst.
          apply match_target_iff in Hm. tauto.
        + left. destruct (String.eqb_spec (t_filename c0) (t_filename t)); [discriminate|]. inversion Hn1; subst. split; auto.
          exists (Some c0). split; auto. split; auto. rewrite <- match_target_iff. congruence.
      - left. inversion Hn1; subst. split; auto. exists None. auto. }
    apply IH in H; auto. destruct H as (k & -> & Hk1 & (l0 & Hs & Hle & Heq) & Htr).
    exists (if n1 then Datatypes.S k else k). split; [destruct n1; lia|]. split; [simpl; destruct n1; lia|].
    destruct Hthis as [(Hw & ->) | (Hw & ->)].
    + split; [|intros _; simpl; now rewrite Htr].
      exists ((serial, hw) :: l0). split; [now constructor|]. split; [simpl; lia|]. intros _ Ha. simpl. f_equal. rewrite Htr; auto.
      destruct Ha as [Ha | Ha]; [|elim (Ha (serial, hw)); simpl; auto].
      assert (Hall : forall e, In e rest -> news_for v t (fst e)) by (intros; apply Ha; now right).
      clear -Hs Hall. induction Hs; auto; [simpl; f_equal; apply IHHs; intros; apply Hall; now right|].
      elim H. apply Hall. now left.
    + split; [|intros ->; simpl; now rewrite Htr].
      exists l0. split; [now apply sel_drop|]. split; [destruct n; lia|]. intros -> Ha. apply Heq; auto. right.
      destruct Ha as [Ha | Ha]; [elim Hw; apply (Ha (serial, hw)); now left|]. intros; apply Ha; now right.
Qed.
Definition news_pair (v : vehicle) (p : target * string) : Prop := news_for v (fst p) (snd p).
Lemma selected_app {A} (P : A -> Prop) a b a0 b0 : selected P a a0 -> selected P b b0 -> selected P (a ++ b) (a0 ++ b0).
Proof. induction 1; intros; simpl; auto; [constructor|apply sel_drop]; auto. Qed.
Lemma selected_map {A B} (f : A -> B) (P : B -> Prop) l l0 : selected (fun x => P (f x)) l l0 -> selected P (map f l) (map f l0).
Proof. induction 1; simpl; [constructor|constructor; auto|apply sel_drop; auto]. Qed.
Theorem new_targets_count v : forall ts acc c l n, get_new_targets v ts acc c = Ok (l, n) -> installed_readable v ->
  exists l0, selected (news_pair v) (assignments ts) l0 /\ c + Z.of_nat (List.length l0) <= n <= c + Z.of_nat (List.length (assignments ts)) /\
    ((forall t, In t ts -> (forall e, In e (t_ecus t) -> news_for v t (fst e)) \/ (forall e, In e (t_ecus t) -> ~ news_for v t (fst e))) ->
     n = c + Z.of_nat (List.length l0)).
Proof.
  induction ts as [|t ts IH]; intros acc c l n H Hr; simpl in H.
  - inversion H; subst. exists []. split; [constructor|]. simpl. split; [lia|]. intros _. lia.
  - apply bind_ok in H. destruct H as ((n1, c1) & Hsc & H). simpl in H.
    apply scan_count in Hsc; auto. destruct Hsc as (k & -> & Hk & (l1 & Hs1 & Hle & Heq) & _).
    apply IH in H; auto. destruct H as (l0 & Hs & Hb & Hu).
    exists (map (fun e => (t, fst e)) l1 ++ l0). split; [|split].
    + simpl. apply selected_app; auto. apply (selected_map (fun e => (t, fst e))). exact Hs1.
    + unfold assignments in *. simpl. rewrite !app_length, !map_length. lia.
    + intros Hall. rewrite app_length, map_length, Hu; [|intros; apply Hall; now right].
      rewrite (Heq eq_refl); [lia|]. apply Hall. now left.
Qed.

(** Also if some installed versions cannot be read: what is offered is new for an ECU whose version can. *)
Lemma scan_new v t : forall ecus n c c', scan_ecus v t ecus n c = Ok (true, c') -> n = true \/ exists s h, In (s, h) ecus /\ news_for v t s.
Proof.
  induction ecus as [|(serial, hw) rest IH]; intros n c c' H; cbn [scan_ecus] in H; [left; congruence|].
  destruct (get_ecu_hwid v serial) as [known|]; [|discriminate]. destruct (negb _); [discriminate|].
  apply bind_ok in H. destruct H as (cur & Hc & H). destruct cur as [current|]; [|left; congruence].
  apply bind_ok in H. destruct H as (n1 & Hn1 & H). destruct (_ && _)%bool; [discriminate|].
  apply IH in H. destruct H as [-> | (s & h & A & B)]; [|right; exists s, h; split; [right; exact A|exact B]].
  destruct n; [now left|right]. exists serial, hw. split; [now left|]. exists current. split; [exact Hc|].
  destruct current as [c0|]; [|exact Logic.I]. destruct (match_target c0 t) eqn:Hm; [discriminate|].
  destruct (String.eqb_spec (t_filename c0) (t_filename t)); [discriminate|]. split; [|assumption].
  intros Q. apply match_target_iff in Q. congruence.
Qed.
Lemma new_targets_new v : forall ts acc c l c', get_new_targets v ts acc c = Ok (l, c') ->
  forall t, In t l -> In t acc \/ (In t ts /\ exists s h, In (s, h) (t_ecus t) /\ news_for v t s).
Proof.
  induction ts as [|x ts IH]; intros acc c l c' H t Ht; cbn [get_new_targets] in H; [injection H as <- _; now left|].
  apply bind_ok in H. destruct H as ((n, c1) & Hsc & H). cbn [fst snd] in H. apply (IH _ _ _ _ H) in Ht.
  destruct Ht as [Ht | (A & B)]; [|right; split; [now right|exact B]].
  destruct n; [|now left]. apply in_app_or in Ht. destruct Ht as [Ht | [<- | []]]; [now left|].
  right. split; [now left|]. apply scan_new in Hsc. destruct Hsc as [|Hsc]; [discriminate|exact Hsc].
Qed.
Theorem check_updates_new E fnm srv clkd clki now v s s' l n :
  check_updates E fnm srv clkd clki now v s = (s', Ok (UcUpdates l n)) ->
  forall t', In t' l -> exists t serial hw, In t (tg_targets (u_dtargets s')) /\ but_uri t t' /\ In (serial, hw) (t_ecus t) /\ news_for v t serial.
Proof.
  intros H t' Ht'. apply check_updates_inv in H; [|discriminate].
  destruct H as (s1 & us & c & Hd & Hn & Ht & [(_ & H & _) | (Hne & l1 & s2 & Hi & H & Hc)]); [discriminate|]. injection H as <- <-.
  apply confirm_spec in Hc. destruct Hc as (_ & Hc). specialize (Hc _ eq_refl).
  assert (X : exists t, In t us /\ but_uri t t').
  { clear -Hc Ht'. induction Hc as [|a b la lb (Q & _) HC IH]; [destruct Ht'|]. destruct Ht' as [<- | Ht']; [exists a; split; [now left|exact Q]|].
    destruct (IH Ht') as (t & A & B). exists t. split; [now right|exact B]. }
  destruct X as (t & A & B). destruct (new_targets_new _ _ _ _ _ _ Hn t A) as [[] | (C & serial & hw & D & F)]. rewrite Ht. exists t, serial, hw. auto.
Qed.
