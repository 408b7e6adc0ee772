From Verif Require Import Base Json TufModel TufSpec TufProofs MetaStore RepoModel RepoSpec RepoProofs.

(** ** Database lemmas *)
Lemma find_app {A} (p : A -> bool) l1 l2 :
  find p (l1 ++ l2) = match find p l1 with Some x => Some x | None => find p l2 end.
Proof. induction l1; simpl; auto. destruct (p a); auto. Qed.
Lemma find_filter_same {A} (p q : A -> bool) l : (forall x, p x = true -> q x = true) -> find p (filter q l) = find p l.
Proof.
  intros H. induction l; simpl; auto. destruct (q a) eqn:Hq; simpl; destruct (p a) eqn:Hp; auto.
  apply H in Hp. congruence.
Qed.
Lemma find_filter_none {A} (p q : A -> bool) l : (forall x, p x = true -> q x = false) -> find p (filter q l) = None.
Proof.
  intros H. induction l; simpl; auto. destruct (q a) eqn:Hq; simpl; auto. destruct (p a) eqn:Hp; auto.
  apply H in Hp. congruence.
Qed.
Lemma is_row_true rp ty r : is_row rp ty r = true <-> w_repo r = rp /\ w_type r = ty.
Proof. unfold is_row. rewrite andb_true_iff, repo_eqb_eq, rkind_eqb_eq. tauto. Qed.
Lemma is_row_v_true rp ty v r : is_row_v rp ty v r = true <-> w_repo r = rp /\ w_type r = ty /\ w_ver r = v.
Proof. unfold is_row_v. rewrite andb_true_iff, is_row_true, Z.eqb_eq. tauto. Qed.

Lemma stored_root_store rp v d raw : stored_root rp v (store_root raw rp v d) = Some raw.
Proof.
  unfold stored_root, store_root. simpl. rewrite find_app, find_filter_none.
  - simpl. unfold is_row_v, is_row. simpl. rewrite repo_eqb_refl, Z.eqb_refl. reflexivity.
  - intros x ->. reflexivity.
Qed.
Lemma stored_root_store_other rp rp' v v' d raw : (rp' <> rp \/ v' <> v) ->
  stored_root rp' v' (store_root raw rp v d) = stored_root rp' v' d.
Proof.
  intros Hne. unfold stored_root, store_root. simpl. rewrite find_app, find_filter_same.
  - destruct (find (is_row_v rp' RRoot v') (d_meta d)); auto. simpl.
    destruct (is_row_v rp' RRoot v' _) eqn:H; auto. apply is_row_v_true in H. simpl in H. destruct Hne; intuition congruence.
  - intros x H. apply is_row_v_true in H. apply negb_true_iff. destruct (is_row_v rp RRoot v x) eqn:G; auto.
    apply is_row_v_true in G. destruct Hne; intuition congruence.
Qed.
Lemma stored_root_clear rp rp' v d : stored_root rp' v (clear_nonroot rp d) = stored_root rp' v d.
Proof.
  unfold stored_root, clear_nonroot. simpl. rewrite find_filter_same; auto.
  intros x H. apply is_row_v_true in H. destruct H as (_ & -> & _). simpl. now rewrite andb_false_r.
Qed.
Lemma stored_root_nonroot rp rp' ty v d raw : ty <> RRoot ->
  stored_root rp' v (store_nonroot raw rp ty d) = stored_root rp' v d.
Proof.
  intros Hty. unfold stored_root, store_nonroot. simpl. rewrite find_app, find_filter_same.
  - destruct (find (is_row_v rp' RRoot v) (d_meta d)); auto. simpl.
    destruct (is_row_v rp' RRoot v _) eqn:H; auto. apply is_row_v_true in H. simpl in H. intuition congruence.
  - intros x H. apply is_row_v_true in H. apply negb_true_iff. destruct (is_row rp ty x) eqn:G; auto.
    apply is_row_true in G. intuition congruence.
Qed.

(** Adding a chain whose versions are all above the first. *)
Lemma chain_versions_gt E R l R' : root_chain E R l R' -> forall v raw, In (v, raw) l -> rt_version R < v.
Proof.
  induction 1 as [|R R' R'' raw l (_ & _ & _ & Hv) Hc IH]; intros v raw' Hin; [inversion Hin|].
  destruct Hin as [Heq | Hin]; [inversion Heq; subst; lia|]. apply IH in Hin. lia.
Qed.
Lemma zget_in {A} v (l : list (Z * A)) a : zget v l = Some a -> In (v, a) l.
Proof.
  induction l as [|(k, b) l IH]; simpl; [discriminate|]. destruct (Z.eqb_spec v k); intros H.
  - inversion H; subst. now left.
  - right. auto.
Qed.

Lemma chain_db_roots E rp : forall R l R', root_chain E R l R' -> forall d, roots_added rp d (chain_db rp l d) l.
Proof.
  induction 1 as [|R R' R'' raw l Hn Hc IH]; intros d v; simpl; auto.
  rewrite IH. destruct (zget v l) eqn:Hz.
  - apply zget_in in Hz. apply (chain_versions_gt _ _ _ _ Hc) in Hz.
    destruct (Z.eqb_spec v (rt_version R')); [lia|reflexivity].
  - rewrite stored_root_clear. destruct (Z.eqb_spec v (rt_version R')).
    + subst. apply stored_root_store.
    + apply stored_root_store_other. now right.
Qed.
Lemma chain_dbs_roots E rp : forall R l R', root_chain E R l R' -> forall d d', In d' (chain_dbs rp l d) ->
  exists l1 R1, l1 <> [] /\ root_chain E R l1 R1 /\ roots_added rp d d' l1 /\ exists l2, l = l1 ++ l2.
Proof.
  induction 1 as [|R R' R'' raw l Hn Hc IH]; intros d d' Hin; [inversion Hin|].
  simpl in Hin.
  assert (H1 : roots_added rp d (store_root raw rp (rt_version R') d) [(rt_version R', raw)]).
  { intros v. simpl. destruct (Z.eqb_spec v (rt_version R')); [subst; apply stored_root_store|].
    apply stored_root_store_other; now right. }
  destruct Hin as [<- | [<- | Hin]].
  - exists [(rt_version R', raw)], R'. split; [discriminate|]. split; [econstructor; eauto; constructor|].
    split; auto. exists l; reflexivity.
  - exists [(rt_version R', raw)], R'. split; [discriminate|]. split; [econstructor; eauto; constructor|].
    split; [|exists l; reflexivity]. intros v. rewrite stored_root_clear. apply H1.
  - destruct (IH _ _ Hin) as (l1 & R1 & Hne & Hc1 & Hadd & l2 & Hl).
    exists ((rt_version R', raw) :: l1), R1. split; [discriminate|]. split; [econstructor; eauto|].
    split. 2: { exists l2. simpl. now rewrite Hl. }
    intros v. rewrite Hadd. simpl. destruct (zget v l1) eqn:Hz.
    + apply zget_in in Hz. apply (chain_versions_gt _ _ _ _ Hc1) in Hz.
      destruct (Z.eqb_spec v (rt_version R')); [lia|reflexivity].
    + rewrite stored_root_clear, H1. simpl. reflexivity.
Qed.

(** C03 for a device that already stores a root. *)
Theorem update_root_chain E srv clk rp s s' r raw0 :
  update_root E srv clk rp s = (s', r) -> u_log s = [] -> load_latest_root rp (u_db s) = Ok (Some raw0) ->
  (forall d', In d' (u_db s' :: u_log s') ->
     roots_unchanged rp (u_db s) d' \/
     exists R0 l R, self_signed_root E raw0 R0 /\ root_chain E R0 l R /\ roots_added rp (u_db s) d' l /\
       (forall v, v <= rt_version R0 -> stored_root rp v d' = stored_root rp v (u_db s))) /\
  (r = Ok tt -> exists R0 l, self_signed_root E raw0 R0 /\ root_chain E R0 l (get_root rp s') /\
     roots_added rp (u_db s) (u_db s') l).
Proof.
  intros H HL Hload. apply update_root_spec in H.
  destruct H as (o & l & Ro & Ho & D & L & F & Hfirst & _ & Hok). rewrite HL, app_nil_r in L.
  inversion Ho as [|raw0' R0 l' R Hload' Hss Hc | raw0' R0 l' R Hload' Hss Hc]; subst.
  - simpl in *. split.
    + intros d' [<- | Hin]; [|rewrite L in Hin; inversion Hin]. left. intros v. now rewrite D.
    + intros Hr. destruct (Hok Hr); discriminate.
  - assert (raw0' = raw0) by congruence. subst. simpl in *.
    assert (Hkeep : forall l1 R1 d', root_chain E R0 l1 R1 -> roots_added rp (u_db s) d' l1 ->
      forall v, v <= rt_version R0 -> stored_root rp v d' = stored_root rp v (u_db s)).
    { intros l1 R1 d' Hc1 Ha v Hv. rewrite Ha. destruct (zget v l1) eqn:Hz; auto.
      apply zget_in in Hz. apply (chain_versions_gt _ _ _ _ Hc1) in Hz. lia. }
    assert (Hfin : roots_added rp (u_db s) (u_db s') l).
    { rewrite D. eapply chain_db_roots; eauto. }
    split.
    + intros d' [<- | Hin].
      * right. exists R0, l, R. repeat (split; auto; try apply Hss). eauto.
      * rewrite L, app_nil_r in Hin. apply in_rev in Hin. right.
        destruct (chain_dbs_roots _ _ _ _ _ Hc _ _ Hin) as (l1 & R1 & _ & Hc1 & Ha & _).
        exists R0, l1, R1. repeat (split; auto; try apply Hss). eauto.
    + intros Hr. destruct (Hok Hr) as (Hro & _). inversion Hro; subst. eauto.
  - congruence.
Qed.

(** C03 for a device that stores no root yet. *)
Theorem update_root_first E srv clk rp s s' r :
  update_root E srv clk rp s = (s', r) -> u_log s = [] -> load_latest_root rp (u_db s) = Ok None ->
  (forall d', In d' (u_db s' :: u_log s') ->
     roots_unchanged rp (u_db s) d' \/
     exists raw0 R0 l R, srv rp "root" 1 = Ok raw0 /\ self_signed_root E raw0 R0 /\ root_chain E R0 l R /\
       forall v, stored_root rp v d' = match zget v l with Some raw => Some raw | None =>
                                         if v =? 1 then Some raw0 else stored_root rp v (u_db s) end).
Proof.
  intros H HL Hload. apply update_root_spec in H.
  destruct H as (o & l & Ro & Ho & D & L & F & Hfirst & _ & Hok). rewrite HL, app_nil_r in L.
  inversion Ho as [|raw0' R0 l' R Hload' Hss Hc | raw0 R0 l' R Hload' Hss Hc]; subst.
  - simpl in *. intros d' [<- | Hin]; [|rewrite L in Hin; inversion Hin]. left. intros v. now rewrite D.
  - congruence.
  - specialize (Hfirst raw0 eq_refl). simpl in *.
    assert (Hst : forall v, stored_root rp v (store_root raw0 rp 1 (u_db s)) = if v =? 1 then Some raw0 else stored_root rp v (u_db s)).
    { intros v. destruct (Z.eqb_spec v 1); [subst; apply stored_root_store | apply stored_root_store_other; now right]. }
    intros d' [<- | Hin].
    + right. exists raw0, R0, l, R. split; auto. split; auto. split; auto. intros v. rewrite D.
      rewrite (chain_db_roots _ _ _ _ _ Hc). now rewrite Hst.
    + rewrite L in Hin. apply in_app_or in Hin. destruct Hin as [Hin | [<- | []]].
      * apply in_rev in Hin. right.
        destruct (chain_dbs_roots _ _ _ _ _ Hc _ _ Hin) as (l1 & R1 & _ & Hc1 & Ha & _).
        exists raw0, R0, l1, R1. split; auto. split; auto. split; auto. intros v. rewrite Ha. now rewrite Hst.
      * right. exists raw0, R0, [], R0. split; auto. split; auto. split; [constructor|]. intros v. simpl. apply Hst.
Qed.

(** C06 *)
Theorem update_root_unexpired E srv clk rp s s' :
  update_root E srv clk rp s = (s', Ok tt) -> is_expired (rt_base (get_root rp s')) (clk RRoot) = false.
Proof.
  intros H. apply update_root_spec in H. destruct H as (o & l & Ro & _ & _ & _ & _ & _ & _ & Hok). now apply Hok.
Qed.

(** C05, first half *)
Lemma clear_nonroot_none rp d : no_nonroot rp (clear_nonroot rp d).
Proof.
  intros r Hin Hr. unfold clear_nonroot in Hin. simpl in Hin. apply filter_In in Hin. destruct Hin as [_ Hin].
  apply negb_true_iff in Hin. rewrite Hr, repo_eqb_refl in Hin. simpl in Hin. apply negb_false_iff in Hin.
  now apply rkind_eqb_eq.
Qed.
Lemma chain_db_nonroot rp : forall l d, l <> [] -> no_nonroot rp (chain_db rp l d).
Proof.
  induction l as [|(v, raw) l IH]; intros d Hne; [congruence|]. simpl.
  destruct l; [apply clear_nonroot_none|]. apply IH. discriminate.
Qed.
