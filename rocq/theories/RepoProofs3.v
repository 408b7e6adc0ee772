From Verif Require Import Base Json TufModel TufSpec TufProofs MetaStore RepoModel RepoSpec RepoProofs RepoProofs2.

(** ** Selecting the newest row *)
Definition pick (a b : option row) : option row :=
  match a, b with
  | None, _ => b
  | _, None => a
  | Some x, Some y => if w_ver x <? w_ver y then Some y else Some x
  end.
Lemma pick_none_r a : pick a None = a. Proof. now destruct a. Qed.
Lemma pick_assoc a b c : pick (pick a b) c = pick a (pick b c).
Proof.
  destruct a as [a|], b as [b|], c as [c|]; simpl; auto; rewrite ?pick_none_r; auto.
  destruct (Z.ltb_spec (w_ver a) (w_ver b)), (Z.ltb_spec (w_ver b) (w_ver c)); simpl;
  repeat match goal with |- context [?x <? ?y] => destruct (Z.ltb_spec x y) end; auto; lia.
Qed.
Lemma max_row_pick l : forall acc, max_row l acc = pick acc (max_row l None).
Proof.
  induction l as [|r l IH]; intros acc; simpl; [now rewrite pick_none_r|].
  rewrite IH, (IH (Some r)). rewrite <- pick_assoc. destruct acc; reflexivity.
Qed.
Lemma max_row_app l1 l2 : max_row (l1 ++ l2) None = pick (max_row l1 None) (max_row l2 None).
Proof.
  induction l1 as [|r l1 IH]; simpl; [destruct (max_row l2 None); reflexivity|].
  rewrite max_row_pick, IH, (max_row_pick l1 (Some r)). now rewrite pick_assoc.
Qed.
Lemma max_row_in l r : max_row l None = Some r -> In r l /\ forall x, In x l -> w_ver x <= w_ver r.
Proof.
  revert r. induction l as [|a l IH]; intros r; simpl; [discriminate|].
  rewrite max_row_pick. destruct (max_row l None) as [m|] eqn:Hm; simpl.
  - destruct (IH m eq_refl) as (Hin & Hmax). destruct (Z.ltb_spec (w_ver a) (w_ver m)); intros Hr; inversion Hr; subst.
    + split; auto. intros x [<- | Hx]; [lia|auto].
    + split; auto. intros x [<- | Hx]; [lia|]. apply Hmax in Hx. lia.
  - intros Hr; inversion Hr; subst. split; auto. intros x [<- | Hx]; [lia|].
    destruct l as [|b l]; [inversion Hx|]. exfalso. clear -Hm. simpl in Hm. rewrite max_row_pick in Hm.
    destruct (max_row l None); simpl in Hm; [destruct (_ <? _)|]; discriminate.
Qed.
Lemma max_row_none l : max_row l None = None -> l = [].
Proof.
  destruct l as [|b l]; auto. simpl. rewrite max_row_pick.
  destruct (max_row l None); simpl; [destruct (_ <? _)|]; discriminate.
Qed.
Lemma max_row_filter p l b : max_row l None = Some b -> p b = true -> max_row (filter p l) None = Some b.
Proof.
  revert b. induction l as [|a l IH]; intros b; simpl; [discriminate|].
  rewrite max_row_pick. intros H Hp.
  destruct (max_row l None) as [m|] eqn:Hm; simpl in H.
  - destruct (Z.ltb_spec (w_ver a) (w_ver m)); inversion H; subst.
    + specialize (IH b eq_refl Hp). destruct (p a); simpl; [rewrite (max_row_pick _ (Some a)), IH; simpl|exact IH].
      destruct (Z.ltb_spec (w_ver a) (w_ver b)); [reflexivity|lia].
    + rewrite Hp. simpl. rewrite max_row_pick.
      destruct (max_row (filter p l) None) as [q|] eqn:Hq; simpl; auto.
      apply max_row_in in Hq. destruct Hq as (Hq & _). apply filter_In in Hq.
      apply max_row_in in Hm. destruct Hm as (_ & Hm). destruct Hq as (Hq & _). apply Hm in Hq.
      destruct (Z.ltb_spec (w_ver b) (w_ver q)); [lia|reflexivity].
  - inversion H; subst. rewrite Hp. simpl. apply max_row_none in Hm. subst. reflexivity.
Qed.
Lemma filter_filter {A} (p q : A -> bool) l : filter p (filter q l) = filter (fun x => q x && p x) l.
Proof. induction l; simpl; auto. destruct (q a); simpl; [destruct (p a)|]; now rewrite ?IHl. Qed.
Lemma filter_ext_in' {A} (p q : A -> bool) l : (forall x, p x = q x) -> filter p l = filter q l.
Proof. intros H. apply filter_ext. auto. Qed.

(** The newest stored root after storing [raw] as version [v]. *)
Lemma latest_store_root rp v raw d :
  latest_row rp RRoot (store_root raw rp v d) =
    match latest_row rp RRoot d with
    | Some w => if v <? w_ver w then Some w else Some {| w_data := raw; w_repo := rp; w_type := RRoot; w_ver := v |}
    | None => Some {| w_data := raw; w_repo := rp; w_type := RRoot; w_ver := v |}
    end.
Proof.
  unfold latest_row, store_root. simpl. rewrite filter_app. simpl.
  unfold is_row at 2. simpl. rewrite repo_eqb_refl. simpl.
  rewrite max_row_app. simpl. rewrite filter_filter.
  rewrite (filter_ext_in' _ (fun x => is_row rp RRoot x && negb (w_ver x =? v))).
  2: { intros x. unfold is_row_v. destruct (is_row rp RRoot x); simpl; [now rewrite andb_true_r|]. reflexivity. }
  rewrite <- (filter_filter (fun x => negb (w_ver x =? v)) (is_row rp RRoot)).
  destruct (max_row (filter (is_row rp RRoot) (d_meta d)) None) as [w|] eqn:Hw.
  - destruct (Z.ltb_spec v (w_ver w)).
    + rewrite (max_row_filter _ _ _ Hw). 2: { apply negb_true_iff, Z.eqb_neq. lia. }
      simpl. destruct (Z.ltb_spec (w_ver w) v); [lia|reflexivity].
    + destruct (max_row (filter (fun x : row => negb (w_ver x =? v)) _) None) as [q|] eqn:Hq; simpl; auto.
      apply max_row_in in Hq. destruct Hq as (Hq & _). apply filter_In in Hq. destruct Hq as (Hq & Hne).
      apply max_row_in in Hw. destruct Hw as (_ & Hw). apply Hw in Hq.
      apply negb_true_iff, Z.eqb_neq in Hne. destruct (Z.ltb_spec (w_ver q) v); [reflexivity|lia].
  - apply max_row_none in Hw. rewrite Hw. reflexivity.
Qed.

(** Rows of another kind are not affected. *)
Lemma latest_store_root_other rp rp' ty v raw d : (rp' <> rp \/ ty <> RRoot) ->
  latest_row rp' ty (store_root raw rp v d) = latest_row rp' ty d.
Proof.
  intros Hne. unfold latest_row, store_root. simpl. rewrite filter_app. simpl.
  replace (is_row rp' ty _) with false.
  2: { symmetry. destruct (is_row rp' ty _) eqn:H; auto. apply is_row_true in H. simpl in H. destruct Hne; intuition congruence. }
  rewrite app_nil_r, filter_filter. f_equal. apply filter_ext. intros x.
  destruct (is_row rp' ty x) eqn:H; [|now rewrite andb_false_r]. rewrite andb_true_r. apply negb_true_iff.
  destruct (is_row_v rp RRoot v x) eqn:G; auto. apply is_row_true in H. apply is_row_v_true in G.
  destruct Hne; intuition congruence.
Qed.
Lemma latest_clear_root rp rp' d : latest_row rp' RRoot (clear_nonroot rp d) = latest_row rp' RRoot d.
Proof.
  unfold latest_row, clear_nonroot. simpl. rewrite filter_filter. f_equal. apply filter_ext. intros x.
  destruct (is_row rp' RRoot x) eqn:H; [|now rewrite andb_false_r]. apply is_row_true in H. destruct H as (_ & ->).
  simpl. now rewrite andb_false_r.
Qed.
Lemma latest_clear_other rp rp' ty d : rp' <> rp -> latest_row rp' ty (clear_nonroot rp d) = latest_row rp' ty d.
Proof.
  intros Hne. unfold latest_row, clear_nonroot. simpl. rewrite filter_filter. f_equal. apply filter_ext. intros x.
  destruct (is_row rp' ty x) eqn:H; [|now rewrite andb_false_r]. apply is_row_true in H. destruct H as (H & _).
  rewrite andb_true_r, H. destruct rp, rp'; simpl; auto; congruence.
Qed.
Lemma latest_store_nonroot rp ty raw d :
  latest_row rp ty (store_nonroot raw rp ty d) = Some {| w_data := raw; w_repo := rp; w_type := ty; w_ver := -1 |}.
Proof.
  unfold latest_row, store_nonroot. simpl. rewrite filter_app, filter_filter.
  rewrite (filter_ext_in' _ (fun _ => false)).
  2: { intros x. destruct (is_row rp ty x); reflexivity. }
  replace (filter (fun _ : row => false) (d_meta d)) with (@nil row) by (induction (d_meta d); auto).
  simpl. unfold is_row. simpl. rewrite repo_eqb_refl, rkind_eqb_refl. reflexivity.
Qed.
Lemma latest_store_nonroot_other rp rp' ty ty' raw d : (rp' <> rp \/ ty' <> ty) ->
  latest_row rp' ty' (store_nonroot raw rp ty d) = latest_row rp' ty' d.
Proof.
  intros Hne. unfold latest_row, store_nonroot. simpl. rewrite filter_app. simpl.
  replace (is_row rp' ty' _) with false.
  2: { symmetry. destruct (is_row rp' ty' _) eqn:H; auto. apply is_row_true in H. simpl in H. destruct Hne; intuition congruence. }
  rewrite app_nil_r, filter_filter. f_equal. apply filter_ext. intros x.
  destruct (is_row rp' ty' x) eqn:H; [|now rewrite andb_false_r]. rewrite andb_true_r. apply negb_true_iff.
  destruct (is_row rp ty x) eqn:G; auto. apply is_row_true in H, G. destruct Hne; intuition congruence.
Qed.

Lemma nul_free_blob raw : nul_free raw -> blob_to_string raw = Ok raw.
Proof. intros (H1 & H2). unfold blob_to_string. destruct raw; [congruence|]. now rewrite H2. Qed.
Lemma load_store_nonroot rp ty raw d : nul_free raw -> load_nonroot rp ty (store_nonroot raw rp ty d) = Ok (Some raw).
Proof. intros H. unfold load_nonroot. rewrite latest_store_nonroot. simpl. now rewrite nul_free_blob. Qed.

(** ** C04: the newest root's version *)
Lemma newest_step E rp d v R raw R' :
  newest_root_version E rp d v -> v <= rt_version R -> next_root E R raw R' -> nul_free raw ->
  exists v', newest_root_version E rp (store_root raw rp (rt_version R') d) v' /\ v <= v' <= rt_version R'.
Proof.
  intros (raw0 & R0 & Hload & Hj & Hv) Hle (HJ & _ & _ & HV) Hnf.
  unfold newest_root_version, load_latest_root in *. rewrite latest_store_root.
  destruct (latest_row rp RRoot d) as [w|] eqn:Hw; [|discriminate].
  destruct (rt_version R' <? w_ver w).
  - exists v. split; [|lia]. exists raw0, R0. auto.
  - exists (rt_version R'). split; [|lia]. exists raw, R'. simpl. rewrite nul_free_blob; auto.
Qed.
Lemma newest_clear E rp rp' d v : newest_root_version E rp d v -> newest_root_version E rp (clear_nonroot rp' d) v.
Proof. unfold newest_root_version, load_latest_root. now rewrite latest_clear_root. Qed.
Lemma newest_store_other E rp rp' d v raw v' : rp <> rp' -> newest_root_version E rp d v ->
  newest_root_version E rp (store_root raw rp' v' d) v.
Proof. intros H. unfold newest_root_version, load_latest_root. rewrite latest_store_root_other; auto. Qed.
Lemma newest_store_nonroot E rp rp' ty d v raw : ty <> RRoot -> newest_root_version E rp d v ->
  newest_root_version E rp (store_nonroot raw rp' ty d) v.
Proof. intros H. unfold newest_root_version, load_latest_root. rewrite latest_store_nonroot_other; auto. Qed.

(** Every document of a chain was served. *)
Definition chain_clean (l : list (Z * string)) : Prop := forall v raw, In (v, raw) l -> nul_free raw.

Lemma newest_chain E rp : forall R l R', root_chain E R l R' -> chain_clean l ->
  forall d v, newest_root_version E rp d v -> v <= rt_version R ->
  forall d', In d' (d :: chain_db rp l d :: chain_dbs rp l d) ->
  exists v', newest_root_version E rp d' v' /\ v <= v'.
Proof.
  induction 1 as [R | R R' R'' raw l Hn Hc IH]; intros Hcl d v Hnew Hle d' Hin.
  - simpl in Hin. exists v. split; [|lia]. intuition; subst; auto.
  - destruct (newest_step E rp d v R raw R' Hnew Hle Hn) as (v1 & Hnew1 & Hv1).
    { apply (Hcl (rt_version R')). now left. }
    pose proof (newest_clear E rp rp _ _ Hnew1) as Hnew2.
    destruct Hin as [<- | Hin]. { exists v. split; auto. lia. }
    simpl in Hin. destruct Hin as [Hin | [<- | [<- | Hin]]].
    + destruct (IH (fun a b h => Hcl a b (or_intror h)) _ v1 Hnew2 ltac:(lia) d') as (v' & Hv' & Hle').
      { right. left. exact Hin. } exists v'. split; auto. lia.
    + exists v1. split; auto. lia.
    + exists v1. split; auto. lia.
    + destruct (IH (fun a b h => Hcl a b (or_intror h)) _ v1 Hnew2 ltac:(lia) d') as (v' & Hv' & Hle').
      { right. right. exact Hin. } exists v'. split; auto. lia.
Qed.
Lemma newest_chain_other E rp rp' : rp <> rp' -> forall l d v, newest_root_version E rp d v ->
  forall d', In d' (d :: chain_db rp' l d :: chain_dbs rp' l d) -> newest_root_version E rp d' v.
Proof.
  intros Hne. induction l as [|(x, raw) l IH]; intros d v H d' Hin.
  - simpl in Hin. intuition; subst; auto.
  - destruct Hin as [<- | Hin]; auto.
    assert (H1 := newest_store_other E rp rp' d v raw x Hne H). assert (H2 := newest_clear E rp rp' _ _ H1).
    simpl in Hin. destruct Hin as [Hin | [<- | [<- | Hin]]]; auto.
    + apply (IH _ _ H2). right. now left.
    + apply (IH _ _ H2). right. now right.
Qed.

(** ** The blocks after the root update only store non-root metadata. *)
(** [block rp tys s s']: the block wrote at most some documents of kinds [tys] of [rp]; [ws] are the documents, oldest first. *)
Fixpoint stores (rp : repo) (ws : list (rkind * string)) (d : db) : db :=
  match ws with [] => d | (ty, raw) :: ws' => stores rp ws' (store_nonroot raw rp ty d) end.
Fixpoint stores_dbs (rp : repo) (ws : list (rkind * string)) (d : db) : list db :=
  match ws with [] => [] | (ty, raw) :: ws' => store_nonroot raw rp ty d :: stores_dbs rp ws' (store_nonroot raw rp ty d) end.
Definition wrote (rp : repo) (ws : list (rkind * string)) (s s' : ust) : Prop :=
  u_db s' = stores rp ws (u_db s) /\ u_log s' = rev (stores_dbs rp ws (u_db s)) ++ u_log s.
Lemma wrote_nil rp s s' : u_db s' = u_db s -> u_log s' = u_log s -> wrote rp [] s s'.
Proof. split; auto. Qed.
Lemma stores_app rp a b d : stores rp (a ++ b) d = stores rp b (stores rp a d).
Proof. revert d. induction a as [|(t, r) a IH]; simpl; auto. Qed.
Lemma stores_dbs_app rp a b d : stores_dbs rp (a ++ b) d = stores_dbs rp a d ++ stores_dbs rp b (stores rp a d).
Proof. revert d. induction a as [|(t, r) a IH]; intros; simpl; auto. now rewrite IH. Qed.
Lemma wrote_app rp a b s s1 s' : wrote rp a s s1 -> wrote rp b s1 s' -> wrote rp (a ++ b) s s'.
Proof.
  intros (H1 & H2) (H3 & H4). split.
  - rewrite stores_app. congruence.
  - rewrite H4, H2, stores_dbs_app, rev_app_distr, H1, <- app_assoc. reflexivity.
Qed.
Lemma wrote_one rp ty raw s s' (x : res unit) : write (store_nonroot raw rp ty) s = (s', x) -> wrote rp [(ty, raw)] s s'.
Proof. intros H. apply write_spec in H. destruct H as (_ & D & L & _). split; auto. Qed.
Lemma newest_stores E rp rp' ws d v : Forall (fun w => fst w <> RRoot) ws -> newest_root_version E rp d v ->
  forall d', In d' (d :: stores rp' ws d :: stores_dbs rp' ws d) -> newest_root_version E rp d' v.
Proof.
  intros Hf. revert d. induction Hf as [|(ty, raw) ws H1 H2 IH]; intros d Hn d' Hin.
  - simpl in Hin. intuition; subst; auto.
  - destruct Hin as [<- | Hin]; auto. simpl in Hin.
    assert (Hn1 := newest_store_nonroot E rp rp' ty d v raw H1 Hn).
    apply (IH _ Hn1). destruct Hin as [Hin | [Hin | Hin]].
    + right. left. exact Hin.
    + left. exact Hin.
    + right. right. exact Hin.
Qed.
