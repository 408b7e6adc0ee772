From Verif Require Import Base Json TufModel TufSpec MetaStore RepoModel RepoSpec RepoProofs2 RepoProofs3.

(** ** C50: the tables implement a finite map *)
Definition clean_db (d : db) : Prop := forall r, In r (d_meta d) -> nul_free (w_data r).
Definition deleg_clean (d : db) : Prop := forall p, In p (d_deleg d) -> nul_free (snd p).
Record refines (d : db) (m : meta_map) : Prop := {
  rf_root : forall rp v, stored_root rp v d = mm_root m rp v;
  rf_meta : forall rp ty, ty <> RRoot -> option_map w_data (latest_row rp ty d) = mm_meta m rp ty;
  rf_del : forall n, aget n (d_deleg d) = mm_deleg m n;
  rf_clean : clean_db d; rf_dclean : deleg_clean d
}.
Lemma repo_eqb_true a b : repo_eqb a b = true <-> a = b. Proof. destruct a, b; simpl; split; congruence. Qed.
Lemma rkind_eqb_true a b : rkind_eqb a b = true <-> a = b. Proof. destruct a, b; simpl; split; congruence. Qed.

Lemma aget_del n k (l : list (string * string)) : aget k (del_name n l) = if String.eqb k n then None else aget k l.
Proof.
  induction l as [|(a, b) l IH]; simpl; [now destruct (String.eqb k n)|].
  destruct (String.eqb_spec a n); simpl.
  - subst. rewrite IH. destruct (String.eqb_spec k n); auto.
  - destruct (String.eqb_spec k a); subst; [|apply IH]. destruct (String.eqb_spec a n); congruence.
Qed.
Lemma aget_app {A} k (l1 l2 : list (string * A)) : aget k (l1 ++ l2) = match aget k l1 with Some x => Some x | None => aget k l2 end.
Proof. induction l1 as [|(a, b) l1 IH]; simpl; auto. destruct (String.eqb k a); auto. Qed.

Lemma refines_step o d m : storable o -> refines d m -> refines (db_store o d) (mm_step o m).
Proof.
  intros Hs [R M D C DC]. destruct o as [raw rp v | raw rp ty | rp | | raw n | n | ]; simpl in *.
  - constructor; simpl; auto.
    + intros rp' v'. destruct (repo_eqb rp' rp && (v' =? v)) eqn:Hb.
      * apply andb_true_iff in Hb. destruct Hb as (H1 & H2). apply repo_eqb_true in H1. apply Z.eqb_eq in H2. subst. apply stored_root_store.
      * rewrite stored_root_store_other; auto. apply andb_false_iff in Hb. destruct Hb as [Hb | Hb].
        -- left. intros ->. destruct rp; discriminate.
        -- right. intros ->. now rewrite Z.eqb_refl in Hb.
    + intros rp' ty Hty. rewrite latest_store_root_other; auto.
    + intros r Hin. simpl in Hin. apply in_app_or in Hin. destruct Hin as [Hin | [<- | []]]; auto.
      apply filter_In in Hin. apply C; tauto.
  - destruct Hs as (Hnf & Hty). constructor; simpl; auto.
    + intros rp' v'. rewrite stored_root_nonroot; auto.
    + intros rp' ty' Hty'. destruct (repo_eqb rp' rp && rkind_eqb ty' ty) eqn:Hb.
      * apply andb_true_iff in Hb. destruct Hb as (H1 & H2). apply repo_eqb_true in H1. apply rkind_eqb_true in H2. subst.
        now rewrite latest_store_nonroot.
      * rewrite latest_store_nonroot_other; auto. apply andb_false_iff in Hb. destruct Hb as [Hb | Hb].
        -- left. intros ->. destruct rp; discriminate.
        -- right. intros ->. destruct ty; discriminate.
    + intros r Hin. simpl in Hin. apply in_app_or in Hin. destruct Hin as [Hin | [<- | []]]; auto.
      apply filter_In in Hin. apply C; tauto.
  - constructor; simpl; auto.
    + intros rp' v'. now rewrite stored_root_clear.
    + intros rp' ty Hty. destruct (repo_eqb rp' rp) eqn:Hb.
      * apply repo_eqb_true in Hb. subst. unfold latest_row, clear_nonroot. simpl. rewrite filter_filter.
        rewrite (filter_ext_in' _ (fun _ => false)).
        { replace (filter (fun _ : row => false) (d_meta d)) with (@nil row); auto. induction (d_meta d); auto. }
        intros x. destruct (is_row rp ty x) eqn:Hx; [|now rewrite andb_false_r]. apply is_row_true in Hx. destruct Hx as (-> & ->).
        replace (rkind_eqb ty RRoot) with false by (destruct ty; auto; congruence). now destruct rp.
      * rewrite latest_clear_other; auto. intros ->. destruct rp; discriminate.
    + intros r Hin. simpl in Hin. apply filter_In in Hin. apply C; tauto.
  - constructor; simpl; auto; intros r [].
  - constructor; simpl; auto.
    + intros k. rewrite aget_app, aget_del. simpl. destruct (String.eqb k n); auto. rewrite D. destruct (mm_deleg m k); auto.
    + intros p Hin. simpl in Hin. apply in_app_or in Hin. destruct Hin as [Hin | [<- | []]]; auto.
      apply filter_In in Hin. apply DC; tauto.
  - constructor; simpl; auto.
    + intros k. rewrite aget_del. destruct (String.eqb k n); auto.
    + intros p Hin. simpl in Hin. apply filter_In in Hin. apply DC; tauto.
  - constructor; simpl; auto. intros p [].
Qed.

Lemma refines_empty : refines db_empty mm_empty.
Proof. constructor; simpl; auto; intros r []. Qed.

Lemma refines_run ops : forall d m, Forall storable ops -> refines d m ->
  refines (fold_left (fun d o => db_store o d) ops d) (fold_left (fun m o => mm_step o m) ops m).
Proof.
  induction ops as [|o ops IH]; intros d m Hf Hr; simpl; auto. inversion Hf; subst. apply IH; auto. now apply refines_step.
Qed.

Lemma latest_stored rp d : match latest_row rp RRoot d with
  | Some w => exists w', In w' (d_meta d) /\ w_repo w' = rp /\ w_type w' = RRoot /\ w = w' /\
              forall v, stored_root rp v d <> None -> v <= w_ver w
  | None => forall v, stored_root rp v d = None
  end.
Proof.
  unfold latest_row. destruct (max_row (filter (is_row rp RRoot) (d_meta d)) None) as [w|] eqn:Hm.
  - apply max_row_in in Hm. destruct Hm as (Hin & Hmax). apply filter_In in Hin. destruct Hin as (Hin & Hr). apply is_row_true in Hr.
    exists w. repeat split; try tauto. intros v Hv. unfold stored_root in Hv.
    destruct (find (is_row_v rp RRoot v) (d_meta d)) as [x|] eqn:Hf; [|congruence].
    apply find_some in Hf. destruct Hf as (Hx & Hxv). apply is_row_v_true in Hxv. destruct Hxv as (A & B & <-).
    apply Hmax. apply filter_In. split; auto. now apply is_row_true.
  - apply max_row_none in Hm. intros v. unfold stored_root.
    destruct (find (is_row_v rp RRoot v) (d_meta d)) as [x|] eqn:Hf; auto. exfalso.
    apply find_some in Hf. destruct Hf as (Hx & Hxv). apply is_row_v_true in Hxv. destruct Hxv as (A & B & C).
    assert (Hin : In x (filter (is_row rp RRoot) (d_meta d))). { apply filter_In. split; auto. now apply is_row_true. }
    rewrite Hm in Hin. destruct Hin.
Qed.

(** Uniqueness of (repo, root, version), needed to identify the newest row with the stored document. *)
Definition root_unique (d : db) : Prop := forall rp v, (List.length (filter (is_row_v rp RRoot v) (d_meta d)) <= 1)%nat.
Lemma root_unique_step o d : storable o -> root_unique d -> root_unique (db_store o d).
Proof.
  intros Hs H rp' v'. destruct o as [raw rp v | raw rp ty | rp | | raw n | n | ]; simpl in *; try (apply H); try lia.
  - rewrite filter_app, filter_filter, app_length. simpl.
    destruct (is_row_v rp' RRoot v' {| w_data := raw; w_repo := rp; w_type := RRoot; w_ver := v |}) eqn:Hb.
    + apply is_row_v_true in Hb. simpl in Hb. destruct Hb as (-> & _ & ->).
      rewrite (filter_ext_in' _ (fun _ => false)).
      { replace (filter (fun _ : row => false) (d_meta d)) with (@nil row); simpl; [lia|]. induction (d_meta d); auto. }
      intros x. destruct (is_row_v rp' RRoot v' x); auto.
    + simpl. rewrite Nat.add_0_r. rewrite (filter_ext_in' _ (is_row_v rp' RRoot v')); [apply H|].
      intros x. destruct (is_row_v rp' RRoot v' x) eqn:Hx; [|now rewrite andb_false_r]. rewrite andb_true_r, negb_true_iff.
      destruct (is_row_v rp RRoot v x) eqn:Hy; auto. apply is_row_v_true in Hx, Hy. destruct Hx as (A & B & C), Hy as (A' & B' & C').
      assert (is_row_v rp' RRoot v' {| w_data := raw; w_repo := rp; w_type := RRoot; w_ver := v |} = true) by (apply is_row_v_true; simpl; intuition congruence). congruence.
  - destruct Hs as (_ & Hty). rewrite filter_app, filter_filter, app_length. simpl.
    replace (is_row_v rp' RRoot v' _) with false.
    2: { symmetry. destruct (is_row_v rp' RRoot v' _) eqn:G; auto. apply is_row_v_true in G. simpl in G. intuition congruence. }
    simpl. rewrite Nat.add_0_r. rewrite (filter_ext_in' _ (is_row_v rp' RRoot v')); [apply H|].
    intros x. destruct (is_row_v rp' RRoot v' x) eqn:Hx; [|now rewrite andb_false_r]. rewrite andb_true_r, negb_true_iff.
    destruct (is_row rp ty x) eqn:Hy; auto. apply is_row_v_true in Hx. apply is_row_true in Hy. intuition congruence.
  - rewrite filter_filter. rewrite (filter_ext_in' _ (is_row_v rp' RRoot v')); [apply H|].
    intros x. destruct (is_row_v rp' RRoot v' x) eqn:Hx; [|now rewrite andb_false_r]. apply is_row_v_true in Hx.
    destruct Hx as (_ & -> & _). simpl. now rewrite andb_false_r.
Qed.
Lemma root_unique_run ops : forall d, Forall storable ops -> root_unique d -> root_unique (fold_left (fun d o => db_store o d) ops d).
Proof. induction ops; intros d Hf H; simpl; auto. inversion Hf; subst. apply IHops; auto. now apply root_unique_step. Qed.

Lemma in_filter_one {A} (p : A -> bool) l x y : (List.length (filter p l) <= 1)%nat -> In x l -> p x = true -> find p l = Some y -> x = y.
Proof.
  intros Hlen Hx Hp Hf. apply find_some in Hf. destruct Hf as (Hy & Hpy).
  assert (H1 : In x (filter p l)) by (apply filter_In; auto). assert (H2 : In y (filter p l)) by (apply filter_In; auto).
  destruct (filter p l) as [|a [|b t]]; [destruct H1| |simpl in Hlen; lia].
  destruct H1 as [<- | []], H2 as [<- | []]. reflexivity.
Qed.

Theorem meta_store_refines ops : Forall storable ops ->
  let d := fold_left (fun d o => db_store o d) ops db_empty in
  let m := fold_left (fun m o => mm_step o m) ops mm_empty in
  (forall rp v, 0 <= v -> load_root rp v d = Ok (mm_root m rp v)) /\
  (forall rp ty, ty <> RRoot -> load_nonroot rp ty d = Ok (mm_meta m rp ty)) /\
  (forall n, load_delegation n d = Ok (mm_deleg m n)) /\
  (forall rp, exists o, load_latest_root rp d = Ok o /\ newest_of (mm_root m rp) o).
Proof.
  intros Hf d m. destruct (refines_run ops _ _ Hf refines_empty) as [R M D C DC]. fold d m in R, M, D, C, DC.
  assert (U : root_unique d). { apply root_unique_run; auto. intros rp v. simpl. lia. }
  split; [|split; [|split]].
  - intros rp v Hv. unfold load_root. destruct (Z.ltb_spec v 0); [lia|]. rewrite <- R. unfold stored_root.
    destruct (find (is_row_v rp RRoot v) (d_meta d)) as [x|] eqn:Hx; auto.
    apply find_some in Hx. destruct Hx as (Hin & _). apply C in Hin. destruct Hin as (H1 & H2).
    destruct (w_data x) eqn:Hw; [congruence|]. now rewrite H2.
  - intros rp ty Hty. unfold load_nonroot. rewrite <- M by auto. unfold row_data, latest_row.
    destruct (max_row (filter (is_row rp ty) (d_meta d)) None) as [w|] eqn:Hw; simpl; auto.
    apply max_row_in in Hw. destruct Hw as (Hin & _). apply filter_In in Hin. destruct Hin as (Hin & _). apply C in Hin.
    now rewrite nul_free_blob.
  - intros n. unfold load_delegation. rewrite D. destruct (mm_deleg m n) as [x|] eqn:Hx; auto.
    rewrite <- D in Hx.
    assert (Hin : In (n, x) (d_deleg d)).
    { clear -Hx. induction (d_deleg d) as [|(a, b) l IH]; simpl in *; [discriminate|].
      destruct (String.eqb_spec n a); [inversion Hx; subst; now left|right; auto]. }
    apply DC in Hin. simpl in Hin. now rewrite nul_free_blob.
  - intros rp. unfold load_latest_root. assert (HL := latest_stored rp d).
    destruct (latest_row rp RRoot d) as [w|].
    + destruct HL as (w' & Hin & Hr & Ht & -> & Hmax). simpl. rewrite nul_free_blob by (now apply C). simpl.
      eexists; split; [reflexivity|]. simpl. exists (w_ver w'). split.
      * rewrite <- R. unfold stored_root.
        destruct (find (is_row_v rp RRoot (w_ver w')) (d_meta d)) as [x|] eqn:Hx.
        -- f_equal. f_equal. symmetry. eapply in_filter_one; eauto. now apply is_row_v_true.
        -- exfalso. apply (find_none _ _ Hx) in Hin. assert (is_row_v rp RRoot (w_ver w') w' = true) by now apply is_row_v_true. congruence.
      * intros v Hv. apply Hmax. now rewrite R.
    + eexists; split; [reflexivity|]. simpl. intros v. now rewrite <- R.
Qed.
