From Verif Require Import Base Json TufModel TufSpec TufProofs.

(** ** C15 *)
Lemma htype_eqb_eq a b : htype_eqb a b = true <-> a = b.
Proof. destruct a, b; simpl; split; congruence. Qed.
Lemma hash_eqb_eq a b : hash_eqb a b = true <-> a = b.
Proof.
  unfold hash_eqb. rewrite andb_true_iff, htype_eqb_eq, String.eqb_eq. destruct a, b; simpl. split.
  - intros (-> & ->); auto.
  - intros H; inversion H; auto.
Qed.
Definition agree (h1 h2 : hash) : Prop := h_type h1 = h_type h2 -> h_val h1 = h_val h2.
Lemma agree_b h1 h2 : htype_eqb (h_type h1) (h_type h2) && negb (hash_eqb h1 h2) = false <-> agree h1 h2.
Proof.
  unfold agree. rewrite andb_false_iff, negb_false_iff, hash_eqb_eq. destruct (htype_eqb (h_type h1) (h_type h2)) eqn:Ht.
  - apply htype_eqb_eq in Ht. destruct h1, h2; simpl in *. split.
    + intros [? | H]; [discriminate|]. intros _. congruence.
    + intros H. right. rewrite H, Ht; auto.
  - split; auto. intros _ He. apply htype_eqb_eq in He. congruence.
Qed.
Lemma match_inner_spec h : forall l one o, match_inner h l one = Some o <->
  ((forall h2, In h2 l -> agree h h2) /\ (o = true <-> one = true \/ In h l)).
Proof.
  induction l as [|h2 l IH]; intros one o; simpl.
  - split.
    + intros H; inversion H; subst. split; [intros ? []|tauto].
    + intros (_ & H). f_equal. destruct one, o; auto; [symmetry; tauto|]. destruct H as (H & _). destruct (H eq_refl) as [|[]]; auto.
  - destruct (htype_eqb (h_type h) (h_type h2) && negb (hash_eqb h h2)) eqn:Hb.
    + split; [discriminate|]. intros (H & _). exfalso.
      assert (Hx := H h2 (or_introl eq_refl)). apply agree_b in Hx. congruence.
    + apply agree_b in Hb. rewrite IH. destruct (hash_eqb h h2) eqn:He.
      * apply hash_eqb_eq in He. subst h2. split; intros (H1 & H2); (split; [|tauto]).
        -- intros x [<- | Hx]; auto.
        -- intros x Hx; auto.
      * assert (h2 <> h). { intros ->. assert (hash_eqb h h = true) by now apply hash_eqb_eq. congruence. }
        split; intros (H1 & H2); (split; [|tauto]).
        -- intros x [<- | Hx]; auto.
        -- intros x Hx; auto.
Qed.
Lemma match_inner_none h l one : match_inner h l one = None <-> exists h2, In h2 l /\ ~ agree h h2.
Proof.
  revert one. induction l as [|h2 l IH]; intros one; simpl.
  - split; [discriminate|]. intros (? & [] & _).
  - destruct (htype_eqb (h_type h) (h_type h2) && negb (hash_eqb h h2)) eqn:Hb.
    + split; auto. intros _. exists h2. split; auto. intros Ha. apply agree_b in Ha. congruence.
    + apply agree_b in Hb. rewrite IH. split.
      * intros (x & Hx & Hn). eauto.
      * intros (x & [<- | Hx] & Hn); [contradiction|eauto].
Qed.
Lemma match_outer_spec l2 : forall l one, match_outer l l2 one = true <->
  ((forall h1 h2, In h1 l -> In h2 l2 -> agree h1 h2) /\ (one = true \/ exists h, In h l /\ In h l2)).
Proof.
  induction l as [|h l IH]; intros one; simpl.
  - split.
    + intros ->. split; auto. intros ? ? [].
    + intros (_ & [H | (? & [] & _)]); auto.
  - destruct (match_inner h l2 one) as [o|] eqn:Hm.
    + apply match_inner_spec in Hm. destruct Hm as (Ha & Ho). rewrite IH. split.
      * intros (H1 & H2). split. { intros h1 h2 [<- | Hx] Hy; auto. }
        destruct H2 as [H2 | (x & Hx & Hy)]; [|right; eauto].
        apply Ho in H2. destruct H2; [now left|right; exists h; auto].
      * intros (H1 & H2). split. { intros h1 h2 Hx Hy; auto. }
        destruct H2 as [H2 | (x & [<- | Hx] & Hy)]; [left; tauto|left; tauto|right; eauto].
    + apply match_inner_none in Hm. destruct Hm as (h2 & Hin & Hn). split; [discriminate|].
      intros (H & _). exfalso. apply Hn. auto.
Qed.

Lemma strs_eqb_eq a : forall b, strs_eqb a b = true <-> a = b.
Proof.
  induction a as [|x a IH]; intros [|y b]; simpl; split; try congruence.
  - intros H. apply andb_true_iff in H. destruct H as (H1 & H2). apply String.eqb_eq in H1. apply IH in H2. congruence.
  - intros H; inversion H; subst. rewrite String.eqb_refl. simpl. now apply IH.
Qed.
Lemma opt_str_eqb_eq a b : opt_str_eqb a b = true <-> a = b.
Proof. destruct a, b; simpl; rewrite ?String.eqb_eq; split; congruence. Qed.
Lemma aget_in {A} k (m : list (string * A)) v : aget k m = Some v -> In (k, v) m.
Proof.
  induction m as [|(k', v') m IH]; simpl; [discriminate|]. destruct (String.eqb_spec k k').
  - intros H; inversion H; subst. now left.
  - right. auto.
Qed.
Lemma ecumap_eqb_eq a b : ecumap_eqb a b = true <-> same_ecus a b.
Proof.
  unfold ecumap_eqb, same_ecus. rewrite andb_true_iff, !forallb_forall. split.
  - intros (H1 & H2) k. destruct (aget k a) as [v|] eqn:Ha.
    + apply aget_in in Ha as Hin. apply H1 in Hin. simpl in Hin. apply opt_str_eqb_eq in Hin. congruence.
    + destruct (aget k b) as [v|] eqn:Hb; auto. apply aget_in in Hb as Hin. apply H2 in Hin. simpl in Hin.
      apply opt_str_eqb_eq in Hin. congruence.
  - intros H. split; intros x _; apply opt_str_eqb_eq; auto.
Qed.
Lemma nilb_true {A} (l : list A) : nilb l = true <-> l = [].
Proof. destruct l; simpl; split; congruence. Qed.
Lemma nilb_false {A} (l : list A) : negb (nilb l) = true <-> l <> [].
Proof. destruct l; simpl; split; congruence. Qed.
Lemma ecus_in_hwids_spec m hw : ecus_in_hwids m hw = true <-> forall e h, In (e, h) m -> In h hw.
Proof.
  unfold ecus_in_hwids. rewrite forallb_forall. split.
  - intros H e h Hin. apply H in Hin. now apply mem_str_In in Hin.
  - intros H (e, h) Hin. apply mem_str_In. simpl. eauto.
Qed.
Lemma cover_b a b : (negb (nilb (t_hwids a)) && nilb (t_ecus a) && nilb (t_hwids b) && negb (nilb (t_ecus b))) = true <->
  (t_hwids a <> [] /\ t_ecus a = [] /\ t_hwids b = [] /\ t_ecus b <> []).
Proof. rewrite !andb_true_iff, !nilb_true, !nilb_false. tauto. Qed.

Lemma match_hw_spec a b : match_hw a b = true <-> compatible_hw a b.
Proof.
  unfold match_hw, compatible_hw, hw_covers.
  destruct (strs_eqb (t_hwids a) (t_hwids b) && ecumap_eqb (t_ecus a) (t_ecus b)) eqn:H0.
  { split; auto. intros _. left. apply andb_true_iff in H0. now rewrite strs_eqb_eq, ecumap_eqb_eq in H0. }
  assert (Hn : ~ (t_hwids a = t_hwids b /\ same_ecus (t_ecus a) (t_ecus b))).
  { rewrite <- strs_eqb_eq, <- ecumap_eqb_eq, <- andb_true_iff. congruence. }
  destruct (_ && nilb (t_hwids b) && negb (nilb (t_ecus b))) eqn:H1.
  { apply cover_b in H1. rewrite ecus_in_hwids_spec. split; [intros H; right; left; tauto|].
    intros [H | [H | H]]; [contradiction|apply H|]. exfalso. intuition congruence. }
  assert (Hn1 : ~ (t_hwids a <> [] /\ t_ecus a = [] /\ t_hwids b = [] /\ t_ecus b <> [])) by (rewrite <- cover_b; congruence).
  destruct (_ && nilb (t_hwids a) && negb (nilb (t_ecus a))) eqn:H2.
  { apply cover_b in H2. rewrite ecus_in_hwids_spec. split; [intros H; right; right; tauto|].
    intros [H | [H | H]]; [contradiction| |apply H]. exfalso. intuition congruence. }
  assert (Hn2 : ~ (t_hwids b <> [] /\ t_ecus b = [] /\ t_hwids a = [] /\ t_ecus a <> [])) by (rewrite <- cover_b; congruence).
  split; [discriminate|]. intros [H | [H | H]]; [contradiction| |]; exfalso; [apply Hn1|apply Hn2]; tauto.
Qed.

Theorem match_target_iff a b : match_target a b = true <-> same_target a b.
Proof.
  unfold match_target, same_target.
  destruct (String.eqb_spec (t_filename a) (t_filename b)); simpl; [|split; [discriminate|intros (H & _); contradiction]].
  destruct (Z.eqb_spec (t_length a) (t_length b)); simpl; [|split; [discriminate|intros (_ & H & _); contradiction]].
  destruct (match_hw a b) eqn:Hh; simpl.
  - apply match_hw_spec in Hh. rewrite match_outer_spec. unfold agree. split.
    + intros (H1 & [? | H2]); [discriminate|]. auto 10.
    + intros (_ & _ & _ & H2 & H1). split; auto.
  - split; [discriminate|]. intros (_ & _ & H & _). apply match_hw_spec in H. congruence.
Qed.
Lemma same_target_sym a b : same_target a b -> same_target b a.
Proof.
  intros (H1 & H2 & H3 & (h & H4 & H5) & H6). unfold same_target. split; auto. split; auto. split.
  { unfold compatible_hw in *. destruct H3 as [(A & B) | [H | H]]; auto. left. split; auto. intros e; symmetry; apply B. }
  split; eauto. intros. symmetry. apply H6; auto.
Qed.
Theorem match_target_sym a b : match_target a b = match_target b a.
Proof.
  destruct (match_target a b) eqn:H1, (match_target b a) eqn:H2; auto.
  - apply match_target_iff, same_target_sym, match_target_iff in H1. congruence.
  - apply match_target_iff, same_target_sym, match_target_iff in H2. congruence.
Qed.
