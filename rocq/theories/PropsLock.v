(** C176: the lock of the storage. *)
From Verif Require Import Base LockModel.

(** * Specification *)
(** The process uses the storage for writing and has not been told that somebody else does. *)
Definition undisturbed (s : lstate) (p : nat) : Prop := exists i, l_ph s p = Locked i.
Definition one_at_most (s : lstate) : Prop := forall p q, undisturbed s p -> undisturbed s q -> p = q.
Definition starting (s : lstate) (p : nat) : Prop := l_ph s p = Created \/ exists i, l_ph s p = Opened i.
Definition ending (s : lstate) (p : nat) : Prop := l_ph s p = Unlocked.
(** No process starts while another one ends. *)
Definition apart (s : lstate) : Prop := forall p q, ending s p -> ~ starting s q.
Definition any (s : lstate) : Prop := True.

Definition C176_statement : Prop := forall s, lrun any s -> one_at_most s.

(** * Lemmas *)
Lemma setp_same : forall p x f, setp p x f p = x.
Proof. intros. unfold setp. rewrite Nat.eqb_refl. reflexivity. Qed.
Lemma setp_other : forall p x f q, q <> p -> setp p x f q = f q.
Proof. intros. unfold setp. apply Nat.eqb_neq in H. rewrite H. reflexivity. Qed.
Lemma setp_cases : forall p x f q y, setp p x f q = y -> q = p /\ x = y \/ q <> p /\ f q = y.
Proof. intros p x f q y. unfold setp. destruct (Nat.eqb_spec q p) as [->|N]; intros H; [left | right]; auto. Qed.

Record inv (s : lstate) : Prop := {
  iv_locked : forall p i, l_ph s p = Locked i -> l_file s = Some i;
  iv_opened : forall p i, l_ph s p = Opened i -> l_file s = Some i;
  iv_created : forall p, l_ph s p = Created -> exists i, l_file s = Some i;
  iv_one : forall p q i, l_ph s p = Locked i -> l_ph s q = Locked i -> p = q;
  iv_failed : forall p, l_ph s p <> Failed;
  iv_ending : forall p q i, l_ph s p = Unlocked -> l_ph s q <> Locked i }.

Ltac cases H := apply setp_cases in H; destruct H as [[? H] | [? H]]; try discriminate H.
Lemma step_inv : forall s p s', inv s -> apart s -> lstep s p s' -> inv s'.
Proof.
  intros s p s' [L O C U F E] A St. destruct St; cbn [with_ph].
  - (* a new file: nobody holds or has opened one *)
    constructor; cbn; intros.
    + cases H1. specialize (L p0 i H1). congruence.
    + cases H1. specialize (O p0 i H1). congruence.
    + exists (l_next s). reflexivity.
    + cases H1. cases H2. eauto.
    + intros X. cases X. exact (F _ X).
    + cases H1. intros X. cases X. exact (E _ _ _ H1 X).
  - constructor; cbn; intros.
    + cases H1. eauto.
    + cases H1. eauto.
    + exists i. exact H0.
    + cases H1. cases H2. eauto.
    + intros X. cases X. exact (F _ X).
    + cases H1. intros X. cases X. exact (E _ _ _ H1 X).
  - constructor; cbn; intros.
    + cases H1. eauto.
    + cases H1; [injection H1 as <-; exact H0 | eauto].
    + exists i. exact H0.
    + cases H1. cases H2. eauto.
    + intros X. cases X. exact (F _ X).
    + cases H1. intros X. cases X. exact (E _ _ _ H1 X).
  - destruct (C p H) as [i Hi]. congruence.
  - constructor; cbn; intros.
    + cases H1; [injection H1 as <-; eauto | eauto].
    + cases H1. eauto.
    + cases H1. eauto.
    + cases H1; cases H2; try (injection H1 as <-); try (injection H2 as <-); subst; try reflexivity.
      * exfalso. exact (H0 _ H2).
      * exfalso. exact (H0 _ H1).
      * eauto.
    + intros X. cases X. exact (F _ X).
    + cases H1. intros X. apply (A p0 p); [exact H1 | right; exists i; exact H].
  - constructor; cbn; intros.
    + cases H1. eauto.
    + cases H1. eauto.
    + cases H1. eauto.
    + cases H1. cases H2. eauto.
    + intros X. cases X. exact (F _ X).
    + cases H1. intros X. cases X. exact (E _ _ _ H1 X).
  - constructor; cbn; intros.
    + cases H0. eauto.
    + cases H0. eauto.
    + cases H0. eauto.
    + cases H0. cases H1. eauto.
    + intros X. cases X. exact (F _ X).
    + intros X. cases X. cases H0; [|exact (E _ _ _ H0 X)]. apply H1. apply (U q p i0); [exact X|]. pose proof (L _ _ X). pose proof (L _ _ H). congruence.
  - constructor; cbn; intros.
    + cases H0. exfalso. exact (E _ _ _ H H0).
    + cases H0. exfalso. apply (A p p0 H). right. exists i. exact H0.
    + cases H0. exfalso. apply (A p p0 H). left. exact H0.
    + cases H0. cases H1. eauto.
    + intros X. cases X. exact (F _ X).
    + cases H0. intros X. cases X. exact (E _ _ _ H0 X).
  - constructor; cbn; intros.
    + cases H0. eauto.
    + cases H0. eauto.
    + cases H0. eauto.
    + cases H0. cases H1. eauto.
    + intros X. cases X. exact (F _ X).
    + cases H0. intros X. cases X. exact (E _ _ _ H0 X).
  - exfalso. exact (F _ H).
  - constructor; cbn; intros.
    + cases H. eauto.
    + cases H. eauto.
    + cases H. eauto.
    + cases H. cases H0. eauto.
    + intros X. cases X. exact (F _ X).
    + cases H. intros X. cases X. exact (E _ _ _ H X).
Qed.
Lemma run_inv : forall s, lrun apart s -> inv s /\ apart s.
Proof.
  intros s R. induction R as [|s p s' R [I A] St G].
  - split; [constructor; cbn; intros; try discriminate; intros X; discriminate | intros p q H; discriminate H].
  - split; [exact (step_inv s p s' I A St) | exact G].
Qed.

(** * C176 *)
(** Any number of processes start, end and are killed in any order: as long as none starts while another one ends, at most
    one of them uses the storage without being warned, and no start fails. *)
Theorem C176_partial : forall s, lrun apart s -> one_at_most s /\ forall p, l_ph s p <> Failed.
Proof.
  intros s R. destruct (run_inv s R) as [I _]. split; [|apply (iv_failed s I)].
  intros p q [i Hi] [j Hj]. apply (iv_one s I p q i Hi). pose proof (iv_locked s I p i Hi). pose proof (iv_locked s I q j Hj). congruence.
Qed.

(** A process that starts while no other one is there gets the lock, whatever happened before (kills too). *)
Inductive steps_of (p : nat) : lstate -> lstate -> Prop :=
| s_none s : steps_of p s s
| s_more s s' s'' : lstep s p s' -> steps_of p s' s'' -> steps_of p s s''.
Theorem C176_alone : forall s p, (forall q, l_ph s q = Away) -> exists s', steps_of p s s' /\ undisturbed s' p /\ (forall q, q <> p -> l_ph s' q = Away).
Proof.
  intros s p Hall.
  assert (G : exists s1 i, lstep s p s1 /\ l_file s1 = Some i /\ l_ph s1 = setp p Created (l_ph s)).
  { destruct (l_file s) as [i|] eqn:Ef.
    - exists (with_ph s p Created), i. split; [apply (l_create_old s p i (Hall p) Ef)|]. split; [exact Ef | reflexivity].
    - eexists _, (l_next s). split; [apply (l_create_new s p (Hall p) Ef)|]. split; reflexivity. }
  destruct G as [s1 [i [S1 [F1 P1]]]].
  assert (Q1 : l_ph s1 p = Created) by (rewrite P1; apply setp_same).
  exists (with_ph (with_ph s1 p (Opened i)) p (Locked i)). split; [|split].
  - apply (s_more p s s1 _ S1). apply (s_more p s1 (with_ph s1 p (Opened i)) _ (l_open s1 p i Q1 F1)). eapply s_more; [|apply s_none].
    apply l_lock; [apply setp_same|]. intros q X. cbn in X. cases X. rewrite P1 in X. cases X. rewrite Hall in X. discriminate X.
  - exists i. apply setp_same.
  - intros q Hq. cbn. rewrite !setp_other by exact Hq. rewrite P1, setp_other by exact Hq. apply Hall.
Qed.
(** While one process uses the storage, one that starts is warned (or, if the file is gone, has another one: C176_refuted). *)
Theorem C176_warned_partial : forall s p q s', lrun apart s -> undisturbed s p -> starting s q -> lstep s q s' -> apart s' ->
  starting s' q \/ l_ph s' q = Warned \/ l_ph s' q = Away.
Proof.
  intros s p q s' R [i Hp] Hq St A. destruct (run_inv s R) as [I _]. destruct St; cbn [l_ph with_ph]; rewrite ?setp_same.
  - left. left. cbn. apply setp_same.
  - left. left. cbn. apply setp_same.
  - left. right. exists i0. cbn. apply setp_same.
  - destruct (iv_created s I q H) as [j Hj]. congruence.
  - exfalso. pose proof (iv_opened s I q i0 H). pose proof (iv_locked s I p i Hp). apply (H0 p). congruence.
  - right. left. reflexivity.
  - exfalso. destruct Hq as [X|[j X]]; congruence.
  - exfalso. destruct Hq as [X|[j X]]; congruence.
  - right. right. reflexivity.
  - right. right. reflexivity.
  - right. right. reflexivity.
Qed.

(** The process that ends removes the file after it has given up the lock. Another one that had opened the file locks what
    is then removed, and a third one makes a new file and locks that. *)
Theorem C176_refuted : ~ C176_statement.
Proof.
  intros H.
  assert (R : exists s, lrun any s /\ l_ph s 1%nat = Locked 0%nat /\ l_ph s 2%nat = Locked 1%nat).
  { eexists. split.
    - eapply r_step with (p := 2%nat); [| apply (l_lock _ 2%nat 1%nat) | exact Logic.I].
      eapply r_step with (p := 2%nat); [| apply (l_open _ 2%nat 1%nat) | exact Logic.I].
      eapply r_step with (p := 2%nat); [| apply l_create_new | exact Logic.I].
      eapply r_step with (p := 0%nat); [| apply l_remove | exact Logic.I].
      eapply r_step with (p := 1%nat); [| apply (l_lock _ 1%nat 0%nat) | exact Logic.I].
      eapply r_step with (p := 0%nat); [| apply (l_unlock _ 0%nat 0%nat) | exact Logic.I].
      eapply r_step with (p := 1%nat); [| apply (l_open _ 1%nat 0%nat) | exact Logic.I].
      eapply r_step with (p := 1%nat); [| apply (l_create_old _ 1%nat 0%nat) | exact Logic.I].
      eapply r_step with (p := 0%nat); [| apply (l_lock _ 0%nat 0%nat) | exact Logic.I].
      eapply r_step with (p := 0%nat); [| apply (l_open _ 0%nat 0%nat) | exact Logic.I].
      eapply r_step with (p := 0%nat); [apply r_start | apply l_create_new | exact Logic.I].
      all: try reflexivity.
      + intros q. destruct q as [|[|[|q]]]; discriminate.
      + intros q. destruct q as [|[|[|q]]]; discriminate.
      + intros q. destruct q as [|[|[|q]]]; discriminate.
    - split; reflexivity. }
  destruct R as [s [R [A B]]]. pose proof (H s R 1%nat 2%nat (ex_intro _ _ A) (ex_intro _ _ B)) as X. discriminate X.
Qed.
(** A process whose start meets the removal of the file cannot open the storage at all. *)
Definition C176_start_statement : Prop := forall s, lrun any s -> forall p, l_ph s p <> Failed.
Theorem C176_start_refuted : ~ C176_start_statement.
Proof.
  intros H.
  assert (R : exists s, lrun any s /\ l_ph s 1%nat = Failed).
  { eexists. split.
    - eapply r_step with (p := 1%nat); [| apply l_open_fails | exact Logic.I].
      eapply r_step with (p := 0%nat); [| apply l_remove | exact Logic.I].
      eapply r_step with (p := 0%nat); [| apply (l_unlock _ 0%nat 0%nat) | exact Logic.I].
      eapply r_step with (p := 1%nat); [| apply (l_create_old _ 1%nat 0%nat) | exact Logic.I].
      eapply r_step with (p := 0%nat); [| apply (l_lock _ 0%nat 0%nat) | exact Logic.I].
      eapply r_step with (p := 0%nat); [| apply (l_open _ 0%nat 0%nat) | exact Logic.I].
      eapply r_step with (p := 0%nat); [apply r_start | apply l_create_new | exact Logic.I].
      all: try reflexivity.
      intros q. destruct q as [|[|[|q]]]; discriminate.
    - reflexivity. }
  destruct R as [s [R X]]. exact (H s R _ X).
Qed.

(** A history within the hypothesis: one process has the lock, a second one is warned. *)
Example C176_example : exists s, lrun apart s /\ l_ph s 0%nat = Locked 0%nat /\ l_ph s 1%nat = Warned.
Proof.
  assert (ap : forall s, (forall q, l_ph s q <> Unlocked) -> apart s) by (intros s Hs p q X; exfalso; exact (Hs p X)).
  eexists. split.
  - eapply r_step with (p := 1%nat); [| apply (l_busy _ 1%nat 0%nat 0%nat) |].
    eapply r_step with (p := 1%nat); [| apply (l_open _ 1%nat 0%nat) |].
    eapply r_step with (p := 1%nat); [| apply (l_create_old _ 1%nat 0%nat) |].
    eapply r_step with (p := 0%nat); [| apply (l_lock _ 0%nat 0%nat) |].
    eapply r_step with (p := 0%nat); [| apply (l_open _ 0%nat 0%nat) |].
    eapply r_step with (p := 0%nat); [apply r_start | apply l_create_new |].
    all: try reflexivity.
    all: try (apply ap; intros q; destruct q as [|[|q]]; discriminate).
    intros q; destruct q as [|[|q]]; discriminate.
  - split; reflexivity.
Qed.
Print Assumptions C176_partial.
Print Assumptions C176_alone.
Print Assumptions C176_warned_partial.
Print Assumptions C176_refuted.
Print Assumptions C176_start_refuted.
