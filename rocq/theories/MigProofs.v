From Verif Require Import Base MigModel MigSpec.
From Coq Require Import Lia.
Section P.
Context {B : Type}.
Implicit Types (d e : db B) (S : soft B).

Lemma exec_at s d d' : exec s d = Some d' -> v_tables d' = true /\ v_ver d' = Some (sc_to s).
Proof.
  unfold exec. destruct (sc_run s (v_rest d)) as [b|]; [|discriminate]. destruct (back_after (sc_back s) (v_back d)) as [t|]; [|discriminate].
  intros H; inversion H; subst; split; reflexivity.
Qed.

Lemma insert_back_same S d r d' : insert_back_migrations S d = (r, d') -> same_content d' d.
Proof.
  unfold insert_back_migrations, same_content. intros H.
  destruct (rolls S) as [|o l]; [inversion H; subst; auto|].
  destruct (_ <? _); [inversion H; subst; auto|].
  destruct (v_back d) as [t|]; [inversion H; subst; auto|].
  destruct (existsb _ _); inversion H; subst; auto.
Qed.

Lemma can_store_true S d : can_store S d -> exists d', insert_back_migrations S d = (MTrue, d').
Proof.
  unfold can_store, insert_back_migrations. intros [E|[L N]]; [rewrite E; eexists; reflexivity|].
  destruct (rolls S) as [|o l]; [eexists; reflexivity|].
  destruct (_ <? _) eqn:F; [apply Z.ltb_lt in F; lia|].
  destruct (v_back d) as [t|]; [eexists; reflexivity|contradiction].
Qed.

Lemma forward_loop_upgrade S n : forall k d d', forward_loop S n k d = (MTrue, d') -> k + Z.of_nat n = cur S -> upgrade S k d d'.
Proof.
  induction n as [|n IH]; intros k d d' H E; cbn [forward_loop] in H.
  - inversion H; subst. replace k with (cur S) by lia. constructor.
  - destruct (k + 1 <? 0) eqn:L; [discriminate|]. apply Z.ltb_ge in L.
    destruct (nth_error (migs S) (Z.to_nat (k + 1))) as [s|] eqn:Q; [|discriminate].
    destruct (exec s d) as [d1|] eqn:X; [|discriminate].
    apply (up_step S k s d d1 d'); auto; try lia. apply IH; auto. lia.
Qed.

Lemma upgrade_forward_loop S k d d' : upgrade S k d d' -> forward_loop S (Z.to_nat (cur S - k)) k d = (MTrue, d').
Proof.
  induction 1 as [d|k s d d1 d2 P L Q X U IH].
  - rewrite Z.sub_diag. reflexivity.
  - replace (Z.to_nat (cur S - k)) with (Datatypes.S (Z.to_nat (cur S - (k + 1)))) by lia.
    cbn [forward_loop]. destruct (k + 1 <? 0) eqn:F; [apply Z.ltb_lt in F; lia|].
    rewrite Q, X. exact IH.
Qed.

Lemma upgrade_at S k d d' : well_numbered S -> upgrade S k d d' -> k < cur S -> at_version d' (cur S).
Proof.
  intros (W0 & W1 & W2 & W3). induction 1 as [d|k s d d1 d2 P L Q X U IH]; intros K; [lia|].
  destruct (Z.eq_dec (k + 1) (cur S)) as [E|N]; [|apply IH; lia].
  destruct (exec_at _ _ _ X) as [T V]. rewrite (W2 _ _ Q) in V.
  inversion U; subst.
  - split; auto. rewrite V. f_equal. lia.
  - lia.
Qed.

(** Forward: all or nothing. *)
Lemma forward_all_or_nothing S c v d r d' : v < cur S -> migrate_forward S c v d = (r, d') ->
  (r <> MTrue /\ d' = d) \/ (r = MTrue /\ exists u, upgrade S v d u /\ same_content d' u).
Proof.
  intros L. unfold migrate_forward. destruct (forward_loop S _ v d) as [o d1] eqn:F.
  destruct o; intros H; [|left; inversion H; subst; split; congruence..].
  apply forward_loop_upgrade in F; [|lia].
  destruct (insert_back_migrations S d1) as [o d2] eqn:I. apply insert_back_same in I.
  destruct o; [destruct c|..]; inversion H; subst; [right|left..]; split; try congruence. eauto.
Qed.

Lemma forward_works S v d u : v < cur S -> upgrade S v d u -> can_store S u ->
  exists d', migrate_forward S true v d = (MTrue, d') /\ same_content d' u.
Proof.
  intros L U K. unfold migrate_forward. rewrite (upgrade_forward_loop _ _ _ _ U).
  destruct (can_store_true _ _ K) as [d' I]. rewrite I. exists d'. split; auto. now apply insert_back_same in I.
Qed.

Lemma zget_zdel k j (l : list (Z * script B)) : zget j (zdel k l) = if j =? k then None else zget j l.
Proof.
  unfold zdel. induction l as [|[x s] l IH]; cbn [zget filter fst]; [destruct (j =? k); reflexivity|].
  destruct (x =? k) eqn:E; cbn [negb zget].
  - rewrite IH. apply Z.eqb_eq in E; subst x. destruct (j =? k) eqn:F; auto.
    rewrite Z.eqb_sym, F. reflexivity.
  - rewrite IH. destruct (x =? j) eqn:G; auto. apply Z.eqb_eq in G; subst x. rewrite E. reflexivity.
Qed.

Lemma exec_back s d d' t : exec s d = Some d' -> v_back d = Some t -> v_back d' = Some t \/ v_back d' = None.
Proof.
  unfold exec. destruct (sc_run s (v_rest d)); [|discriminate]. intros H E. rewrite E in H.
  destruct (sc_back s); cbn in H; inversion H; subst; auto.
Qed.

Lemma forget_stored k d d1 t s : stored_numbered d -> v_back d = Some t -> exec s d = Some d1 -> stored_numbered (forget k d1).
Proof.
  intros N E X u j s' Hu Hz. cbn in Hu. destruct (exec_back _ _ _ _ X E) as [Q|Q]; rewrite Q in Hu; [|discriminate].
  inversion Hu; subst. rewrite zget_zdel in Hz. destruct (j =? k); [discriminate|]. eapply N; eauto.
Qed.

Lemma exec_stored d d1 t s : stored_numbered d -> v_back d = Some t -> exec s d = Some d1 -> stored_numbered d1.
Proof.
  intros N E X u j s' Hu Hz. destruct (exec_back _ _ _ _ X E) as [Q|Q]; rewrite Q in Hu; [|discriminate].
  inversion Hu; subst. eapply N; eauto.
Qed.

(** Backward: the result is reached by some of the stored scripts. *)
Lemma backward_downgrade n : forall v d log r d' log', backward_loop n v d log = (r, d', log') ->
  exists w, v - Z.of_nat n <= w <= v /\ downgrade v d w d' /\ (r = MTrue -> w = v - Z.of_nat n).
Proof.
  induction n as [|n IH]; intros v d log r d' log' H; cbn [backward_loop] in H.
  - inversion H; subst. exists v. repeat split; try lia. constructor.
  - assert (Z0 : forall r0, (r0, d, log) = (r, d', log') -> r0 <> MTrue ->
       exists w, v - Z.of_nat (S n) <= w <= v /\ downgrade v d w d' /\ (r = MTrue -> w = v - Z.of_nat (S n))).
    { intros r0 E N. inversion E; subst. exists v. repeat split; try lia; [constructor|congruence]. }
    destruct (v_back d) as [t|] eqn:T; [|apply (Z0 MThrow); [exact H|discriminate]].
    destruct (zget v t) as [s|] eqn:G; [|apply (Z0 MFalse); [exact H|discriminate]].
    destruct (exec s d) as [d1|] eqn:X; [|apply (Z0 MFalse); [exact H|discriminate]].
    destruct (v_back d1) as [t1|] eqn:T1.
    + apply IH in H. destruct H as (w & L & D & M). exists w. repeat split; try lia.
      * eapply dn_step; eauto; [lia|]. unfold forget. rewrite T1. exact D.
      * intros R. specialize (M R). lia.
    + inversion H; subst. exists (v - 1). repeat split; try lia; [|congruence].
      eapply dn_step; eauto; [lia|]. unfold forget. rewrite T1. destruct d' as [a b c q]; cbn in *; subst. constructor.
Qed.

Lemma downgrade_at v d w d' : downgrade v d w d' -> stored_numbered d -> at_version d v -> at_version d' w.
Proof.
  induction 1 as [v d|v s t d d1 w d2 T G X L D IH]; intros N A; auto.
  apply IH.
  - eapply forget_stored; eauto.
  - destruct (exec_at _ _ _ X) as [V1 V2]. split; cbn; auto. rewrite V2. f_equal. eapply N; eauto.
Qed.

Lemma Forall_weaken_log (lo lo' hi hi' : Z) (l : list (db B)) : lo' <= lo -> hi <= hi' ->
  Forall (fun e => exists w, lo <= w <= hi /\ at_version e w) l -> Forall (fun e => exists w, lo' <= w <= hi' /\ at_version e w) l.
Proof. intros A C. apply Forall_impl. intros e (w & L & V). exists w. split; auto. lia. Qed.

(** The log grows by states whose version is in between. *)
Lemma backward_log n : forall v d log r d' log', backward_loop n v d log = (r, d', log') -> stored_numbered d ->
  exists more, log' = log ++ more /\ Forall (fun e => exists w, v - Z.of_nat n <= w <= v /\ at_version e w) more.
Proof.
  induction n as [|n IH]; intros v d log r d' log' H N; cbn [backward_loop] in H.
  - inversion H; subst. exists []. rewrite app_nil_r. auto.
  - assert (Z0 : forall r0, (r0, d, log) = (r, d', log') ->
       exists more, log' = log ++ more /\ Forall (fun e => exists w, v - Z.of_nat (S n) <= w <= v /\ at_version e w) more).
    { intros r0 E. inversion E; subst. exists []. rewrite app_nil_r. auto. }
    destruct (v_back d) as [t|] eqn:T; [|eapply Z0; exact H].
    destruct (zget v t) as [s|] eqn:G; [|eapply Z0; exact H].
    destruct (exec s d) as [d1|] eqn:X; [|eapply Z0; exact H].
    destruct (exec_at _ _ _ X) as [V1 V2]. rewrite (N _ _ _ T G) in V2.
    destruct (v_back d1) as [t1|] eqn:T1.
    + apply IH in H; [|pose proof (forget_stored v d d1 t s N T X) as K; unfold forget in K; rewrite T1 in K; exact K].
      destruct H as (more & E & F). rewrite <- app_assoc in E. eexists. split; [exact E|].
      apply Forall_app. split.
      * repeat constructor; exists (v - 1); (split; [lia|split; cbn; auto]).
      * revert F. apply Forall_weaken_log; lia.
    + inversion H; subst. eexists. split; [reflexivity|]. repeat constructor. exists (v - 1). split; [lia|split; auto].
Qed.

(** If nothing fails the rollback completes. *)
Lemma downgrade_back v d w d' : downgrade v d w d' -> v_back d' <> None -> v_back d <> None.
Proof. intros H. destruct H; [auto|intros _; congruence]. Qed.

Lemma downgrade_backward v d w d' : downgrade v d w d' -> v_back d' <> None ->
  forall log, exists log', backward_loop (Z.to_nat (v - w)) v d log = (MTrue, d', log').
Proof.
  induction 1 as [v d|v s t d d1 w d2 T G X L D IH]; intros K log.
  - rewrite Z.sub_diag. eexists. reflexivity.
  - replace (Z.to_nat (v - w)) with (Datatypes.S (Z.to_nat (v - 1 - w))) by lia.
    cbn [backward_loop]. rewrite T, G, X.
    assert (K1 : v_back (forget v d1) <> None) by (eapply downgrade_back; eauto).
    destruct (v_back d1) as [t1|] eqn:T1; [|unfold forget in K1; cbn in K1; rewrite T1 in K1; contradiction].
    specialize (IH K (log ++ [d1; forget v d1])). unfold forget in IH. rewrite T1 in IH. unfold forget. exact IH.
Qed.

(** Databases that agree on everything a rollback from [v] looks at. *)
Definition agree (v : Z) (d e : db B) : Prop :=
  same_content d e /\ (forall t, v_back d = Some t -> exists u, v_back e = Some u /\ forall k, k <= v -> zget k u = zget k t) /\ (v_back d = None -> v_back e = None).
Lemma agree_refl v d : agree v d d.
Proof. unfold agree, same_content. repeat split; auto. intros t E. exists t. auto. Qed.
Lemma agree_weaken v v' d e : v' <= v -> agree v d e -> agree v' d e.
Proof. intros L (A & C & D). repeat split; auto; try apply A. intros t E. destruct (C t E) as (u & F & G). exists u. split; auto. intros k K. apply G. lia. Qed.
Lemma agree_exec v s d e d1 : agree v d e -> exec s d = Some d1 -> exists e1, exec s e = Some e1 /\ agree v d1 e1.
Proof.
  intros ((A1 & A2 & A3) & C & D) X. unfold exec in *. rewrite <- A3.
  destruct (sc_run s (v_rest d)) as [b|]; [|discriminate].
  destruct (sc_back s); cbn [back_after] in *.
  - inversion X; subst. eexists. split; [reflexivity|]. repeat split; auto.
  - destruct (v_back d) as [t|]; [discriminate|]. rewrite (D eq_refl). inversion X; subst. eexists. split; [reflexivity|].
    repeat split; auto. intros t E. exists t. auto.
  - destruct (v_back d) as [t|]; [|discriminate]. destruct (C t eq_refl) as (u & F & G). rewrite F. inversion X; subst. eexists. split; [reflexivity|].
    repeat split; cbn; auto. discriminate.
Qed.
Lemma agree_forget_same v k d e : agree v d e -> agree v (forget k d) (forget k e).
Proof.
  intros (A & C & D). repeat split; try apply A.
  - cbn. intros t E. destruct (v_back d) as [t0|] eqn:T; [|discriminate]. destruct (C t0 eq_refl) as (u & F & G). rewrite F.
    inversion E; subst. eexists. split; [reflexivity|]. intros j J. rewrite !zget_zdel, G by auto. reflexivity.
  - cbn. intros E. destruct (v_back d) as [t0|]; [discriminate|]. rewrite D; auto.
Qed.
(** Removing a row of a higher version is invisible. *)
Lemma agree_forget_up v k d : v < k -> agree v (forget k d) d.
Proof.
  intros L. repeat split; cbn; auto.
  - intros t E. destruct (v_back d) as [t0|]; [|discriminate]. inversion E; subst. exists t0. split; auto.
    intros j J. rewrite zget_zdel. destruct (j =? k) eqn:Q; auto. apply Z.eqb_eq in Q. lia.
  - destruct (v_back d); [discriminate|auto].
Qed.
Lemma agree_downgrade v d w d' : downgrade v d w d' -> forall e, agree v d e -> exists e', downgrade v e w e' /\ agree w d' e'.
Proof.
  induction 1 as [v d|v s t d d1 w d2 T G X L D IH]; intros e A.
  - exists e. split; [constructor|auto].
  - destruct (agree_exec _ _ _ _ _ A X) as (e1 & X1 & A1).
    destruct A as (A & C & _). destruct (C t T) as (u & F & Hu).
    destruct (IH (forget v e1)) as (e' & P & Q).
    + apply agree_forget_same. eapply agree_weaken; [|exact A1]. lia.
    + exists e'. split; auto. eapply dn_step; eauto. rewrite Hu by lia. exact G.
Qed.

(** Every state a crash can leave is on the way to the same end. *)
Lemma backward_resume n : forall v d log d' log', backward_loop n v d log = (MTrue, d', log') -> stored_numbered d -> at_version d v ->
  exists more, log' = log ++ more /\
    Forall (fun e => exists w e', v - Z.of_nat n <= w <= v /\ at_version e w /\ downgrade w e (v - Z.of_nat n) e' /\ agree (v - Z.of_nat n) d' e') more.
Proof.
  induction n as [|n IH]; intros v d log d' log' H N A; cbn [backward_loop] in H.
  - inversion H; subst. exists []. rewrite app_nil_r. auto.
  - destruct (v_back d) as [t|] eqn:T; [|discriminate].
    destruct (zget v t) as [s|] eqn:G; [|discriminate].
    destruct (exec s d) as [d1|] eqn:X; [|discriminate].
    destruct (exec_at _ _ _ X) as [V1 V2]. rewrite (N _ _ _ T G) in V2.
    destruct (v_back d1) as [t1|] eqn:T1; [|discriminate].
    pose proof (forget_stored v d d1 t s N T X) as K.
    assert (E1 : {| v_tables := v_tables d1; v_ver := v_ver d1; v_back := Some (zdel v t1); v_rest := v_rest d1 |} = forget v d1) by (unfold forget; rewrite T1; reflexivity).
    cbv zeta in H. rewrite E1 in H. clear E1.
    pose proof (backward_downgrade _ _ _ _ _ _ _ H) as (w & L & D & M). specialize (M eq_refl). subst w.
    assert (AF : at_version (forget v d1) (v - 1)) by (split; auto).
    destruct (IH _ _ _ _ _ H K AF) as (more & E & F).
    replace (v - 1 - Z.of_nat n) with (v - Z.of_nat (S n)) in * by lia.
    rewrite <- app_assoc in E. eexists. split; [exact E|]. apply Forall_app. split; [constructor; [|constructor; [|constructor]]|].
    + destruct (agree_downgrade _ _ _ _ D d1) as (e' & P & Q); [apply agree_forget_up; lia|].
      exists (v - 1), e'. split; [lia|]. split; [split; auto|]. auto.
    + exists (v - 1), d'. split; [lia|]. split; [exact AF|]. split; [exact D|apply agree_refl].
    + eapply Forall_impl; [|exact F]. intros e (w & e' & W & Rest). exists w, e'. split; [lia|exact Rest].
Qed.
End P.
