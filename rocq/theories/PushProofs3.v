(** The invariants along a whole upload; dry runs. *)
From Verif Require Import Base RateModel PushModel PushSpec PushProofs PushProofs2.
From Coq Require Import Lia Permutation.

Lemma launch_loop_S n m t : forall s, SInv nob s -> SInv nob (launch_loop n m t s).
Proof.
  induction n as [|n IH]; intros s I; cbn [launch_loop]; auto. destruct (nothing_queued s); auto. apply IH.
  eapply same_view_S; [apply view_running|]. now apply launch_one_S.
Qed.
Lemma launch_loop_T R n m t : real m -> forall s, SInv nob s -> TInv R nob s -> TInv R nob (launch_loop n m t s).
Proof.
  intros RM. induction n as [|n IH]; intros s I T; cbn [launch_loop]; auto. destruct (nothing_queued s); auto. apply IH.
  - eapply same_view_S; [apply view_running|]. now apply launch_one_S.
  - eapply same_T_T; [apply sameT_running|]. now apply launch_one_T.
Qed.
Lemma in_infl o (l : list obj) : existsb (Nat.eqb o) l = true <-> In o l.
Proof. rewrite existsb_exists. split; [intros (x & X & E); apply Nat.eqb_eq in E; congruence|intros H; exists o; split; auto; apply Nat.eqb_refl]. Qed.
Lemma listen_one_S R m s a : SInv nob s -> SInv nob (listen_one R m s a).
Proof.
  intros I. destruct a as [[[o code] url] now]. unfold listen_one. destruct (existsb _ _) eqn:E; auto. apply in_infl in E.
  cbv zeta. set (s1 := curl_done R m o code url s). assert (I1 : SInv nob s1) by now apply curl_done_S.
  set (s2 := set_rc _ s1). assert (I2 : SInv nob s2) by (eapply same_view_S; [apply view_rc|exact I1]).
  destruct (server_has_failed _); auto. now apply abort_S.
Qed.
Lemma listen_one_T R m s a : real m -> SInv nob s -> TInv R nob s -> TInv R nob (listen_one R m s a).
Proof.
  intros RM I T. destruct a as [[[o code] url] now]. unfold listen_one. destruct (existsb _ _) eqn:E; auto. apply in_infl in E.
  cbv zeta. set (s1 := curl_done R m o code url s). assert (I1 : TInv R nob s1) by now apply curl_done_T.
  set (s2 := set_rc _ s1). assert (I2 : TInv R nob s2) by (eapply same_T_T; [apply sameT_rc|exact I1]).
  destruct (server_has_failed _); auto. now apply abort_T with (ex := nob).
Qed.
Lemma listen_fold_S R m l : forall s, SInv nob s -> SInv nob (fold_left (listen_one R m) l s).
Proof. induction l as [|a l IH]; intros s I; cbn [fold_left]; auto. apply IH. now apply listen_one_S. Qed.
Lemma listen_fold_T R m l : real m -> forall s, SInv nob s -> TInv R nob s -> TInv R nob (fold_left (listen_one R m) l s).
Proof. intros RM. induction l as [|a l IH]; intros s I T; cbn [fold_left]; auto. apply IH; [now apply listen_one_S|now apply listen_one_T]. Qed.
Lemma loop_S R m e s : SInv nob s -> SInv nob (loop R m e s).
Proof. intros I. unfold loop, loop_listen, loop_launch. apply listen_fold_S. eapply same_view_S; [apply view_running|]. now apply launch_loop_S. Qed.
Lemma loop_T R m e s : real m -> SInv nob s -> TInv R nob s -> TInv R nob (loop R m e s).
Proof.
  intros RM I T. unfold loop, loop_listen, loop_launch. apply listen_fold_T; auto.
  - eapply same_view_S; [apply view_running|]. now apply launch_loop_S.
  - eapply same_T_T; [apply sameT_running|]. now apply launch_loop_T.
Qed.
Lemma rounds_ind R m root (P : pool -> Prop) : (forall e s, P s -> P (loop R m e s)) -> forall l s, P s -> P (fst (rounds R m root l s)).
Proof. intros H. induction l as [|e l IH]; intros s X; cbn [rounds fst]; auto. destruct (check_pool_state _ _ _); cbn [fst]; auto. Qed.

Lemma pool0_S cap : SInv nob (pool0 cap).
Proof.
  constructor.
  - constructor.
  - intros o H. cbn in H. congruence.
  - intros p. constructor.
  - intros p c it [].
  - intros p p' c c' it [].
  - intros p c it [].
  - intros c. constructor.
  - intros o. right; left. intros p it [].
  - reflexivity.
  - split; reflexivity.
  - intros o _. split; [intros []|reflexivity].
Qed.
Lemma pool0_T R cap : TInv R nob (pool0 cap).
Proof.
  constructor; cbn; try tauto; try discriminate.
  - intros l1 o l2 E. destruct l1; discriminate.
  - intros o _ [[]|[]].
  - intros o [(c & u & [])|[[] _]].
Qed.
Lemma start_S cap root : SInv nob (add_query root (pool0 cap)).
Proof. apply add_query_S; [apply pool0_S|intros []|reflexivity|right; intros p it []]. Qed.
Lemma start_T R cap root : TInv R nob (add_query root (pool0 cap)).
Proof. apply add_query_T; [apply pool0_T|intros [[]|[]]]. Qed.
Lemma run_S R m cap root l : SInv nob (fst (push_run R m cap root l)).
Proof. unfold push_run. apply (rounds_ind R m root (SInv nob)); [intros; now apply loop_S|apply start_S]. Qed.
Lemma run_T R m cap root l : real m -> TInv R nob (fst (push_run R m cap root l)).
Proof.
  intros RM. unfold push_run.
  assert (G : SInv nob (fst (rounds R m root l (add_query root (pool0 cap)))) /\ TInv R nob (fst (rounds R m root l (add_query root (pool0 cap))))); [|apply G].
  apply (rounds_ind R m root (fun s => SInv nob s /\ TInv R nob s)).
  - intros e s [A B]. split; [now apply loop_S|now apply loop_T].
  - split; [apply start_S|apply start_T].
Qed.

(** What an object's own bookkeeping does not touch. *)
Definition frame (s s' : pool) : Prop := trace s' = trace s /\ infl s' = infl s /\ (forall x, op (objs s' x) = op (objs s x)).
Lemma frame_refl s : frame s s. Proof. repeat split. Qed.
Lemma frame_trans a b c : frame a b -> frame b c -> frame a c.
Proof. intros (A & B & C) (A' & B' & C'). repeat split; try congruence; intros x; now rewrite C'. Qed.
Lemma frame_upload o s : frame s (add_upload o s).
Proof. destruct (qs_add_upload o s) as (A & B & C & D & E & F & G & H). repeat split; auto; intros x; now rewrite op_add_upload. Qed.
Lemma frame_query o s : frame s (add_query o s).
Proof. destruct (qs_add_query o s) as (A & B & C & D & E & F & G & H). repeat split; auto; intros x; now rewrite op_add_query. Qed.
Lemma frame_pres o p s : frame s (set_pres o p s). Proof. repeat split; intros x; now rewrite op_set_pres. Qed.
Lemma frame_ok o p s : frame s (set_ok o p s). Proof. repeat split; intros x; now rewrite op_set_ok. Qed.
Lemma frame_notify_one s r : frame s (notify_one s r).
Proof.
  unfold notify_one, child_notify. cbv zeta. destruct (existsb _ _).
  - set (s1 := set_left _ _ s). assert (F : frame s s1) by (repeat split; intros x; apply op_set_left).
    destruct (left (objs s1 (fst r))); auto. eapply frame_trans; [exact F|apply frame_upload].
  - assert (F : frame s (set_bad s)) by (repeat split). destruct (left (objs (set_bad s) (fst r))); auto. eapply frame_trans; [exact F|apply frame_upload].
Qed.
Lemma frame_notify o s : frame s (notify_parents o s).
Proof.
  unfold notify_parents. generalize (pars (objs s o)). intros l. revert s. induction l as [|r l IH]; intros s; cbn [fold_left]; [apply frame_refl|].
  eapply frame_trans; [apply frame_notify_one|apply IH].
Qed.
Lemma frame_append o c s : frame s (append_child o c s).
Proof. destruct (append_child_view o c s) as (Vp & Vo & VQ & Vq & Vu & Vi & Vt & _). repeat split; auto. Qed.
Lemma frame_populate R o l : forall s, frame s (fst (populate R o l s)).
Proof.
  induction l as [|c l IH]; intros s; cbn [populate fst]; [apply frame_refl|]. destruct (have R c); cbn [fst]; [|apply frame_refl].
  eapply frame_trans; [apply frame_append|apply IH].
Qed.
Lemma frame_abort s : frame s (abort s). Proof. repeat split. Qed.
Lemma frame_query_fold l : forall s, frame s (fold_left query_one l s).
Proof.
  induction l as [|e l IH]; intros s; cbn [fold_left]; [apply frame_refl|]. eapply frame_trans; [|apply IH].
  unfold query_one. destruct (pres (objs s (snd e))); try apply frame_refl. apply frame_query.
Qed.
Lemma frame_check R o code s : frame s (check_children R o code s).
Proof.
  unfold check_children. pose proof (frame_populate R o (kids R o) s) as F. destruct (populate R o (kids R o) s) as [s1 ok]. cbn [fst] in F.
  eapply frame_trans; [exact F|]. destruct ok; [|apply frame_abort]. destruct (left (objs s1 o)).
  - destruct (code =? 200); [apply frame_refl|apply frame_upload].
  - apply frame_query_fold.
Qed.
Lemma frame_curl_done R m o code url s : frame (arrived s o code url) (curl_done R m o code url s).
Proof.
  rewrite curl_done_eq. cbv zeta. set (s2 := arrived s o code url).
  assert (F : forall p, frame s2 (set_ok o true (set_pres o p s2))) by (intros p; eapply frame_trans; [apply frame_pres|apply frame_ok]).
  assert (PE : frame s2 (presence_error o s2)).
  { unfold presence_error. eapply frame_trans; [|apply frame_query]. eapply frame_trans; [apply frame_pres|apply frame_ok]. }
  assert (UE : frame s2 (upload_error o s2)).
  { unfold upload_error. eapply frame_trans; [|apply frame_upload]. eapply frame_trans; [apply frame_pres|apply frame_ok]. }
  destruct (op (objs s o)).
  - destruct (negb url); auto. destruct (code =? 200).
    + destruct m; (eapply frame_trans; [apply (F Present)|]); (apply frame_check || apply frame_notify).
    + destruct (code =? 404); auto. eapply frame_trans; [apply (F Missing)|apply frame_check].
  - destruct (negb url); auto. destruct (_ || _); auto. eapply frame_trans; [apply (F Present)|apply frame_notify].
Qed.

(** Dry runs: only queries are sent. *)
Definition DInv (s : pool) : Prop := (forall o, ~ In (TPost o) (trace s)) /\ (forall o, In o (infl s) -> op (objs s o) = OpHead).
Lemma frame_D s s' : frame s s' -> DInv s -> DInv s'.
Proof. intros (A & B & C) [D E]. split; [now rewrite A|]. intros o. rewrite B, C. auto. Qed.
Lemma launch_one_D m t s : ~ real m -> DInv s -> DInv (launch_one m t s).
Proof.
  intros NR [D E]. unfold launch_one. destruct (qq s) as [|o q].
  - destruct (uq s) as [|o u]; [split; auto|].
    assert (G : DInv (notify_parents o (set_pres o Present (set_queues [] u (infl s) s)))).
    { eapply frame_D; [apply frame_notify|]. eapply frame_D; [apply frame_pres|]. split; auto. }
    destruct m; [exfalso; apply NR; left; auto|exact G|exact G|exfalso; apply NR; right; auto].
  - unfold make_test_request. cbv zeta. set (s1 := set_queues q (uq s) (infl s) s).
    assert (X : forall s2, trace s2 = trace s -> infl s2 = infl s -> (forall x, op (objs s2 x) = op (objs s x)) ->
        DInv (emit (THead o) (set_op o OpHead t (set_queues (qq s2) (uq s2) (infl s2 ++ [o]) s2)))).
    { intros s2 A B C. split.
      - intros x. cbn [emit trace set_op set_ob set_queues]. rewrite A, in_app_iff. cbn [In]. intros [Y|[Y|[]]]; [eapply D; eauto|discriminate].
      - intros x. cbn [emit objs infl set_op set_ob set_queues].
        change (In x (infl s2 ++ [o]) -> op (objs (set_op o OpHead t (set_queues (qq s2) (uq s2) (infl s2 ++ [o]) s2)) x) = OpHead). rewrite op_set_op, in_app_iff, B. cbn [In set_queues objs].
        destruct (Nat.eqb_spec x o); auto. rewrite C. intros [Y|[Y|[]]]; [auto|congruence]. }
    destruct (existsb _ _); apply X; reflexivity.
Qed.
Lemma launch_loop_D n m t : ~ real m -> forall s, DInv s -> DInv (launch_loop n m t s).
Proof.
  intros NR. induction n as [|n IH]; intros s D; cbn [launch_loop]; auto. destruct (nothing_queued s); auto. apply IH.
  eapply frame_D; [|apply launch_one_D; [exact NR|exact D]]. repeat split.
Qed.
Lemma listen_one_D R m s a : DInv s -> DInv (listen_one R m s a).
Proof.
  intros D. destruct a as [[[o code] url] now]. unfold listen_one. destruct (existsb _ _) eqn:E; auto. apply in_infl in E. cbv zeta.
  assert (D1 : DInv (curl_done R m o code url s)).
  { eapply frame_D; [apply frame_curl_done|]. destruct D as [D F]. unfold arrived, ans. rewrite (F o E). split.
    - intros x. cbn [emit trace set_queues]. rewrite in_app_iff. cbn [In]. intros [Y|[Y|[]]]; [eapply D; eauto|discriminate].
    - intros x. cbn [emit infl objs set_queues]. rewrite in_rm. intros [Y _]. auto. }
  set (s1 := curl_done R m o code url s) in *. set (s2 := set_rc _ s1). assert (D2 : DInv s2) by exact D1.
  destruct (server_has_failed _); exact D2.
Qed.
Lemma listen_fold_D R m l : forall s, DInv s -> DInv (fold_left (listen_one R m) l s).
Proof. induction l as [|a l IH]; intros s D; cbn [fold_left]; auto. apply IH. now apply listen_one_D. Qed.
Lemma run_D R m cap root l : ~ real m -> DInv (fst (push_run R m cap root l)).
Proof.
  intros NR. unfold push_run. apply (rounds_ind R m root DInv).
  - intros e s D. unfold loop, loop_listen, loop_launch. apply listen_fold_D. apply (launch_loop_D _ m (fst e) NR s D).
  - eapply frame_D; [apply frame_query|]. split; [intros o []|intros o []].
Qed.
