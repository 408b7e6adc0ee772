(** Walking the whole tree ends only when no request is open. *)
From Verif Require Import Base RateModel PushModel PushSpec PushProofs PushProofs2 PushProofs3 PushProofs6.
From Coq Require Import Lia.

(** Open requests are in flight. *)
Definition KInv (s : pool) : Prop := forall o, is_open (trace s) o -> In o (infl s).
Lemma open_split tr e o : is_open (tr ++ [e]) o ->
  (e = THead o \/ e = TPost o) \/ (is_open tr o /\ forall c u, e <> THeadAns o c u /\ e <> TPostAns o c u).
Proof.
  intros (l1 & x & l2 & E & X & N). destruct l2 as [|y l2] using rev_ind.
  - left. apply app_inj_tail in E. destruct E as [_ ->]. exact X.
  - clear IHl2. rewrite app_comm_cons, app_assoc in E. apply app_inj_tail in E. destruct E as [E ->]. right. split.
    + exists l1, x, l2. split; [exact E|]. split; [exact X|]. intros c u. destruct (N c u) as [A B]. rewrite in_app_iff in A, B. tauto.
    + intros c u. destruct (N c u) as [A B]. rewrite in_app_iff in A, B. split; intros ->; [apply A|apply B]; right; now left.
Qed.
Lemma frame_K s s' : frame s s' -> KInv s -> KInv s'.
Proof. intros (A & B & _) K o. rewrite A, B. apply K. Qed.
Lemma launch_one_K m t s : KInv s -> KInv (launch_one m t s).
Proof.
  intros K. unfold launch_one. destruct (qq s) as [|o q].
  - destruct (uq s) as [|o u]; [exact K|]. cbv zeta.
    assert (G : KInv (emit (TPost o) (set_op o OpPost t (set_queues [] u (infl s ++ [o]) s)))).
    { intros x. cbn [emit set_op set_ob set_queues trace infl]. intros X. apply in_or_app. apply open_split in X. destruct X as [[X|X]|[X _]]; [discriminate|injection X as ->; right; now left|left; auto]. }
    assert (D : KInv (notify_parents o (set_pres o Present (set_queues [] u (infl s) s)))) by (eapply frame_K; [apply frame_notify|]; exact K).
    destruct m; unfold upload; auto; destruct (existsb _ _); exact G.
  - unfold make_test_request.
    assert (G : KInv (emit (THead o) (set_op o OpHead t (set_queues q (uq s) (infl s ++ [o]) s)))).
    { intros x. cbn [emit set_op set_ob set_queues trace infl]. intros X. apply in_or_app. apply open_split in X. destruct X as [[X|X]|[X _]]; [injection X as ->; right; now left|discriminate|left; auto]. }
    cbv zeta. destruct (existsb _ _); exact G.
Qed.
Lemma launch_loop_K n m t : forall s, KInv s -> KInv (launch_loop n m t s).
Proof. induction n as [|n IH]; intros s K; cbn [launch_loop]; auto. destruct (nothing_queued s); auto. apply IH. intros o. apply (launch_one_K m t s K). Qed.
Lemma listen_one_K R m s a : KInv s -> KInv (listen_one R m s a).
Proof.
  intros K. destruct a as [[[o code] url] now]. unfold listen_one. destruct (existsb _ _); auto. cbv zeta.
  destruct (frame_curl_done R m o code url s) as (A & B & _). set (s1 := curl_done R m o code url s) in *.
  assert (X : KInv s1).
  { intros x. rewrite A, B. cbn [arrived emit set_queues trace infl]. intros X. apply open_split in X. unfold ans in X. rewrite in_rm. destruct X as [X|[X N]].
    - destruct (op (objs s o)); destruct X; discriminate.
    - split; [apply K; exact X|]. intros ->. specialize (N code url). destruct (op (objs s o)); destruct N; congruence. }
  destruct (server_has_failed _); exact X.
Qed.
Lemma listen_fold_K R m l : forall s, KInv s -> KInv (fold_left (listen_one R m) l s).
Proof. induction l as [|a l IH]; intros s K; cbn [fold_left]; auto. apply IH. now apply listen_one_K. Qed.
Lemma run_K R m cap root l : KInv (fst (push_run R m cap root l)).
Proof.
  unfold push_run. apply (rounds_ind R m root KInv).
  - intros e s K. unfold loop, loop_listen, loop_launch. apply listen_fold_K. intros o. apply (launch_loop_K _ m (fst e) s K).
  - eapply frame_K; [apply frame_query|]. intros o (l1 & x & l2 & E & _). destruct l1; discriminate.
Qed.

(** After every round the count of running requests is the number of those in flight. *)
Lemma listen_one_infl R m s a : infl (listen_one R m s a) = rm (fst (fst (fst a))) (infl s) /\ running (listen_one R m s a) = running s.
Proof.
  destruct a as [[[o code] url] now]. unfold listen_one. cbn [fst]. destruct (existsb (Nat.eqb o) (infl s)) eqn:E; cbv zeta.
  - destruct (frame_curl_done R m o code url s) as (_ & B & _). pose proof (running_curl_done R m o code url s) as Q. set (s1 := curl_done R m o code url s) in *.
    destruct (server_has_failed _); (split; [exact B|exact Q]).
  - split; [|reflexivity]. unfold rm. symmetry. induction (infl s) as [|x l IH]; cbn [filter existsb] in *; [reflexivity|].
    apply orb_false_iff in E. destruct E as [E1 E2]. rewrite Nat.eqb_sym, E1. cbn [negb]. now rewrite IH.
Qed.
Lemma listen_fold_infl R m l : forall s,
  infl (fold_left (listen_one R m) l s) = filter (fun o => negb (existsb (fun a : answer => Nat.eqb (fst (fst (fst a))) o) l)) (infl s) /\ running (fold_left (listen_one R m) l s) = running s.
Proof.
  induction l as [|a l IH]; intros s; cbn [fold_left existsb].
  - split; [|reflexivity]. cbn. induction (infl s) as [|x i IHi]; cbn; [reflexivity|]. now f_equal.
  - destruct (listen_one_infl R m s a) as [A B]. destruct (IH (listen_one R m s a)) as [C D]. rewrite C, D, A. split; [|exact B].
    clear. unfold rm. induction (infl s) as [|x i IHi]; cbn [filter]; [reflexivity|]. rewrite (Nat.eqb_sym x). destruct (Nat.eqb (fst (fst (fst a))) x); cbn [negb orb filter]; [exact IHi|].
    destruct (existsb _ l); cbn [negb]; [exact IHi|]. now rewrite IHi.
Qed.
Lemma filter_count {A} (f : A -> bool) l : (List.length (filter f l) + List.length (filter (fun x => negb (f x)) l) = List.length l)%nat.
Proof. induction l as [|x l IH]; cbn; [reflexivity|]. destruct (f x); cbn; lia. Qed.
Lemma loop_running R m e s : running (loop R m e s) = Z.of_nat (List.length (infl (loop R m e s))).
Proof.
  unfold loop, loop_listen. set (s1 := loop_launch m (fst e) s). set (n := Z.of_nat (List.length (infl s1)) - _).
  destruct (listen_fold_infl R m (snd e) (set_running n s1)) as [A B]. rewrite A, B. cbn [set_running running infl]. unfold n, completes.
  set (f := fun o => existsb (fun a : answer => Nat.eqb (fst (fst (fst a))) o) (snd e)).
  pose proof (filter_count f (infl s1)) as FC. change (Z.of_nat (List.length (infl s1)) - Z.of_nat (List.length (filter f (infl s1))) = Z.of_nat (List.length (filter (fun x => negb (f x)) (infl s1)))). unfold obj in *. lia.
Qed.
Lemma rounds_last R m root l : forall s, snd (rounds R m root l s) = true -> exists e s0, fst (rounds R m root l s) = loop R m e s0.
Proof. induction l as [|e l IH]; intros s; cbn [rounds]; [discriminate|]. destruct (check_pool_state _ _ _); cbn [fst snd]; eauto. Qed.
Theorem tree_ends R m cap root l s : m = MWalkTree \/ m = MPushTree -> push_run R m cap root l = (s, true) ->
  stopped s = true \/ ((forall o, ~ is_open (trace s) o) /\ qq s = [] /\ uq s = []).
Proof.
  intros M H. assert (C : check_pool_state m root s = false).
  { unfold push_run in H. pose proof (rounds_end R m root l (add_query root (pool0 cap))) as X. rewrite H in X. now apply X. }
  assert (N : running s = Z.of_nat (List.length (infl s))).
  { unfold push_run in H. destruct (rounds_last R m root l (add_query root (pool0 cap))) as (e & s0 & X); [now rewrite H|]. rewrite H in X. cbn [fst] in X. rewrite X. apply loop_running. }
  pose proof (run_K R m cap root l) as K. rewrite H in K. cbn [fst] in K.
  assert (C' : negb (stopped s) && negb (is_idle s) = false) by (destruct M as [-> | ->]; exact C). destruct (stopped s); [now left|]. right.
  cbn [negb andb] in C'. apply negb_false_iff in C'. unfold is_idle in C'. apply andb_true_iff in C'. destruct C' as [C1 C2]. apply Z.eqb_eq in C2.
  assert (E : infl s = []) by (destruct (infl s); [reflexivity|cbn [List.length] in N; lia]).
  split; [intros o X; apply K in X; now rewrite E in X|]. unfold nothing_queued in C1. destruct (qq s), (uq s); try discriminate. auto.
Qed.
