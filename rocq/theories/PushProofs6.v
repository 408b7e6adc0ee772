(** Termination in the default mode: counting the answers. *)
From Verif Require Import Base RateModel PushModel PushSpec PushProofs PushProofs2 PushProofs3 PushProofs4 PushProofs5.
From Coq Require Import Lia Permutation.

Definition is_head (o : obj) (e : tev) : bool := match e with THeadAns x _ _ => Nat.eqb x o | _ => false end.
Definition is_post (o : obj) (e : tev) : bool := match e with TPostAns x _ _ => Nat.eqb x o | _ => false end.
Definition score (tr : list tev) (o : obj) : nat := ((if existsb (is_head o) tr then 1 else 0) + (if existsb (is_post o) tr then 1 else 0))%nat.
Fixpoint total (U : list obj) (tr : list tev) : nat := match U with [] => 0 | o :: U' => score tr o + total U' tr end%nat.
Lemma score_le tr o : (score tr o <= 2)%nat.
Proof. unfold score. destruct (existsb _ _), (existsb _ _); lia. Qed.
Lemma total_le U tr : (total U tr <= 2 * List.length U)%nat.
Proof. induction U as [|o U IH]; cbn [total List.length]; [lia|]. pose proof (score_le tr o). lia. Qed.
Lemma score_mono tr e o : (score tr o <= score (tr ++ [e]) o)%nat.
Proof. unfold score. rewrite !existsb_app. destruct (existsb (is_head o) tr), (existsb (is_post o) tr); cbn [orb]; try lia; destruct (existsb _ [e]), (existsb _ [e]); lia. Qed.
Lemma total_mono U tr e : (total U tr <= total U (tr ++ [e]))%nat.
Proof. induction U as [|o U IH]; cbn [total]; [lia|]. pose proof (score_mono tr e o). lia. Qed.
Lemma score_up tr e o : (is_head o e = true /\ existsb (is_head o) tr = false) \/ (is_post o e = true /\ existsb (is_post o) tr = false) -> (S (score tr o) <= score (tr ++ [e]) o)%nat.
Proof.
  unfold score. rewrite !existsb_app. cbn [existsb]. intros [[A B]|[A B]]; rewrite A, B; cbn [orb]; rewrite ?orb_true_r.
  - destruct (existsb (is_post o) tr), (is_post o e); cbn; lia.
  - destruct (existsb (is_head o) tr), (is_head o e); cbn; lia.
Qed.
Lemma total_up U tr e o : In o U -> (S (score tr o) <= score (tr ++ [e]) o)%nat -> (S (total U tr) <= total U (tr ++ [e]))%nat.
Proof.
  intros I H. induction U as [|x U IH]; [contradiction|]. cbn [total]. destruct I as [->|I].
  - pose proof (total_mono U tr e). lia.
  - specialize (IH I). pose proof (score_mono tr e x). lia.
Qed.
Lemma answers_snoc tr e : answers (tr ++ [e]) = (answers tr + if is_answer e then 1 else 0)%nat.
Proof. unfold answers. rewrite filter_app, app_length. cbn [filter]. destruct (is_answer e); cbn [List.length]; lia. Qed.

Record EInv (R : repo) (U : list obj) (s : pool) : Prop := {
  i_S : SInv nob s; i_T : TInv R nob s; i_L : LInv R nob no2 s; i_W : within U s; i_stop : stopped s = false;
  i_sleep : r_sleep (rc s) = 0; i_dead : forall o, reported (trace s) o -> dead s o;
  i_count : (answers (trace s) <= total U (trace s))%nat }.

Lemma wb_app l1 l2 : well_behaved (l1 ++ l2) -> well_behaved l1.
Proof. intros [A B]. split; intros o c u X; [apply (A o)|apply (B o)]; apply in_app_iff; auto. Qed.
Lemma reported_snoc_no tr e o : is_answer e = false -> reported (tr ++ [e]) o -> reported tr o.
Proof. unfold reported. rewrite !in_app_iff. cbn. intros N H. destruct e; try discriminate N; intuition discriminate. Qed.

Lemma listen_one_trace R m s a : trace (listen_one R m s a) = trace s \/
  (let '(o, code, url, now) := a in In o (infl s) /\ trace (listen_one R m s a) = trace s ++ [ans s o code url]).
Proof.
  destruct a as [[[o code] url] now]. unfold listen_one. destruct (existsb _ _) eqn:E; [|left; auto]. apply in_infl in E. right. split; auto. cbv zeta.
  destruct (frame_curl_done R m o code url s) as (A & _).
  destruct (server_has_failed _); cbn [abort set_rc trace]; rewrite A; reflexivity.
Qed.
(** Nothing but the pool itself touches the rate. *)
Lemma rc_upload o s : rc (add_upload o s) = rc s. Proof. unfold add_upload. cbv zeta. destruct (stopped _); reflexivity. Qed.
Lemma rc_query o s : rc (add_query o s) = rc s. Proof. unfold add_query. cbv zeta. destruct (stopped _); reflexivity. Qed.
Lemma rc_notify o s : rc (notify_parents o s) = rc s.
Proof.
  unfold notify_parents. generalize (pars (objs s o)). intros l. revert s. induction l as [|[p it] l IH]; intros s; cbn [fold_left]; auto. rewrite IH.
  unfold notify_one, child_notify. cbv zeta. cbn [fst snd]. destruct (existsb _ _); destruct (left _); rewrite ?rc_upload; reflexivity.
Qed.
Lemma rc_check R o code s : rc (check_children R o code s) = rc s.
Proof.
  assert (PO : forall l t, rc (fst (populate R o l t)) = rc t).
  { induction l as [|c l IH]; intros t; cbn [populate fst]; auto. destruct (have R c); cbn [fst]; auto. rewrite IH. unfold append_child. destruct (pres (objs t c)); reflexivity. }
  assert (QF : forall l t, rc (fold_left query_one l t) = rc t).
  { induction l as [|e l IH]; intros t; cbn [fold_left]; auto. rewrite IH. unfold query_one. destruct (pres _); auto. apply rc_query. }
  unfold check_children. specialize (PO (kids R o) s). destruct (populate R o (kids R o) s) as [s1 ok]. cbn [fst] in PO. destruct ok; auto.
  destruct (left (objs s1 o)); [destruct (code =? 200); auto; now rewrite rc_upload|]. unfold query_children. now rewrite QF.
Qed.
Lemma rc_curl_done R m o code url s : rc (curl_done R m o code url s) = rc s.
Proof.
  rewrite curl_done_eq. cbv zeta. destruct (op (objs s o)).
  - destruct (negb url); [unfold presence_error; now rewrite rc_query|]. destruct (code =? 200); [destruct m; rewrite ?rc_notify, ?rc_check; reflexivity|].
    destruct (code =? 404); [now rewrite rc_check|]. unfold presence_error. now rewrite rc_query.
  - destruct (negb url); [unfold upload_error; now rewrite rc_upload|]. destruct (_ || _); [now rewrite rc_notify|unfold upload_error; now rewrite rc_upload].
Qed.
Lemma listen_one_E R U s a : closed R U -> EInv R U s -> well_behaved (trace (listen_one R MDefault s a)) -> EInv R U (listen_one R MDefault s a).
Proof.
  intros C I WB. pose proof (listen_one_S R MDefault s a (i_S _ _ _ I)) as S1. pose proof (listen_one_T R MDefault s a real_default (i_S _ _ _ I) (i_T _ _ _ I)) as T1.
  pose proof (listen_one_L R s a (i_S _ _ _ I) (or_intror (i_L _ _ _ I))) as L1.
  pose proof (listen_one_trace R MDefault s a) as TR.
  destruct a as [[[o code] url] now]. unfold listen_one in *. destruct (existsb _ _) eqn:E; auto. apply in_infl in E. cbv zeta in *.
  destruct TR as [TR|[_ TR]].
  { exfalso. destruct (frame_curl_done R MDefault o code url s) as (A & _).
    assert (X : trace (curl_done R MDefault o code url s) = trace s) by (destruct (server_has_failed _) in TR; exact TR). rewrite A in X. cbn [arrived emit trace set_queues] in X.
    apply (f_equal (@List.length tev)) in X. rewrite app_length in X. cbn in X. lia. }
  assert (P : proper s o code url).
  { rewrite TR in WB. destruct WB as [WH WP]. unfold proper. unfold ans in *. destruct (op (objs s o)).
    - apply (WH o). apply in_app_iff. right; left; auto.
    - apply (WP o). apply in_app_iff. right; left; auto. }
  destruct (curl_done_mild U R o code url s C (i_S _ _ _ I) (i_L _ _ _ I) (i_W _ _ _ I) (i_stop _ _ _ I) E P) as (M & NS & LO & DE).
  assert (RC : rc (curl_done R MDefault o code url s) = rc s) by apply rc_curl_done.
  set (s1 := curl_done R MDefault o code url s) in *.
  assert (SL : r_sleep (request_completed (started (objs s1 o)) now (last_ok (objs s1 o)) (rc s1)) = 0).
  { rewrite LO, RC. unfold request_completed. destruct (_ <? _); [reflexivity|apply I]. }
  assert (SF : server_has_failed (rc (set_rc (request_completed (started (objs s1 o)) now (last_ok (objs s1 o)) (rc s1)) s1)) = false).
  { cbn [set_rc rc]. unfold server_has_failed. rewrite SL. reflexivity. }
  rewrite SF in *. cbn [set_rc trace] in TR.
  assert (Qo : In o (Q s)) by (apply in_Q; auto).
  assert (Io : In o U). { apply (i_W _ _ _ I). intros X. apply (s_unk _ _ (i_S _ _ _ I) o X). exact Qo. }
  assert (NR : ~ reported (trace s) o). { intros X. apply (i_dead _ _ _ I) in X. now destruct X as (_ & X & _). }
  constructor; auto.
  - destruct L1 as [L1|L1]; auto. cbn [set_rc stopped] in L1. congruence.
  - assert (W1 : within U s1) by (eapply mild_within; [exact M|apply I]). exact W1.
  - intros x X. cbn [set_rc trace] in X. rewrite TR in X. cut (dead s1 x); [intros D; exact D|].
    assert (Y : reported (trace s) x \/ (x = o /\ code <> 404)).
    { revert X. unfold reported. rewrite !in_app_iff. unfold ans. destruct P as [-> P]. destruct (op (objs s o)); cbn [In]; intros X.
      - destruct X as [[X|[X|[]]]|[[X|[X|[]]]|[X|[X|[]]]]]; try discriminate X; auto. inversion X; subst. right. split; [auto|discriminate].
      - destruct X as [[X|[X|[]]]|[[X|[X|[]]]|[X|[X|[]]]]]; try discriminate X; auto; inversion X; subst; right; split; [auto|discriminate|auto|discriminate]. }
    destruct Y as [Y|[-> Y]]; auto. eapply mild_dead; [exact M|]. now apply (i_dead _ _ _ I).
  - cbn [set_rc trace]. rewrite TR, answers_snoc. pose proof (i_count _ _ _ I) as CN.
    assert (A1 : is_answer (ans s o code url) = true) by (unfold ans; destruct (op (objs s o)); auto). rewrite A1.
    assert (X : (S (total U (trace s)) <= total U (trace s ++ [ans s o code url]))%nat); [|lia].
    apply (total_up U _ _ o Io). apply score_up.
    assert (WS : well_behaved (trace s)) by (cbn [set_rc trace] in WB; rewrite TR in WB; now apply wb_app in WB).
    unfold ans. destruct (op (objs s o)) eqn:Op; [left|right]; (split; [apply Nat.eqb_refl|]).
    + destruct (existsb (is_head o) (trace s)) eqn:X; auto. exfalso. apply existsb_exists in X. destruct X as (e & X & Y). destruct e; try discriminate Y.
      apply Nat.eqb_eq in Y. subst o0. destruct (proj1 WS o code0 url0 X) as [-> Z].
      apply (t_head _ _ _ (i_T _ _ _ I) o); [right; left; auto|]. destruct Z as [-> | ->]; [left|right]; exact X.
    + destruct (existsb (is_post o) (trace s)) eqn:X; auto. exfalso. apply existsb_exists in X. destruct X as (e & X & Y). destruct e; try discriminate Y.
      apply Nat.eqb_eq in Y. subst o0. destruct (proj2 WS o code0 url0 X) as [-> Z].
      apply NR. right. destruct Z as [-> | ->]; [left|right]; exact X.
Qed.
Lemma listen_one_grows R m s a : exists l, trace (listen_one R m s a) = trace s ++ l.
Proof. destruct (listen_one_trace R m s a) as [H|H]; [exists []; rewrite app_nil_r; auto|]. destruct a as [[[o code] url] now]. destruct H as [_ H]. eauto. Qed.
Lemma listen_fold_grows R m l : forall s, exists l', trace (fold_left (listen_one R m) l s) = trace s ++ l'.
Proof.
  induction l as [|a l IH]; intros s; cbn [fold_left]; [exists []; now rewrite app_nil_r|]. destruct (IH (listen_one R m s a)) as [l' H].
  destruct (listen_one_grows R m s a) as [l2 H2]. exists (l2 ++ l'). rewrite H, H2. now rewrite app_assoc.
Qed.
Lemma listen_fold_E R U l : closed R U -> forall s, EInv R U s -> well_behaved (trace (fold_left (listen_one R MDefault) l s)) -> EInv R U (fold_left (listen_one R MDefault) l s).
Proof.
  intros C. induction l as [|a l IH]; intros s I WB; cbn [fold_left] in *; auto. apply IH; auto. apply listen_one_E; auto.
  destruct (listen_fold_grows R MDefault l (listen_one R MDefault s a)) as [l' H]. rewrite H in WB. now apply wb_app in WB.
Qed.
Lemma EInv_running R U n s : EInv R U s -> EInv R U (set_running n s).
Proof.
  intros []. constructor; auto.
  - eapply same_view_S; [apply view_running|auto].
  - eapply same_T_T; [apply sameT_running|auto].
  - eapply same_view_L; [apply view_running|auto].
Qed.
(** What LoopLaunch does in the default mode. *)
Lemma launch_one_shape t s : SInv nob s -> nothing_queued s = false -> exists o e p q u, launch_one MDefault t s = emit e (set_op o p t (set_queues q u (infl s ++ [o]) s)) /\
  Permutation (Q s) (q ++ u ++ infl s ++ [o]) /\ is_answer e = false /\ (e = THead o \/ e = TPost o).
Proof.
  intros I N. unfold launch_one, nothing_queued in *. destruct (qq s) as [|o q] eqn:E.
  - destruct (uq s) as [|o u] eqn:E2; [discriminate|]. exists o, (TPost o), OpPost, [], u. split; [apply (upload_eq MDefault t o s u real_default I E E2)|].
    split; [|split; auto]. unfold Q. rewrite E, E2. cbn [app]. rewrite app_assoc. apply Permutation_cons_append.
  - exists o, (THead o), OpHead, q, (uq s). split; [apply (test_request_eq t o s q I E)|]. split; [|split; auto].
    unfold Q. rewrite E. cbn [app]. rewrite !app_assoc. apply Permutation_cons_append.
Qed.
Lemma launch_one_E R U t s : EInv R U s -> nothing_queued s = false -> EInv R U (launch_one MDefault t s).
Proof.
  intros I N. pose proof (launch_one_S MDefault t s (i_S _ _ _ I)) as S1. pose proof (launch_one_T R MDefault t s real_default (i_S _ _ _ I) (i_T _ _ _ I)) as T1.
  pose proof (launch_one_L R t s (i_S _ _ _ I) (or_intror (i_L _ _ _ I))) as L1.
  destruct (launch_one_shape t s (i_S _ _ _ I) N) as (o & e & p & q & u & E & PM & NA & _). rewrite E in *.
  set (s' := emit e _) in *.
  assert (Pr : forall x, pres (objs s' x) = pres (objs s x)) by (intros x; unfold s'; cbn [emit objs]; now rewrite pres_set_op).
  assert (Le : forall x, left (objs s' x) = left (objs s x)) by (intros x; unfold s'; cbn [emit objs]; now rewrite left_set_op).
  assert (Qx : forall x, In x (Q s') -> In x (Q s)) by (intros x X; eapply Permutation_in; [symmetry; exact PM|exact X]).
  constructor; auto.
  - destruct L1 as [L1|L1]; auto. pose proof (i_stop _ _ _ I). cbn in L1. congruence.
  - intros x. rewrite Pr. apply I.
  - exact (i_stop _ _ _ I).
  - exact (i_sleep _ _ _ I).
  - intros x X. apply reported_snoc_no in X; auto. destruct (i_dead _ _ _ I x X) as (A & B & C). split; [now rewrite Pr|split; [auto|now rewrite Le]].
  - cbn [s' emit trace set_op set_ob set_queues]. rewrite answers_snoc, NA. pose proof (i_count _ _ _ I). pose proof (total_mono U (trace s) e). lia.
Qed.
Lemma launch_loop_E R U n t : forall s, EInv R U s -> EInv R U (launch_loop n MDefault t s).
Proof. induction n as [|n IH]; intros s I; cbn [launch_loop]; auto. destruct (nothing_queued s) eqn:N; auto. apply IH. apply EInv_running. now apply launch_one_E. Qed.
Lemma loop_E R U e s : closed R U -> EInv R U s -> well_behaved (trace (loop R MDefault e s)) -> EInv R U (loop R MDefault e s).
Proof. intros C I WB. unfold loop, loop_listen, loop_launch in *. apply listen_fold_E; auto. apply EInv_running. now apply launch_loop_E. Qed.

Lemma launch_one_grows m t s : exists l, trace (launch_one m t s) = trace s ++ l.
Proof.
  unfold launch_one. destruct (qq s) as [|o q].
  - destruct (uq s) as [|o u]; [exists []; now rewrite app_nil_r|]. destruct m.
    + eexists. unfold upload. destruct (existsb _ _); reflexivity.
    + exists []. cbv zeta. destruct (frame_notify o (upload MDryRun t o (set_queues [] u (infl s) s))) as (A & _). rewrite A, app_nil_r. reflexivity.
    + exists []. cbv zeta. destruct (frame_notify o (upload MWalkTree t o (set_queues [] u (infl s) s))) as (A & _). rewrite A, app_nil_r. reflexivity.
    + eexists. unfold upload. destruct (existsb _ _); reflexivity.
  - eexists. unfold make_test_request. destruct (existsb _ _); reflexivity.
Qed.
Lemma launch_loop_grows n m t : forall s, exists l, trace (launch_loop n m t s) = trace s ++ l.
Proof.
  induction n as [|n IH]; intros s; cbn [launch_loop]; [exists []; now rewrite app_nil_r|]. destruct (nothing_queued s); [exists []; now rewrite app_nil_r|].
  destruct (launch_one_grows m t s) as [l1 H1]. destruct (IH (set_running (running (launch_one m t s) + 1) (launch_one m t s))) as [l2 H2].
  exists (l1 ++ l2). rewrite H2. cbn [set_running trace]. rewrite H1. now rewrite app_assoc.
Qed.
Lemma loop_grows R m e s : exists l, trace (loop R m e s) = trace s ++ l.
Proof.
  unfold loop, loop_listen. set (s1 := loop_launch m (fst e) s). destruct (listen_fold_grows R m (snd e) (set_running (Z.of_nat (List.length (infl s1)) - Z.of_nat (List.length (completes s1 (snd e)))) s1)) as [l2 H2].
  destruct (launch_loop_grows (Z.to_nat (max_concurrency (rc s) - running s)) m (fst e) s) as [l1 H1]. exists (l1 ++ l2). rewrite H2. cbn [set_running trace]. unfold s1, loop_launch. rewrite H1. now rewrite app_assoc.
Qed.
Lemma rounds_grows R m root l : forall s, exists l', trace (fst (rounds R m root l s)) = trace s ++ l'.
Proof.
  induction l as [|e l IH]; intros s; cbn [rounds fst]; [exists []; now rewrite app_nil_r|]. destruct (loop_grows R m e s) as [l1 H1].
  destruct (check_pool_state _ _ _); cbn [fst]; [|eauto]. destruct (IH (loop R m e s)) as [l2 H2]. exists (l1 ++ l2). rewrite H2, H1. now rewrite app_assoc.
Qed.
Lemma rounds_E R U root l : closed R U -> forall s, EInv R U s -> well_behaved (trace (fst (rounds R MDefault root l s))) -> EInv R U (fst (rounds R MDefault root l s)).
Proof.
  intros C. induction l as [|e l IH]; intros s I WB; cbn [rounds fst] in *; auto. destruct (check_pool_state _ _ _); cbn [fst] in *; [|now apply loop_E].
  apply IH; auto. apply loop_E; auto. destruct (rounds_grows R MDefault root l (loop R MDefault e s)) as [l' H]. rewrite H in WB. now apply wb_app in WB.
Qed.
Lemma start_E R U cap root : In root U -> EInv R U (add_query root (pool0 cap)).
Proof.
  intros Io. constructor; auto.
  - apply start_S.
  - apply start_T.
  - apply start_L.
  - intros x. rewrite pres_add_query. destruct (Nat.eqb_spec x root) as [->|]; auto. intros X. exfalso. now apply X.
  - intros o [[]|[[]|[]]].
  - cbn. lia.
Qed.
Lemma run_E R U cap root l : complete R root U -> well_behaved (trace (fst (push_run R MDefault cap root l))) -> EInv R U (fst (push_run R MDefault cap root l)).
Proof. intros (_ & Io & C) WB. apply rounds_E; auto. now apply start_E. Qed.

(** Progress. *)
Record GInv (R : repo) (root : obj) (s : pool) : Prop := { g_S : SInv nob s; g_L : PInv R s; g_root : pres (objs s root) <> Unknown; g_run : running s <= Z.of_nat (List.length (infl s)); g_cap : 1 <= r_cap (rc s); g_max : 1 <= r_max (rc s) }.

Definition known (s s' : pool) : Prop := forall x, pres (objs s x) <> Unknown -> pres (objs s' x) <> Unknown.
Lemma known_trans a b c : known a b -> known b c -> known a c. Proof. intros A B x X. auto. Qed.
Lemma known_same s s' : (forall x, pres (objs s' x) = pres (objs s x)) -> known s s'. Proof. intros H x. now rewrite H. Qed.
Lemma known_set o p s : p <> Unknown -> known s (set_pres o p s).
Proof. intros P x X. rewrite pres_set_pres. destruct (Nat.eqb x o); auto. Qed.
Lemma known_upload o s : known s (add_upload o s).
Proof. intros x X. rewrite pres_add_upload. destruct (Nat.eqb x o); [discriminate|auto]. Qed.
Lemma known_query o s : known s (add_query o s).
Proof. intros x X. rewrite pres_add_query. destruct (Nat.eqb x o); [discriminate|auto]. Qed.
Lemma known_notify o s : known s (notify_parents o s).
Proof.
  unfold notify_parents. generalize (pars (objs s o)). intros l. revert s. induction l as [|[p it] l IH]; intros s; cbn [fold_left]; [intros x; auto|].
  eapply known_trans; [|apply IH]. unfold notify_one, child_notify. cbv zeta. cbn [fst snd]. destruct (existsb _ _); destruct (left _).
  all: try (eapply known_trans; [|apply known_upload]). all: apply known_same; intros x; auto; apply pres_set_left.
Qed.
Lemma known_check R o code s : known s (check_children R o code s).
Proof.
  unfold check_children. pose proof (populate_pres R o (kids R o) s) as PP. destruct (populate R o (kids R o) s) as [s1 ok]. cbn [fst] in PP.
  eapply known_trans; [apply known_same; exact PP|]. destruct ok; [|apply known_same; auto]. destruct (left (objs s1 o)).
  - destruct (code =? 200); [intros x; auto|apply known_upload].
  - unfold query_children. generalize (left (objs s1 o)). intros l0. clear PP. revert s1. induction l0 as [|e l0 IH]; intros s1; cbn [fold_left]; [intros x; auto|].
    eapply known_trans; [|apply IH]. unfold query_one. destruct (pres _); try (intros x X; exact X). apply known_query.
Qed.
Lemma known_curl_done R m o code url s : known s (curl_done R m o code url s).
Proof.
  rewrite curl_done_eq. cbv zeta.
  assert (Er : forall p s', s' = add_upload o (set_ok o false (set_pres o p (arrived s o code url))) \/ s' = add_query o (set_ok o false (set_pres o p (arrived s o code url))) -> known s s').
  { intros p s' E x X. assert (H : pres (objs s' x) = if Nat.eqb x o then InProgress else pres (objs s x)).
    { destruct E as [-> | ->]; [rewrite pres_add_upload|rewrite pres_add_query]; autorewrite with pv; destruct (Nat.eqb x o); auto. }
    rewrite H. destruct (Nat.eqb x o); [discriminate|auto]. }
  assert (Ok : forall p, p <> Unknown -> known s (set_ok o true (set_pres o p (arrived s o code url)))).
  { intros p P x X. autorewrite with pv. destruct (Nat.eqb x o); auto. }
  destruct (op (objs s o)).
  - destruct (negb url); [eapply Er; right; reflexivity|]. destruct (code =? 200).
    + destruct m; (eapply known_trans; [apply (Ok Present); discriminate|]); (apply known_notify || apply known_check).
    + destruct (code =? 404); [|eapply Er; right; reflexivity]. eapply known_trans; [apply (Ok Missing); discriminate|apply known_check].
  - destruct (negb url); [eapply Er; left; reflexivity|]. destruct (_ || _); [|eapply Er; left; reflexivity].
    eapply known_trans; [apply (Ok Present); discriminate|apply known_notify].
Qed.
Lemma known_launch_one t s : SInv nob s -> nothing_queued s = false -> forall x, pres (objs (launch_one MDefault t s) x) = pres (objs s x).
Proof. intros I N x. destruct (launch_one_shape t s I N) as (o & e & p & q & u & E & _). rewrite E. cbn [emit objs]. now rewrite pres_set_op. Qed.

Lemma rate_keep a b c r : 1 <= r_cap r -> 1 <= r_max r -> 1 <= r_cap (request_completed a b c r) /\ 1 <= r_max (request_completed a b c r).
Proof.
  intros A B. unfold request_completed. destruct (_ <? _); auto. destruct c; cbn [r_cap r_max]; [lia|]. destruct (Z.leb_spec 2 (r_max r)); cbn [r_cap r_max]; auto.
  split; auto. apply (Z.div_le_lower_bound (r_max r) 2 1); lia.
Qed.
Definition Grest (root : obj) (s : pool) : Prop := pres (objs s root) <> Unknown /\ 1 <= r_cap (rc s) /\ 1 <= r_max (rc s).
Lemma listen_one_G R root s a : Grest root s -> Grest root (listen_one R MDefault s a) /\ infl (listen_one R MDefault s a) = rm (fst (fst (fst a))) (infl s).
Proof.
  intros (A & B & C). destruct a as [[[o code] url] now]. unfold listen_one. cbn [fst].
  destruct (existsb _ _) eqn:E.
  - cbv zeta. destruct (frame_curl_done R MDefault o code url s) as (_ & F & _). pose proof (known_curl_done R MDefault o code url s root A) as K.
    pose proof (rc_curl_done R MDefault o code url s) as RC. set (s1 := curl_done R MDefault o code url s) in *.
    assert (X : Grest root (set_rc (request_completed (started (objs s1 o)) now (last_ok (objs s1 o)) (rc s1)) s1) /\ infl s1 = rm o (infl s)).
    { split; [|rewrite F; reflexivity]. split; auto. cbn [set_rc rc]. rewrite RC. now apply rate_keep. }
    destruct (server_has_failed _); auto.
  - split; [split; auto|]. unfold rm. symmetry. assert (NI : ~ In o (infl s)) by (intros X; apply in_infl in X; congruence).
    clear - NI. induction (infl s) as [|y l IH]; cbn [filter]; auto. destruct (Nat.eqb_spec y o) as [->|]; cbn [negb]; [exfalso; apply NI; left; auto|]. rewrite IH; auto. intros X. apply NI. right; auto.
Qed.
Lemma filter_two k (g : nat -> bool) l : filter (fun o => negb (g o)) (filter (fun x => negb (Nat.eqb x k)) l) = filter (fun o => negb (Nat.eqb k o || g o)) l.
Proof.
  induction l as [|y l IH]; cbn [filter]; auto. rewrite (Nat.eqb_sym y k). destruct (Nat.eqb k y); cbn [negb orb filter]; auto. now rewrite IH.
Qed.
Lemma listen_fold_G R root l : forall s, Grest root s -> Grest root (fold_left (listen_one R MDefault) l s) /\
  infl (fold_left (listen_one R MDefault) l s) = filter (fun o => negb (existsb (fun a => Nat.eqb (fst (fst (fst a))) o) l)) (infl s).
Proof.
  induction l as [|a l IH]; intros s G; cbn [fold_left].
  - split; auto. clear G. generalize (infl s). intros l. induction l as [|y l IH]; cbn [filter existsb negb]; [reflexivity|]. f_equal. exact IH.
  - destruct (listen_one_G R root s a G) as [G1 F1]. destruct (IH _ G1) as [G2 F2]. split; auto. rewrite F2, F1. unfold rm. cbn [existsb].
    exact (filter_two (fst (fst (fst a))) (fun o => existsb (fun a : answer => Nat.eqb (fst (fst (fst a))) o) l) (infl s)).
Qed.
Lemma filter_split {A} (f : A -> bool) l : (List.length (filter f l) + List.length (filter (fun x => negb (f x)) l) = List.length l)%nat.
Proof. induction l as [|x l IH]; cbn [filter]; auto. destruct (f x); cbn [negb List.length]; lia. Qed.
Lemma filter_split_Z {A} (f : A -> bool) l : Z.of_nat (List.length l) - Z.of_nat (List.length (filter f l)) <= Z.of_nat (List.length (filter (fun x => negb (f x)) l)).
Proof. pose proof (filter_split f l). lia. Qed.
Lemma launch_loop_G root n t : forall s, SInv nob s -> Grest root s -> Grest root (launch_loop n MDefault t s).
Proof.
  induction n as [|n IH]; intros s I G; cbn [launch_loop]; auto. destruct (nothing_queued s) eqn:N; auto. apply IH.
  - eapply same_view_S; [apply view_running|]. now apply launch_one_S.
  - destruct G as (A & B & C). destruct (launch_one_shape t s I N) as (o & e & p & q & u & E & _). unfold Grest. cbn [set_running objs rc].
    rewrite (known_launch_one t s I N), E. auto.
Qed.
Lemma running_curl_done R m o code url s : running (curl_done R m o code url s) = running s.
Proof.
  assert (AU : forall y t, running (add_upload y t) = running t) by (intros; unfold add_upload; cbv zeta; destruct (stopped _); reflexivity).
  assert (AQ : forall y t, running (add_query y t) = running t) by (intros; unfold add_query; cbv zeta; destruct (stopped _); reflexivity).
  assert (NO : forall t, running (notify_parents o t) = running t).
  { intros t. unfold notify_parents. generalize (pars (objs t o)). intros l. revert t. induction l as [|[p it] l IH]; intros t; cbn [fold_left]; auto. rewrite IH.
    unfold notify_one, child_notify. cbv zeta. cbn [fst snd]. destruct (existsb _ _); destruct (left _); rewrite ?AU; reflexivity. }
  assert (CH : forall t, running (check_children R o code t) = running t).
  { intros t. assert (PO : forall l u, running (fst (populate R o l u)) = running u).
    { induction l as [|c l IH]; intros u; cbn [populate fst]; auto. destruct (have R c); cbn [fst]; auto. rewrite IH. unfold append_child. destruct (pres (objs u c)); reflexivity. }
    assert (QF : forall l u, running (fold_left query_one l u) = running u).
    { induction l as [|e l IH]; intros u; cbn [fold_left]; auto. rewrite IH. unfold query_one. destruct (pres _); auto. }
    unfold check_children. specialize (PO (kids R o) t). destruct (populate R o (kids R o) t) as [s1 ok]. cbn [fst] in PO. destruct ok; auto.
    destruct (left (objs s1 o)); [destruct (code =? 200); auto; now rewrite AU|]. unfold query_children. now rewrite QF. }
  rewrite curl_done_eq. cbv zeta. destruct (op (objs s o)).
  - destruct (negb url); [unfold presence_error; now rewrite AQ|]. destruct (code =? 200); [destruct m; rewrite ?NO, ?CH; reflexivity|].
    destruct (code =? 404); [now rewrite CH|]. unfold presence_error. now rewrite AQ.
  - destruct (negb url); [unfold upload_error; now rewrite AU|]. destruct (_ || _); [now rewrite NO|unfold upload_error; now rewrite AU].
Qed.
Lemma loop_G R root e s : GInv R root s -> GInv R root (loop R MDefault e s).
Proof.
  intros [A B C D E F]. assert (S1 : SInv nob (loop R MDefault e s)) by now apply loop_S. assert (L1 : PInv R (loop R MDefault e s)) by now apply loop_L.
  unfold loop, loop_listen, loop_launch in *.
  set (s1 := launch_loop _ _ _ s) in *. assert (G1 : Grest root s1) by (apply launch_loop_G; auto; split; auto).
  destruct (listen_fold_G R root (snd e) (set_running (Z.of_nat (List.length (infl s1)) - Z.of_nat (List.length (completes s1 (snd e)))) s1) G1) as [(G2 & G3 & G4) F2].
  constructor; auto. rewrite F2. cbn [set_running infl]. 
  assert (RN : forall l t, running (fold_left (listen_one R MDefault) l t) = running t).
  { intros l. induction l as [|a l IH]; intros t; cbn [fold_left]; auto. rewrite IH. destruct a as [[[o code] url] now]. unfold listen_one. destruct (existsb _ _); auto. cbv zeta.
    destruct (server_has_failed _); cbn [abort set_rc running]; apply running_curl_done. }
  rewrite RN. cbn [set_running running]. unfold completes.
  exact (filter_split_Z (fun o => existsb (fun a : answer => Nat.eqb (fst (fst (fst a))) o) (snd e)) (infl s1)).
Qed.
Lemma run_G R cap root l : 1 <= cap -> GInv R root (fst (push_run R MDefault cap root l)).
Proof.
  intros H. unfold push_run. apply (rounds_ind R MDefault root (GInv R root)).
  - intros e s. apply loop_G.
  - constructor; [apply start_S|right; apply start_L| | | |].
    + rewrite pres_add_query, Nat.eqb_refl. discriminate.
    + cbn. lia.
    + exact H.
    + cbn. lia.
Qed.
Lemma some_queued R s : acyclic R -> LInv R nob no2 s -> forall c, active (pres (objs s c)) -> Q s <> [].
Proof.
  intros [rank RK] L. assert (G : forall n c, (rank c < n)%nat -> active (pres (objs s c)) -> Q s <> []).
  { induction n as [|n IH]; intros c Hn A; [lia|]. destruct (l_act _ _ _ _ L c A) as [X|[X|X]].
    - intros E. rewrite E in X. contradiction.
    - destruct (left (objs s c)) as [|[it k] l] eqn:E; [congruence|]. assert (Y : In (it, k) (left (objs s c))) by (rewrite E; left; auto).
      destruct (l_left _ _ _ _ L _ _ _ Y) as [Z|Z]; [|exact (False_ind _ Z)]. apply (IH k); auto. pose proof (RK c k (l_kids _ _ _ _ L _ _ _ Y)). lia.
    - exact (False_ind _ X). }
  intros c. apply (G (S (rank c))). lia.
Qed.
Lemma launch_loop_infl n t : forall s, SInv nob s -> exists l, infl (launch_loop n MDefault t s) = infl s ++ l.
Proof.
  induction n as [|n IH]; intros s I; cbn [launch_loop]; [exists []; now rewrite app_nil_r|]. destruct (nothing_queued s) eqn:N; [exists []; now rewrite app_nil_r|].
  destruct (launch_one_shape t s I N) as (o & e & p & q & u & E & _).
  destruct (IH (set_running (running (launch_one MDefault t s) + 1) (launch_one MDefault t s))) as [l H]; [eapply same_view_S; [apply view_running|]; now apply launch_one_S|].
  exists ([o] ++ l). rewrite H, E. cbn [set_running infl emit set_op set_ob set_queues]. now rewrite app_assoc.
Qed.
Lemma progress R root t s : acyclic R -> GInv R root s -> stopped s = false -> pres (objs s root) <> Present -> infl (loop_launch MDefault t s) <> [].
Proof.
  intros AC [A B C D E F] NS NP. destruct B as [B|B]; [congruence|]. unfold loop_launch.
  destruct (infl s) as [|o i] eqn:EI.
  - assert (Ac : active (pres (objs s root))) by (destruct (pres (objs s root)); unfold active; auto; congruence).
    assert (Qn : Q s <> []) by (eapply some_queued; eauto).
    assert (N : nothing_queued s = false). { unfold nothing_queued. unfold Q in Qn. rewrite EI in Qn. destruct (qq s), (uq s); auto; exfalso; now apply Qn. }
    cbn in D. unfold max_concurrency. destruct (Z.to_nat (r_max (rc s) - running s)) as [|n] eqn:En; [lia|]. cbn [launch_loop]. rewrite N.
    destruct (launch_one_shape t s A N) as (o & e & p & q & u & Eq & _).
    destruct (launch_loop_infl n t (set_running (running (launch_one MDefault t s) + 1) (launch_one MDefault t s))) as [l H]; [eapply same_view_S; [apply view_running|]; now apply launch_one_S|].
    rewrite H, Eq. cbn [set_running infl emit set_op set_ob set_queues]. rewrite EI. discriminate.
  - destruct (launch_loop_infl (Z.to_nat (max_concurrency (rc s) - running s)) t s A) as [l H]. rewrite H, EI. discriminate.
Qed.
(** What is in flight is an open request. *)
Definition OInv (s : pool) : Prop := forall o, In o (infl s) -> is_open (trace s) o.
Lemma open_snoc tr e o : is_open tr o -> (forall c u, e <> THeadAns o c u /\ e <> TPostAns o c u) -> is_open (tr ++ [e]) o.
Proof.
  intros (l1 & x & l2 & -> & X & N) H. exists l1, x, (l2 ++ [e]). split; [now rewrite <- app_assoc|]. split; auto.
  intros c u. destruct (N c u) as [A B]. destruct (H c u) as [C D]. rewrite !in_app_iff. cbn. intuition.
Qed.
Lemma launch_loop_O n t : forall s, SInv nob s -> OInv s -> OInv (launch_loop n MDefault t s).
Proof.
  induction n as [|n IH]; intros s I G; cbn [launch_loop]; auto. destruct (nothing_queued s) eqn:N; auto. apply IH.
  - eapply same_view_S; [apply view_running|]. now apply launch_one_S.
  - destruct (launch_one_shape t s I N) as (o & e & p & q & u & E & _ & _ & W). rewrite E. intros x. cbn [set_running infl emit set_op set_ob set_queues trace]. rewrite in_app_iff.
    intros [X|[<-|[]]].
    + apply open_snoc; auto. intros c v. destruct W as [-> | ->]; split; discriminate.
    + exists (trace s), e, []. split; auto.
Qed.
Lemma listen_fold_O R m l : forall s, OInv s -> OInv (fold_left (listen_one R m) l s).
Proof.
  induction l as [|a l IH]; intros s G; cbn [fold_left]; auto. apply IH. destruct a as [[[o code] url] now]. unfold listen_one. destruct (existsb _ _); auto. cbv zeta.
  destruct (frame_curl_done R m o code url s) as (A & B & _). set (s1 := curl_done R m o code url s) in *.
  assert (X : forall x, In x (infl s1) -> is_open (trace s1) x).
  { intros x. rewrite A, B. cbn [arrived emit set_queues trace infl]. rewrite in_rm. intros [X N]. apply open_snoc; auto. intros c u. unfold ans. destruct (op (objs s o)); split; congruence. }
  destruct (server_has_failed _); exact X.
Qed.
Lemma run_O R cap root l : OInv (fst (push_run R MDefault cap root l)).
Proof.
  unfold push_run. apply (rounds_ind R MDefault root (fun s => SInv nob s /\ OInv s)).
  - intros e s [A B]. split; [now apply loop_S|]. unfold loop, loop_listen, loop_launch. apply listen_fold_O. intros x X. now apply launch_loop_O.
  - split; [apply start_S|intros o []].
Qed.
(** How a run ends. *)
Lemma rounds_end R m root l : forall s, snd (rounds R m root l s) = true -> check_pool_state m root (fst (rounds R m root l s)) = false.
Proof. induction l as [|e l IH]; intros s; cbn [rounds]; [discriminate|]. destruct (check_pool_state _ _ _) eqn:C; cbn [fst snd]; auto. Qed.
Lemma rounds_not_end R m root l : forall s, check_pool_state m root s = true -> snd (rounds R m root l s) = false -> check_pool_state m root (fst (rounds R m root l s)) = true.
Proof. induction l as [|e l IH]; intros s H; cbn [rounds]; auto. destruct (check_pool_state m root (loop R m e s)) eqn:C; cbn [fst snd]; auto. discriminate. Qed.
