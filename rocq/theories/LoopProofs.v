(** Proofs about the polling loop. *)
From Verif Require Import Base LoopModel LoopSpec.

Lemma put_nth_same {A} (x : A) : forall l i y, nth_error l i = Some y -> nth_error (put_nth i x l) i = Some x.
Proof. induction l as [|a l IH]; intros [|i] y H; simpl in *; try discriminate; eauto. Qed.
Lemma put_nth_other {A} (x : A) : forall l i j, i <> j -> nth_error (put_nth i x l) j = nth_error l j.
Proof. induction l as [|a l IH]; intros [|i] [|j] H; simpl in *; auto; congruence. Qed.

Definition holds_mutex (p : rpc) : bool := match p with PCycle | PTest | PLast | PComplete => true | _ => false end.
Definition caller_holds (c : spc) : bool := match c with SSet | SUnlock => true | _ => false end.
Definition flag_set_by (c : spc) : bool := match c with SUnlock | SNotify | SReturned => true | _ => false end.
Definition before_first (p : rpc) : bool := match p with PSend | PLock => true | _ => false end.

Record linv (s : lstate) : Prop := {
  i_run : l_mutex s = Some ORun <-> holds_mutex (l_pc s) = true;
  i_own : forall i, l_mutex s = Some (OCaller i) <-> exists c, nth_error (l_callers s) i = Some c /\ caller_holds c = true;
  i_flag : forall i c, nth_error (l_callers s) i = Some c -> flag_set_by c = true -> l_flag s = true;
  i_call : l_flag s = true \/ l_callers s <> [] -> In EvCall (l_trace s);
  i_ret : In EvReturned (l_trace s) -> l_flag s = true;
  i_first : before_first (l_pc s) = true -> ~ In EvCycle (l_trace s);
  i_stop : forall a b, l_trace s = a ++ EvReturned :: b -> In EvCycle a -> ~ In EvCycle b;
  i_over : l_pc s <> PCycle -> cycles_over (l_trace s);
  i_early : started_first (l_trace s) -> l_flag s = true -> l_pc s <> PCycle /\ before_first (l_pc s) = false;
  i_none : forall a b, l_trace s = a ++ EvReturned :: b -> started_first a -> cycles_over a;
  i_comp : match l_pc s with
           | PDone => ev_count is_complete (l_trace s) = 1%nat
           | PFailed => (ev_count is_complete (l_trace s) <= 1)%nat /\ In EvThrow (l_trace s)
           | _ => ev_count is_complete (l_trace s) = 0%nat
           end;
  i_last : forall a b, l_trace s = a ++ EvCompleteInstall :: b -> ~ In EvCycle b;
  i_why : (l_pc s = PComplete \/ l_pc s = PDone) -> l_flag s = true \/ In (EvCycleEnd CycleComplete) (l_trace s)
}.

Lemma snoc_split {A} (t : list A) e a x b : t ++ [e] = a ++ x :: b -> (b = [] /\ a = t /\ x = e) \/ exists b', b = b' ++ [e] /\ t = a ++ x :: b'.
Proof.
  destruct b as [|y b] using rev_ind.
  - intros H. apply app_inj_tail in H. destruct H. left. auto.
  - intros H. right. exists b. change (a ++ x :: b ++ [y]) with (a ++ (x :: b) ++ [y]) in H. rewrite List.app_assoc in H. apply app_inj_tail in H. destruct H as (-> & ->). auto.
Qed.
Lemma count_snoc P t e : ev_count P (t ++ [e]) = (ev_count P t + (if P e then 1 else 0))%nat.
Proof. unfold ev_count. rewrite filter_app, app_length. simpl. now destruct (P e). Qed.
Lemma over_snoc t e : cycles_over t -> e <> EvCycle -> cycles_over (t ++ [e]).
Proof. intros H N a b E. apply snoc_split in E. destruct E as [(_ & _ & E)|(b' & -> & E)]; [congruence|]. destruct (H a b' E) as (c & Hc). exists c. apply in_or_app. auto. Qed.
Lemma over_end t c : cycles_over (t ++ [EvCycleEnd c]).
Proof. intros a b E. apply snoc_split in E. destruct E as [(_ & _ & E)|(b' & -> & E)]; [discriminate|]. exists c. apply in_or_app. right. now left. Qed.
Lemma early_snoc t e : started_first (t ++ [e]) -> started_first t \/ (e = EvCycle /\ ~ In EvCall t).
Proof.
  intros (a & b & E & N). apply snoc_split in E. destruct E as [(-> & -> & <-)|(b' & -> & E)]; [right; auto|]. left. exists a, b'. auto.
Qed.
Lemma early_in t : started_first t -> In EvCycle t.
Proof. intros (a & b & -> & _). apply in_or_app. right. now left. Qed.

(** Adding an event that is neither the start of a cycle nor the return of a call. *)
Definition plain (e : levent) : Prop := e <> EvCycle /\ e <> EvReturned.
Lemma stop_snoc t e : plain e -> (forall a b, t = a ++ EvReturned :: b -> In EvCycle a -> ~ In EvCycle b) ->
  forall a b, t ++ [e] = a ++ EvReturned :: b -> In EvCycle a -> ~ In EvCycle b.
Proof.
  intros (P1 & P2) H a b E I1. apply snoc_split in E. destruct E as [(_ & _ & E)|(b' & -> & E)]; [congruence|].
  intros I2. apply in_app_or in I2. destruct I2 as [I2|[I2|[]]]; [exact (H a b' E I1 I2)|congruence].
Qed.
Lemma none_snoc t e : e <> EvReturned -> (forall a b, t = a ++ EvReturned :: b -> started_first a -> cycles_over a) ->
  forall a b, t ++ [e] = a ++ EvReturned :: b -> started_first a -> cycles_over a.
Proof. intros P H a b E. apply snoc_split in E. destruct E as [(_ & _ & E)|(b' & -> & E)]; [congruence|]. exact (H a b' E). Qed.
Lemma last_snoc t e : e <> EvCycle -> (forall a b, t = a ++ EvCompleteInstall :: b -> ~ In EvCycle b) ->
  forall a b, t ++ [e] = a ++ EvCompleteInstall :: b -> ~ In EvCycle b.
Proof.
  intros P H a b E. apply snoc_split in E. destruct E as [(-> & _)|(b' & -> & E)]; [auto|].
  intros I. apply in_app_or in I. destruct I as [I|[I|[]]]; [exact (H a b' E I)|congruence].
Qed.
Lemma in_snoc {A} (e x : A) t : In x (t ++ [e]) <-> In x t \/ e = x.
Proof. split; [intros H; apply in_app_or in H; destruct H as [H|[H|[]]]; auto|intros [H|H]; apply in_or_app; [auto|right; left; auto]]. Qed.

Lemma init_inv : linv linit.
Proof.
  constructor; simpl.
  - split; discriminate.
  - intros i. split; [discriminate|]. intros (c & H & _). destruct i; discriminate.
  - intros i c H. destruct i; discriminate.
  - intros [H|H]; [discriminate|now elim H].
  - intros [].
  - auto.
  - intros [|] b H; discriminate.
  - intros _ [|] b H; discriminate.
  - discriminate.
  - intros [|] b H; discriminate.
  - reflexivity.
  - intros [|] b H; discriminate.
  - intros [H|H]; discriminate.
Qed.

(** A step of the runner that changes neither trace nor flag. *)
Lemma move_inv s p mu : linv s ->
  (mu = Some ORun <-> holds_mutex p = true) -> (forall i, mu = Some (OCaller i) <-> l_mutex s = Some (OCaller i)) ->
  (before_first p = true -> before_first (l_pc s) = true) -> p <> PCycle -> l_pc s <> PCycle -> 
  (match p with PDone | PFailed => False | _ => True end) -> (match l_pc s with PDone | PFailed => False | _ => True end) ->
  (p = PComplete -> l_flag s = true) ->
  linv (at_pc p mu [] s).
Proof.
  intros V M1 M2 M3 M4 M5 M6 M7 M8. destruct V. unfold at_pc. rewrite List.app_nil_r. constructor; cbn [l_pc l_flag l_mutex l_callers l_trace]; auto.
  - intros i. rewrite M2. apply i_own0.
  - intros E F. destruct (i_early0 E F) as (_ & E2). split; auto. destruct (before_first p); auto. rewrite M3 in E2; auto.
  - destruct p; try contradiction; destruct (l_pc s); auto; contradiction.
  - intros [->| ->]; [left; auto|contradiction].
Qed.
(** A step of the runner with one event that is neither the start of a cycle nor of completeInstall. *)
Lemma event_inv s p mu e : linv s -> plain e -> e <> EvCompleteInstall ->
  (mu = Some ORun <-> holds_mutex p = true) -> (forall i, mu = Some (OCaller i) <-> l_mutex s = Some (OCaller i)) ->
  before_first p = false -> p <> PCycle -> (l_pc s = PCycle -> exists c, e = EvCycleEnd c) ->
  (match p with PDone => False | PFailed => e = EvThrow | _ => True end) -> (match l_pc s with PDone | PFailed => False | _ => True end) ->
  (p = PComplete -> e = EvCycleEnd CycleComplete) ->
  linv (at_pc p mu [e] s).
Proof.
  intros V P PC M1 M2 M3 M4 M5 M6 M7 M8. destruct V. unfold at_pc. pose proof P as (P1 & P2).
  assert (Hn : ev_count is_complete (l_trace s) = 0%nat) by (destruct (l_pc s); auto; contradiction).
  constructor; cbn [l_pc l_flag l_mutex l_callers l_trace].
  - exact M1.
  - intros i. rewrite M2. apply i_own0.
  - exact i_flag0.
  - intros H. apply in_snoc. left. auto.
  - intros H. apply in_snoc in H. destruct H as [H|H]; [auto|congruence].
  - rewrite M3. discriminate.
  - apply stop_snoc; auto.
  - intros _. destruct (l_pc s) eqn:E; try (apply over_snoc; [apply i_over0; discriminate|exact P1]).
    destruct (M5 eq_refl) as (c & ->). apply over_end.
  - intros _ _. auto.
  - apply none_snoc; auto.
  - assert (is_complete e = false) by (destruct e; auto; congruence).
    destruct p; try contradiction; rewrite count_snoc, Hn, H; auto. split; [simpl; lia|]. apply in_snoc. now right.
  - apply last_snoc; auto.
  - intros [H|H]; [|now rewrite H in M6]. right. apply in_snoc. right. auto.
Qed.
Lemma complete_inv s p : linv s -> l_pc s = PComplete -> p = PDone -> linv (at_pc p None [EvCompleteInstall] s).
Proof.
  intros V E ->. destruct V. rewrite E in *. unfold at_pc. constructor; cbn [l_pc l_flag l_mutex l_callers l_trace].
  - split; discriminate.
  - intros i. split; [discriminate|]. intros H. apply i_own0 in H. rewrite (proj2 i_run0 eq_refl) in H. discriminate.
  - exact i_flag0.
  - intros H. apply in_snoc. left. auto.
  - intros H. apply in_snoc in H. destruct H as [H|H]; [auto|discriminate].
  - discriminate.
  - apply stop_snoc; auto. split; discriminate.
  - intros _. apply over_snoc; [apply i_over0; discriminate|discriminate].
  - intros _ _. split; [discriminate|reflexivity].
  - apply none_snoc; auto. discriminate.
  - rewrite count_snoc, i_comp0. reflexivity.
  - apply last_snoc; auto. discriminate.
  - intros _. destruct i_why0 as [H|H]; auto. right. apply in_snoc. now left.
Qed.
(** A failing completeInstall: both events at once. *)
Lemma fail_inv s mu evs : linv (at_pc PDone mu evs s) -> linv (at_pc PFailed mu (evs ++ [EvThrow]) s).
Proof.
  intros V. destruct V. unfold at_pc in *. cbn [l_pc l_flag l_mutex l_callers l_trace] in *. constructor; cbn [l_pc l_flag l_mutex l_callers l_trace]; rewrite ?List.app_assoc; auto.
  - intros H. apply in_snoc. left. auto.
  - intros H. apply in_snoc in H. destruct H as [H|H]; [auto|discriminate].
  - discriminate.
  - apply stop_snoc; auto. split; discriminate.
  - intros _. apply over_snoc; [apply i_over0; discriminate|discriminate].
  - intros _ _. split; [discriminate|reflexivity].
  - apply none_snoc; auto. discriminate.
  - rewrite count_snoc, i_comp0. simpl. split; [lia|]. apply in_snoc. now right.
  - apply last_snoc; auto. discriminate.
  - intros [H|H]; discriminate.
Qed.
Lemma cycle_inv s : linv s -> (before_first (l_pc s) = true \/ l_flag s = false) -> (match l_pc s with PLock | PLast => True | _ => False end) ->
  (forall i, l_mutex s <> Some (OCaller i)) -> linv (at_pc PCycle (Some ORun) [EvCycle] s).
Proof.
  intros V B P M. destruct V. unfold at_pc. constructor; cbn [l_pc l_flag l_mutex l_callers l_trace].
  - split; reflexivity.
  - intros i. split; [discriminate|]. intros H. apply i_own0 in H. now elim (M i).
  - exact i_flag0.
  - intros H. apply in_snoc. left. auto.
  - intros H. apply in_snoc in H. destruct H as [H|H]; [auto|discriminate].
  - discriminate.
  - intros a b E I1. apply snoc_split in E. destruct E as [(-> & _)|(b' & -> & E)]; [auto|].
    destruct B as [B|B].
    + exfalso. apply (i_first0 B). rewrite E. apply in_or_app. now left.
    + exfalso. assert (F : l_flag s = true) by (apply i_ret0; rewrite E; apply in_or_app; right; now left). congruence.
  - intros H. now elim H.
  - intros E F. apply early_snoc in E. destruct E as [E|(_ & E)].
    + destruct B as [B|B]; [|congruence]. exfalso. exact (i_first0 B (early_in _ E)).
    + exfalso. apply E. apply i_call0. now left.
  - apply none_snoc; auto. discriminate.
  - rewrite count_snoc. simpl. destruct (l_pc s); try contradiction; rewrite i_comp0; reflexivity.
  - intros a b E. apply snoc_split in E. destruct E as [(-> & _)|(b' & -> & E)]; [auto|].
    exfalso. assert (N : (1 <= ev_count is_complete (l_trace s))%nat).
    { rewrite E. unfold ev_count. rewrite filter_app, app_length. simpl. lia. }
    destruct (l_pc s); try contradiction; lia.
  - intros [H|H]; discriminate.
Qed.

Lemma caller_inv s i c c' p flag mu : linv s -> nth_error (l_callers s) i = Some c ->
  p = l_pc s \/ (l_pc s = PWait /\ p = PWake false) ->
  (flag = l_flag s \/ flag = true /\ l_mutex s = Some (OCaller i)) -> (flag_set_by c' = true -> flag = true) ->
  (forall o, mu = Some o -> caller_holds c' = true /\ o = OCaller i \/ l_mutex s = Some o /\ o <> OCaller i) ->
  (caller_holds c' = true -> mu = Some (OCaller i)) ->
  (forall o, l_mutex s = Some o -> o <> OCaller i -> mu = Some o) ->
  linv {| l_pc := p; l_flag := flag; l_mutex := mu; l_callers := put_nth i c' (l_callers s); l_trace := l_trace s |}.
Proof.
  intros V N P F1 F2 M1 M2 M3. pose proof V as V0. destruct V0.
  assert (Hp : holds_mutex p = holds_mutex (l_pc s) /\ before_first p = before_first (l_pc s) /\ (p = PCycle <-> l_pc s = PCycle) /\ (p = PComplete \/ p = PDone -> p = l_pc s)).
  { destruct P as [->|(-> & ->)]; repeat split; auto; try discriminate. intros [H|H]; discriminate. }
  destruct Hp as (Q1 & Q2 & Q3 & Q4).
  assert (Hf : flag = true -> In EvCall (l_trace s)).
  { intros _. apply i_call0. right. intros C. rewrite C in N. destruct i; discriminate. }
  constructor; cbn [l_pc l_flag l_mutex l_callers l_trace]; auto.
  - rewrite Q1, <- i_run0. split; intros H.
    + destruct (M1 _ H) as [(_ & A)|(A & _)]; [discriminate|exact A].
    + apply M3; auto. discriminate.
  - intros j. destruct (Nat.eq_dec i j) as [<-|Nj].
    + rewrite (put_nth_same _ _ _ _ N). split; intros H.
      * destruct (M1 _ H) as [(A & _)|(_ & A)]; [eauto|now elim A].
      * destruct H as (x & H1 & H2). injection H1 as <-. auto.
    + rewrite put_nth_other by auto. rewrite <- i_own0. split; intros H.
      * destruct (M1 _ H) as [(_ & A)|(A & _)]; [congruence|exact A].
      * apply M3; auto. congruence.
  - intros j x. destruct (Nat.eq_dec i j) as [<-|Nj].
    + rewrite (put_nth_same _ _ _ _ N). intros H. injection H as <-. auto.
    + rewrite put_nth_other by auto. intros H1 H2. pose proof (i_flag0 j x H1 H2) as H3. destruct F1 as [->|(-> & _)]; auto.
  - intros _. apply i_call0. right. intros C. rewrite C in N. destruct i; discriminate.
  - intros H. apply i_ret0 in H. destruct F1 as [->|(-> & _)]; auto.
  - rewrite Q2. exact i_first0.
  - rewrite Q3. exact i_over0.
  - rewrite Q3, Q2. intros E H. destruct F1 as [->|(_ & F1)]; [auto|]. split.
    + intros C. rewrite C in i_run0. rewrite F1 in i_run0. destruct i_run0 as (_ & A). specialize (A eq_refl). discriminate.
    + destruct (before_first (l_pc s)) eqn:B; auto. exfalso. exact (i_first0 eq_refl (early_in _ E)).
  - destruct P as [->|(P & ->)]; auto. now rewrite P in i_comp0.
  - intros H. rewrite (Q4 H) in H. destruct (i_why0 H) as [A|A]; auto. left. destruct F1 as [->|(-> & _)]; auto.
Qed.
(** An event that concerns neither cycles nor completeInstall. *)
Lemma trace_inv s e : linv s -> e = EvCall \/ e = EvReturned /\ l_flag s = true ->
  linv {| l_pc := l_pc s; l_flag := l_flag s; l_mutex := l_mutex s; l_callers := l_callers s; l_trace := l_trace s ++ [e] |}.
Proof.
  intros V H. pose proof V as V0. destruct V0.
  assert (He : e <> EvCycle /\ is_complete e = false) by (destruct H as [->|(-> & _)]; split; auto; discriminate). destruct He as (H1 & H2).
  constructor; cbn [l_pc l_flag l_mutex l_callers l_trace]; auto.
  - intros X. apply in_snoc. left. auto.
  - intros X. apply in_snoc in X. destruct X as [X|X]; auto. destruct H as [->|(_ & H)]; [discriminate|exact H].
  - intros B X. apply in_snoc in X. destruct X as [X|X]; [exact (i_first0 B X)|congruence].
  - intros a b E I1. apply snoc_split in E. destruct E as [(-> & _)|(b' & -> & E)]; [auto|].
    intros I2. apply in_snoc in I2. destruct I2 as [I2|I2]; [exact (i_stop0 a b' E I1 I2)|congruence].
  - intros P. apply over_snoc; auto.
  - intros X. apply early_snoc in X. destruct X as [X|(X & _)]; [auto|congruence].
  - intros a b E X. apply snoc_split in E. destruct E as [(-> & -> & E)|(b' & -> & E)]; [|exact (i_none0 a b' E X)].
    destruct H as [->|(_ & H)]; [discriminate|]. apply i_over0. apply i_early0; auto.
  - rewrite count_snoc, H2, Nat.add_0_r. destruct (l_pc s); auto. destruct i_comp0 as (A & B). split; auto. apply in_snoc. now left.
  - apply last_snoc; auto.
  - intros X. destruct (i_why0 X); auto. right. apply in_snoc. now left.
Qed.
Lemma call_inv s : linv s -> linv {| l_pc := l_pc s; l_flag := l_flag s; l_mutex := l_mutex s; l_callers := l_callers s ++ [SLock]; l_trace := l_trace s ++ [EvCall] |}.
Proof.
  intros V. apply (trace_inv s EvCall) in V; [|now left]. destruct V. cbn [l_pc l_flag l_mutex l_callers l_trace] in *.
  constructor; cbn [l_pc l_flag l_mutex l_callers l_trace]; auto.
  - intros j. rewrite i_own0. split; intros (c & H1 & H2); exists c; split; auto.
    + rewrite nth_error_app1; auto. apply nth_error_Some. congruence.
    + destruct (Nat.lt_ge_cases j (List.length (l_callers s))) as [L|L]; [now rewrite nth_error_app1 in H1|].
      rewrite nth_error_app2 in H1 by auto. destruct (j - List.length (l_callers s))%nat as [|k]; [injection H1 as <-; discriminate|destruct k; discriminate].
  - intros j c H1 H2. destruct (Nat.lt_ge_cases j (List.length (l_callers s))) as [L|L]; [rewrite nth_error_app1 in H1 by auto; exact (i_flag0 j c H1 H2)|].
    rewrite nth_error_app2 in H1 by auto. destruct (j - List.length (l_callers s))%nat as [|k]; [injection H1 as <-; discriminate|destruct k; discriminate].
  - intros _. apply in_snoc. now right.
Qed.

Lemma step_inv s a s' : linv s -> lstep s a = Some s' -> linv s'.
Proof.
  intros V E. unfold lstep in E. pose proof V as V0. destruct V0. destruct a as [ok| |c| |t| | |ok| |i].
  - destruct (l_pc s) eqn:P; try discriminate. injection E as <-. destruct ok.
    + apply move_inv; auto; rewrite ?P; auto; try discriminate. tauto.
    + apply event_inv; auto; rewrite ?P; auto; try discriminate; try (split; discriminate); tauto.
  - destruct (l_pc s) eqn:P; try discriminate. destruct (l_mutex s) eqn:M; [discriminate|]. injection E as <-.
    apply cycle_inv; auto; rewrite ?P, ?M; auto; discriminate.
  - destruct (l_pc s) eqn:P; try discriminate. injection E as <-.
    assert (M : l_mutex s = Some ORun) by now apply i_run0.
    destruct c; rewrite ?M.
    + apply event_inv; auto; rewrite ?P, ?M; eauto; try discriminate; try (split; discriminate); tauto.
    + apply event_inv; auto; rewrite ?P, ?M; eauto; try discriminate; try (split; discriminate); tauto.
    + assert (V1 : linv (at_pc PWait None [EvCycleEnd CycleThrows] s)).
      { apply event_inv; auto; rewrite ?P, ?M; eauto; try discriminate; try (split; discriminate). }
      assert (V2 : linv (at_pc PFailed None [EvThrow] (at_pc PWait None [EvCycleEnd CycleThrows] s))).
      { apply event_inv; auto; cbn [at_pc l_pc l_mutex]; eauto; try discriminate; try (split; discriminate); tauto. }
      unfold at_pc in *. cbn [l_pc l_flag l_mutex l_callers l_trace] in V2. rewrite <- List.app_assoc in V2. exact V2.
  - destruct (l_pc s) eqn:P; try discriminate. injection E as <-.
    assert (M : l_mutex s = Some ORun) by now apply i_run0.
    destruct (l_flag s) eqn:F; rewrite ?M.
    + apply move_inv; auto; rewrite ?P, ?M; auto; try discriminate; tauto.
    + apply move_inv; auto; rewrite ?P, ?M; auto; try discriminate; try (split; discriminate).
  - destruct (l_pc s) eqn:P; try discriminate. injection E as <-. apply move_inv; auto; rewrite ?P; auto; try discriminate; tauto.
  - destruct (l_pc s) eqn:P; try discriminate. destruct (l_mutex s) eqn:M; [discriminate|]. injection E as <-.
    apply move_inv; auto; rewrite ?P, ?M; auto; try discriminate; destruct timeout; try discriminate; auto; try (split; discriminate); try (split; reflexivity).
    all: intros i; split; discriminate.
  - destruct (l_pc s) eqn:P; try discriminate. injection E as <-.
    assert (M : l_mutex s = Some ORun) by now apply i_run0.
    destruct (l_flag s) eqn:F; rewrite ?M.
    + apply move_inv; auto; rewrite ?P, ?M; auto; try discriminate; tauto.
    + apply cycle_inv; auto; rewrite ?P, ?M; auto; discriminate.
  - destruct (l_pc s) eqn:P; try discriminate. injection E as <-. pose proof (complete_inv s PDone V P eq_refl) as V1. destruct ok; [exact V1|].
    exact (fail_inv s None [EvCompleteInstall] V1).
  - assert (E' : s' = {| l_pc := l_pc s; l_flag := l_flag s; l_mutex := l_mutex s; l_callers := l_callers s ++ [SLock]; l_trace := l_trace s ++ [EvCall] |}) by (destruct (l_pc s); now injection E as <-).
    rewrite E'. now apply call_inv.
  - assert (E' : match nth_error (l_callers s) i with
      | Some SLock => match l_mutex s with
                      | None => Some {| l_pc := l_pc s; l_flag := l_flag s; l_mutex := Some (OCaller i); l_callers := put_nth i SSet (l_callers s); l_trace := l_trace s |}
                      | Some _ => None
                      end
      | Some SSet => Some {| l_pc := l_pc s; l_flag := true; l_mutex := l_mutex s; l_callers := put_nth i SUnlock (l_callers s); l_trace := l_trace s |}
      | Some SUnlock => Some {| l_pc := l_pc s; l_flag := l_flag s; l_mutex := None; l_callers := put_nth i SNotify (l_callers s); l_trace := l_trace s |}
      | Some SNotify =>
          Some {| l_pc := match l_pc s with PWait => PWake false | p => p end; l_flag := l_flag s; l_mutex := l_mutex s;
                  l_callers := put_nth i SReturned (l_callers s); l_trace := l_trace s ++ [EvReturned] |}
      | _ => None
      end = Some s') by (destruct (l_pc s); exact E).
    clear E. destruct (nth_error (l_callers s) i) as [c|] eqn:N; [|discriminate]. destruct c; try discriminate.
    + destruct (l_mutex s) eqn:M; [discriminate|]. injection E' as <-. apply (caller_inv s i SLock); auto; try discriminate.
      * intros o H. injection H as <-. left. auto.
      * rewrite M. discriminate.
    + injection E' as <-. assert (M : l_mutex s = Some (OCaller i)) by (apply i_own0; eauto). apply (caller_inv s i SSet); auto.
      * intros o H. left. split; auto. congruence.
    + injection E' as <-. assert (M : l_mutex s = Some (OCaller i)) by (apply i_own0; eauto). apply (caller_inv s i SUnlock); auto; try discriminate.
      * intros _. apply (i_flag0 i SUnlock N). reflexivity.
      * intros o H1 H2. congruence.
    + injection E' as <-. assert (F : l_flag s = true) by (apply (i_flag0 i SNotify N); reflexivity).
      assert (Hm : l_mutex s <> Some (OCaller i)).
      { intros H. apply i_own0 in H. destruct H as (c & H1 & H2). rewrite N in H1. injection H1 as <-. discriminate. }
      set (s1 := {| l_pc := match l_pc s with PWait => PWake false | p => p end; l_flag := l_flag s; l_mutex := l_mutex s; l_callers := put_nth i SReturned (l_callers s); l_trace := l_trace s |}).
      assert (V1 : linv s1).
      { apply (caller_inv s i SNotify); auto; try discriminate.
        - destruct (l_pc s); auto.
        - intros o H. right. split; auto. congruence. }
      apply (trace_inv s1 EvReturned V1). right. auto.
Qed.
Lemma reach_inv s : lreach s -> linv s.
Proof.
  intros (l & H). assert (G : forall l s0, linv s0 -> lrun s0 l = Some s -> linv s).
  { clear. induction l as [|a l IH]; intros s0 V H; simpl in H; [now injection H as <-|]. destruct (lstep s0 a) as [s1|] eqn:E; [|discriminate].
    apply (IH s1); auto. eapply step_inv; eauto. }
  exact (G l _ init_inv H).
Qed.

(** ** The end after Shutdown *)
Definition left_steps (p : rpc) : nat :=
  match p with PSend => 5 | PLock => 4 | PCycle => 3 | PTest => 2 | PWait => 4 | PWake _ => 3 | PLast => 2 | PComplete => 1 | PDone | PFailed => 0 end%nat.
Lemma step_left s a s' : linv s -> l_flag s = true -> lstep s a = Some s' -> l_flag s' = true /\
  ((left_steps (l_pc s') + (if of_runner a then 1 else 0) <= left_steps (l_pc s))%nat).
Proof.
  intros V F E. unfold lstep in E. destruct a as [ok| |c| |t| | |ok| |i].
  all: try (destruct (l_pc s) eqn:P; try discriminate).
  all: try (destruct (l_mutex s); try discriminate).
  all: try rewrite F in E.
  all: try (destruct (nth_error (l_callers s) i) as [[]|]; try discriminate).
  all: try (injection E as <-).
  all: try (destruct ok); try (destruct c); try (destruct timeout).
  all: cbn; rewrite ?P; split; auto; simpl; lia.
Qed.
Theorem ends_soon l : forall s s', linv s -> l_flag s = true -> lrun s l = Some s' -> (runner_steps l <= left_steps (l_pc s))%nat.
Proof.
  unfold runner_steps. induction l as [|a l IH]; intros s s' V F H; simpl in *; [lia|].
  destruct (lstep s a) as [s1|] eqn:E; [|discriminate]. destruct (step_left s a s1 V F E) as (F1 & L).
  specialize (IH s1 s' (step_inv s a s1 V E) F1 H). destruct (of_runner a); simpl; lia.
Qed.
(** ** No deadlock *)
Theorem no_deadlock s : linv s -> (ended s /\ forall c, In c (l_callers s) -> c = SReturned) \/ exists a s', lstep s a = Some s' /\ a <> ACall.
Proof.
  intros V. pose proof V as V0. destruct V0.
  destruct (l_mutex s) as [[|i]|] eqn:M.
  - right. assert (P : holds_mutex (l_pc s) = true) by (apply i_run0; auto). destruct (l_pc s) eqn:E; try discriminate; unfold lstep; rewrite E.
    + exists (ACycleEnds CycleAgain). eexists. split; [reflexivity|discriminate].
    + exists ATest. eexists. split; [reflexivity|discriminate].
    + exists ALast. eexists. split; [reflexivity|discriminate].
    + exists (ACompleted true). eexists. split; [reflexivity|discriminate].
  - right. destruct (proj1 (i_own0 i) eq_refl) as (c & N & H). exists (ACaller i). unfold lstep. rewrite N.
    destruct c; try discriminate; destruct (l_pc s); eexists; (split; [reflexivity|discriminate]).
  - assert (Hc : (forall c, In c (l_callers s) -> c = SReturned) \/ exists i c, nth_error (l_callers s) i = Some c /\ c <> SReturned).
    { clear. induction (l_callers s) as [|c l [IH|(i & c' & H1 & H2)]]; [left; intros c []| |right; exists (S i), c'; auto].
      destruct c; try (right; exists 0%nat; eexists; split; [reflexivity|discriminate]). left. intros c [<-|H]; auto. }
    destruct Hc as [Hc|(i & c & N & Hc)].
    + unfold ended. destruct (l_pc s) eqn:E; try (left; split; [solve [auto]|exact Hc]); right; unfold lstep; rewrite E.
      * exists (ASent true). eexists; split; [reflexivity|discriminate].
      * exists ALock. rewrite M. eexists; split; [reflexivity|discriminate].
      * exists (ACycleEnds CycleAgain). eexists; split; [reflexivity|discriminate].
      * exists ATest. eexists; split; [reflexivity|discriminate].
      * exists (AWakes true). eexists; split; [reflexivity|discriminate].
      * exists ARelock. rewrite M. eexists; split; [reflexivity|discriminate].
      * exists ALast. eexists; split; [reflexivity|discriminate].
      * exists (ACompleted true). eexists; split; [reflexivity|discriminate].
    + right. exists (ACaller i). unfold lstep. rewrite N, M. destruct c; try (now elim Hc); destruct (l_pc s); eexists; (split; [reflexivity|discriminate]).
Qed.
(** ** A cycle that asks for completion is the last one *)
Definition done_pc (p : rpc) : bool := match p with PComplete | PDone | PFailed => true | _ => false end.
Definition is_ask (e : levent) : bool := match e with EvCycleEnd CycleComplete => true | _ => false end.
Definition asked (s : lstate) : Prop :=
  (existsb is_ask (l_trace s) = true -> done_pc (l_pc s) = true) /\
  forall a b, l_trace s = a ++ EvCycleEnd CycleComplete :: b -> ~ In EvCycle b.
Lemma asked_snoc t e : (forall a b, t = a ++ EvCycleEnd CycleComplete :: b -> ~ In EvCycle b) -> (e = EvCycle -> existsb is_ask t = false) ->
  forall a b, t ++ [e] = a ++ EvCycleEnd CycleComplete :: b -> ~ In EvCycle b.
Proof.
  intros H N a b E. apply snoc_split in E. destruct E as [(-> & _)|(b' & -> & E)]; [auto|].
  intros I1. apply in_snoc in I1. destruct I1 as [I1|I1]; [exact (H a b' E I1)|]. specialize (N I1). rewrite E, existsb_app in N. simpl in N.
  rewrite orb_true_r in N. discriminate.
Qed.
Lemma asked_step s a s' : asked s -> lstep s a = Some s' -> asked s'.
Proof.
  intros (A & B) E. unfold lstep in E. destruct a as [ok| |c| |t| | |ok| |i].
  all: try (destruct (l_pc s) eqn:P; try discriminate).
  all: try (destruct (l_mutex s) eqn:M; try discriminate).
  all: try (destruct (nth_error (l_callers s) i) as [[]|]; try discriminate).
  all: try (destruct (l_flag s) eqn:F; try discriminate).
  all: try (injection E as <-).
  all: try (destruct ok); try (destruct c); try (destruct timeout).
  all: assert (N : done_pc (l_pc s) = false -> existsb is_ask (l_trace s) = false) by (intros D; destruct (existsb is_ask (l_trace s)); auto; rewrite P in D; rewrite A in D; auto).
  all: rewrite ?P in N; unfold asked, at_pc; cbn [l_pc l_flag l_mutex l_callers l_trace done_pc]; rewrite ?List.app_nil_r;
    try (split; [|exact B]); try exact A; try reflexivity; try (intros; reflexivity).
  all: try (intros X; rewrite (N eq_refl) in X; discriminate).
  all: try (split; [rewrite existsb_app; simpl; rewrite ?orb_false_r; try exact A; try reflexivity; try (intros; reflexivity); intros X; rewrite (N eq_refl) in X; discriminate|]).
  all: try (change [?x; ?y] with ([x] ++ [y]); rewrite List.app_assoc).
  all: try (apply asked_snoc; [apply asked_snoc; [exact B|discriminate]|discriminate]).
  all: try (apply asked_snoc; [exact B|first [discriminate|intros _; exact (N eq_refl)]]).
Qed.
Theorem completion_last s : lreach s -> forall a b, l_trace s = a ++ EvCycleEnd CycleComplete :: b -> ~ In EvCycle b.
Proof.
  intros (l & H). assert (G : forall l s0, asked s0 -> lrun s0 l = Some s -> asked s).
  { clear. induction l as [|a l IH]; intros s0 V H; simpl in H; [now injection H as <-|]. destruct (lstep s0 a) as [s1|] eqn:E; [|discriminate].
    apply (IH s1); auto. eapply asked_step; eauto. }
  apply (G l linit); auto. split; [discriminate|]. intros [|] b E; discriminate.
Qed.
