(** C129-C131: the polling loop and its end. *)
From Verif Require Import Base LoopModel LoopSpec LoopProofs.

(** ** C129 *)
(** After a call of Shutdown returned, no cycle is started. *)
Definition C129_statement : Prop := forall s a b, lreach s -> l_trace s = a ++ EvReturned :: b -> ~ In EvCycle b.
(** It holds once the first cycle has started, whatever the schedule and however many calls there are. *)
Theorem C129_partial s a b : lreach s -> l_trace s = a ++ EvReturned :: b -> In EvCycle a -> ~ In EvCycle b.
Proof. intros H. exact (i_stop s (reach_inv s H) a b). Qed.
Print Assumptions C129_partial.
(** If the first cycle started before Shutdown was called, no cycle is in progress either when the call returns. *)
Theorem C129_none_running s a b : lreach s -> l_trace s = a ++ EvReturned :: b -> started_first a -> cycles_over a.
Proof. intros H. exact (i_none s (reach_inv s H) a b). Qed.
Print Assumptions C129_none_running.
(** The flag is not looked at before the first cycle: Shutdown during the transmission of device data does not prevent a
    whole cycle. *)
Definition early_shutdown : list lact := [ACall; ACaller 0; ACaller 0; ACaller 0; ACaller 0; ASent true; ALock].
Theorem C129_refuted : ~ C129_statement.
Proof.
  intros H. destruct (lrun linit early_shutdown) as [s|] eqn:E; [|discriminate].
  apply (H s [EvCall] [EvCycle]); [now exists early_shutdown|vm_compute in E; injection E as <-; reflexivity|now left].
Qed.
Print Assumptions C129_refuted.
(** Two cycles, a spurious wake-up and two calls of Shutdown, one of them during the second cycle. *)
Definition two_cycles : list lact :=
  [ASent true; ALock; ACycleEnds CycleAgain; ATest; AWakes false; ARelock; ATest; AWakes true; ARelock; ALast; ACall; ACycleEnds CycleAgain; ATest;
   ACaller 0; ACaller 0; ACall; ACaller 0; AWakes true; ACaller 0; ACaller 1; ACaller 1; ACaller 1; ARelock; ALast; ACompleted true; ACaller 1].
(** The state a possible schedule leads to. *)
Definition leads (l : list lact) : lstate := match lrun linit l with Some s => s | None => linit end.
Example C129_nonvacuous : exists s, lrun linit two_cycles = Some s /\ l_pc s = PDone /\
  l_trace s = [EvCycle; EvCycleEnd CycleAgain; EvCycle; EvCall; EvCycleEnd CycleAgain; EvCall; EvReturned; EvCompleteInstall; EvReturned] /\
  started_first [EvCycle; EvCycleEnd CycleAgain; EvCycle; EvCall; EvCycleEnd CycleAgain; EvCall].
Proof.
  exists (leads two_cycles). split; [vm_compute; reflexivity|]. split; [vm_compute; reflexivity|]. split; [vm_compute; reflexivity|].
  exists [], [EvCycleEnd CycleAgain; EvCycle; EvCall; EvCycleEnd CycleAgain; EvCall]. split; auto.
Qed.

(** ** C130 *)
(** After a call of Shutdown returned, RunForever ends: its thread takes at most five more steps (one of which may be the cycle
    that is in progress), whatever the schedule. *)
Theorem C130_bounded s l s' : lreach s -> shut s -> lrun s l = Some s' -> (runner_steps l <= 5)%nat.
Proof.
  intros H S R. pose proof (reach_inv s H) as V. pose proof (ends_soon l s s' V (i_ret s V S) R) as B.
  assert (left_steps (l_pc s) <= 5)%nat by (destruct (l_pc s); simpl; lia). lia.
Qed.
Print Assumptions C130_bounded.
(** Nobody is ever stuck: as long as RunForever has not ended or a call of Shutdown has not returned, some thread can go on. *)
Theorem C130_no_deadlock s : lreach s ->
  (ended s /\ forall c, In c (l_callers s) -> c = SReturned) \/ exists a s', lstep s a = Some s' /\ a <> ACall.
Proof. intros H. exact (no_deadlock s (reach_inv s H)). Qed.
Print Assumptions C130_no_deadlock.
Example C130_nonvacuous : exists s l s', lrun linit (firstn 19 two_cycles) = Some s /\ shut s /\ lrun s l = Some s' /\ runner_steps l = 3%nat /\ ended s'.
Proof.
  exists (leads (firstn 19 two_cycles)), [ARelock; ALast; ACompleted true], (leads (firstn 19 two_cycles ++ [ARelock; ALast; ACompleted true])).
  split; [vm_compute; reflexivity|]. split; [|split; [vm_compute; reflexivity|split; [reflexivity|left; vm_compute; reflexivity]]].
  unfold shut. replace (l_trace (leads (firstn 19 two_cycles))) with [EvCycle; EvCycleEnd CycleAgain; EvCycle; EvCall; EvCycleEnd CycleAgain; EvCall; EvReturned] by (vm_compute; reflexivity).
  do 6 right. now left.
Qed.

(** ** C131 *)
(** RunForever ends without an exception only after Shutdown was called or because a cycle found an update that needs
    completion. Then the installation was completed exactly once, and no cycle was started afterwards. *)
Theorem C131_end s : lreach s -> l_pc s = PDone ->
  ev_count is_complete (l_trace s) = 1%nat /\ (In EvCall (l_trace s) \/ In (EvCycleEnd CycleComplete) (l_trace s)) /\
  forall a b, l_trace s = a ++ EvCompleteInstall :: b -> ~ In EvCycle b.
Proof.
  intros H P. destruct (reach_inv s H). rewrite P in *. split; [assumption|]. split; [|exact i_last].
  destruct i_why as [F|F]; auto.
Qed.
Print Assumptions C131_end.
(** A cycle after which an update needs completion is the last one. *)
Theorem C131_last_cycle s a b : lreach s -> l_trace s = a ++ EvCycleEnd CycleComplete :: b -> ~ In EvCycle b.
Proof. intros H. exact (completion_last s H a b). Qed.
Print Assumptions C131_last_cycle.
(** With an exception it ends only if something threw. Before it ends nothing is completed. *)
Theorem C131_other s : lreach s -> (l_pc s = PFailed -> In EvThrow (l_trace s)) /\
  (~ ended s -> ev_count is_complete (l_trace s) = 0%nat).
Proof.
  intros H. destruct (reach_inv s H). unfold ended. split.
  - intros P. rewrite P in i_comp. apply i_comp.
  - intros N. destruct (l_pc s); auto; elim N; auto.
Qed.
Print Assumptions C131_other.
(** The full property: also if a cycle throws, an installation that needs it is completed when RunForever ends. *)
Definition C131_statement : Prop := forall s, lreach s -> ended s -> ev_count is_complete (l_trace s) = 1%nat.
Theorem C131_refuted : ~ C131_statement.
Proof.
  intros H. destruct (lrun linit [ASent true; ALock; ACycleEnds CycleThrows]) as [s|] eqn:E; [|discriminate].
  assert (X : ev_count is_complete (l_trace s) = 1%nat).
  { apply H; [now exists [ASent true; ALock; ACycleEnds CycleThrows]|]. vm_compute in E. injection E as <-. now right. }
  vm_compute in E. injection E as <-. discriminate.
Qed.
Print Assumptions C131_refuted.
Example C131_nonvacuous : exists s, lrun linit [ASent true; ALock; ACycleEnds CycleAgain; ATest; AWakes true; ARelock; ALast; ACycleEnds CycleComplete; ACompleted true] = Some s /\
  l_pc s = PDone /\ ~ In EvCall (l_trace s) /\ In (EvCycleEnd CycleComplete) (l_trace s).
Proof.
  exists (leads [ASent true; ALock; ACycleEnds CycleAgain; ATest; AWakes true; ARelock; ALast; ACycleEnds CycleComplete; ACompleted true]).
  split; [vm_compute; reflexivity|]. split; [vm_compute; reflexivity|].
  replace (l_trace (leads _)) with [EvCycle; EvCycleEnd CycleAgain; EvCycle; EvCycleEnd CycleComplete; EvCompleteInstall] by (vm_compute; reflexivity).
  split; [|do 3 right; now left]. intros H. repeat (destruct H as [H|H]; [discriminate|]). exact H.
Qed.
