(** C24-C26: the command queue and the flow-control token. *)
From Verif Require Import Base CqModel CqSpec CqProofs.
From Coq Require Import Sorted.

(** ** C24 *)
Definition C24_statement : Prop := forall ops s tr, crun cq_init ops = Some (s, tr) ->
  StronglySorted lt (begun tr) /\
  (forall t1 i t2, tr = t1 ++ EBegin i :: t2 -> In i (submitted t1) /\ paused_after t1 = false) /\
  (forall t1 t2 i, tr = t1 ++ EAborted :: t2 -> In i (submitted t1) -> ~ In i (begun t2)).
(** A command that the worker has already taken may start after pause returned: the worker releases the queue's mutex
    before it calls the task. *)
Theorem C24_refuted : ~ C24_statement.
Proof.
  intros H. specialize (H [CRun; CSubmit; CTake; CPause true; CBegin] _ _ eq_refl). destruct H as (_ & H & _).
  specialize (H [ESubmit 0; ETaken 0; EPaused true] 0%nat [] eq_refl). destruct H as (_ & H). discriminate.
Qed.
Print Assumptions C24_refuted.
(** In every interleaving: commands start in the order of submission and each at most once; none starts that was not taken
    from the queue and none is taken that was not submitted. *)
Theorem C24_order_partial ops s tr : crun cq_init ops = Some (s, tr) ->
  StronglySorted lt (begun tr) /\ StronglySorted lt (taken tr) /\ submitted tr = seq 0 (List.length (submitted tr)) /\
  (forall i, In i (begun tr) -> In i (taken tr)) /\ (forall i, In i (taken tr) -> In i (submitted tr)).
Proof.
  intros H. destruct (in_order _ _ _ H) as (A & B & C & D). rewrite C at 2. rewrite seq_length. auto.
Qed.
Print Assumptions C24_order_partial.
(** No command leaves the queue while it is paused. *)
Theorem C24_not_taken_while_paused_partial ops s t1 i t2 : crun cq_init ops = Some (s, t1 ++ ETaken i :: t2) -> paused_after t1 = false.
Proof. exact (not_while_paused ops s t1 i t2). Qed.
Print Assumptions C24_not_taken_while_paused_partial.
(** From a pause until the next resume at most one command starts, and only one taken before the pause. *)
Theorem C24_one_late_start_partial ops s t1 t2 t3 : crun cq_init ops = Some (s, t1 ++ EPaused true :: t2 ++ t3) ->
  (forall e, In e t2 -> e <> EPaused false) ->
  taken t2 = [] /\ (List.length (begun t2) <= 1)%nat /\ (forall i, In i (begun t2) -> In i (taken t1)).
Proof. exact (at_most_one_late ops s t1 t2 t3). Qed.
Print Assumptions C24_one_late_start_partial.
(** Once an abort has returned no command submitted before it starts. *)
Theorem C24_abort_drops ops s t1 t2 : crun cq_init ops = Some (s, t1 ++ EAborted :: t2) -> forall i, In i (submitted t1) -> ~ In i (begun t2).
Proof. exact (abort_drops ops s t1 t2). Qed.
Print Assumptions C24_abort_drops.
(** And none is taken from the moment abort has flagged the shutdown. *)
Theorem C24_abort_stops ops s s' t1 t2 : crun cq_init ops = Some (s, t1) -> crun s [CAbortBegin] = Some (s', [EAbortBegin]) ->
  forall ops' s'', crun s' ops' = Some (s'', t2) -> ~ In EAborted t2 -> taken t2 = [].
Proof.
  intros _ H ops' s'' R N. eapply shutdown_take; [exact R| |exact N]. cbn [crun cstep] in H. destruct (q_aborting s); [discriminate|]. injection H as <-. reflexivity.
Qed.
Print Assumptions C24_abort_stops.
(** The queue does not refuse work: a waiting worker of a queue neither paused nor shut down takes and starts the oldest command. *)
Theorem C24_progress s i r : q_worker s = WWait -> q_tasks s = i :: r -> q_paused s = false -> q_shutdown s = false ->
  exists s', crun s [CTake; CBegin] = Some (s', [ETaken i; EBegin i]).
Proof. exact (head_taken s i r). Qed.
Print Assumptions C24_progress.
Definition busy_history := [CRun; CSubmit; CSubmit; CTake; CPause true; CBegin; CFinish; CPause false; CTake; CBegin; CSubmit; CAbortBegin; CFinish; CExit; CAbortEnd; CRun; CSubmit; CTake; CBegin].
Example C24_nonvacuous : exists s, crun cq_init busy_history =
  Some (s, [ESubmit 0; ESubmit 1; ETaken 0] ++ EPaused true :: [EBegin 0] ++ [EPaused false; ETaken 1; EBegin 1; ESubmit 2; EAbortBegin; EAborted; ESubmit 3; ETaken 3; EBegin 3]).
Proof. eexists. vm_compute. reflexivity. Qed.

(** ** C25 *)
Definition C25_statement : Prop := forall ops s tr, crun cq_init (ops ++ [CAbortEnd]) = Some (s, tr ++ [EAborted]) ->
  exists s', crun s [CRun; CSubmit; CTake; CBegin] = Some (s', [ESubmit (q_next s); ETaken (q_next s); EBegin (q_next s)]).
(** Abort does not clear the paused flag: a queue paused before the abort never takes the next command. *)
Theorem C25_refuted : ~ C25_statement.
Proof.
  intros H. specialize (H [CRun; CPause true; CAbortBegin; CExit] _ [EPaused true; EAbortBegin] eq_refl). destruct H as (s' & H). discriminate.
Qed.
Print Assumptions C25_refuted.
(** If the queue is not paused, whatever happened before, after the abort every schedule has exactly the effects it has on
    a new queue (the numbering of the commands continues). *)
Theorem C25_partial ops s tr : crun cq_init (ops ++ [CAbortEnd]) = Some (s, tr ++ [EAborted]) -> paused_after tr = false ->
  forall ops', match crun cq_init ops' with
               | Some (_, e) => exists s', crun s ops' = Some (s', map (shift_ev (List.length (submitted tr))) e)
               | None => crun s ops' = None
               end.
Proof. intros H. apply (behaves_fresh (ops ++ [CAbortEnd]) s tr H). apply last_last. Qed.
Print Assumptions C25_partial.
Example C25_nonvacuous : exists s tr, crun cq_init ([CRun; CSubmit; CSubmit; CTake; CBegin; CAbortBegin; CFinish; CExit] ++ [CAbortEnd]) = Some (s, tr ++ [EAborted]) /\
  paused_after tr = false /\ List.length (submitted tr) = 2%nat.
Proof. eexists. exists [ESubmit 0; ESubmit 1; ETaken 0; EBegin 0; EAbortBegin]. vm_compute. repeat split; reflexivity. Qed.

(** ** C26 *)
(** The state of the token after any history of calls. *)
Theorem C26_state ops : tk_state (trun tinit ops) = if aborted_since_reset ops then TAborted else if pause_wanted ops then TPaused else TRunning.
Proof. exact (token_state ops). Qed.
Print Assumptions C26_state.
(** Once aborted, pause and resume report no effect and have none. *)
Theorem C26_aborted_sticks ops b : aborted_since_reset ops = true -> tstep (trun tinit ops) (TPause b) = (trun tinit ops, Some false).
Proof. exact (aborted_no_effect ops b). Qed.
Print Assumptions C26_aborted_sticks.
(** What canContinue returns: not blocking, true iff neither paused nor aborted; blocking, whenever it returns, false iff aborted. *)
Theorem C26_can_continue ops :
  snd (tstep (trun tinit ops) TQuery) = Some (negb (aborted_since_reset ops) && negb (pause_wanted ops)) /\
  (forall o r, o = TWait \/ o = TWake -> snd (tstep (trun tinit ops) o) = Some r -> r = negb (aborted_since_reset ops)).
Proof. split; [exact (query_value ops)|exact (blocking_value ops)]. Qed.
Print Assumptions C26_can_continue.
(** A task asleep in canContinue is notified by resume and by abort and then returns; and it is never asleep without a
    notification on a token that is not paused. *)
Theorem C26_released ops o n : reset_only_idle tinit (ops ++ [o]) -> tk_waiter (trun tinit ops) = Asleep n ->
  o = TAbort \/ (o = TPause false /\ aborted_since_reset ops = false) ->
  tk_waiter (trun tinit (ops ++ [o])) = Asleep true /\ snd (tstep (trun tinit (ops ++ [o])) TWake) = Some (match o with TAbort => false | _ => true end).
Proof. exact (released ops o n). Qed.
Print Assumptions C26_released.
Theorem C26_no_lost_wakeup ops : reset_only_idle tinit ops -> tk_waiter (trun tinit ops) = Asleep false -> tk_state (trun tinit ops) = TPaused.
Proof. intros R. apply asleep_paused; [exact R|discriminate]. Qed.
Print Assumptions C26_no_lost_wakeup.
(** The proviso about reset is needed: reset does not notify, and resume then has no effect. The queue meets it: it resets
    its token only when its thread holds no task. *)
Theorem C26_reset_while_asleep : tk_waiter (trun tinit [TPause true; TWait; TReset; TPause false]) = Asleep false.
Proof. reflexivity. Qed.
Print Assumptions C26_reset_while_asleep.
Theorem C26_queue_resets_idle s s' e : cstep s CAbortEnd = Some (s', e) -> q_worker s = WNone \/ q_worker s = WExited.
Proof. exact (queue_resets_idle s s' e). Qed.
Print Assumptions C26_queue_resets_idle.
(** The running command is told: its token is aborted from the moment abort is called until it returns, and otherwise
    paused or not as the last call of pause asked since the last abort. *)
Theorem C26_queue_token ops s tr : crun cq_init ops = Some (s, tr) ->
  q_tok s = (let c := token_calls tr in if aborted_since_reset c then TAborted else if pause_wanted c then TPaused else TRunning).
Proof. exact (queue_token ops s tr). Qed.
Print Assumptions C26_queue_token.
Example C26_queue_case : exists s tr, crun cq_init [CRun; CSubmit; CTake; CBegin; CPause true; CAbortBegin; CPause false] = Some (s, tr) /\ q_tok s = TAborted.
Proof. eexists. eexists. split; reflexivity. Qed.
Example C26_nonvacuous : let ops := [TPause true; TWait; TWake; TAbort; TWake; TReset; TPause true; TWait] in
  reset_only_idle tinit (ops ++ [TPause false]) /\ tk_waiter (trun tinit ops) = Asleep false /\ aborted_since_reset ops = false /\ pause_wanted ops = true.
Proof. vm_compute. repeat split; intros; try reflexivity; discriminate. Qed.
