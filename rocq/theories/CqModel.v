(** The command queue and the flow-control token: /repo/src/libaktualizr/utilities/apiqueue.cc, apiqueue.h.
    Threads interleave between the steps below; each step is a critical section of the mutex that protects it (m_ of the queue
    or of the token, thread_m_ for run and abort). *)
From Verif Require Import Base.

(** apiqueue.h:48-52 *)
Inductive tok := TRunning | TPaused | TAborted.
(** apiqueue.cc:6-19 setPause, 21-31 setAbort, 41-44 reset: the new state and the returned value. *)
Definition set_pause (b : bool) (s : tok) : tok * bool :=
  match b, s with true, TRunning => (TPaused, true) | false, TPaused => (TRunning, true) | _, _ => (s, false) end.
Definition set_abort (s : tok) : tok * bool := match s with TAborted => (s, false) | _ => (TAborted, true) end.
Definition reset (_ : tok) : tok := TRunning.

(** A token with a task that may be inside canContinue(true): not there, asleep (with or without a notification pending). *)
Inductive waiter := Outside | Asleep (notified : bool).
Record token := { tk_state : tok; tk_waiter : waiter }.
Definition notify (w : waiter) : waiter := match w with Asleep _ => Asleep true | Outside => Outside end.
Inductive top := TPause (b : bool) | TAbort | TReset | TQuery | TWait | TWake.
(** The result of a call, if it returns one. TQuery: canContinue(false); TWait: canContinue(true) is called; TWake: the
    sleeping task is scheduled (after a notification or spuriously) and re-evaluates its condition (33-39). *)
Definition tstep (s : token) (o : top) : token * option bool :=
  match o with
  | TPause b => let '(x, r) := set_pause b (tk_state s) in
                ({| tk_state := x; tk_waiter := if r then notify (tk_waiter s) else tk_waiter s |}, Some r)
  | TAbort => let '(x, r) := set_abort (tk_state s) in
              ({| tk_state := x; tk_waiter := if r then notify (tk_waiter s) else tk_waiter s |}, Some r)
  | TReset => ({| tk_state := reset (tk_state s); tk_waiter := tk_waiter s |}, None)
  | TQuery => (s, Some (match tk_state s with TRunning => true | _ => false end))
  | TWait | TWake =>
      match o, tk_waiter s with
      | TWait, Asleep _ | TWake, Outside => (s, None)    (* one task only; nothing to wake *)
      | _, _ => match tk_state s with
                | TPaused => ({| tk_state := TPaused; tk_waiter := Asleep false |}, None)
                | x => ({| tk_state := x; tk_waiter := Outside |}, Some (match x with TRunning => true | _ => false end))
                end
      end
  end.
Definition trun (s : token) (ops : list top) : token := fold_left (fun s o => fst (tstep s o)) ops s.
Definition tinit : token := {| tk_state := TRunning; tk_waiter := Outside |}.

(** The worker thread: not started, waiting on the condition variable, holding a task it took from the queue, running its
    body, returned (but not joined). *)
Inductive wstate := WNone | WWait | WTaken (id : nat) | WBody (id : nat) | WExited.
(** [q_next] numbers the submissions; [q_aborting]: a call of abort holds thread_m_. *)
Record cq := { q_tasks : list nat; q_next : nat; q_paused : bool; q_shutdown : bool; q_tok : tok; q_worker : wstate; q_aborting : bool }.
Definition cq_init : cq := {| q_tasks := []; q_next := 0; q_paused := false; q_shutdown := false; q_tok := TRunning; q_worker := WNone; q_aborting := false |}.

Inductive cop := CRun | CSubmit | CPause (b : bool) | CTake | CBegin | CFinish | CExit | CAbortBegin | CAbortEnd.
(** What an observer sees: submissions, tasks leaving the queue, bodies starting, pause and resume, completed aborts. *)
Inductive cev := ESubmit (id : nat) | ETaken (id : nat) | EBegin (id : nat) | EPaused (b : bool) | EAbortBegin | EAborted.

Definition with_worker (s : cq) (w : wstate) : cq :=
  {| q_tasks := q_tasks s; q_next := q_next s; q_paused := q_paused s; q_shutdown := q_shutdown s; q_tok := q_tok s; q_worker := w; q_aborting := q_aborting s |}.
(** One step; None: not possible in this state (the thread waits). *)
Definition cstep (s : cq) (o : cop) : option (cq * list cev) :=
  match o with
  | CRun =>                                               (* apiqueue.cc:56-74 *)
      if q_aborting s then None else match q_worker s with WNone => Some (with_worker s WWait, []) | _ => Some (s, []) end
  | CSubmit =>                                            (* apiqueue.h:64-86 *)
      Some ({| q_tasks := q_tasks s ++ [q_next s]; q_next := S (q_next s); q_paused := q_paused s; q_shutdown := q_shutdown s; q_tok := q_tok s;
               q_worker := q_worker s; q_aborting := q_aborting s |}, [ESubmit (q_next s)])
  | CPause b =>                                           (* apiqueue.cc:76-87 *)
      Some ({| q_tasks := q_tasks s; q_next := q_next s; q_paused := b; q_shutdown := q_shutdown s; q_tok := fst (set_pause b (q_tok s));
               q_worker := q_worker s; q_aborting := q_aborting s |}, [EPaused b])
  | CTake =>                                              (* apiqueue.cc:62-67 *)
      match q_worker s, q_tasks s with
      | WWait, id :: rest =>
          if q_shutdown s || q_paused s then None
          else Some ({| q_tasks := rest; q_next := q_next s; q_paused := q_paused s; q_shutdown := q_shutdown s; q_tok := q_tok s;
                        q_worker := WTaken id; q_aborting := q_aborting s |}, [ETaken id])
      | _, _ => None
      end
  | CBegin => match q_worker s with WTaken id => Some (with_worker s (WBody id), [EBegin id]) | _ => None end   (* 68-69 *)
  | CFinish => match q_worker s with WBody id => Some (with_worker s WWait, []) | _ => None end                 (* 70 *)
  | CExit => match q_worker s with WWait => if q_shutdown s then Some (with_worker s WExited, []) else None | _ => None end   (* 62-65 *)
  | CAbortBegin =>                                        (* apiqueue.cc:91-97 *)
      if q_aborting s then None
      else Some ({| q_tasks := q_tasks s; q_next := q_next s; q_paused := q_paused s; q_shutdown := true; q_tok := fst (set_abort (q_tok s));
                    q_worker := q_worker s; q_aborting := true |}, [EAbortBegin])
  | CAbortEnd =>                                          (* apiqueue.cc:98-108: join, then reset *)
      if q_aborting s then
        match q_worker s with
        | WNone | WExited =>
            Some ({| q_tasks := []; q_next := q_next s; q_paused := q_paused s; q_shutdown := false; q_tok := reset (q_tok s);
                     q_worker := WNone; q_aborting := false |}, [EAborted])
        | _ => None
        end
      else None
  end.
(** The restart of the thread (109-111) is a CRun step. *)
Fixpoint crun (s : cq) (ops : list cop) : option (cq * list cev) :=
  match ops with
  | [] => Some (s, [])
  | o :: ops' => match cstep s o with
                 | Some (s1, e1) => match crun s1 ops' with Some (s2, e2) => Some (s2, e1 ++ e2) | None => None end
                 | None => None
                 end
  end.
