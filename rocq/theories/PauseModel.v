(** Pausing and resuming, and what the server is told about it: /repo/src/libaktualizr/primary/aktualizr.cc:168-184 (Pause, Resume),
    primary/sotauptaneclient.cc:684-692 (reportPause, reportResume), utilities/apiqueue.cc:74-85 (CommandQueue::pause).
    Simplifications: a report is its kind (its correlation id, which the caller's thread reads while the queue's thread may write it, is left
    out); enqueuing a report always works (reports that cannot be stored: ReportModel); the calls of one thread follow one another. *)
From Verif Require Import Base.

Inductive pcall := CPause | CResume.
Inductive preport := RPaused | RResumed.
Inductive pstatus := SSuccess | SAlreadyPaused | SAlreadyRunning.

(** apiqueue.cc:74-85: one critical section. *)
Definition queue_pause (do_pause paused : bool) : bool * bool := (negb (Bool.eqb paused do_pause), do_pause).

(** A thread: the report that its current call still has to enqueue, and the calls to come. *)
Record pthread := { h_owes : option preport; h_todo : list pcall }.
(** The device: the flag, the reports enqueued (oldest first), the results given (oldest first), the threads. *)
Record pdev := { v_paused : bool; v_sent : list preport; v_results : list pstatus; v_threads : list pthread }.

(** One step of a thread: 168-184, divided between the queue's critical section and the enqueuing. *)
Definition pstep (paused : bool) (h : pthread) : option (bool * option preport * option pstatus * pthread) :=
  match h_owes h with
  | Some r => Some (paused, Some r, Some SSuccess, {| h_owes := None; h_todo := h_todo h |})
  | None =>
      match h_todo h with
      | [] => None
      | CPause :: l =>
          let '(eff, p) := queue_pause true paused in
          Some (if eff then (p, None, None, {| h_owes := Some RPaused; h_todo := l |})
                else (p, None, Some SAlreadyPaused, {| h_owes := None; h_todo := l |}))
      | CResume :: l =>
          let '(eff, p) := queue_pause false paused in
          Some (if eff then (p, None, None, {| h_owes := Some RResumed; h_todo := l |})
                else (p, None, Some SAlreadyRunning, {| h_owes := None; h_todo := l |}))
      end
  end.

Definition olist {A} (o : option A) : list A := match o with Some x => [x] | None => [] end.
Fixpoint setn {A} (n : nat) (x : A) (l : list A) : list A :=
  match l, n with [], _ => [] | _ :: l', O => x :: l' | y :: l', S n' => y :: setn n' x l' end.
(** Thread [n] takes a step; nothing happens if there is none to take. *)
Definition sched1 (n : nat) (v : pdev) : pdev :=
  match nth_error (v_threads v) n with
  | None => v
  | Some h => match pstep (v_paused v) h with
              | None => v
              | Some (p, r, s, h') => {| v_paused := p; v_sent := v_sent v ++ olist r; v_results := v_results v ++ olist s; v_threads := setn n h' (v_threads v) |}
              end
  end.
Definition run_sched (l : list nat) (v : pdev) : pdev := fold_left (fun v n => sched1 n v) l v.
(** A device that has just started, and the programs of its users. *)
Definition pdev0 (progs : list (list pcall)) : pdev :=
  {| v_paused := false; v_sent := []; v_results := []; v_threads := map (fun l => {| h_owes := None; h_todo := l |}) progs |}.
