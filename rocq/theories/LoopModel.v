(** The polling loop and its end: /repo/src/libaktualizr/primary/aktualizr.cc:75-101 (RunForever, Shutdown).
    Threads: the one of RunForever and any number of callers of Shutdown. A step is an operation on the mutex, the flag or
    the condition variable, or a whole UptaneCycle (aktualizr.cc:38-73, see CycModel.v), which touches none of them.
    Simplification: operations on the mutex do not fail. *)
From Verif Require Import Base.

(** What UptaneCycle does: returns true, returns false (an update needs completion), throws. *)
Inductive cycle_end := CycleAgain | CycleComplete | CycleThrows.
(** The places of the thread of RunForever. *)
Inductive rpc :=
| PSend                    (* 77: SendDeviceData().get() *)
| PLock                    (* 79: takes the mutex *)
| PCycle                   (* 81: in UptaneCycle, with the mutex *)
| PTest                    (* 85: wait_for evaluates the predicate, with the mutex *)
| PWait                    (* 85: waits, without the mutex *)
| PWake (timeout : bool)   (* 85: woken up, takes the mutex *)
| PLast                    (* 85: the time is over; the predicate decides, with the mutex *)
| PComplete                (* 90: completeInstall; the lock is released when the function ends *)
| PDone                    (* RunForever has ended *)
| PFailed.                 (* RunForever has ended with an exception *)
(** The places of a caller of Shutdown, aktualizr.cc:95-101. *)
Inductive spc := SLock | SSet | SUnlock | SNotify | SReturned.
(** What is observed. *)
Inductive levent := EvCycle | EvCycleEnd (c : cycle_end) | EvCall | EvReturned | EvCompleteInstall | EvThrow.
(** The owner of the mutex: the thread of RunForever or a caller, by its number. *)
Inductive owner := ORun | OCaller (i : nat).
Record lstate := { l_pc : rpc; l_flag : bool; l_mutex : option owner; l_callers : list spc; l_trace : list levent }.
Definition linit : lstate := {| l_pc := PSend; l_flag := false; l_mutex := None; l_callers := []; l_trace := [] |}.
Inductive lact :=
| ASent (ok : bool) | ALock | ACycleEnds (c : cycle_end) | ATest | AWakes (timeout : bool) | ARelock | ALast | ACompleted (ok : bool)
| ACall | ACaller (i : nat).
Definition at_pc (p : rpc) (mu : option owner) (evs : list levent) (s : lstate) : lstate :=
  {| l_pc := p; l_flag := l_flag s; l_mutex := mu; l_callers := l_callers s; l_trace := l_trace s ++ evs |}.
Fixpoint put_nth {A} (i : nat) (x : A) (l : list A) : list A :=
  match l, i with [], _ => [] | _ :: l', O => x :: l' | y :: l', S i' => y :: put_nth i' x l' end.
(** One step; None if it is not possible. *)
Definition lstep (s : lstate) (a : lact) : option lstate :=
  match a, l_pc s with
  | ASent ok, PSend => Some (if ok then at_pc PLock (l_mutex s) [] s else at_pc PFailed (l_mutex s) [EvThrow] s)
  | ALock, PLock => match l_mutex s with None => Some (at_pc PCycle (Some ORun) [EvCycle] s) | Some _ => None end
  | ACycleEnds c, PCycle =>
      Some (match c with
            | CycleAgain => at_pc PTest (l_mutex s) [EvCycleEnd c] s
            | CycleComplete => at_pc PComplete (l_mutex s) [EvCycleEnd c] s
            | CycleThrows => at_pc PFailed None [EvCycleEnd c; EvThrow] s
            end)
  | ATest, PTest => Some (if l_flag s then at_pc PComplete (l_mutex s) [] s else at_pc PWait None [] s)
  | AWakes t, PWait => Some (at_pc (PWake t) (l_mutex s) [] s)
  | ARelock, PWake t => match l_mutex s with
                        | None => Some (at_pc (if t then PLast else PTest) (Some ORun) [] s)
                        | Some _ => None
                        end
  | ALast, PLast => Some (if l_flag s then at_pc PComplete (l_mutex s) [] s else at_pc PCycle (l_mutex s) [EvCycle] s)
  | ACompleted ok, PComplete => Some (if ok then at_pc PDone None [EvCompleteInstall] s else at_pc PFailed None [EvCompleteInstall; EvThrow] s)
  | ACall, p => Some {| l_pc := p; l_flag := l_flag s; l_mutex := l_mutex s; l_callers := l_callers s ++ [SLock]; l_trace := l_trace s ++ [EvCall] |}
  | ACaller i, p =>
      match nth_error (l_callers s) i with
      | Some SLock => match l_mutex s with
                      | None => Some {| l_pc := p; l_flag := l_flag s; l_mutex := Some (OCaller i); l_callers := put_nth i SSet (l_callers s); l_trace := l_trace s |}
                      | Some _ => None
                      end
      | Some SSet => Some {| l_pc := p; l_flag := true; l_mutex := l_mutex s; l_callers := put_nth i SUnlock (l_callers s); l_trace := l_trace s |}
      | Some SUnlock => Some {| l_pc := p; l_flag := l_flag s; l_mutex := None; l_callers := put_nth i SNotify (l_callers s); l_trace := l_trace s |}
      | Some SNotify =>
          (* notify_all: a waiting thread is woken up *)
          Some {| l_pc := match p with PWait => PWake false | _ => p end; l_flag := l_flag s; l_mutex := l_mutex s;
                  l_callers := put_nth i SReturned (l_callers s); l_trace := l_trace s ++ [EvReturned] |}
      | _ => None
      end
  | _, _ => None
  end.
Fixpoint lrun (s : lstate) (l : list lact) : option lstate :=
  match l with [] => Some s | a :: l' => match lstep s a with Some s' => lrun s' l' | None => None end end.
