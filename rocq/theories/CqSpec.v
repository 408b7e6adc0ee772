(** Specification of the command queue and the token, over what can be observed. *)
From Verif Require Import Base CqModel.
From Coq Require Import Sorted.

Fixpoint submitted (l : list cev) : list nat := match l with [] => [] | ESubmit i :: l' => i :: submitted l' | _ :: l' => submitted l' end.
Fixpoint taken (l : list cev) : list nat := match l with [] => [] | ETaken i :: l' => i :: taken l' | _ :: l' => taken l' end.
Fixpoint begun (l : list cev) : list nat := match l with [] => [] | EBegin i :: l' => i :: begun l' | _ :: l' => begun l' end.
(** Is the queue paused after this trace? Paused and resumed by the last call. *)
Definition paused_after (l : list cev) : bool := fold_left (fun b e => match e with EPaused b' => b' | _ => b end) l false.

(** The state of a token that a history of calls asks for. *)
Definition aborted_since_reset (ops : list top) : bool := fold_left (fun b o => match o with TAbort => true | TReset => false | _ => b end) ops false.
(** Pause and resume requests since the last reset, ignoring those made while aborted. *)
Definition pause_wanted (ops : list top) : bool :=
  fst (fold_left (fun (s : bool * bool) (o : top) => let '(p, a) := s in match o with
                                   | TReset => (false, false)
                                   | TAbort => (p, true)
                                   | TPause b => ((if a then p else b), a)
                                   | _ => (p, a)
                                   end) ops (false, false)).
(** A trace in which every command number is shifted by n. *)
Definition shift_ev (n : nat) (e : cev) : cev :=
  match e with ESubmit i => ESubmit (n + i) | ETaken i => ETaken (n + i) | EBegin i => EBegin (n + i) | x => x end.
(** No reset happens while a task sleeps in canContinue (the queue joins its thread before it resets the token). *)
Fixpoint reset_only_idle (s : token) (ops : list top) : Prop :=
  match ops with
  | [] => True
  | o :: ops' => (o = TReset -> tk_waiter s = Outside) /\ reset_only_idle (fst (tstep s o)) ops'
  end.
(** What the calls on a queue ask of the token of the running command: pause and resume, abort, and, once the abort has
    returned, a fresh start. *)
Fixpoint token_calls (l : list cev) : list top :=
  match l with
  | [] => []
  | EPaused b :: l' => TPause b :: token_calls l'
  | EAbortBegin :: l' => TAbort :: token_calls l'
  | EAborted :: l' => TReset :: token_calls l'
  | _ :: l' => token_calls l'
  end.
