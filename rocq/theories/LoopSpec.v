(** Specification of the polling loop. *)
From Verif Require Import Base LoopModel.

(** The states some schedule leads to. *)
Definition lreach (s : lstate) : Prop := exists l, lrun linit l = Some s.
(** A step of the thread of RunForever. *)
Definition of_runner (a : lact) : bool := match a with ACall | ACaller _ => false | _ => true end.
Definition runner_steps (l : list lact) : nat := List.length (filter of_runner l).
(** RunForever has ended. *)
Definition ended (s : lstate) : Prop := l_pc s = PDone \/ l_pc s = PFailed.
(** Some call of Shutdown has returned. *)
Definition shut (s : lstate) : Prop := In EvReturned (l_trace s).
(** No cycle is in progress at the end of a sequence of events. *)
Definition cycles_over (t : list levent) : Prop :=
  forall a b, t = a ++ EvCycle :: b -> exists c, In (EvCycleEnd c) b.
Definition ev_count (P : levent -> bool) (t : list levent) : nat := List.length (filter P t).
Definition is_complete (e : levent) : bool := match e with EvCompleteInstall => true | _ => false end.
(** The first cycle started before any call of Shutdown. *)
Definition started_first (t : list levent) : Prop := exists a b, t = a ++ EvCycle :: b /\ ~ In EvCall a.
