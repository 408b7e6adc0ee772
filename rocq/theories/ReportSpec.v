(** Specification of event reporting. *)
From Verif Require Import Base Json ReportModel.

Fixpoint enqueued (ops : list rop) : list json :=
  match ops with [] => [] | REnqueue e :: ops' => e :: enqueued ops' | RFlush _ _ :: ops' => enqueued ops' end.
(** The events still stored. *)
Definition stored_events (loadc : string -> option json) (t : rtable) : list (option json) := map (fun r => loadc (snd r)) t.
(** The events that left storage, in the order in which they did. *)
Fixpoint removed (bs : list batch) : list json :=
  match bs with [] => [] | b :: bs' => (if ba_deleted b then ba_events b else []) ++ removed bs' end.
(** An event leaves storage only after the server accepted it or said it does not support events. *)
Definition acknowledged (b : batch) : Prop :=
  (an_curl (ba_answer b) = true /\ 200 <= an_status (ba_answer b) < 400) \/ an_status (ba_answer b) = 404.
