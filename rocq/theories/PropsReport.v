(** C23: report events. *)
From Verif Require Import Base Json ReportModel ReportSpec ReportProofs.

(** For every interleaving of enqueues, flushes, answers and crashes: what was enqueued is, in order, what left storage
    followed by what is still stored; events left storage only in acknowledged batches; and each posted batch is a run of
    consecutive events that starts right after everything removed so far. *)
Theorem C23_never_lost_in_order savec loadc has_server ops t bs : (forall e, In e (enqueued ops) -> loadc (savec e) = Some e) ->
  rrun savec loadc has_server [] ops = (t, bs) ->
  exists q, stored_events loadc t = map Some q /\ enqueued ops = removed bs ++ q /\
    (forall b, In b bs -> ba_deleted b = true -> acknowledged b) /\
    (forall bs1 b bs2, bs = bs1 ++ b :: bs2 -> exists rest, enqueued ops = removed bs1 ++ ba_events b ++ rest).
Proof. exact (reports savec loadc has_server ops t bs). Qed.
Print Assumptions C23_never_lost_in_order.
(** And a flush that the server accepts empties the queue. *)
Theorem C23_flush_delivers savec loadc ops a t bs : (forall e, In e (enqueued ops) -> loadc (savec e) = Some e) ->
  rrun savec loadc true [] ops = (t, bs) -> an_curl a = true -> 200 <= an_status a < 400 ->
  exists bs', rstep savec loadc true t (RFlush a false) = ([], bs') /\ enqueued ops = removed bs ++ removed bs'.
Proof. exact (flush_delivers savec loadc ops a t bs). Qed.
Print Assumptions C23_flush_delivers.

(** Hypotheses met by a history with a refused batch, a crash after the acknowledgement and a redelivery. *)
Definition ok200 := {| an_curl := true; an_status := 200 |}.
Definition err500 := {| an_curl := true; an_status := 500 |}.
Definition history : list rop :=
  [REnqueue (JStr "a"); RFlush err500 false; REnqueue (JStr "b"); RFlush ok200 true; RFlush ok200 false; REnqueue (JStr "c")].
Example C23_nonvacuous : let sv j := match j with JStr s => s | _ => "" end in let ld s := Some (JStr s) in
  (forall e, In e (enqueued history) -> ld (sv e) = Some e) /\
  rrun sv ld true [] history =
  ([(1, "c")], [{| ba_events := [JStr "a"]; ba_answer := err500; ba_deleted := false |};
                {| ba_events := [JStr "a"; JStr "b"]; ba_answer := ok200; ba_deleted := false |};
                {| ba_events := [JStr "a"; JStr "b"]; ba_answer := ok200; ba_deleted := true |}]).
Proof. cbv zeta. split; [intros e [<- | [<- | [<- | []]]]; reflexivity|vm_compute; reflexivity]. Qed.
