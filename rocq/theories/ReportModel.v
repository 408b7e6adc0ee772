(** The report queue: /repo/src/libaktualizr/primary/reportqueue.cc:11-67 over the table report_events
    (storage/sqlstorage.cc:1563-1615, config/sql/schema.sql:28).
    run() holds the mutex of enqueue() while it flushes, so flushes and enqueues are atomic to each other; the destructor
    flushes after the thread has ended. A crash can interrupt a flush between the answer of the server and the deletion.
    Simplification: SQL statements do not fail (a failing INSERT only logs an error and loses the event). *)
From Verif Require Import Base Json.

Section Rep.
(** [savec]: jsonToCanonicalStr; [loadc]: Json::parseFromStream. *)
Context (savec : json -> string) (loadc : string -> option json).

(** Table report_events in id order. *)
Definition rtable := list (Z * string).
(** sqlstorage.cc:1563-1572: MAX(id) + 1; NULL on an empty table, for which SQLite picks 1. *)
Definition max_id (t : rtable) : Z := fold_right (fun r m => Z.max (fst r) m) 0 t.
Definition save_event (e : json) (t : rtable) : rtable := t ++ [((match t with [] => 1 | _ => max_id t + 1 end), savec e)].
(** sqlstorage.cc:1574-1606 loadReportEvents: the parsable events and the largest of their ids. *)
Fixpoint load_events (t : rtable) (acc : list json) (m : Z) : list json * Z :=
  match t with
  | [] => (acc, m)
  | (id, s) :: t' => match loadc s with
                     | Some e => load_events t' (acc ++ [e]) (if id <? m then m else id)
                     | None => load_events t' acc m
                     end
  end.
(** sqlstorage.cc:1608-1615 *)
Definition delete_events (m : Z) (t : rtable) : rtable := filter (fun r => m <? fst r) t.

(** Answer of the server: curl succeeded, HTTP status. *)
Record answer := { an_curl : bool; an_status : Z }.
Definition accepted (a : answer) : bool := (an_curl a && (200 <=? an_status a) && (an_status a <? 400)) || (an_status a =? 404).

(** A batch that was posted, its answer, and whether the events were then deleted. *)
Record batch := { ba_events : list json; ba_answer : answer; ba_deleted : bool }.
(** Operations: enqueue; flush with the answer the server would give, and whether the process dies before deleting. *)
Inductive rop := REnqueue (e : json) | RFlush (a : answer) (crash : bool).
(** reportqueue.cc:34-67; [has_server]: config.tls.server is not empty. *)
Definition rstep (has_server : bool) (t : rtable) (o : rop) : rtable * list batch :=
  match o with
  | REnqueue e => (save_event e t, [])
  | RFlush a crash =>
      let '(es, m) := load_events t [] 0 in
      let es := if has_server then es else [] in
      match es with
      | [] => (t, [])
      | _ => if accepted a && negb crash then (delete_events m t, [{| ba_events := es; ba_answer := a; ba_deleted := true |}])
             else (t, [{| ba_events := es; ba_answer := a; ba_deleted := false |}])
      end
  end.
Fixpoint rrun (has_server : bool) (t : rtable) (ops : list rop) : rtable * list batch :=
  match ops with
  | [] => (t, [])
  | o :: ops' => let '(t1, b1) := rstep has_server t o in let '(t2, b2) := rrun has_server t1 ops' in (t2, b1 ++ b2)
  end.
End Rep.
