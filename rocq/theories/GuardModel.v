(** Storage calls of several threads: the guard of a connection and its transaction.
    /repo/src/libaktualizr/storage/sql_utils.h:131-219 (SQLite3Guard: construction, destruction, transactions), sqlstorage_base.cc:77-83 (dbConnection),
    the shape of the calls in sqlstorage.cc (for instance 873-918, 1617-1633: begin, statements, early return or exception, commit).
    Simplifications: a call is a list of statements on the database and a value read from the result (one statement outside a transaction is a transaction of
    one statement); opening the database works; the object returned by dbConnection is not moved (its move constructor, sql_utils.h:160, would release the mutex at
    once; compilers elide the move); SQLite isolates transactions, loses none that it has committed, and answers SQLITE_BUSY (after two seconds, 151-152) only
    while another connection has an open transaction. *)
From Verif Require Import Base.

Section Guard.
Context {D O : Type}.

(** A statement: None if it fails (constraint, wrong number of changes, ...). *)
Definition stmt := D -> option D.
Record call := { c_body : list stmt; c_out : D -> O }.

(** Where a thread is within its call.  The destructor (161-165) releases the mutex first; the connection, and with it an open transaction, is closed
    afterwards, when the members are destroyed. *)
Inductive phase := Idle | Locked | InTx (view : D) (rest : list stmt) | Closing (open_tx : bool).
Record thr := { th_phase : phase; th_todo : list call }.
(** What a call told its caller: None: it failed. *)
Definition entry := (nat * call * option O)%type.
(** The database as committed, the mutex (the thread that has it), the threads, and the calls that have ended, the last one first. *)
Record conc := { k_db : D; k_mutex : option nat; k_threads : list thr; k_log : list entry }.

Definition upd (i : nat) (x : thr) (l : list thr) : list thr := firstn i l ++ x :: skipn (S i) l.
Definition is_open (x : thr) : bool := match th_phase x with Closing true => true | _ => false end.
(** A connection is still open in a transaction although its guard has released the mutex. *)
Definition some_open (l : list thr) : bool := existsb is_open l.

(** One step of thread [i]; [busy]: SQLite gives up waiting, if there is anything to wait for.  None: the thread cannot move. *)
Definition step (i : nat) (busy : bool) (k : conc) : option conc :=
  match nth_error (k_threads k) i with
  | None => None
  | Some x =>
      match th_phase x, th_todo x with
      | Idle, [] => None
      | Idle, _ :: _ => (* dbConnection: m_->lock() *)
          match k_mutex k with
          | Some _ => None
          | None => Some {| k_db := k_db k; k_mutex := Some i; k_threads := upd i {| th_phase := Locked; th_todo := th_todo x |} (k_threads k); k_log := k_log k |}
          end
      | Locked, c :: _ => (* beginTransaction *)
          Some {| k_db := k_db k; k_mutex := k_mutex k; k_threads := upd i {| th_phase := InTx (k_db k) (c_body c); th_todo := th_todo x |} (k_threads k); k_log := k_log k |}
      | InTx v rest, c :: _ =>
          let fails := Some {| k_db := k_db k; k_mutex := None; k_threads := upd i {| th_phase := Closing true; th_todo := th_todo x |} (k_threads k);
                               k_log := (i, c, None) :: k_log k |} in
          if busy && some_open (k_threads k) then fails
          else match rest with
               | f :: r => match f v with
                           | Some v' => Some {| k_db := k_db k; k_mutex := k_mutex k; k_threads := upd i {| th_phase := InTx v' r; th_todo := th_todo x |} (k_threads k); k_log := k_log k |}
                           | None => fails
                           end
               | [] => (* commitTransaction, return *)
                       Some {| k_db := v; k_mutex := None; k_threads := upd i {| th_phase := Closing false; th_todo := th_todo x |} (k_threads k);
                               k_log := (i, c, Some (c_out c v)) :: k_log k |}
               end
      | Closing _, _ :: todo => (* sqlite3_close: an open transaction is rolled back *)
          Some {| k_db := k_db k; k_mutex := k_mutex k; k_threads := upd i {| th_phase := Idle; th_todo := todo |} (k_threads k); k_log := k_log k |}
      | _, [] => None
      end
  end.
(** A schedule: which thread moves; threads that cannot move stay. *)
Fixpoint exec (l : list (nat * bool)) (k : conc) : conc :=
  match l with [] => k | (i, b) :: l' => exec l' (match step i b k with Some k' => k' | None => k end) end.
(** The start: threads with their programs. *)
Definition start (d : D) (progs : list (list call)) : conc :=
  {| k_db := d; k_mutex := None; k_threads := map (fun p => {| th_phase := Idle; th_todo := p |}) progs; k_log := [] |}.
End Guard.
