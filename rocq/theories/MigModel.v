(** Schema migration: /repo/src/libaktualizr/storage/sqlstorage_base.cc:31-77, 104-273.
    A database is its schema version, the stored rollback scripts (None: no such table) and the rest, [B].
    Every migration script (/repo/config/sql) is wrapped in SAVEPOINT ... RELEASE, sets the version and changes the rest or fails as a whole.
    Simplifications: the version is not truncated to 32 bits; opening the file and BEGIN work; directory permissions (DirModel) and the lock file (LockModel) are left out here. *)
From Verif Require Import Base.

Section M.
Context {B : Type}.
(** [sc_run]: effect on the rest, None: a statement fails. [sc_back]: effect on the table of rollback scripts (migrate.15 creates it, rollback.15 drops it). *)
Inductive backop := BKeep | BCreate | BDrop.
Record script := { sc_to : Z; sc_run : B -> option B; sc_back : backop }.
(** [v_tables]: there are tables at all. *)
Record db := { v_tables : bool; v_ver : option Z; v_back : option (list (Z * script)); v_rest : B }.
(** The compiled-in version, migrations, rollback scripts (None: empty), schema. *)
Record soft := { cur : Z; migs : list script; rolls : list (option script); schema : script }.
Inductive out := MTrue | MFalse | MThrow.

Fixpoint zget (k : Z) (l : list (Z * script)) : option script :=
  match l with [] => None | (x, s) :: l' => if x =? k then Some s else zget k l' end.
Definition zdel (k : Z) (l : list (Z * script)) : list (Z * script) := filter (fun p => negb (fst p =? k)) l.
(** sqlite3_exec of a script; creating a table that exists or dropping one that does not fails. *)
Definition back_after (o : backop) (t : option (list (Z * script))) : option (option (list (Z * script))) :=
  match o, t with
  | BKeep, _ => Some t
  | BCreate, None => Some (Some [])
  | BDrop, Some _ => Some None
  | _, _ => None
  end.
Definition exec (s : script) (d : db) : option db :=
  match sc_run s (v_rest d), back_after (sc_back s) (v_back d) with
  | Some b, Some t => Some {| v_tables := true; v_ver := Some (sc_to s); v_back := t; v_rest := b |}
  | _, _ => None
  end.
(** 104-129 dbInsertBackMigrations; preparing the statement throws if the table is missing. *)
Fixpoint insert_back (k : Z) (l : list (option script)) (t : list (Z * script)) : list (Z * script) :=
  match l with
  | [] => t
  | None :: l' => insert_back (k + 1) l' t
  | Some s :: l' => insert_back (k + 1) l' ((k, s) :: zdel k t)
  end.
Definition insert_back_migrations (S : soft) (d : db) : out * db :=
  match rolls S with
  | [] => (MTrue, d)
  | _ :: l => if Z.of_nat (List.length (rolls S)) <? cur S + 1 then (MFalse, d)
              else match v_back d with
                   | Some t => (MTrue, {| v_tables := v_tables d; v_ver := v_ver d; v_back := Some (insert_back 1 (firstn (Z.to_nat (cur S)) l) t); v_rest := v_rest d |})
                   | None => if existsb (fun o => match o with Some _ => true | None => false end) (firstn (Z.to_nat (cur S)) l) then (MThrow, d) else (MTrue, d)
                   end
  end.
(** 146-152: the scripts [k+1 .. cur]; [n] of them. vector::at throws. *)
Fixpoint forward_loop (S : soft) (n : nat) (k : Z) (d : db) : out * db :=
  match n with
  | O => (MTrue, d)
  | S n' => if k + 1 <? 0 then (MThrow, d)
            else match nth_error (migs S) (Z.to_nat (k + 1)) with
                 | None => (MThrow, d)
                 | Some s => match exec s d with None => (MFalse, d) | Some d' => forward_loop S n' (k + 1) d' end
                 end
  end.
(** 131-161 dbMigrateForward: one transaction; without COMMIT the old database remains. [commit]: COMMIT works, otherwise it throws. *)
Definition migrate_forward (S : soft) (commit : bool) (from : Z) (d : db) : out * db :=
  match forward_loop S (Z.to_nat (cur S - from)) from d with
  | (MTrue, d1) => match insert_back_migrations S d1 with
                   | (MTrue, d2) => if commit then (MTrue, d2) else (MThrow, d)
                   | (r, _) => (r, d)
                   end
  | (r, _) => (r, d)
  end.
(** 163-194 dbMigrateBackward: every statement is a transaction of its own. [log]: the states a crash can leave. *)
Fixpoint backward_loop (n : nat) (ver : Z) (d : db) (log : list db) : out * db * list db :=
  match n with
  | O => (MTrue, d, log)
  | S n' =>
      match v_back d with
      | None => (MThrow, d, log)
      | Some t =>
          match zget ver t with
          | None => (MFalse, d, log)
          | Some s =>
              match exec s d with
              | None => (MFalse, d, log)
              | Some d1 =>
                  match v_back d1 with
                  | None => (MFalse, d1, log ++ [d1])
                  | Some t1 => let d2 := {| v_tables := v_tables d1; v_ver := v_ver d1; v_back := Some (zdel ver t1); v_rest := v_rest d1 |} in
                               backward_loop n' (ver - 1) d2 (log ++ [d1; d2])
                  end
              end
          end
      end
  end.
Definition migrate_backward (S : soft) (from : Z) (d : db) : out * db * list db := backward_loop (Z.to_nat (from - cur S)) from d [d].
(** 244-273 getVersion, as a number: kEmpty = -1, kInvalid = -2. *)
Definition get_version (d : db) : Z := if v_tables d then match v_ver d with Some v => v | None => -2 end else -1.
(** 196-242 dbMigrate: the results of the two migrations are not looked at; exceptions are not caught. [log]: the states a crash can leave. *)
Definition db_migrate (S : soft) (readonly commit : bool) (d : db) : out * db * list db :=
  let v := get_version d in
  if v =? -2 then (MFalse, d, [d])
  else if v =? cur S then (MTrue, d, [d])
  else if readonly then (MFalse, d, [d])
  else if v =? -1 then
    match exec (schema S) d with
    | None => (MFalse, d, [d])
    | Some d1 => match insert_back_migrations S d1 with
                 | (MTrue, d2) => if commit then (MTrue, d2, [d; d2]) else (MThrow, d, [d])
                 | (r, _) => (r, d, [d])
                 end
    end
  else if cur S <? v then
    match migrate_backward S v d with
    | (MThrow, d', log) => (MThrow, d', log)
    | (_, d', log) => (MTrue, d', log)
    end
  else
    match migrate_forward S commit v d with
    | (MThrow, d') => (MThrow, d', [d; d'])
    | (_, d') => (MTrue, d', [d; d'])
    end.
(** 72-74: the constructor; true: the storage was opened, false: an exception. *)
Definition open_db (S : soft) (readonly commit : bool) (d : db) : bool * db :=
  match db_migrate S readonly commit d with (MTrue, d', _) => (true, d') | (_, d', _) => (false, d') end.
End M.
Arguments script : clear implicits.
Arguments db : clear implicits.
Arguments soft : clear implicits.
