(** The ECUs of the configuration against those that are registered, and the list of removed ones.
    /repo/src/libaktualizr/primary/initializer.cc:45-111 (initEcuSerials), 212-264 (initEcuRegister), initializer.h:64-75 (EcuCompare),
    storage/sqlstorage.cc:1006-1055 (saveMisconfiguredEcu, loadMisconfiguredEcus, clearMisconfiguredEcus, which nothing calls).
    Simplifications: the other parts of the start are in InitModel; storing the serials is one write (it is one transaction,
    sqlstorage.cc storeEcuSerials). *)
From Verif Require Import Base.

Definition ecu := (string * string)%type.   (* serial, hardware id *)
Definition ecu_eqb (a b : ecu) : bool := String.eqb (fst a) (fst b) && String.eqb (snd a) (snd b).
(** initializer.h:64-75 with std::find_if *)
Definition known (e : ecu) (l : list ecu) : bool := existsb (ecu_eqb e) l.
(** The table of registered ECUs and the table misconfigured_ecus (serial is unique). *)
Record etab := { e_ecus : list ecu; e_old : list ecu }.
(** sqlstorage.cc:1006-1015: INSERT OR REPLACE, with the state [old] *)
Definition save_old (e : ecu) (l : list ecu) : list ecu := filter (fun x => negb (String.eqb (fst x) (fst e))) l ++ [e].

(** One start: the configured ECUs, Primary first; whether the server accepts a registration; the number of writes before the
    client is killed. *)
Record estart := { t_conf : list ecu; t_accept : bool; t_kill : nat }.
(** initializer.cc:68-111: are all configured ones known, and which stored ones are not configured? The stored entry that a configured one
    matches is marked; the others, in their order, are removed ones. *)
Definition removed (conf stored : list ecu) : list ecu := filter (fun x => negb (known x conf)) stored.
Definition must_register (conf stored : list ecu) : bool :=
  match stored with
  | [] => true
  | _ => negb (forallb (fun e => known e stored) conf) || negb (match removed conf stored with [] => true | _ => false end)
  end.
Definition do_estart (s : estart) (t : etab) : etab * bool :=
  let gone := removed (t_conf s) (e_ecus t) in
  let t1 := {| e_ecus := e_ecus t; e_old := fold_left (fun l e => save_old e l) (firstn (t_kill s) gone) (e_old t) |} in
  if must_register (t_conf s) (e_ecus t) then
    if (List.length gone <=? t_kill s)%nat
    then if t_accept s && (List.length gone <? t_kill s)%nat then ({| e_ecus := t_conf s; e_old := e_old t1 |}, true) else (t1, true)
    else (t1, false)
  else (t1, false).
Fixpoint estarts (l : list estart) (t : etab) : etab := match l with [] => t | s :: l' => estarts l' (fst (do_estart s t)) end.
Definition enone : etab := {| e_ecus := []; e_old := [] |}.
