(** The device's TLS credentials in the database and the two ways they get there at a start of the client.
    /repo/src/libaktualizr/storage/sqlstorage.cc:297-505 (storeTlsCreds, storeTlsCa, storeTlsCert, storeTlsPkey, loadTlsCreds,
    loadTlsCa, loadTlsCert, loadTlsPkey), storage/invstorage.cc:24-90 and 135-142 (import of the three TLS files),
    primary/initializer.cc:127-202 (loadSetTlsCreds, initTlsCreds), crypto/keymanager.h:29 (isOk), with all sources [file].
    Simplifications: an empty value is read back as an empty string; the retries after "device_already_registered" within one start
    (initializer.cc:338-347) are one request with the last answer; the removal of the shared credentials from the archive, which comes
    after the writes, is left out (it is in ArcModel); the device can only be killed between two writes of the database. *)
From Verif Require Import Base.

(** The table tls_creds, /repo/config/sql/schema.sql:9-11: no key, so any number of rows; every column may be NULL. *)
Inductive col := Ca | Cert | Pkey.
Record row := { w_ca : option string; w_cert : option string; w_pkey : option string }.
Definition table := list row.
Definition row_null : row := {| w_ca := None; w_cert := None; w_pkey := None |}.
Definition put (c : col) (x : string) (r : row) : row :=
  match c with
  | Ca => {| w_ca := Some x; w_cert := w_cert r; w_pkey := w_pkey r |}
  | Cert => {| w_ca := w_ca r; w_cert := Some x; w_pkey := w_pkey r |}
  | Pkey => {| w_ca := w_ca r; w_cert := w_cert r; w_pkey := Some x |}
  end.
Definition get (c : col) (r : row) : option string := match c with Ca => w_ca r | Cert => w_cert r | Pkey => w_pkey r end.

(** sqlstorage.cc:303-382 storeTlsCa, storeTlsCert, storeTlsPkey: all rows are updated, or the first is inserted, in one transaction.
    A failing statement is logged and nothing else happens ([ok = false]). *)
Definition store (c : col) (x : string) (ok : bool) (t : table) : table :=
  if ok then match t with [] => [put c x row_null] | _ => map (put c x) t end else t.
(** sqlstorage.cc:431-505 loadTlsCa, loadTlsCert, loadTlsPkey: the first row; a NULL is "not there". *)
Definition load (c : col) (t : table) : option string := match t with [] => None | r :: _ => get c r end.

Definition creds := (string * string * string)%type.   (* CA, client certificate, client key *)
(** sqlstorage.cc:384-420 loadTlsCreds *)
Definition load_creds (t : table) : option creds :=
  match load Ca t, load Cert t, load Pkey t with Some a, Some b, Some c => Some (a, b, c) | _, _, _ => None end.
(** keymanager.h:29 isOk with getPkey, getCert, getCa (keymanager.cc:120-162): what is not there is an empty string. *)
Definition filled (o : option string) : bool := match o with Some x => negb (String.eqb x "") | None => false end.
Definition is_ok (t : table) : bool := filled (load Pkey t) && filled (load Cert t) && filled (load Ca t).

(** One start of the client: the table, the number of writes it still makes before it is killed, whether it was killed, and which of
    the next writes succeed (all, once the list is used up). *)
Record run := { r_tab : table; r_left : nat; r_dead : bool; r_oks : list bool }.
Definition write (c : col) (x : string) (r : run) : run :=
  if r_dead r then r else
  match r_left r with
  | O => {| r_tab := r_tab r; r_left := O; r_dead := true; r_oks := r_oks r |}
  | S n => {| r_tab := store c x (hd true (r_oks r)) (r_tab r); r_left := n; r_dead := false; r_oks := tl (r_oks r) |}
  end.

(** A configured file: no path, a path without a file, or the content. *)
Inductive file := NoPath | NoFile | Content (x : string).

Section Tls.
Context (digest : string -> string).   (* Crypto::sha256digest *)

(** invstorage.cc:24-50 importUpdateSimple and, for the certificate, 52-90 importUpdateCertificate: they differ in what they log.
    A missing file reads as an empty text (utils.cc readFile). *)
Definition content_of (f : file) : string := match f with Content x => x | _ => "" end.
Definition import1 (c : col) (f : file) (r : run) : run :=
  match f with
  | NoPath => r
  | _ => let update := match load c (r_tab r) with
                       | None => true
                       | Some old => negb (String.eqb (digest (content_of f)) (digest old))
                       end in
         if update then match f with Content x => write c x r | _ => r end else r
  end.

Record files := { f_cert : file; f_ca : file; f_pkey : file }.
(** invstorage.cc:138-142, in this order *)
Definition import (fs : files) (r : run) : run := import1 Pkey (f_pkey fs) (import1 Ca (f_ca fs) (import1 Cert (f_cert fs) r)).

Inductive mode := DeviceCred | SharedCred.
(** One start: its mode, the files to import, the server's answer if it is asked (None: no usable answer), the number of writes before
    it is killed, the writes that fail. *)
Record start := { s_mode : mode; s_files : files; s_answer : option creds; s_kill : nat; s_oks : list bool }.
Inductive outcome := Killed | Failed | Running (c : creds) (asked : bool).
Definition held_creds (t : table) : creds :=
  let d o := match o with Some x => x | None => "" end in (d (load Ca t), d (load Cert t), d (load Pkey t)).

(** sqlstorage.cc:297-301 storeTlsCreds: three transactions *)
Definition store_creds (c : creds) (r : run) : run :=
  let '(a, b, k) := c in write Pkey k (write Cert b (write Ca a r)).
(** aktualizr.cc:26 importData, then initializer.cc:133-189 initTlsCreds *)
Definition do_start (s : start) (t : table) : table * outcome :=
  let r := import (s_files s) {| r_tab := t; r_left := s_kill s; r_dead := false; r_oks := s_oks s |} in
  if r_dead r then (r_tab r, Killed)
  else if is_ok (r_tab r) then (r_tab r, Running (held_creds (r_tab r)) false)
  else match s_mode s with
       | DeviceCred => (r_tab r, Failed)
       | SharedCred =>
           match s_answer s with
           | None => (r_tab r, Failed)
           | Some c => let r' := store_creds c r in
                       if r_dead r' then (r_tab r', Killed)
                       else if is_ok (r_tab r') then (r_tab r', Running (held_creds (r_tab r')) true)
                       else (r_tab r', Failed)
           end
       end.

(** A history of starts from a table: the table at the end and the outcomes. *)
Fixpoint starts (l : list start) (t : table) : table * list outcome :=
  match l with
  | [] => (t, [])
  | s :: l' => let '(t1, o) := do_start s t in let '(t2, os) := starts l' t1 in (t2, o :: os)
  end.
End Tls.
