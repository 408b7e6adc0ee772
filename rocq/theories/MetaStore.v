(** The [meta] and [delegations] tables of SQLStorage.
    Models /repo/src/libaktualizr/storage/sqlstorage.cc:509-731 and invstorage.h (loadLatestRoot).
    Simplifications: every function is one atomic transaction (they all use beginTransaction/commitTransaction or a
    single statement); SQL errors (disk full, corrupted file) are not modelled.  *)
From Verif Require Import Base Json TufModel.

Inductive repo := Director | Image.
Definition repo_eqb (a b : repo) : bool := match a, b with Director, Director | Image, Image => true | _, _ => false end.
Definition rkind_eqb (a b : rkind) : bool :=
  match a, b with
  | RRoot, RRoot | RSnapshot, RSnapshot | RTargets, RTargets | RTimestamp, RTimestamp
  | RDelegation, RDelegation | RInvalid, RInvalid => true
  | _, _ => false
  end.

(** One row of table meta: (meta BLOB, repo INTEGER, meta_type INTEGER, version INTEGER). *)
Record row := { w_data : string; w_repo : repo; w_type : rkind; w_ver : Z }.
Record db := { d_meta : list row; d_deleg : list (string * string) }.
Definition db_empty : db := {| d_meta := []; d_deleg := [] |}.

(** std::string(reinterpret_cast<const char*>(sqlite3_column_blob(...))): cut at the first NUL byte; a zero-length
    blob yields a null pointer, for which libstdc++'s constructor throws std::logic_error. *)
Fixpoint cut_nul (s : string) : string :=
  match s with
  | EmptyString => EmptyString
  | String c s' => if Ascii.eqb c "000" then EmptyString else String c (cut_nul s')
  end.
Definition blob_to_string (b : string) : res string :=
  match b with EmptyString => Throw EStd | _ => Ok (cut_nul b) end.

Definition is_row (rp : repo) (ty : rkind) (r : row) : bool := repo_eqb (w_repo r) rp && rkind_eqb (w_type r) ty.
Definition is_row_v (rp : repo) (ty : rkind) (v : Z) (r : row) : bool := is_row rp ty r && (w_ver r =? v).

(** sqlstorage.cc:509-533 storeRoot. *)
Definition store_root (raw : string) (rp : repo) (v : Z) (d : db) : db :=
  {| d_meta := filter (fun r => negb (is_row_v rp RRoot v r)) (d_meta d)
               ++ [{| w_data := raw; w_repo := rp; w_type := RRoot; w_ver := v |}];
     d_deleg := d_deleg d |}.

(** sqlstorage.cc:535-558 storeNonRoot: stored with Version() = -1. *)
Definition store_nonroot (raw : string) (rp : repo) (ty : rkind) (d : db) : db :=
  {| d_meta := filter (fun r => negb (is_row rp ty r)) (d_meta d)
               ++ [{| w_data := raw; w_repo := rp; w_type := ty; w_ver := -1 |}];
     d_deleg := d_deleg d |}.

(** ORDER BY version DESC LIMIT 1. *)
Fixpoint max_row (l : list row) (best : option row) : option row :=
  match l with
  | [] => best
  | r :: l' => max_row l' (match best with
                           | None => Some r
                           | Some b => if w_ver b <? w_ver r then Some r else Some b
                           end)
  end.
Definition latest_row (rp : repo) (ty : rkind) (d : db) : option row := max_row (filter (is_row rp ty) (d_meta d)) None.

(** [Ok None]: not found (returns false); [Throw]: exception. *)
Definition row_data (o : option row) : res (option string) :=
  match o with None => Ok None | Some r => do s <- blob_to_string (w_data r); Ok (Some s) end.

(** sqlstorage.cc:560-579 loadRoot with a negative version = invstorage.h loadLatestRoot. *)
Definition load_latest_root (rp : repo) (d : db) : res (option string) := row_data (latest_row rp RRoot d).
(** sqlstorage.cc:580-606 loadRoot with a version >= 0: a null blob is reported as not found. *)
Definition load_root (rp : repo) (v : Z) (d : db) : res (option string) :=
  if v <? 0 then load_latest_root rp d
  else match find (is_row_v rp RRoot v) (d_meta d) with
       | None => Ok None
       | Some r => match w_data r with EmptyString => Ok None | _ => Ok (Some (cut_nul (w_data r))) end
       end.
(** sqlstorage.cc:609-629 loadNonRoot. *)
Definition load_nonroot (rp : repo) (ty : rkind) (d : db) : res (option string) := row_data (latest_row rp ty d).

(** sqlstorage.cc:631-640 clearNonRootMeta. *)
Definition clear_nonroot (rp : repo) (d : db) : db :=
  {| d_meta := filter (fun r => negb (repo_eqb (w_repo r) rp && negb (rkind_eqb (w_type r) RRoot))) (d_meta d);
     d_deleg := d_deleg d |}.
(** sqlstorage.cc:642-649 clearMetadata. *)
Definition clear_metadata (d : db) : db := {| d_meta := []; d_deleg := d_deleg d |}.

(** sqlstorage.cc:651-660 storeDelegation (INSERT OR REPLACE, role_name is the key). *)
Definition del_name (n : string) (l : list (string * string)) := filter (fun p => negb (String.eqb (fst p) n)) l.
Definition store_delegation (raw n : string) (d : db) : db :=
  {| d_meta := d_meta d; d_deleg := del_name n (d_deleg d) ++ [(n, raw)] |}.
(** sqlstorage.cc:662-681 loadDelegation. *)
Definition load_delegation (n : string) (d : db) : res (option string) :=
  match aget n (d_deleg d) with None => Ok None | Some b => do s <- blob_to_string b; Ok (Some s) end.
(** sqlstorage.cc:718-723 deleteDelegation. *)
Definition delete_delegation (n : string) (d : db) : db :=
  {| d_meta := d_meta d; d_deleg := del_name n (d_deleg d) |}.
(** sqlstorage.cc:725-731 clearDelegations *)
Definition clear_delegations (d : db) : db := {| d_meta := d_meta d; d_deleg := [] |}.
