(** Opening a storage that was written by an old version: /repo/src/libaktualizr/storage/sqlstorage.cc:14-62 (cleanMetaVersion), 64-75 (constructor),
    uptane/tuf.cc extractVersionUntrusted, config/sql/migration/migrate.06.sql:26-42 (Root metadata gets the version -1).
    Simplifications: SQL errors are not modelled (they leave the table as it was); a function without a commit leaves the table as it was. *)
From Verif Require Import Base Json TufModel MetaStore.

Definition with_version (v : Z) (r : row) : row := {| w_data := w_data r; w_repo := w_repo r; w_type := w_type r; w_ver := v |}.

(** sqlstorage.cc:15-62 cleanMetaVersion for the Root role; an exception rolls back. *)
Definition clean_meta_version (E : Env) (rp : repo) (d : db) : res db :=
  match find (is_row_v rp RRoot (-1)) (d_meta d) with
  | None => Ok d
  | Some r =>
      do meta <- blob_to_string (w_data r);
      do version <- extract_version_untrusted E meta;
      if version <? 0 then Ok d
      else let rows := filter (fun x => negb (is_row_v rp RRoot version x)) (d_meta d) in
           Ok {| d_meta := map (fun x => if is_row_v rp RRoot (-1) x then with_version version x else x) rows; d_deleg := d_deleg d |}
  end.

(** sqlstorage.cc:64-75 the constructor; [killed]: after the Director's part. *)
Definition open_storage (E : Env) (killed : bool) (d : db) : db :=
  match clean_meta_version E Director d with
  | Throw _ => d
  | Ok d1 => if killed then d1 else match clean_meta_version E Image d1 with Throw _ => d1 | Ok d2 => d2 end
  end.
