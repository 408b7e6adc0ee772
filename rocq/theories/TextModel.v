(** Texts in the database, and the table of the files of targets.
    /repo/src/libaktualizr/storage/sql_utils.h:63-69 (get_result_col_str), 88-96 (bindArgument of a text), sqlstorage.cc:1677-1733 (storeTargetFilename,
    getTargetFilename, getAllTargetNames, deleteTargetInfo).
    Simplifications: SQL does not fail; SQLite keeps the bytes of a text. *)
From Verif Require Import Base.

(** A C string: up to the first NUL.  sqlite3_bind_text with length -1 of c_str(), and std::string(const char* ). *)
Fixpoint c_str (s : string) : string :=
  match s with EmptyString => EmptyString | String c s' => if Ascii.eqb c (ascii_of_nat 0) then EmptyString else String c (c_str s') end.
(** sql_utils.h:88-96 and 63-69 *)
Definition bind_text (s : string) : string := c_str s.
Definition col_str (s : string) : string := c_str s.

(** target_images: targetname is the primary key; in order of insertion. *)
Definition images := list (string * string).
Definition del_name (n : string) (t : images) : images := filter (fun r => negb (String.eqb (fst r) (bind_text n))) t.
(** 1677-1686: INSERT OR REPLACE *)
Definition store_name (n f : string) (t : images) : images := del_name n t ++ [(bind_text n, bind_text f)].
(** 1688-1702; no row: the empty text. *)
Definition get_name (n : string) (t : images) : string := match aget (bind_text n) t with Some f => col_str f | None => "" end.
(** 1704-1721 *)
Definition all_names (t : images) : list string := map (fun r => col_str (fst r)) t.
