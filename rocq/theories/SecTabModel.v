(** What the Primary stores about its Secondaries: tables ecus and secondary_ecus.
    /repo/src/libaktualizr/storage/sqlstorage.cc:150-184 (saveSecondaryInfo), 186-210 (saveSecondaryData), 212-253 (loadSecondaryInfo), 255-295 (loadSecondariesInfo),
    873-918 (storeEcuSerials), 951-967 (clearEcuSerials), 969-1004 (storeCachedEcuManifest, loadCachedEcuManifest);
    primary/aktualizr.cc:107-116 (SetSecondaryData, GetSecondaries); include/libaktualizr/types.h:45-99 (KeyType and its text); crypto/crypto.cc:64-70 (PublicKey);
    config/sql/schema.sql:4-5.
    Simplifications: SQLite does what it is asked except where a constraint or a count forbids it; texts come back as stored; the change of installed_versions in
    storeEcuSerials is in InstModel.v. *)
From Verif Require Import Base TufModel.

(** A row of secondary_ecus, by column (schema.sql:5). *)
Record srow := { sr_type : option string; sr_kt : option string; sr_key : option string; sr_extra : option string; sr_manifest : option string }.
(** ecus: serial and hardware id ordered by id, the first is the Primary; secondary_ecus: by serial (the primary key). *)
Record stab := { t_ecus : list (string * string); t_rows : list (string * srow) }.
(** PublicKey: value and type. *)
Definition pkey := (string * keytype)%type.
(** types.h SecondaryInfo *)
Record sinfo := { i_serial : string; i_hw : string; i_type : string; i_key : pkey; i_extra : string }.

(** types.h:56-77 with the quotes removed (sqlstorage.cc:154-158). *)
Definition kt_text (k : keytype) : string :=
  match k with KRsa2048 => "RSA2048" | KRsa3072 => "RSA3072" | KRsa4096 => "RSA4096" | KEd25519 => "ED25519" | KUnknown => "unknown" end.
(** types.h:79-99; the texts in the table have no spaces and only [kt_text KUnknown] has lower case letters. *)
Definition kt_of (s : string) : keytype :=
  if String.eqb s "RSA2048" then KRsa2048 else if String.eqb s "RSA3072" then KRsa3072 else if String.eqb s "RSA4096" then KRsa4096
  else if String.eqb s "ED25519" then KEd25519 else KUnknown.
Definition is_rsa (k : keytype) : bool := match k with KRsa2048 | KRsa3072 | KRsa4096 => true | _ => false end.
Definition kt_eqb (a b : keytype) : bool :=
  match a, b with KEd25519, KEd25519 | KRsa2048, KRsa2048 | KRsa3072, KRsa3072 | KRsa4096, KRsa4096 | KUnknown, KUnknown => true | _, _ => false end.
(** crypto.cc:64-70: PublicKey(value, type); [ident]: Crypto::IdentifyRSAKeyType. *)
Definition mk_pkey (ident : string -> keytype) (v : string) (k : keytype) : res pkey :=
  if is_rsa k && negb (kt_eqb k (ident v)) then Throw EStd else Ok (v, k).

Definition empty_row : srow := {| sr_type := None; sr_kt := None; sr_key := None; sr_extra := None; sr_manifest := None |}.
(** sqlstorage.cc:150-184 saveSecondaryInfo *)
Definition save_info (s : string) (ty : string) (k : pkey) (t : stab) : res stab :=
  match aget s (t_rows t) with
  | Some r => Ok {| t_ecus := t_ecus t; t_rows := aset s {| sr_type := Some ty; sr_kt := Some (kt_text (snd k)); sr_key := Some (fst k);
                                                          sr_extra := sr_extra r; sr_manifest := sr_manifest r |} (t_rows t) |}
  | None => if existsb (fun e => String.eqb (fst e) s) (tl (t_ecus t))
            then Ok {| t_ecus := t_ecus t; t_rows := aset s {| sr_type := Some ty; sr_kt := Some (kt_text (snd k)); sr_key := Some (fst k);
                                                             sr_extra := None; sr_manifest := None |} (t_rows t) |}
            else Throw EStd
  end.
(** sqlstorage.cc:186-210 saveSecondaryData, aktualizr.cc:107-109 SetSecondaryData *)
Definition save_extra (s : string) (d : string) (t : stab) : stab :=
  let r := match aget s (t_rows t) with Some r => r | None => empty_row end in
  {| t_ecus := t_ecus t; t_rows := aset s {| sr_type := sr_type r; sr_kt := sr_kt r; sr_key := sr_key r; sr_extra := Some d; sr_manifest := sr_manifest r |} (t_rows t) |}.
(** sqlstorage.cc:969-978 storeCachedEcuManifest; without a row it only logs. *)
Definition save_manifest (s : string) (m : string) (t : stab) : stab :=
  match aget s (t_rows t) with
  | Some r => {| t_ecus := t_ecus t; t_rows := aset s {| sr_type := sr_type r; sr_kt := sr_kt r; sr_key := sr_key r; sr_extra := sr_extra r; sr_manifest := Some m |} (t_rows t) |}
  | None => t
  end.
(** sqlstorage.cc:873-918 storeEcuSerials: nothing for an empty list; a serial that occurs twice violates UNIQUE: rolled back. *)
Fixpoint nodup_str (l : list string) : bool := match l with [] => true | x :: l' => negb (mem_str x l') && nodup_str l' end.
Definition store_ecus (l : list (string * string)) (t : stab) : stab :=
  match l with
  | [] => t
  | _ => if nodup_str (map fst l) then {| t_ecus := l; t_rows := t_rows t |} else t
  end.
(** sqlstorage.cc:951-967 clearEcuSerials *)
Definition clear_ecus (t : stab) : stab := {| t_ecus := []; t_rows := [] |}.

Definition value_or (o : option string) : string := match o with Some s => s | None => "" end.
(** One row of the LEFT JOIN (224-246, 267-283). *)
Definition info_of (ident : string -> keytype) (e : string * string) (o : option srow) : res sinfo :=
  let r := match o with Some r => r | None => empty_row end in
  do k <- (if String.eqb (value_or (sr_kt r)) "" then Ok ("", KUnknown) else mk_pkey ident (value_or (sr_key r)) (kt_of (value_or (sr_kt r))));
  Ok {| i_serial := fst e; i_hw := snd e; i_type := value_or (sr_type r); i_key := k; i_extra := value_or (sr_extra r) |}.
Fixpoint infos_of (ident : string -> keytype) (rows : list (string * srow)) (l : list (string * string)) : res (list sinfo) :=
  match l with
  | [] => Ok []
  | e :: l' => do i <- info_of ident e (aget (fst e) rows); do is <- infos_of ident rows l'; Ok (i :: is)
  end.
(** sqlstorage.cc:255-295 loadSecondariesInfo, aktualizr.cc:111-116 GetSecondaries *)
Definition get_secondaries (ident : string -> keytype) (t : stab) : res (list sinfo) := infos_of ident (t_rows t) (tl (t_ecus t)).
(** sqlstorage.cc:212-253 loadSecondaryInfo; Ok None: false. *)
Definition load_info (ident : string -> keytype) (s : string) (t : stab) : res (option sinfo) :=
  match find (fun e => String.eqb (fst e) s) (tl (t_ecus t)) with
  | None => Ok None
  | Some e => do i <- info_of ident e (aget s (t_rows t)); Ok (Some i)
  end.
(** sqlstorage.cc:980-1004 loadCachedEcuManifest; None: false. *)
Definition load_manifest (s : string) (t : stab) : option string :=
  match aget s (t_rows t) with
  | None => None
  | Some r => if String.eqb (value_or (sr_manifest r)) "" then None else Some (value_or (sr_manifest r))
  end.

(** A call that writes. *)
Inductive swrite := WEcus (l : list (string * string)) | WInfo (s ty : string) (k : pkey) | WData (s d : string) | WManifest (s m : string) | WClear.
(** The table after it, and whether it returned (false: an exception). *)
Definition swrite_run (w : swrite) (t : stab) : stab * bool :=
  match w with
  | WEcus l => (store_ecus l t, true)
  | WInfo s ty k => match save_info s ty k t with Ok t' => (t', true) | Throw _ => (t, false) end
  | WData s d => (save_extra s d t, true)
  | WManifest s m => (save_manifest s m t, true)
  | WClear => (clear_ecus t, true)
  end.
