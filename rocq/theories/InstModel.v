(** The log of installed versions: /repo/src/libaktualizr/storage/sqlstorage.cc:873-965, 1057-1384 over the tables
    installed_versions and ecus (config/sql/schema.sql:4, 7).
    Simplifications: SQL statements do not fail; texts contain no NUL character (sqlite3_bind_text stops there). Every
    operation is one transaction, so a crash leaves either the old or the new table. *)
From Verif Require Import Base Json TufModel CodecModel.

(** A row of installed_versions; [i_id] is the INTEGER PRIMARY KEY. *)
Record irow := {
  i_id : Z; i_ecu : string; i_sha : string; i_name : string; i_hashes : string; i_len : Z; i_corr : string;
  i_cur : bool; i_pend : bool; i_was : bool; i_custom : string }.
(** [il_ecus]: table ecus in id order, (serial, hardware id); the first one is the Primary. *)
Record idb := { il_ecus : list (string * string); il_log : list irow }.

(** InstalledVersionUpdateMode, invstorage.h:30 *)
Inductive imode := ModeNone | ModeCurrent | ModePending.

(** sqlstorage.cc:1065-1074, 1154-1163: an empty serial means the Primary, if there is one. *)
Definition real_serial (d : idb) (serial : string) : string :=
  if String.eqb serial "" then match il_ecus d with (p, _) :: _ => p | [] => "" end else serial.

(** SELECT ... WHERE ecu_serial = ? ORDER BY id DESC LIMIT 1. *)
Fixpoint last_row (serial : string) (l : list irow) : option irow :=
  match l with
  | [] => None
  | r :: l' => match last_row serial l' with
               | Some x => if String.eqb (i_ecu r) serial && (i_id x <? i_id r) then Some r else Some x
               | None => if String.eqb (i_ecu r) serial then Some r else None
               end
  end.
(** The key of an INSERT: one more than the largest, 1 in an empty table. *)
Definition next_id (l : list irow) : Z := fold_right (fun r m => Z.max (i_id r) m) 0 l + 1.

Definition set_flags (c p : bool) (r : irow) : irow :=
  {| i_id := i_id r; i_ecu := i_ecu r; i_sha := i_sha r; i_name := i_name r; i_hashes := i_hashes r; i_len := i_len r;
     i_corr := i_corr r; i_cur := c; i_pend := p; i_was := i_was r; i_custom := i_custom r |}.
(** sqlstorage.cc:1101-1118: the UPDATE that resets flags of the ECU. *)
Definition reset_flags (m : imode) (serial : string) (r : irow) : irow :=
  if String.eqb (i_ecu r) serial then
    match m with
    | ModeCurrent => set_flags false false r
    | ModePending => set_flags (i_cur r) false r
    | ModeNone => r
    end
  else r.
Definition is_cur (m : imode) : bool := match m with ModeCurrent => true | _ => false end.
Definition is_pend (m : imode) : bool := match m with ModePending => true | _ => false end.
(** sqlstorage.cc:1120-1132: the UPDATE of the matching last row. *)
Definition update_row (m : imode) (t : target) (old : irow) (r : irow) : irow :=
  if i_id r =? i_id old then
    {| i_id := i_id r; i_ecu := i_ecu r; i_sha := i_sha r; i_name := i_name r; i_hashes := i_hashes r; i_len := i_len r;
       i_corr := t_corr t; i_cur := is_cur m; i_pend := is_pend m; i_was := is_cur m || i_was old; i_custom := i_custom r |}
  else r.
Section Custom.
(** [savec] is Utils::jsonToCanonicalStr, [loadc] Json::parseFromStream (None: it returned false). *)
Context (savec : json -> string) (loadc : string -> option json).
(** sqlstorage.cc:1134-1146: the INSERT. The length is cast to int64_t. *)
Definition to_int64 (z : Z) : Z := if z <? 9223372036854775808 then z else z - 18446744073709551616.
Definition new_row (m : imode) (t : target) (serial : string) (id : Z) : irow :=
  {| i_id := id; i_ecu := serial; i_sha := sha256_hash t; i_name := t_filename t; i_hashes := encode_vector (t_hashes t);
     i_len := to_int64 (t_length t); i_corr := t_corr t; i_cur := is_cur m; i_pend := is_pend m; i_was := is_cur m;
     i_custom := savec (t_custom t) |}.
(** sqlstorage.cc:1085-1098: does the last row describe the same version? *)
Definition same_version (t : target) (r : irow) : bool := String.eqb (i_sha r) (sha256_hash t) && String.eqb (i_name r) (t_filename t).
(** sqlstorage.cc:1057-1148 saveInstalledVersion. *)
Definition save_installed (serial0 : string) (t : target) (m : imode) (d : idb) : idb :=
  let serial := real_serial d serial0 in
  let old := match last_row serial (il_log d) with Some r => if same_version t r then Some r else None | None => None end in
  let l := map (reset_flags m serial) (il_log d) in
  {| il_ecus := il_ecus d;
     il_log := match old with
               | Some r => map (update_row m t r) l
               | None => l ++ [new_row m t serial (next_id l)]
               end |}.

(** sqlstorage.cc:1150-1175 loadEcuMap. Serial and hardware id come from the table, whose entries were checked when stored. *)
Definition ecu_map (d : idb) (serial : string) : list (string * string) :=
  if String.eqb serial "" then [] else match aget serial (il_ecus d) with Some hw => [(serial, hw)] | None => [] end.
(** sqlstorage.cc:1264-1296 read_target; updateCustom may throw. *)
Definition read_target (d : idb) (serial : string) (r : irow) : res target :=
  let hs := decode_vector (i_hashes r) in
  let hs' := if existsb (fun h => htype_eqb (h_type h) Sha256) hs then hs else hs ++ [mk_hash_t Sha256 (i_sha r)] in
  let t := target_internal (i_name r) (ecu_map d serial) hs' (i_len r mod 18446744073709551616) (i_corr r) in
  if String.eqb (i_custom r) "" then Ok t
  else match loadc (i_custom r) with Some c => update_custom t c | None => Ok t end.
Definition read_opt (d : idb) (serial : string) (o : option irow) : res (option target) :=
  match o with None => Ok None | Some r => do t <- read_target d serial r; Ok (Some t) end.
(** sqlstorage.cc:1298-1338: SELECT ... LIMIT 1, in rowid order. *)
Definition cur_row (serial : string) (l : list irow) : option irow := find (fun r => String.eqb (i_ecu r) serial && i_cur r) l.
Definition pend_row (serial : string) (l : list irow) : option irow := find (fun r => String.eqb (i_ecu r) serial && i_pend r) l.
(** sqlstorage.cc:1256-1341 loadInstalledVersions (both versions asked for): the columns are NOT NULL, so it returns true. *)
Definition load_installed (serial0 : string) (d : idb) : res (option target * option target) :=
  let serial := real_serial d serial0 in
  do c <- read_opt d serial (cur_row serial (il_log d));
  do p <- read_opt d serial (pend_row serial (il_log d));
  Ok (c, p).
(** sqlstorage.cc:1338-1348 hasPendingInstall. *)
Definition has_pending (d : idb) : bool := existsb i_pend (il_log d).
(** sqlstorage.cc:1350-1375 getPendingEcus (EcuSerial throws for an empty serial). *)
Fixpoint pending_ecus (l : list irow) : res (list (string * hash)) :=
  match l with
  | [] => Ok []
  | r :: l' => if i_pend r then do e <- ecu_serial (i_ecu r); do k <- pending_ecus l'; Ok ((e, mk_hash_t Sha256 (i_sha r)) :: k)
               else pending_ecus l'
  end.
(** sqlstorage.cc:1177-1254 loadInstallationLog. *)
Fixpoint read_log (d : idb) (serial : string) (only : bool) (l : list irow) : res (list target) :=
  match l with
  | [] => Ok []
  | r :: l' => if String.eqb (i_ecu r) serial && (negb only || i_was r)
               then do t <- read_target d serial r; do k <- read_log d serial only l'; Ok (t :: k)
               else read_log d serial only l'
  end.
Definition load_log (serial0 : string) (only : bool) (d : idb) : res (list target) :=
  let serial := real_serial d serial0 in read_log d serial only (il_log d).

(** sqlstorage.cc:873-918 storeEcuSerials: replaces the table (a repeated serial violates UNIQUE: the transaction is rolled
    back) and hands the versions recorded under the empty serial to the Primary. *)
Definition rekey (p : string) (r : irow) : irow :=
  if String.eqb (i_ecu r) "" then
    {| i_id := i_id r; i_ecu := p; i_sha := i_sha r; i_name := i_name r; i_hashes := i_hashes r; i_len := i_len r;
       i_corr := i_corr r; i_cur := i_cur r; i_pend := i_pend r; i_was := i_was r; i_custom := i_custom r |}
  else r.
Fixpoint nodupb (l : list string) : bool := match l with [] => true | x :: l' => negb (mem_str x l') && nodupb l' end.
Definition store_ecu_serials (l : list (string * string)) (d : idb) : idb :=
  match l with
  | [] => d
  | (p, _) :: _ => if nodupb (map fst l) then {| il_ecus := l; il_log := map (rekey p) (il_log d) |} else d
  end.
(** sqlstorage.cc:951-967 clearEcuSerials, 1380-1387 clearInstalledVersions. *)
Definition clear_ecu_serials (d : idb) : idb := {| il_ecus := []; il_log := il_log d |}.
Definition clear_installed (d : idb) : idb := {| il_ecus := il_ecus d; il_log := [] |}.

Inductive iop := OpSave (serial : string) (t : target) (m : imode) | OpStoreEcus (l : list (string * string)) | OpClearEcus | OpClearLog.
Definition istep (d : idb) (o : iop) : idb :=
  match o with
  | OpSave s t m => save_installed s t m d
  | OpStoreEcus l => store_ecu_serials l d
  | OpClearEcus => clear_ecu_serials d
  | OpClearLog => clear_installed d
  end.
Definition irun (d : idb) (ops : list iop) : idb := fold_left istep ops d.
Definition idb_empty : idb := {| il_ecus := []; il_log := [] |}.
End Custom.
