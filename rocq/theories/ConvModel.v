(** Start of the storage: conversion of the old storage in files, /repo/src/libaktualizr/storage/invstorage.cc:146-264 (newStorage, FSSToSQLS),
    266-300 (fsReadInstalledVersions), fsstorage_read.cc (all but splitNameRoleVersion and the readers of single credentials, which are
    inlined), sqlstorage.cc:74-83, 303-328, 733-742, 780-800; and the import of credentials, invstorage.cc:24-144.
    Simplifications: misconfigured_ecus is left out; the names of versioned Root files are canonical ("3.root.json"); reading a file
    does not fail; writes of the database succeed, except that registration needs a row of device_info; all metadata files of one
    repository are removed in one step; permissions are given. *)
From Verif Require Import Base Json TufModel MetaStore RepoModel CodecModel InstModel.

(** The old files: keys, TLS credentials, device_id, is_registered, primary_ecu_serial, primary_ecu_hardware_id, the lines of
    secondaries_list, the text of installed_versions, the unversioned metadata files (root.json, targets.json, ...) and the Roots with a
    version in their name. *)
Record files := {
  o_pub : option string; o_priv : option string; o_ca : option string; o_cert : option string; o_pkey : option string;
  o_dev : option string; o_reg : bool; o_serial : option string; o_hw : option string; o_secs : option (list string);
  o_vers : option string; o_meta : repo -> rkind -> option string; o_roots : repo -> Z -> option string;
  o_rootnums : repo -> list Z  (* the numbers for which there is a file, in the order of the directory *) }.
(** The database, as far as it matters here. device_info: id and registration flag. *)
Record sql := {
  q_keys : option (string * string); q_ca : option string; q_cert : option string; q_pkey : option string;
  q_dev : option (string * bool); q_inst : idb; q_meta : db }.
Definition sql_empty : sql :=
  {| q_keys := None; q_ca := None; q_cert := None; q_pkey := None; q_dev := None; q_inst := {| il_ecus := []; il_log := [] |}; q_meta := db_empty |}.
Record disk := { k_sql : option sql; k_fs : files }.

(** One write of the database. *)
Inductive wr :=
| WKeys (pub priv : string) | WCa (x : string) | WCert (x : string) | WPkey (x : string) | WDev (x : string)
| WEcus (l : list (string * string)) | WReg | WVersion (t : target) (m : imode)
| WNonRoot (raw : string) (rp : repo) (ty : rkind) | WRoot (raw : string) (rp : repo) (v : Z).
Definition set_creds (k : option (string * string)) (a b c : option string) (q : sql) : sql :=
  {| q_keys := k; q_ca := a; q_cert := b; q_pkey := c; q_dev := q_dev q; q_inst := q_inst q; q_meta := q_meta q |}.
Definition set_dev (d : option (string * bool)) (q : sql) : sql :=
  {| q_keys := q_keys q; q_ca := q_ca q; q_cert := q_cert q; q_pkey := q_pkey q; q_dev := d; q_inst := q_inst q; q_meta := q_meta q |}.
Definition set_inst (i : idb) (q : sql) : sql :=
  {| q_keys := q_keys q; q_ca := q_ca q; q_cert := q_cert q; q_pkey := q_pkey q; q_dev := q_dev q; q_inst := i; q_meta := q_meta q |}.
Definition set_meta (m : db) (q : sql) : sql :=
  {| q_keys := q_keys q; q_ca := q_ca q; q_cert := q_cert q; q_pkey := q_pkey q; q_dev := q_dev q; q_inst := q_inst q; q_meta := m |}.

Section Conv.
Context (E : Env) (savec : json -> string) (loadc : string -> option json) (host : string).  (* host: Utils::getHostname *)

(** None: storeEcuRegistered throws, sqlstorage.cc:789-791. *)
Definition write (w : wr) (q : sql) : option sql :=
  match w with
  | WKeys a b => Some (set_creds (Some (a, b)) (q_ca q) (q_cert q) (q_pkey q) q)
  | WCa x => Some (set_creds (q_keys q) (Some x) (q_cert q) (q_pkey q) q)
  | WCert x => Some (set_creds (q_keys q) (q_ca q) (Some x) (q_pkey q) q)
  | WPkey x => Some (set_creds (q_keys q) (q_ca q) (q_cert q) (Some x) q)
  | WDev x => Some (set_dev (Some (x, false)) q)
  | WEcus l => Some (set_inst (store_ecu_serials l (q_inst q)) q)
  | WReg => match q_dev q with Some (x, _) => Some (set_dev (Some (x, true)) q) | None => None end
  | WVersion t m => Some (set_inst (save_installed savec "" t m (q_inst q)) q)
  | WNonRoot raw rp ty => Some (set_meta (store_nonroot raw rp ty (q_meta q)) q)
  | WRoot raw rp v => Some (set_meta (store_root raw rp v (q_meta q)) q)
  end.

(** ** Reading the old files *)
(** fsstorage_read.cc:271-296 findMaxVersion *)
Definition max_version (l : list Z) : Z := fold_left (fun m v => if m <? v then v else m) l (-1).
(** fsstorage_read.cc:104-139 loadRoot: for a negative version the Director's latest, for both repositories. *)
Definition fs_load_root (fs : files) (rp : repo) (v : Z) : option string :=
  let v := if v <? 0 then max_version (o_rootnums fs Director) else v in
  if v <? 0 then None else o_roots fs rp v.

(** std::string::find('\t'), substr(0, tab), substr(tab + 1): without a tab both are the whole line. *)
Fixpoint cut_tab (s : string) : option (string * string) :=
  match s with
  | EmptyString => None
  | String c s' => if Ascii.eqb c "009" then Some (EmptyString, s')
                   else match cut_tab s' with Some (a, b) => Some (String c a, b) | None => None end
  end.
Definition ecu_line (s : string) : string * string := match cut_tab s with Some p => p | None => (s, s) end.
Definition ecu_pair (p : string * string) : res (string * string) := do a <- ecu_serial (fst p); do b <- hw_id (snd p); Ok (a, b).
Fixpoint ecu_pairs (l : list (string * string)) : res (list (string * string)) :=
  match l with [] => Ok [] | p :: l' => do x <- ecu_pair p; do k <- ecu_pairs l'; Ok (x :: k) end.
(** fsstorage_read.cc:179-223 loadEcuSerials (the constructors of serial and hardware id throw on a wrong length). *)
Definition fs_serials (fs : files) : res (option (list (string * string))) :=
  match o_serial fs with
  | None => Ok None
  | Some s =>
      let hw := match o_hw fs with Some h => h | None => host end in
      let secs := match o_secs fs with Some l => map ecu_line l | None => [] end in
      do l <- ecu_pairs ((s, hw) :: secs); Ok (Some l)
  end.

(** invstorage.cc:266-300 fsReadInstalledVersions: the targets and the index of the current one; nothing after an exception (the
    caller then sees an empty list). [k]: index of the next entry. *)
Fixpoint read_versions (k : nat) (cur : option nat) (l : list (string * json)) : res (list target * option nat) :=
  match l with
  | [] => Ok ([], cur)
  | (key, j) :: l' =>
      if negb (jis_object j) then
        do name <- jas_string j;
        do t <- target_of_json name (JObj [("hashes", JObj [("sha256", JStr key)])]);
        do r <- read_versions (S k) (Some k) l'; Ok (t :: fst r, snd r)
      else
        do cj <- jget "is_current" j; do c <- jas_bool cj;
        do t <- target_of_json key j;
        do r <- read_versions (S k) (if c then Some k else cur) l'; Ok (t :: fst r, snd r)
  end.
Definition fs_versions (text : option string) : list target * option nat :=
  match text with
  | None => ([], None)
  | Some s => match read_versions 0 None (jiter (parse E s)) with Ok r => r | Throw _ => ([], None) end
  end.
Fixpoint version_writes (k : nat) (cur : option nat) (l : list target) : list wr :=
  match l with
  | [] => []
  | t :: l' => WVersion t (match cur with Some c => if Nat.eqb k c then ModeCurrent else ModeNone | None => ModeNone end) :: version_writes (S k) cur l'
  end.

(** ** invstorage.cc:183-264 FSSToSQLS as a list of writes, and whether it comes to its end (before the clean-up). *)
Definition opt_write (o : option string) (f : string -> wr) : list wr := match o with Some x => [f x] | None => [] end.
Definition nonroot_writes (fs : files) : list wr :=
  flat_map (fun ty => flat_map (fun rp => opt_write (o_meta fs rp ty) (fun raw => WNonRoot raw rp ty)) [Director; Image]) [RSnapshot; RTargets; RTimestamp].
Definition root_writes (fs : files) (rp : repo) (latest : Z) : list wr :=
  flat_map (fun n => opt_write (fs_load_root fs rp (Z.of_nat n)) (fun raw => WRoot raw rp (Z.of_nat n))) (seq 0 (Z.to_nat (latest + 1))).
Definition writes (fs : files) : list wr * bool :=
  let creds :=
    match o_pub fs, o_priv fs with Some a, Some b => [WKeys a b] | _, _ => [] end ++
    opt_write (o_ca fs) WCa ++ opt_write (o_cert fs) WCert ++ opt_write (o_pkey fs) WPkey ++ opt_write (o_dev fs) WDev in
  match fs_serials fs with
  | Throw _ => (creds, false)
  | Ok sers =>
      let w1 := creds ++ match sers with Some l => [WEcus l] | None => [] end ++ (if o_reg fs then [WReg] else []) ++
                (let (ts, cur) := fs_versions (o_vers fs) in version_writes 0 cur ts) ++ nonroot_writes fs in
      match fs_load_root fs Director (-1) with
      | None => (w1, true)
      | Some latest =>
          match extract_version_untrusted E latest with
          | Throw _ => (w1, false)
          | Ok v => (w1 ++ root_writes fs Director v ++ root_writes fs Image v, true)
          end
      end
  end.

(** ** The durable steps of newStorage *)
Inductive fname := NPub | NPriv | NCa | NCert | NPkey | NDev | NSerial | NHw | NSecs | NReg | NVers | NMeta (rp : repo).
Inductive dstep := DCreate | DDropRoot (rp : repo) | DWriteRoot (rp : repo) (v : Z) (raw : string) | DPut (w : wr) | DDel (n : fname).

Definition upd_meta (rp : repo) (ty : rkind) (x : option string) (f : repo -> rkind -> option string) : repo -> rkind -> option string :=
  fun rp' ty' => if repo_eqb rp' rp && rkind_eqb ty' ty then x else f rp' ty'.
Definition fs_meta (m : repo -> rkind -> option string) (r : repo -> Z -> option string) (n : repo -> list Z) (fs : files) : files :=
  {| o_pub := o_pub fs; o_priv := o_priv fs; o_ca := o_ca fs; o_cert := o_cert fs; o_pkey := o_pkey fs; o_dev := o_dev fs; o_reg := o_reg fs;
     o_serial := o_serial fs; o_hw := o_hw fs; o_secs := o_secs fs; o_vers := o_vers fs; o_meta := m; o_roots := r; o_rootnums := n |}.
Definition fs_drop (rp : repo) (fs : files) : files := fs_meta (upd_meta rp RRoot None (o_meta fs)) (o_roots fs) (o_rootnums fs) fs.
Definition fs_put (rp : repo) (v : Z) (raw : string) (fs : files) : files :=
  fs_meta (o_meta fs) (fun rp' v' => if repo_eqb rp' rp && (v' =? v) then Some raw else o_roots fs rp' v')
    (fun rp' => if repo_eqb rp' rp then if existsb (Z.eqb v) (o_rootnums fs rp) then o_rootnums fs rp else o_rootnums fs rp ++ [v] else o_rootnums fs rp') fs.
Definition del (n : fname) (fs : files) : files :=
  let keep m (x : option string) := match n, m with
    | NPub, NPub | NPriv, NPriv | NCa, NCa | NCert, NCert | NPkey, NPkey | NDev, NDev | NSerial, NSerial | NHw, NHw | NVers, NVers => None
    | _, _ => x end in
  {| o_pub := keep NPub (o_pub fs); o_priv := keep NPriv (o_priv fs); o_ca := keep NCa (o_ca fs); o_cert := keep NCert (o_cert fs);
     o_pkey := keep NPkey (o_pkey fs); o_dev := keep NDev (o_dev fs); o_reg := match n with NReg => false | _ => o_reg fs end;
     o_serial := keep NSerial (o_serial fs); o_hw := keep NHw (o_hw fs); o_secs := match n with NSecs => None | _ => o_secs fs end;
     o_vers := keep NVers (o_vers fs);
     o_meta := fun rp ty => match n with NMeta rp' => if repo_eqb rp rp' then None else o_meta fs rp ty | _ => o_meta fs rp ty end;
     o_roots := fun rp v => match n with NMeta rp' => if repo_eqb rp rp' then None else o_roots fs rp v | _ => o_roots fs rp v end;
     o_rootnums := fun rp => match n with NMeta rp' => if repo_eqb rp rp' then [] else o_rootnums fs rp | _ => o_rootnums fs rp end |}.

(** fsstorage_read.cc:17-38, the constructor: an unversioned Root gets its version into its name. *)
Definition rename_steps (fs : files) (rp : repo) : res (list dstep) :=
  match o_meta fs rp RRoot with
  | None => Ok []
  | Some raw => do v <- extract_version_untrusted E raw;
                Ok (DDropRoot rp :: if 0 <=? v then [DWriteRoot rp v raw] else [])
  end.
Definition do_files (x : dstep) (fs : files) : files :=
  match x with
  | DDropRoot rp => fs_drop rp fs
  | DWriteRoot rp v raw => fs_put rp v raw fs
  | DDel n => del n fs
  | _ => fs
  end.
(** fsstorage_read.cc:384-398 cleanUpAll *)
Definition cleanup : list dstep :=
  map DDel [NPub; NPriv; NCa; NCert; NPkey; NDev; NSerial; NHw; NSecs; NReg; NVers; NMeta Image; NMeta Director].
(** All steps of a conversion, and whether it ends without an exception known beforehand. *)
Definition plan (fs : files) : list dstep * bool :=
  match rename_steps fs Director with
  | Throw _ => ([DCreate], false)
  | Ok r1 =>
      match rename_steps fs Image with
      | Throw _ => (DCreate :: r1, false)
      | Ok r2 =>
          let fs1 := fold_left (fun f x => do_files x f) (r1 ++ r2) fs in
          let (w, ok) := writes fs1 in
          (DCreate :: r1 ++ r2 ++ map DPut w ++ (if ok then cleanup else []), ok)
      end
  end.
(** None: an exception. *)
Definition do_step (x : dstep) (d : disk) : option disk :=
  match x with
  | DCreate => Some {| k_sql := Some sql_empty; k_fs := k_fs d |}
  | DPut w => match k_sql d with
              | Some q => match write w q with Some q' => Some {| k_sql := Some q'; k_fs := k_fs d |} | None => None end
              | None => None
              end
  | _ => Some {| k_sql := k_sql d; k_fs := do_files x (k_fs d) |}
  end.
Fixpoint exec (l : list dstep) (d : disk) : disk * bool :=
  match l with
  | [] => (d, true)
  | x :: l' => match do_step x d with Some d' => exec l' d' | None => (d, false) end
  end.
(** invstorage.cc:146-181 newStorage. [crash]: the number of durable steps after which the process is killed. *)
Inductive sout := Opened | Failed | Killed.
Definition new_storage (crash : option nat) (d : disk) : disk * sout :=
  match k_sql d with
  | Some _ => (d, match crash with Some O => Killed | _ => Opened end)
  | None =>
      let (steps, ok) := if o_reg (k_fs d) then plan (k_fs d) else ([DCreate], true) in
      match crash with
      | None => let (d', b) := exec steps d in (d', if b && ok then Opened else Failed)
      | Some n => let (d', b) := exec (firstn n steps) d in (d', if b then Killed else Failed)
      end
  end.

(** ** Import of credentials, invstorage.cc:24-144 *)
(** A file to import from: the path is not configured, or there is no such file, or its text. *)
Inductive src := NoPath | NoFile | Text (s : string).
Definition src_read (f : src) : string := match f with Text s => s | _ => "" end.   (* Utils::readFile gives "" if it cannot open *)
Context (cn : string -> res string).   (* Crypto::extractSubjectCN *)
Definition differs (a b : string) : bool := negb (String.eqb (sha256hex E a) (sha256hex E b)).
(** 24-50, 57-72: does a store follow, and of what? *)
Definition import_text (prev : option string) (f : src) : option string :=
  let update := match prev with None => true | Some p => match f with NoPath => false | _ => differs (src_read f) p end end in
  match f with Text s => if update then Some s else None | _ => None end.
(** 92-116; 53-90; 24-51; 118-133. None: nothing to write; an exception ends the import. *)
Definition import_keys (pub priv : src) (q : sql) : res (option wr) :=
  Ok (match q_keys q, pub, priv with None, Text a, Text b => Some (WKeys a b) | _, _, _ => None end).
Definition import_cert (f : src) (q : sql) : res (option wr) :=
  match import_text (q_cert q) f with None => Ok None | Some s => do_ cn s; Ok (Some (WCert s)) end.
Definition import_ca (f : src) (q : sql) : res (option wr) := Ok (match import_text (q_ca q) f with Some s => Some (WCa s) | None => None end).
Definition import_pkey (f : src) (q : sql) : res (option wr) := Ok (match import_text (q_pkey q) f with Some s => Some (WPkey s) | None => None end).
Definition import_versions (f : src) (q : sql) : res (option wr) :=
  do l <- load_log loadc "" false (q_inst q);
  match l with
  | _ :: _ => Ok None
  | [] => let (ts, cur) := fs_versions (match f with Text s => Some s | _ => None end) in
          Ok (match cur with Some k => match nth_error ts k with Some t => Some (WVersion t ModeCurrent) | None => None end | None => None end)
  end.
Record imports := { m_pub : src; m_priv : src; m_cert : src; m_ca : src; m_pkey : src; m_vers : src }.
Definition import_steps (m : imports) : list (sql -> res (option wr)) :=
  [import_keys (m_pub m) (m_priv m); import_cert (m_cert m); import_ca (m_ca m); import_pkey (m_pkey m); import_versions (m_vers m)].
Fixpoint import_run (l : list (sql -> res (option wr))) (q : sql) : sql * bool :=
  match l with
  | [] => (q, true)
  | f :: l' => match f q with
               | Throw _ => (q, false)
               | Ok None => import_run l' q
               | Ok (Some w) => match write w q with Some q' => import_run l' q' | None => (q, false) end
               end
  end.
(** 135-144 importData, killed before step [n] of five or not at all ([n] >= 5). The file installed_versions that the import
    removes is kept here: once versions are recorded it is not read again. *)
Definition import_data (n : nat) (m : imports) (q : sql) : sql * bool := import_run (firstn n (import_steps m)) q.
End Conv.
