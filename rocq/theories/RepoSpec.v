(** What a chain of trusted roots is, and what can be observed of the stored roots. *)
From Verif Require Import Base Json TufModel TufSpec MetaStore RepoModel.

(** Document [raw] is a root [R] that is signed to its own threshold. *)
Definition self_signed_root (E : Env) (raw : string) (R : root) : Prop :=
  root_of_json E (parse E raw) = Ok R /\ acceptable E (rt_ks R) role_root (parse E raw).

(** Document [raw] is a root [R'] that may directly follow the trusted root [R]. *)
Definition next_root (E : Env) (R : root) (raw : string) (R' : root) : Prop :=
  root_of_json E (parse E raw) = Ok R' /\
  acceptable E (rt_ks R) role_root (parse E raw) /\
  acceptable E (rt_ks R') role_root (parse E raw) /\
  rt_version R' = rt_version R + 1.

(** [root_chain E R l R']: the documents [l] (with their version numbers, oldest first) lead from [R] to [R']. *)
Inductive root_chain (E : Env) : root -> list (Z * string) -> root -> Prop :=
| rc_nil R : root_chain E R [] R
| rc_cons R R' R'' raw l :
    next_root E R raw R' -> root_chain E R' l R'' -> root_chain E R ((rt_version R', raw) :: l) R''.

(** The document stored as root version [v] of a repository. *)
Definition stored_root (rp : repo) (v : Z) (d : db) : option string :=
  match find (is_row_v rp RRoot v) (d_meta d) with Some r => Some (w_data r) | None => None end.

Fixpoint zget {A} (v : Z) (l : list (Z * A)) : option A :=
  match l with [] => None | (k, a) :: l' => if v =? k then Some a else zget v l' end.

(** [d'] stores the documents of [l] as root versions in addition to what [d] stores. *)
Definition roots_added (rp : repo) (d d' : db) (l : list (Z * string)) : Prop :=
  forall v, stored_root rp v d' = match zget v l with Some raw => Some raw | None => stored_root rp v d end.

Definition roots_unchanged (rp : repo) (d d' : db) : Prop := forall v, stored_root rp v d' = stored_root rp v d.

(** No Timestamp, Snapshot or Targets metadata of the repository is stored. *)
Definition no_nonroot (rp : repo) (d : db) : Prop :=
  forall r, In r (d_meta d) -> w_repo r = rp -> w_type r = RRoot.

(** A table is well formed if (repo, type, version) is unique (UNIQUE constraint of the schema). *)
Definition row_key (r : row) := (w_repo r, w_type r, w_ver r).
Definition db_wf (d : db) : Prop := NoDup (map row_key (d_meta d)).

(** Server answers are non-empty and contain no NUL byte (they are stored as C strings). *)
Definition nul_free (raw : string) : Prop := raw <> "" /\ cut_nul raw = raw.
Definition clean_server (srv : server) : Prop := forall rp rn v raw, srv rp rn v = Ok raw -> nul_free raw.

(** The operations that touch the metadata tables. *)
Inductive meta_op :=
| OpDirectorUpdate (srv : server) (clk : clock)
| OpImageUpdate (srv : server) (clk : clock)
| OpDirectorOffline (clk : clock)
| OpImageOffline (clk : clock)
| OpDropTargets
| OpStoreDelegation (raw name : string)
| OpDeleteDelegation (name : string).
Definition run_op (E : Env) (o : meta_op) : M unit :=
  match o with
  | OpDirectorUpdate srv clk => director_update E srv clk
  | OpImageUpdate srv clk => image_update E srv clk
  | OpDirectorOffline clk => director_offline E clk
  | OpImageOffline clk => image_offline E clk
  | OpDropTargets => director_drop_targets
  | OpStoreDelegation raw n => write (store_delegation raw n)
  | OpDeleteDelegation n => write (delete_delegation n)
  end.
Definition clean_op (o : meta_op) : Prop :=
  match o with OpDirectorUpdate srv _ | OpImageUpdate srv _ => clean_server srv | _ => True end.

(** [db_step E d d']: some operation started on database [d] (with any content of memory) leaves [d'] when it
    finishes, fails, or is interrupted by a crash after any of its transactions. *)
Definition db_step (E : Env) (d d' : db) : Prop :=
  exists o s s' r, clean_op o /\ u_db s = d /\ u_log s = [] /\ run_op E o s = (s', r) /\ In d' (d :: u_db s' :: u_log s').
Inductive db_history (E : Env) : db -> db -> Prop :=
| dh_refl d : db_history E d d
| dh_step d d' d'' : db_step E d d' -> db_history E d' d'' -> db_history E d d''.

(** The newest root stored for a repository is readable, well formed, and has version [v]. *)
Definition newest_root_version (E : Env) (rp : repo) (d : db) (v : Z) : Prop :=
  exists raw R, load_latest_root rp d = Ok (Some raw) /\ root_of_json E (parse E raw) = Ok R /\ rt_version R = v.

(** The server offers, and the device would accept, a successor of the newest stored root. *)
Definition rotation_offered (E : Env) (srv : server) (rp : repo) (d : db) : Prop :=
  exists raw0 R0 raw1 R1, load_latest_root rp d = Ok (Some raw0) /\ self_signed_root E raw0 R0 /\
    srv rp "root" (rt_version R0 + 1) = Ok raw1 /\ next_root E R0 raw1 R1.

(** The document stored for a non-root role, and the version number it declares. *)
Definition stored_version (E : Env) (rp : repo) (ty : rkind) (d : db) (v : Z) : Prop :=
  exists raw, load_nonroot rp ty d = Ok (Some raw) /\ extract_version_untrusted E raw = Ok v.

(** [t] is the content of Targets document [j]. *)
Definition targets_doc (E : Env) (name : string) (j : json) (t : targets) : Prop :=
  base_init j = Ok (tg_base t) /\ targets_init E (tg_base t) name j = Ok t.
Definition timestamp_doc (j : json) (t : timestamp) : Prop :=
  base_init j = Ok (tm_base t) /\ timestamp_init (tm_base t) j = Ok t.
Definition snapshot_doc (j : json) (t : snapshot) : Prop :=
  base_init j = Ok (sn_base t) /\ snapshot_init (sn_base t) j = Ok t.

(** [t] is authentic Targets metadata under root [R]. *)
Definition authentic_targets (E : Env) (R : root) (t : targets) : Prop :=
  exists raw, acceptable E (rt_ks R) role_targets (parse E raw) /\ targets_doc E "targets" (parse E raw) t.
Definition authentic_timestamp (E : Env) (R : root) (raw : string) (t : timestamp) : Prop :=
  acceptable E (rt_ks R) role_timestamp (parse E raw) /\ timestamp_doc (parse E raw) t.
Definition authentic_snapshot (E : Env) (R : root) (raw : string) (t : snapshot) : Prop :=
  acceptable E (rt_ks R) role_snapshot (parse E raw) /\ snapshot_doc (parse E raw) t.

(** [doc] has the digest [h] (over its canonical form). *)
Definition digest_matches (E : Env) (raw : string) (h : hash) : Prop :=
  match h_type h with
  | Sha256 => h_val h = to_upper (sha256hex E (canon E (parse E raw)))
  | Sha512 => h_val h = to_upper (sha512hex E (canon E (parse E raw)))
  | HUnknown => True
  end.

(** No ECU serial occurs twice in the target list. *)
Definition one_target_per_ecu (t : targets) : Prop :=
  NoDup (flat_map (fun x => map fst (t_ecus x)) (tg_targets t)).

(** The version an update compares the server's document with: that of the stored document, -1 if there is none. *)
Definition local_version (E : Env) (rp : repo) (ty : rkind) (d : db) (v : Z) : Prop :=
  match load_nonroot rp ty d with
  | Ok (Some raw) => extract_version_untrusted E raw = Ok v
  | Ok None => v = -1
  | Throw _ => False
  end.

(** Document [raw] is the Snapshot [sn] that Timestamp [tm] names, under root [R]. *)
Definition snapshot_named (E : Env) (R : root) (tm : timestamp) (raw : string) (sn : snapshot) : Prop :=
  (exists h, In h (tm_hashes tm) /\ h_type h <> HUnknown) /\
  (forall h, In h (tm_hashes tm) -> digest_matches E raw h) /\
  authentic_snapshot E R raw sn /\ b_version (sn_base sn) = tm_snap_version tm.

(** Document [raw] is the Targets [t] that Snapshot [sn] names, under root [R]. *)
Definition targets_named (E : Env) (R : root) (sn : snapshot) (raw : string) (t : targets) : Prop :=
  (forall h, In h (role_hashes sn "targets") -> digest_matches E raw h) /\
  acceptable E (rt_ks R) role_targets (parse E raw) /\ targets_doc E "targets" (parse E raw) t /\
  tg_version t = role_version sn "targets".

(** ** The metadata store as a finite map *)
Record meta_map := { mm_root : repo -> Z -> option string;
                     mm_meta : repo -> rkind -> option string;
                     mm_deleg : string -> option string }.
Definition mm_empty : meta_map := {| mm_root := fun _ _ => None; mm_meta := fun _ _ => None; mm_deleg := fun _ => None |}.
Inductive store_op :=
| SRoot (raw : string) (rp : repo) (v : Z)
| SNonRoot (raw : string) (rp : repo) (ty : rkind)
| SClearNonRoot (rp : repo)
| SClearAll
| SDelegation (raw name : string)
| SDelDelegation (name : string)
| SClearDelegations.
(** What an operation is supposed to do. *)
Definition mm_step (o : store_op) (m : meta_map) : meta_map :=
  match o with
  | SRoot raw rp v => {| mm_root := fun r x => if repo_eqb r rp && (x =? v) then Some raw else mm_root m r x;
                         mm_meta := mm_meta m; mm_deleg := mm_deleg m |}
  | SNonRoot raw rp ty => {| mm_root := mm_root m;
                             mm_meta := fun r t => if repo_eqb r rp && rkind_eqb t ty then Some raw else mm_meta m r t;
                             mm_deleg := mm_deleg m |}
  | SClearNonRoot rp => {| mm_root := mm_root m; mm_meta := fun r t => if repo_eqb r rp then None else mm_meta m r t;
                           mm_deleg := mm_deleg m |}
  | SClearAll => {| mm_root := fun _ _ => None; mm_meta := fun _ _ => None; mm_deleg := mm_deleg m |}
  | SDelegation raw n => {| mm_root := mm_root m; mm_meta := mm_meta m;
                            mm_deleg := fun x => if String.eqb x n then Some raw else mm_deleg m x |}
  | SDelDelegation n => {| mm_root := mm_root m; mm_meta := mm_meta m;
                           mm_deleg := fun x => if String.eqb x n then None else mm_deleg m x |}
  | SClearDelegations => {| mm_root := mm_root m; mm_meta := mm_meta m; mm_deleg := fun _ => None |}
  end.
(** What the code does. *)
Definition db_store (o : store_op) (d : db) : db :=
  match o with
  | SRoot raw rp v => store_root raw rp v d
  | SNonRoot raw rp ty => store_nonroot raw rp ty d
  | SClearNonRoot rp => clear_nonroot rp d
  | SClearAll => clear_metadata d
  | SDelegation raw n => store_delegation raw n d
  | SDelDelegation n => delete_delegation n d
  | SClearDelegations => clear_delegations d
  end.
Definition storable (o : store_op) : Prop :=
  match o with
  | SRoot raw _ _ => nul_free raw
  | SNonRoot raw _ ty => nul_free raw /\ ty <> RRoot
  | SDelegation raw _ => nul_free raw
  | _ => True
  end.
Definition newest_of (f : Z -> option string) (o : option string) : Prop :=
  match o with
  | Some raw => exists v, f v = Some raw /\ forall w, f w <> None -> w <= v
  | None => forall w, f w = None
  end.
