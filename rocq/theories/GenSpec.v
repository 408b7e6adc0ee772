(** Vocabulary for the properties of the generator of Uptane repositories: what its environment and its arguments have to be like, and
    histories of a repository together with a device that follows it. *)
From Verif Require Import Base Json TufModel TufSpec MetaStore RepoModel RepoSpec GenModel.

(** ** JSON values that survive being written and read *)
(** Characters 1 to 127. *)
Fixpoint ascii_text (s : string) : bool :=
  match s with
  | EmptyString => true
  | String c r => Nat.leb 1 (nat_of_ascii c) && Nat.leb (nat_of_ascii c) 127 && ascii_text r
  end.
(** The names are strictly increasing. *)
Fixpoint increasing (l : list (string * json)) : bool :=
  match l with
  | (k, _) :: ((k', _) :: _) as r => str_ltb k k' && increasing r
  | _ => true
  end.
(** Objects are ordered, texts are ASCII, numbers are integers that fit 64 bits. *)
Fixpoint plain (j : json) : bool :=
  match j with
  | JNull | JBool _ => true
  | JInt z => (min_int64 <=? z) && (z <=? max_uint64)
  | JReal _ _ _ => false
  | JStr s => ascii_text s
  | JArr l => forallb plain l
  | JObj l => increasing l && forallb (fun p => ascii_text (fst p) && plain (snd p)) l
  end.

(** What is expected of JsonCpp and of the digests (hexadecimal digits): *)
Record env_ok (E : Env) : Prop := {
  eo_round : forall j, plain j = true -> parse E (canon E j) = j;
  eo_text : forall j, plain j = true -> nul_free (canon E j);
  eo_empty : parse E "" = JNull;
  eo_sha256 : forall s, ascii_text (sha256hex E s) = true;
  eo_sha512 : forall s, ascii_text (sha512hex E s) = true
}.

Section Spec.
Context (E : Env) (keyid : pubkey -> string) (depth : nat) (fnm : string -> string -> bool).

(** A key pair: it is read back as what it is, and what it signs can be verified with it (checked for each invocation below). *)
Definition key_ok (kp : keypair) : Prop :=
  let k := kp_pub kp in
  pk_type k <> KUnknown /\ (pk_type k <> KEd25519 -> rsa_type E (pk_value k) = pk_type k) /\
  ascii_text (pk_value k) = true /\ ascii_text (keyid k) = true.
Definition signs (I : invocation) (kp : keypair) : Prop :=
  forall msg, ascii_text (n_sign I (pk_type (kp_pub kp)) (kp_priv kp) msg) = true /\
    verify E (pk_type (kp_pub kp)) (pk_value (kp_pub kp)) (n_sign I (pk_type (kp_pub kp)) (kp_priv kp) msg) msg = Some true.
Definition repo_key (K : repo_keys) (rn : string) : option keypair :=
  if String.eqb rn "root" then Some (rk_root K) else if String.eqb rn "snapshot" then Some (rk_snapshot K)
  else if String.eqb rn "targets" then Some (rk_targets K) else if String.eqb rn "timestamp" then Some (rk_timestamp K) else None.
Definition keys_of (K : repo_keys) : list keypair := [rk_root K; rk_snapshot K; rk_targets K; rk_timestamp K].
(** The keys of a repository; the same identifier means the same key. *)
Definition keys_ok (K : repo_keys) : Prop :=
  (forall kp, In kp (keys_of K) -> key_ok kp) /\
  (forall a b, In a (keys_of K) -> In b (keys_of K) -> keyid (kp_pub a) = keyid (kp_pub b) -> kp_pub a = kp_pub b).

(** Times as the client reads them. *)
Definition time_ok (t : string) : Prop := timestamp_of_string t = Ok t /\ ascii_text t = true.
(** A target description that a client can read. *)
Definition readable (c : json) : Prop := exists t, target_of_json "" c = Ok t.
(** ... and the custom part of one. *)
Definition readable_custom (c : json) : Prop := exists t, update_custom (target_blank "") c = Ok t.

(** The environment of an invocation is in order: times are times, all keys in the directory work. *)
Definition invocation_ok (I : invocation) (k : disk) : Prop :=
  time_ok (n_expires I) /\ time_ok (n_renewed I) /\ ascii_text (n_corr I) = true /\
  (forall rp rn kp, aget rn (f_keys (side_of rp k)) = Some kp -> key_ok kp /\ signs I kp).
(** The arguments of a command can be used in metadata: texts are ASCII, hardware identifiers have at most 200 characters, ECU serials 1
    to 64 (types.h:322-360), and what the user writes as custom data can be read by a client. *)
Definition hw_ok (h : string) : Prop := ascii_text h = true /\ (String.length h <= 200)%nat.
Definition serial_ok (s : string) : Prop := ascii_text s = true /\ (1 <= String.length s <= 64)%nat.
Definition image_ok (im : image) : Prop :=
  match im with
  | IBinary content => Z.of_nat (String.length content) <= max_uint64
  | ICustom h len custom => ascii_text (h_val h) = true /\ plain custom = true /\ (custom = JNull \/ jis_object custom = true) /\ readable_custom custom
  end.
Definition arguments_ok (I : invocation) (c : command) : Prop :=
  match c with
  | CGenerate KD KI => keys_ok KD /\ keys_ok KI /\ (forall kp, In kp (keys_of KD ++ keys_of KI) -> signs I kp)
  | CImage im name hw url dname => image_ok im /\ ascii_text name = true /\ hw_ok hw /\ ascii_text url = true
  | CAddTarget name hw serial url expires names => ascii_text name = true /\ hw_ok hw /\ serial_ok serial /\ ascii_text url = true /\ (expires = "" \/ time_ok expires)
  | CAddDelegation name parent path terminating kp => ascii_text name = true /\ ascii_text path = true /\ key_ok kp /\ signs I kp
  | CRevokeDelegation name => True
  | CSignTargets | CEmptyTargets | COldTargets => True
  | CRefresh rp r => r_kind r = RDelegation \/ r_kind r = RInvalid \/ In r [role_root; role_snapshot; role_targets; role_timestamp]   (* what Role's constructor makes *)
  end.
Definition is_generate (c : command) : bool := match c with CGenerate _ _ => true | _ => false end.

(** The version that a document declares; no document has a version above 2^31 - 1 (which clients cannot read). *)
Definition declared_version (p : string) (d : side) : res Z :=
  do s <- jget "signed" (file_json E p d); do vj <- jget "version" s; jas_uint vj.
Definition bounded (d : side) : Prop := forall p v, declared_version p d = Ok v -> v <= max_int.
Definition bounded_disk (k : disk) : Prop := bounded (k_dir k) /\ bounded (k_img k).

(** Which repository a command is about. *)
Definition concerns (rp : repo) (c : command) : bool :=
  match c, rp with
  | CGenerate _ _, _ | CRevokeDelegation _, _ => true
  | CImage _ _ _ _ _, Image | CAddDelegation _ _ _ _ _, Image => true
  | CAddTarget _ _ _ _ _ _, Director | CSignTargets, Director | CEmptyTargets, Director | COldTargets, Director => true
  | CRefresh rp' _, _ => repo_eqb rp rp'
  | _, _ => false
  end.

(** What a device does with its metadata while [k] is published: updates from it, whatever does not ask a server, and any change of what
    it stores of delegations. *)
Definition device_op (k : disk) (o : meta_op) : Prop :=
  match o with OpDirectorUpdate srv _ | OpImageUpdate srv _ => srv = publish k | _ => True end.

(** [follows allowed visible k d ok]: the directory is [k] and a device stores [d] after a history that starts with "generate" and an
    empty device; then, in any order, commands run to their end or are killed after any change of the directory, and the device does
    something, to its end or to a crash after any transaction. [ok]: the last command on the Image repository succeeded (one that fails
    without changing anything may as well be left out of the history). Only commands with [allowed] are run, and the device only acts while [visible]. *)
Inductive follows (allowed : disk -> command -> Prop) (visible : disk -> Prop) : disk -> db -> bool -> Prop :=
| fo_generate I KD KI k l : arguments_ok I (CGenerate KD KI) -> time_ok (n_expires I) -> ascii_text (n_corr I) = true ->
    run_command E keyid depth fnm I (CGenerate KD KI) disk_empty = (k, l, Ok tt) -> Forall bounded_disk l -> follows allowed visible k db_empty true
| fo_command k d ok I c k' l r : follows allowed visible k d ok -> is_generate c = false -> allowed k c -> invocation_ok I k -> arguments_ok I c ->
    run_command E keyid depth fnm I c k = (k', l, r) -> Forall bounded_disk l ->
    follows allowed visible k' d (if concerns Image c then match r with Ok _ => true | Throw _ => false end else ok)
| fo_killed k d ok I c k' l r kk : follows allowed visible k d ok -> is_generate c = false -> allowed k c -> invocation_ok I k -> arguments_ok I c ->
    run_command E keyid depth fnm I c k = (k', l, r) -> Forall bounded_disk l -> In kk l ->
    follows allowed visible kk d (if concerns Image c then false else ok)
| fo_device k d ok o s s' r d' : follows allowed visible k d ok -> visible k -> device_op k o -> u_db s = d -> u_log s = [] ->
    run_op E o s = (s', r) -> In d' (u_db s' :: u_log s') -> follows allowed visible k d' ok.

(** Nothing is staged while the Targets of the Director are changed by other commands than "signtargets". *)
Definition nothing_staged (k : disk) : Prop := exists_file staging (k_dir k) = false.
Definition staged_first (k : disk) (c : command) : Prop :=
  match c with
  | CRefresh Director r => r_kind r = RTargets -> nothing_staged k
  | CRevokeDelegation _ => nothing_staged k
  | _ => True
  end.
Definition no_limits (k : disk) (c : command) : Prop := True.
Definition always (k : disk) : Prop := True.

(** ** The published metadata is up to date for a device *)
(** The newest Root that can be reached from Root 1 without a gap. *)
Definition newest_root (k : disk) (rp : repo) (v : Z) (raw : string) : Prop :=
  publish k rp "root" v = Ok raw /\ (forall w, 1 <= w <= v -> exists x, publish k rp "root" w = Ok x) /\ exists e, publish k rp "root" (v + 1) = Throw e.
Definition unexpired (raw now : string) : Prop := forall b, base_init (parse E raw) = Ok b -> is_expired b now = false.
(** The published documents have not expired, are small enough for a client, and there are less than 1000 Roots. *)
Record servable (k : disk) (rp : repo) (clk : clock) : Prop := {
  sv_roots : forall v raw, newest_root k rp v raw -> unexpired raw (clk RRoot);
  sv_others : forall r raw, In r [role_snapshot; role_targets; role_timestamp] -> publish k rp (r_name r) (-1) = Ok raw -> unexpired raw (clk (r_kind r));
  sv_small : forall rn v raw, aget (document_path rn v) (f_files (side_of rp k)) = Some raw -> publish k rp rn v = Ok raw;
  sv_few : publish k rp "root" 1000 = Throw UFetchFailure
}.
(** The published Snapshot and the one that the device stores are different texts with the same SHA-256 and the same SHA-512. *)
Definition snapshot_collision (k : disk) (d : db) : Prop :=
  exists stored published, load_nonroot Image RSnapshot d = Ok (Some stored) /\ publish k Image "snapshot" (-1) = Ok published /\ stored <> published /\
    to_upper (sha256hex E stored) = to_upper (sha256hex E published) /\ to_upper (sha512hex E stored) = to_upper (sha512hex E published).
(** No two published targets of the Director are for the same ECU. *)
Definition one_per_ecu (k : disk) : Prop :=
  forall raw t, publish k Director "targets" (-1) = Ok raw -> targets_doc E "targets" (parse E raw) t -> one_target_per_ecu t.
End Spec.
