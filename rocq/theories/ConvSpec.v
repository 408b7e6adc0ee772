(** Specification for the start of the storage: what the old files say, and what it means that the database says the same. *)
From Verif Require Import Base Json TufModel MetaStore RepoModel RepoSpec CodecModel InstModel InstSpec ConvModel.

Section Spec.
Context (E : Env) (savec : json -> string) (loadc : string -> option json) (host : string).

(** ** What the old files say *)
Definition tab : string := String "009" "".
Fixpoint no_tab (s : string) : Prop := match s with EmptyString => True | String c s' => c <> "009"%char /\ no_tab s' end.
(** The ECUs: the Primary (by default its hardware id is the host's name), then one line "serial TAB hardware-id" per Secondary. *)
Definition ecus_of (fs : files) (l : list (string * string)) : Prop :=
  exists s secs, o_serial fs = Some s /\ l = (s, match o_hw fs with Some h => h | None => host end) :: secs /\
    Forall (fun p => no_tab (fst p)) secs /\
    match o_secs fs with Some lines => lines = map (fun p => append (fst p) (append tab (snd p))) secs | None => secs = [] end.
(** An entry of installed_versions, in the new format (name: {...}) or the old one (hash: name), and whether it is marked as current;
    of several marked ones the last counts. *)
Definition entry_target (e : string * json) (t : target) : Prop :=
  match snd e with
  | JObj _ => target_of_json (fst e) (snd e) = Ok t
  | j => exists name, jas_string j = Ok name /\ target_of_json name (JObj [("hashes", JObj [("sha256", JStr (fst e))])]) = Ok t
  end.
Definition entry_marked (e : string * json) (b : bool) : Prop :=
  match snd e with
  | JObj _ => exists cj, jget "is_current" (snd e) = Ok cj /\ jas_bool cj = Ok b
  | _ => b = true
  end.
Definition versions_file (text : string) (ts : list target) : Prop := Forall2 entry_target (jiter (parse E text)) ts.
Definition current_of (text : string) (t : target) : Prop :=
  exists pre e post, jiter (parse E text) = pre ++ e :: post /\ entry_target e t /\ entry_marked e true /\ Forall (fun x => entry_marked x false) post.
(** Root [v] of a repository: the file with that number, unless root.json has that version. *)
Definition root_of (fs : files) (rp : repo) (v : Z) (raw : string) : Prop :=
  0 <= v /\
  ((o_meta fs rp RRoot = Some raw /\ extract_version_untrusted E raw = Ok v) \/
   (o_roots fs rp v = Some raw /\ forall raw', o_meta fs rp RRoot = Some raw' -> extract_version_untrusted E raw' <> Ok v)).

Definition top_role (ty : rkind) : Prop := ty = RSnapshot \/ ty = RTargets \/ ty = RTimestamp.
(** ** The pieces of the old storage *)
Inductive item := IKeys | ICa | ICert | IPkey | IDev | IReg | IEcus | ICur | INon (rp : repo) (ty : rkind) | IRoot (rp : repo) (v : Z).
(** The database says of it what the files [fs] say. *)
Definition db_has (fs : files) (q : sql) (i : item) : Prop :=
  match i with
  | IKeys => forall a b, o_pub fs = Some a -> o_priv fs = Some b -> q_keys q = Some (a, b)
  | ICa => forall x, o_ca fs = Some x -> q_ca q = Some x
  | ICert => forall x, o_cert fs = Some x -> q_cert q = Some x
  | IPkey => forall x, o_pkey fs = Some x -> q_pkey q = Some x
  | IDev => forall x, o_dev fs = Some x -> exists b, q_dev q = Some (x, b)
  | IReg => o_reg fs = true -> exists x, q_dev q = Some (x, true)
  | IEcus => forall l, ecus_of fs l -> il_ecus (q_inst q) = l
  | ICur => forall text t, o_vers fs = Some text -> current_of text t ->
              exists x p, load_installed loadc "" (q_inst q) = Ok (Some x, p) /\ same_key x t
  | INon rp ty => top_role ty -> forall raw, o_meta fs rp ty = Some raw -> load_nonroot rp ty (q_meta q) = Ok (Some raw)
  | IRoot rp v => forall raw, root_of fs rp v raw -> load_root rp v (q_meta q) = Ok (Some raw)
  end.
(** The files [fs'] still hold it as [fs] did. *)
Definition files_have (fs fs' : files) (i : item) : Prop :=
  match i with
  | IKeys => o_pub fs' = o_pub fs /\ o_priv fs' = o_priv fs
  | ICa => o_ca fs' = o_ca fs | ICert => o_cert fs' = o_cert fs | IPkey => o_pkey fs' = o_pkey fs
  | IDev => o_dev fs' = o_dev fs | IReg => o_reg fs' = o_reg fs
  | IEcus => o_serial fs' = o_serial fs /\ o_hw fs' = o_hw fs /\ o_secs fs' = o_secs fs
  | ICur => o_vers fs' = o_vers fs
  | INon rp ty => top_role ty -> o_meta fs' rp ty = o_meta fs rp ty
  | IRoot rp v => forall raw, root_of fs rp v raw -> root_of fs' rp v raw
  end.

(** Files an older release leaves behind: metadata are texts without NUL, Root files have the number of their content, serials are
    distinct, the recorded versions are proper targets and differ in name or hash. *)
Record good_files (fs : files) : Prop := {
  gf_meta : forall rp ty raw, o_meta fs rp ty = Some raw -> nul_free raw;
  gf_roots : forall rp v raw, o_roots fs rp v = Some raw -> nul_free raw /\ 0 <= v /\ extract_version_untrusted E raw = Ok v;
  gf_nums : forall rp v, In v (o_rootnums fs rp) <-> o_roots fs rp v <> None;
  gf_root : forall rp raw, o_meta fs rp RRoot = Some raw -> exists v, 0 <= v /\ extract_version_untrusted E raw = Ok v;
  gf_ecus : forall l, ecus_of fs l -> NoDup (map fst l);
  gf_vers : forall text, o_vers fs = Some text -> exists ts, versions_file text ts /\ Forall (fun e => exists b, entry_marked e b) (jiter (parse E text)) /\
              Forall (good_target savec loadc) ts /\ NoDup (map (fun t => (sha256_hash t, t_filename t)) ts) }.
(** Serials and hardware ids of a permitted length. *)
Definition ecus_valid (fs : files) : Prop :=
  o_serial fs = None \/ exists l, ecus_of fs l /\
    Forall (fun p => (1 <= String.length (fst p) <= 64)%nat /\ (String.length (snd p) <= 200)%nat) l.
(** The Image repository has no Root with a higher number than the Director's newest. *)
Definition image_not_ahead (fs : files) : Prop :=
  forall v raw, root_of fs Image v raw -> exists w raw', v <= w /\ root_of fs Director w raw'.

(** One start after the other; each may be killed after some of its steps. *)
Definition starts (l : list (option nat)) (d : disk) : disk := fold_left (fun d c => fst (new_storage E savec host c d)) l d.
(** What there is before the first start of a release with a database. *)
Definition old_disk (fs : files) : disk := {| k_sql := None; k_fs := fs |}.

(** ** Import *)
Definition imported (prev : option string) (f : src) (new : option string) : Prop :=
  match f with
  | Text s => new = Some s \/ exists p, prev = Some p /\ new = Some p /\ sha256hex E p = sha256hex E s
  | _ => new = prev
  end.
(** Keys are never replaced. *)
Definition keys_after (m : imports) (old : option (string * string)) : option (string * string) :=
  match old with Some k => Some k | None => match m_pub m, m_priv m with Text a, Text b => Some (a, b) | _, _ => None end end.
(** The versions are imported into an empty log only; then the one marked as current is the current one. *)
Definition versions_after (m : imports) (old new : idb) : Prop :=
  (exists x l, load_log loadc "" false old = Ok (x :: l) /\ new = old) \/
  (load_log loadc "" false old = Ok [] /\ il_ecus new = il_ecus old /\
   (new = old \/ exists t, new = save_installed savec "" t ModeCurrent old) /\
   forall text t ts, m_vers m = Text text -> versions_file text ts -> Forall (fun e => exists b, entry_marked e b) (jiter (parse E text)) ->
     current_of text t -> new = save_installed savec "" t ModeCurrent old).
Definition file_of (f : src) : option string := match f with Text s => Some s | _ => None end.
(** The recorded versions are what a history of installations leaves, and the current one of the file can be recorded. *)
Definition ready (m : imports) (q : sql) : Prop :=
  ireach savec (good_target savec loadc) (q_inst q) /\
  forall ts k t, fs_versions E (file_of (m_vers m)) = (ts, Some k) -> nth_error ts k = Some t -> good_target savec loadc t.
End Spec.
