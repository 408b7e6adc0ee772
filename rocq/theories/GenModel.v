(** The generator of Uptane repositories, uptane-generator.
    Models /repo/src/uptane_generator/{repo,director_repo,image_repo,uptane_repo,main}.cc. *)
From Verif Require Import Base Json TufModel MetaStore RepoModel.

(** ** Changing JSON values (JsonCpp, not part of /repo) *)
(** An object is a std::map: its members are ordered by name, each name occurs once. *)
Fixpoint oput (k : string) (v : json) (l : list (string * json)) : list (string * json) :=
  match l with
  | [] => [(k, v)]
  | (k', v') :: r => if String.eqb k k' then (k, v) :: r else if str_ltb k k' then (k, v) :: l else (k', v') :: oput k v r
  end.
Definition odel (k : string) (l : list (string * json)) : list (string * json) := filter (fun p => negb (String.eqb (fst p) k)) l.
(** j[k] = v *)
Definition jset (k : string) (v j : json) : res json :=
  match j with JNull => Ok (JObj [(k, v)]) | JObj l => Ok (JObj (oput k v l)) | _ => Throw EStd end.
(** j[k] changed in place; a missing member is null first *)
Definition jmod (k : string) (f : json -> res json) (j : json) : res json :=
  do old <- jget k j; do new <- f old; jset k new j.
(** removeMember *)
Definition jremove (k : string) (j : json) : res json :=
  match j with JNull => Ok JNull | JObj l => Ok (JObj (odel k l)) | _ => Throw EStd end.
(** append *)
Definition jappend (v j : json) : res json :=
  match j with JNull => Ok (JArr [v]) | JArr l => Ok (JArr (l ++ [v])) | _ => Throw EStd end.
(** j[0] = v *)
Definition jset0 (v j : json) : res json :=
  match j with JNull | JArr [] => Ok (JArr [v]) | JArr (_ :: l) => Ok (JArr (v :: l)) | _ => Throw EStd end.
(** asUInt; addition of unsigned *)
Definition uint_mod : Z := 4294967296.
Definition jas_uint : json -> res Z := jas_range 0 (uint_mod - 1).
Definition next_uint (v : Z) : Z := (v + 1) mod uint_mod.

(** ** The directory of a repository *)
(** KeyPair: repo.h:11-17. *)
Record keypair := { kp_pub : pubkey; kp_priv : string }.
(** The files below repo/director resp. repo/repo by relative path, and the keys below keys/director resp. keys/image by name of the
    role. Simplifications: the three files of a key are one; paths are not normalised (".." in a role name); the images themselves, the
    file "manifest" and the campaigns are left out. *)
Record side := { f_files : list (string * string); f_keys : list (string * keypair) }.
Definition side_empty : side := {| f_files := []; f_keys := [] |}.

(** An invocation of the program on one repository: its keys in memory (keys_), the directory, and every state of the directory since
    the start, newest first (at any of them the program may be killed). *)
Record gst := { g_side : side; g_mem : list (string * keypair); g_log : list side }.
Definition G (A : Type) := gst -> gst * res A.
Definition gret {A} (a : A) : G A := fun s => (s, Ok a).
Definition gthrow {A} (e : exn) : G A := fun s => (s, Throw e).
Definition gbind {A B} (m : G A) (k : A -> G B) : G B :=
  fun s => match m s with (s', Ok a) => k a s' | (s', Throw e) => (s', Throw e) end.
Definition glift {A} (r : res A) : G A := fun s => (s, r).
Notation "'let%' x := m 'in' k" := (gbind m (fun x => k)) (at level 200, x name, m at level 100, k at level 200, right associativity).
Notation "m %; k" := (gbind m (fun _ => k)) (at level 100, k at level 200, right associativity).

Definition change (f : side -> side) : G unit :=
  fun s => let d := f (g_side s) in ({| g_side := d; g_mem := g_mem s; g_log := d :: g_log s |}, Ok tt).
(** utils.cc:319-340 writeFile: the file is replaced by a rename. *)
Definition put_file (p content : string) (d : side) : side := {| f_files := aset p content (f_files d); f_keys := f_keys d |}.
Definition del_file (p : string) (d : side) : side :=
  {| f_files := filter (fun q => negb (String.eqb (fst q) p)) (f_files d); f_keys := f_keys d |}.
Definition write_file (p content : string) : G unit := change (put_file p content).
Definition remove_file (p : string) : G unit := change (del_file p).
Definition exists_file (p : string) (d : side) : bool := match aget p (f_files d) with Some _ => true | None => false end.

(** What an invocation brings along: expiration_time_ (repo.cc:16), correlation_id_, the current time, the time of one hour later
    (repo.cc:309-314), and the signatures: Utils::toBase64(Crypto::Sign(type, private key, text)), which may be randomised. *)
Record invocation := { n_expires : string; n_corr : string; n_now : string; n_renewed : string; n_sign : keytype -> string -> string -> string }.

Definition delegation_file (name : string) : string := append "delegations/" (append name ".json").
(** repo.cc:30-35, image_repo.cc:72-76: the file of a role; "targets" is the top-level role. *)
Definition role_file (rn : string) : string := if String.eqb rn "targets" then "targets.json" else delegation_file rn.
Definition staging : string := "staging/targets.json".
Definition root_file (v : Z) : string := append (to_dec v) ".root.json".

Section Gen.
Context (E : Env).
(** crypto.cc:107-114 PublicKey::KeyId. *)
Context (keyid : pubkey -> string).
(** How deep a recursion over the delegations may go before the stack overflows. *)
Context (depth : nat).
Context (I : invocation).

(** utils.cc:251-255 parseJSONFile: a file that cannot be read is empty. *)
Definition file_json (p : string) (d : side) : json := parse E (match aget p (f_files d) with Some c => c | None => "" end).
Definition read_json (p : string) : G json := fun s => (s, Ok (file_json p (g_side s))).
Definition read_signed (p : string) : G json := let% j := read_json p in glift (jget "signed" j).

(** crypto.cc:86-105 PublicKey::ToUptane. *)
Definition to_uptane (k : pubkey) : json :=
  JObj [("keytype", JStr (match pk_type k with KUnknown => "unknown" | KEd25519 => "ED25519" | _ => "RSA" end));
        ("keyval", JObj [("public", JStr (pk_value k))])].

(** repo.cc:77-103 signTuf. keys_[role] of an unknown role is a key of unknown type. *)
Definition signed_doc (kid method sig : string) (j : json) : json :=
  JObj [("signatures", JArr [JObj [("keyid", JStr kid); ("method", JStr method); ("sig", JStr sig)]]); ("signed", j)].
Definition sign_tuf (mem : list (string * keypair)) (rn : string) (j : json) : res json :=
  match aget rn mem with
  | None => Throw EStd
  | Some kp =>
      let sig := n_sign I (pk_type (kp_pub kp)) (kp_priv kp) (canon E j) in
      match pk_type (kp_pub kp) with
      | KUnknown => Throw EStd
      | KEd25519 => Ok (signed_doc (keyid (kp_pub kp)) "ed25519" sig j)
      | _ => Ok (signed_doc (keyid (kp_pub kp)) "rsassa-pss" sig j)
      end
  end.
Definition sign (rn : string) (j : json) : G string :=
  fun s => (s, do d <- sign_tuf (g_mem s) rn j; Ok (canon E d)).
(** the pattern  writeFile(path, jsonToCanonicalStr(signTuf(role, json))) *)
Definition write_signed (rn path : string) (j : json) : G string :=
  let% text := sign rn j in write_file path text %; gret text.

(** repo.cc:29-49 addDelegationToSnapshot. *)
Fixpoint add_to_snapshot (fuel : nat) (d : side) (rn : string) (snap : json) : res json :=
  match fuel with
  | O => Throw EStd
  | S f =>
      do rj <- jget "signed" (file_json (role_file rn) d);
      do vj <- jget "version" rj;
      do v <- jas_uint vj;
      do snap1 <- jmod "meta" (jmod (append rn ".json") (jset "version" (JInt v))) snap;
      do dj <- jget "delegations" rj;
      if jis_object dj then
        do rolesj <- jget "roles" dj;
        (fix loop (l : list (string * json)) (snap : json) : res json :=
           match l with
           | [] => Ok snap
           | (_, r) :: l' =>
               do nj <- jget "name" r;
               do n <- jas_string nj;
               do dr <- role_delegation n;
               do snap' <- add_to_snapshot f d (r_name dr) snap;
               loop l' snap'
           end) (jiter rolesj) snap1
      else Ok snap1
  end.

Definition lower_hex (s : string) : string := to_lower s.
(** The "hashes", "length" and "version" of the Snapshot in the Timestamp: repo.cc:67-72, 208-214. *)
Definition describe_snapshot (text : string) (v : json) (t : json) : res json :=
  jmod "meta" (jmod "snapshot.json" (fun m =>
    do m1 <- jmod "hashes" (jset "sha256" (JStr (lower_hex (sha256hex E text)))) m;
    do m2 <- jmod "hashes" (jset "sha512" (JStr (lower_hex (sha512hex E text)))) m1;
    do m3 <- jset "length" (JInt (Z.of_nat (String.length text) mod uint_mod)) m2;
    jset "version" v m3)) t.

(** repo.cc:51-75 updateRepo. *)
Definition update_repo : G unit :=
  let% old := read_signed "snapshot.json" in
  let% oe := glift (jget "expires" old) in
  let% ovj := glift (jget "version" old) in
  let% ov := glift (jas_uint ovj) in
  let% root := read_signed "root.json" in
  let% rvj := glift (jget "version" root) in
  let% rv := glift (jas_uint rvj) in
  let% snap := glift (do a <- jset "_type" (JStr "Snapshot") JNull; do b <- jset "expires" oe a; do c <- jset "version" (JInt (next_uint ov)) b;
                      jmod "meta" (jmod "root.json" (jset "version" (JInt rv))) c) in
  let% snap' := (fun s => (s, add_to_snapshot depth (g_side s) "targets" snap)) in
  let% text := write_signed "snapshot" "snapshot.json" snap' in
  let% ts := read_signed "timestamp.json" in
  let% tvj := glift (jget "version" ts) in
  let% tv := glift (jas_uint tvj) in
  let% ts1 := glift (jset "version" (JInt (next_uint tv)) ts) in
  let% ts2 := glift (describe_snapshot text (JInt (next_uint ov)) ts1) in
  let% _t := write_signed "timestamp" "timestamp.json" ts2 in
  gret tt.

(** repo.cc:125-145 generateKeyPair; the key pair is random. *)
Definition generate_key (rn : string) (kp : keypair) : G unit := fun s =>
  let d := {| f_files := f_files (g_side s); f_keys := aset rn kp (f_keys (g_side s)) |} in
  ({| g_side := d; g_mem := aset rn kp (g_mem s); g_log := d :: g_log s |}, Ok tt).

(** The keys generated for the four roles (repo.cc:147-152). *)
Record repo_keys := { rk_root : keypair; rk_snapshot : keypair; rk_targets : keypair; rk_timestamp : keypair }.
(** repo.cc:159-185: the Root. Simplification: the keys in keys_ are the four that were generated (there are no others in an empty directory). *)
Definition root_role (kp : keypair) : json := JObj [("keyids", JArr [JStr (keyid (kp_pub kp))]); ("threshold", JInt 1)].
Definition put_key (kp : keypair) (l : list (string * json)) : list (string * json) := oput (keyid (kp_pub kp)) (to_uptane (kp_pub kp)) l.
Definition root_json (K : repo_keys) : json :=
  JObj [("_type", JStr "Root"); ("expires", JStr (n_expires I));
        ("keys", JObj (put_key (rk_timestamp K) (put_key (rk_targets K) (put_key (rk_snapshot K) (put_key (rk_root K) [])))));
        ("roles", JObj [("root", root_role (rk_root K)); ("snapshot", root_role (rk_snapshot K)); ("targets", root_role (rk_targets K));
                        ("timestamp", root_role (rk_timestamp K))]);
        ("version", JInt 1)].
(** repo.cc:187-193. *)
Definition fresh_targets : json :=
  JObj [("_type", JStr "Targets"); ("expires", JStr (n_expires I)); ("targets", JObj []); ("version", JInt 1)].
(** repo.cc:191-193, director_repo.cc:81-83. *)
Definition with_corr (rp : repo) (j : json) : res json :=
  match rp with
  | Director => if String.eqb (n_corr I) "" then Ok j else jmod "custom" (jset "correlationId" (JStr (n_corr I))) j
  | Image => Ok j
  end.
(** repo.cc:154-220 generateRepo. *)
Definition generate_repo (rp : repo) (K : repo_keys) : G unit :=
  generate_key "root" (rk_root K) %; generate_key "snapshot" (rk_snapshot K) %;
  generate_key "targets" (rk_targets K) %; generate_key "timestamp" (rk_timestamp K) %;
  let% rtext := write_signed "root" "root.json" (root_json K) in
  write_file (root_file 1) rtext %;
  let% tj := glift (with_corr rp fresh_targets) in
  let% _t := write_signed "targets" "targets.json" tj in
  let% stext := write_signed "snapshot" "snapshot.json"
    (JObj [("_type", JStr "Snapshot"); ("expires", JStr (n_expires I));
           ("meta", JObj [("root.json", JObj [("hashes", JObj [("sha256", JStr (lower_hex (sha256hex E rtext))); ("sha512", JStr (lower_hex (sha512hex E rtext)))]);
                                              ("length", JInt (Z.of_nat (String.length rtext) mod uint_mod)); ("version", JInt 1)]);
                          ("targets.json", JObj [("version", JInt 1)])]);
           ("version", JInt 1)]) in
  let% ts := glift (describe_snapshot stext (JInt 1) (JObj [("_type", JStr "Timestamp"); ("expires", JStr (n_expires I)); ("version", JInt 1)])) in
  let% _u := write_signed "timestamp" "timestamp.json" ts in
  gret tt.

(** (j["version"].asUInt()) + 1 stored as the version of [j] *)
Definition bump (j : json) : res json :=
  do vj <- jget "version" j; do v <- jas_uint vj; jset "version" (JInt (next_uint v)) j.

(** ** Image repository *)
(** image_repo.cc:3-19 addImage; [dname] is the delegation, if any. *)
Definition add_image (name : string) (target : json) (hw : string) (dname : option string) : G unit :=
  let rn := match dname with Some n => n | None => "targets" end in
  let% tj := read_signed (role_file rn) in
  let% target' := glift (jmod "custom" (jmod "hardwareIds" (jset0 (JStr hw))) target) in
  let% t1 := glift (jmod "targets" (jset name target') tj) in
  let% t2 := glift (bump t1) in
  let% _r := glift (match dname with Some n => role_delegation n | None => Ok role_targets end) in
  let% _t := write_signed rn (role_file rn) t2 in
  update_repo.
(** image_repo.cc:21-42 addBinaryImage, without the copy of the image. *)
Definition binary_target (image url : string) : json :=
  JObj [("custom", JObj (("targetFormat", JStr "BINARY") :: if String.eqb url "" then [] else [("uri", JStr url)]));
        ("hashes", JObj [("sha256", JStr (lower_hex (sha256hex E image))); ("sha512", JStr (lower_hex (sha512hex E image)))]);
        ("length", JInt (Z.of_nat (String.length image)))].
(** image_repo.cc:44-59 addCustomImage; Json::UInt(length) keeps 32 bits; HashString is in upper case. *)
Definition custom_target (h : hash) (length : Z) (url : string) (custom : json) : res json :=
  let hashes := match h_type h with Sha256 => [("hashes", JObj [("sha256", JStr (h_val h))])] | Sha512 => [("hashes", JObj [("sha512", JStr (h_val h))])] | HUnknown => [] end in
  do c <- (if String.eqb url "" then Ok custom else jset "uri" (JStr url) custom);
  Ok (JObj (("custom", c) :: hashes ++ [("length", JInt (length mod uint_mod))])).

(** image_repo.cc:61-108 addDelegation; [parent] is "targets" or a delegation (main.cc:195), both roles are built by Role's constructor. *)
Definition add_delegation (name parent path : string) (terminating : bool) (kp : keypair) : G unit :=
  let% _r := glift (role_delegation name) in
  let% _p := glift (if String.eqb parent "targets" then Ok role_targets else role_delegation parent) in
  let% known := (fun s => (s, Ok (match aget name (g_mem s) with Some _ => true | None => false end))) in
  if known then gthrow EStd else
  if is_reserved name then gthrow EStd else
  let% there := (fun s => (s, Ok (exists_file (role_file parent) (g_side s)))) in
  if negb there then gthrow EStd else
  generate_key name kp %;
  let% _d := write_signed name (delegation_file name) fresh_targets in
  let% pj := read_signed (role_file parent) in
  let kid := keyid (kp_pub kp) in
  let% p1 := glift (jmod "delegations" (jmod "keys" (jset kid (to_uptane (kp_pub kp)))) pj) in
  let role := JObj [("keyids", JArr [JStr kid]); ("name", JStr name); ("paths", JArr [JStr path]); ("terminating", JBool terminating); ("threshold", JInt 1)] in
  let% p2 := glift (jmod "delegations" (jmod "roles" (jappend role)) p1) in
  let% p3 := glift (bump p2) in
  let% _s := write_signed parent (role_file parent) p3 in
  update_repo.

(** image_repo.cc:110-132 removeDelegationRecursive; keys_[name] exists in memory (image_repo.cc:135). *)
Fixpoint remove_delegation (fuel : nat) (name kid : string) (parent : string) : G unit :=
  match fuel with
  | O => gthrow EStd
  | S f =>
      let% tj := read_signed (role_file parent) in
      let% t1 := glift (jmod "delegations" (jmod "keys" (jremove kid)) tj) in
      let% dj := glift (jget "delegations" t1) in
      let% rolesj := glift (jget "roles" dj) in
      let% kept := (fix loop (l : list (string * json)) : G (list json) :=
         match l with
         | [] => gret []
         | (_, r) :: l' =>
             let% nj := glift (jget "name" r) in
             let% n := glift (jas_string nj) in
             if String.eqb n name then loop l'
             else
               let% dr := glift (role_delegation n) in
               remove_delegation f name kid (r_name dr) %;
               let% rest := loop l' in
               gret (r :: rest)
         end) (jiter rolesj) in
      let% t2 := glift (jmod "delegations" (jset "roles" (JArr kept)) t1) in
      let% t3 := glift (bump t2) in
      let% _t := write_signed parent (role_file parent) t3 in
      gret tt
  end.
(** image_repo.cc:134-151 revokeDelegation. *)
Definition revoke_delegation (name : string) : G unit :=
  let% kp := (fun s => (s, Ok (aget name (g_mem s)))) in
  match kp with
  | None => gthrow EStd
  | Some kp =>
      if is_reserved name then gthrow EStd else
      change (fun d => {| f_files := f_files d; f_keys := filter (fun p => negb (String.eqb (fst p) name)) (f_keys d) |}) %;
      remove_file (delegation_file name) %;
      remove_delegation depth name (keyid (kp_pub kp)) "targets" %;
      update_repo
  end.
(** image_repo.cc:153-161 getDelegationTargets. *)
Definition delegation_targets (name : string) (d : side) : res (list string) :=
  do s <- jget "signed" (file_json (delegation_file name) d);
  do t <- jget "targets" s;
  Ok (map fst (jiter t)).

(** repo.cc:243-265 getTarget in the Image repository; the files in the directory "delegations" are visited in any order: [names]. *)
Fixpoint target_in_files (names : list string) (name : string) (d : side) : res json :=
  match names with
  | [] => Ok JNull
  | n :: rest =>
      if is_reserved n then target_in_files rest name d else
      do s <- jget "signed" (file_json (delegation_file n) d);
      do t <- jget "targets" s;
      do there <- jmember name t;
      if there then jget name t else target_in_files rest name d
  end.
Definition get_target (names : list string) (name : string) (d : side) : res json :=
  do s <- jget "signed" (file_json "targets.json" d);
  do t <- jget "targets" s;
  do there <- jmember name t;
  if there then jget name t else target_in_files names name d.

(** ** Director *)
(** director_repo.cc:3-31 addTarget; [expires] is the option of the command line, possibly empty. *)
Definition director_target (target : json) (hw serial url : string) : res json :=
  do a <- jmod "custom" (jremove "hardwareIds") target;
  do b <- jmod "custom" (jmod "ecuIdentifiers" (jmod serial (jset "hardwareId" (JStr hw)))) a;
  if String.eqb url "" then jmod "custom" (jremove "uri") b else jmod "custom" (jset "uri" (JStr url)) b.
Definition add_target (name : string) (target : json) (hw serial url expires : string) : G unit :=
  let% cur := (fun s => (s, if exists_file staging (g_side s) then Ok (file_json staging (g_side s))
                            else if exists_file "targets.json" (g_side s) then jget "signed" (file_json "targets.json" (g_side s))
                            else Throw EStd)) in
  let% d0 := glift (if String.eqb expires "" then Ok cur else jset "expires" (JStr expires) cur) in
  let% t := glift (director_target target hw serial url) in
  let% d1 := glift (jmod "targets" (jset name t) d0) in
  let% sj := read_signed "targets.json" in
  let% vj := glift (jget "version" sj) in
  let% v := glift (jas_uint vj) in
  let% d2 := glift (jset "version" (JInt (next_uint v)) d1) in
  write_file staging (canon E d2) %;
  update_repo.
(** director_repo.cc:33-48 revokeTargets *)
Definition revoke_targets (names : list string) : G unit :=
  let% tj := read_signed "targets.json" in
  let% ts := glift (jget "targets" tj) in
  let kept := filter (fun p => negb (mem_str (fst p) names)) (jiter ts) in
  let% t1 := glift (jset "targets" (match kept with [] => JNull | _ => JObj kept end) tj) in
  let% t2 := glift (bump t1) in
  let% _t := write_signed "targets" "targets.json" t2 in
  update_repo.
(** director_repo.cc:50-68 signTargets *)
Definition sign_targets : G unit :=
  let% tj := (fun s => (s, if exists_file staging (g_side s) then Ok (file_json staging (g_side s))
                           else if exists_file "targets.json" (g_side s) then jget "signed" (file_json "targets.json" (g_side s))
                           else Throw EStd)) in
  let% _t := write_signed "targets" "targets.json" tj in
  remove_file staging %;
  update_repo.
(** director_repo.cc:70-85 emptyTargets *)
Definition empty_targets : G unit :=
  let% sj := read_signed "targets.json" in
  let% st := read_json staging in
  let% a := glift (jset "_type" (JStr "Targets") st) in
  let% b := glift (jset "expires" (JStr (n_expires I)) a) in
  let% vj := glift (jget "version" sj) in
  let% v := glift (jas_uint vj) in
  let% c := glift (jset "version" (JInt (next_uint v)) b) in
  let% d := glift (jset "targets" (JObj []) c) in
  let% e := glift (with_corr Director d) in
  write_file staging (canon E e).
(** director_repo.cc:87-97 oldTargets *)
Definition old_targets : G unit :=
  let% there := (fun s => (s, Ok (exists_file "targets.json" (g_side s)))) in
  if negb there then gthrow EStd else
  let% sj := read_signed "targets.json" in
  write_file staging (canon E sj).

(** repo.cc:281-331 refresh; the role is not a delegation. *)
Definition refresh (rp : repo) (r : role) : G unit :=
  match rp, r_kind r with
  | Director, RTimestamp | Director, RSnapshot => gthrow EStd
  | _, RDelegation | _, RInvalid => gthrow EStd
  | _, _ =>
      let path := append (r_name r) ".json" in
      let% m := read_signed path in
      let% vj := glift (jget "version" m) in
      let% v := glift (jas_uint vj) in
      let% ej := glift (jget "expires" m) in
      let% es := glift (jas_string ej) in
      let% e := glift (timestamp_of_string es) in
      let% m1 := glift (if ts_expired_at e (n_now I) then jset "expires" (JStr (n_renewed I)) m else Ok m) in
      let% m2 := glift (jset "version" (JInt (next_uint v)) m1) in
      let% text := write_signed (r_name r) path m2 in
      (match r_kind r with RRoot => write_file (root_file (next_uint v)) text | _ => gret tt end) %;
      update_repo
  end.
End Gen.

(** ** The program *)
(** The directory with both repositories. *)
Record disk := { k_dir : side; k_img : side }.
Definition side_of (rp : repo) (k : disk) : side := match rp with Director => k_dir k | Image => k_img k end.
Definition set_side (rp : repo) (d : side) (k : disk) : disk :=
  match rp with Director => {| k_dir := d; k_img := k_img k |} | Image => {| k_dir := k_dir k; k_img := d |} end.
Definition disk_empty : disk := {| k_dir := side_empty; k_img := side_empty |}.

(** The images a command adds: main.cc:121-171 (a file, or its description). *)
Inductive image := IBinary (content : string) | ICustom (h : hash) (length : Z) (custom : json).
(** The commands, main.cc:110-229, with the random keys they generate and the order in which files are found. *)
Inductive command :=
| CGenerate (KD KI : repo_keys)
| CImage (im : image) (name hw url : string) (dname : option string)
| CAddTarget (name hw serial url expires : string) (names : list string)
| CAddDelegation (name parent path : string) (terminating : bool) (kp : keypair)
| CRevokeDelegation (name : string)
| CSignTargets | CEmptyTargets | COldTargets
| CRefresh (rp : repo) (r : role).

Section Main.
Context (E : Env) (keyid : pubkey -> string) (depth : nat) (fnm : string -> string -> bool) (I : invocation).

(** repo.h:19-32, repo.cc:333-372: the delegation of an image: its pattern is looked up in the tree and matched with the name of the
    target. Simplification: pattern.back() of an empty pattern is undefined; here such a pattern is not found. *)
Fixpoint last_char (s : string) : option ascii :=
  match s with EmptyString => None | String c EmptyString => Some c | String _ r => last_char r end.
Definition whole_pattern (p : string) : string := match last_char p with Some "/"%char => append p "**" | _ => p end.
Fixpoint find_pattern (fuel : nat) (d : side) (name : string) (tj : json) : res string :=
  match fuel with
  | O => Throw EStd
  | S f =>
      do dj <- jget "delegations" tj;
      do rolesj <- jget "roles" dj;
      (fix loop (l : list (string * json)) : res string :=
         match l with
         | [] => Ok ""
         | (_, r) :: l' =>
             do nj <- jget "name" r;
             do n <- jas_string nj;
             if String.eqb n name then
               do ps <- jget "paths" r;
               do p <- (match ps with JArr (x :: _) => jas_string x | JArr [] | JNull => Ok "" | _ => Throw EStd end);
               Ok (whole_pattern p)
             else
               do cj <- jget "signed" (file_json E (delegation_file n) d);
               do p <- find_pattern f d name cj;
               if String.eqb p "" then loop l' else Ok p
         end) (jiter rolesj)
  end.
Definition delegation_pattern (d : side) (name : string) : res string :=
  if is_reserved name then Throw EStd
  else if negb (exists_file (delegation_file name) d && exists_file "targets.json" d) then Throw EStd
  else
    do tj <- jget "signed" (file_json E "targets.json" d);
    do p <- find_pattern depth d name tj;
    if String.eqb p "" then Throw EStd else Ok p.
(** main.cc:119-127; operator bool of Delegation is false for an empty name. *)
Definition image_delegation (d : side) (dname : option string) (target : string) : res (option string) :=
  match dname with
  | None => Ok None
  | Some n => do p <- delegation_pattern d n;
              if fnm p target then Ok (if String.eqb n "" then None else Some n) else Throw EStd
  end.

(** Repo::Repo (repo.cc:13-28) reads the keys, then [m] runs; the result: the states of the directory since the start and the outcome. *)
Definition start (d : side) : gst := {| g_side := d; g_mem := f_keys d; g_log := [] |}.
Definition on_side (rp : repo) (m : G unit) (k : disk) : disk * list disk * res unit :=
  let '(s, r) := m (start (side_of rp k)) in
  (set_side rp (g_side s) k, map (fun d => set_side rp d k) (g_log s), r).

(** One invocation of the program: the directory it leaves, all states of the directory that it goes through (newest first), and
    whether it fails. uptane_repo.cc:7-55. *)
Definition run_command (c : command) (k : disk) : disk * list disk * res unit :=
  match c with
  | CGenerate KD KI =>
      let '(k1, l1, r1) := on_side Director (generate_repo E keyid I Director KD) k in
      match r1 with
      | Throw e => (k1, l1, Throw e)
      | Ok _ => let '(k2, l2, r2) := on_side Image (generate_repo E keyid I Image KI) k1 in (k2, l2 ++ l1, r2)
      end
  | CImage im name hw url dname =>
      on_side Image (
        let% dn := (fun s => (s, image_delegation (g_side s) dname name)) in
        match im with
        | IBinary content => add_image E keyid depth I name (binary_target E content url) hw dn
        | ICustom h len custom => let% t := glift (custom_target h len url custom) in add_image E keyid depth I name t hw dn
        end) k
  | CAddTarget name hw serial url expires names =>
      match get_target E names name (k_img k) with
      | Throw e => (k, [], Throw e)
      | Ok t => match t with
                | JNull | JObj [] | JArr [] => (k, [], Throw EStd)     (* target.empty() *)
                | _ => on_side Director (add_target E keyid depth I name t hw serial url expires) k
                end
      end
  | CAddDelegation name parent path terminating kp => on_side Image (add_delegation E keyid depth I name parent path terminating kp) k
  | CRevokeDelegation name =>
      match (do _r <- role_delegation name; delegation_targets E name (k_img k)) with
      | Throw e => (k, [], Throw e)
      | Ok names =>
          let '(k1, l1, r1) := on_side Director (revoke_targets E keyid depth I names) k in
          match r1 with
          | Throw e => (k1, l1, Throw e)
          | Ok _ => let '(k2, l2, r2) := on_side Image (revoke_delegation E keyid depth I name) k1 in (k2, l2 ++ l1, r2)
          end
      end
  | CSignTargets => on_side Director (sign_targets E keyid depth I) k
  | CEmptyTargets => on_side Director (empty_targets E I) k
  | COldTargets => on_side Director (old_targets E) k
  | CRefresh rp r => on_side rp (refresh E keyid depth I rp r) k
  end.
Definition after (c : command) (k : disk) : disk := fst (fst (run_command c k)).
Definition outcome (c : command) (k : disk) : res unit := snd (run_command c k).
End Main.

(** fetcher.h:10-14: the largest document the client takes. *)
Definition size_limit (rp : repo) (rn : string) : Z :=
  if String.eqb rn "root" || String.eqb rn "timestamp" || String.eqb rn "snapshot" then 65536
  else match rp with Director => 65536 | Image => 8388608 end.
(** A web server that serves the directory: Fetcher asks for <role>.json (the latest) or <version>.<role>.json (fetcher.cc:7-19,
    role.cc:46-53); only Roots have numbered files. A longer document than the client takes is an error (fetcher.cc:14-17). *)
Definition document_path (rn : string) (v : Z) : string := if v =? -1 then append rn ".json" else append (to_dec v) (append "." (append rn ".json")).
Definition publish (k : disk) : server := fun rp rn v =>
  match aget (document_path rn v) (f_files (side_of rp k)) with
  | Some raw => if size_limit rp rn <? Z.of_nat (String.length raw) then Throw UFetchFailure else Ok raw
  | None => Throw UFetchFailure
  end.
