(** Uptane/TUF metadata objects: parsing and signature checking.
    Models /repo/src/libaktualizr/uptane/{tuf.h,tuf.cc,role.cc,metawithkeys.cc,root.cc} and the
    parts of crypto.cc / types.cc / types.h they use. *)
From Verif Require Import Base Json.

(** ** Keys and hashes *)

(** /repo/include/libaktualizr/types.h:98-109 (KeyType); only the values PublicKey can produce from JSON. *)
Inductive keytype := KEd25519 | KRsa2048 | KRsa3072 | KRsa4096 | KUnknown.

(** PublicKey: types.h:121-152. *)
Record pubkey := { pk_type : keytype; pk_value : string }.

(** Hash::Type: types.h:162. *)
Inductive htype := Sha256 | Sha512 | HUnknown.
Definition htype_eqb (a b : htype) : bool :=
  match a, b with Sha256, Sha256 | Sha512, Sha512 | HUnknown, HUnknown => true | _, _ => false end.
(** Hash: types.h:159-183. *)
Record hash := { h_type : htype; h_val : string }.

(** External functions.  [canon] is Utils::jsonToCanonicalStr, [parse] Utils::parseJSON (total: parse
    errors give an arbitrary value, utils.cc:244-249), [rsa_type] Crypto::IdentifyRSAKeyType, [verify]
    Crypto::ED25519Verify / RSAPSSVerify behind hex/base64 decoding ([None] = a std::exception, e.g.
    boost::algorithm::unhex on a malformed key), [sha256hex]/[sha512hex] the upper-case hex digests. *)
Record Env := {
  canon : json -> string;
  parse : string -> json;
  rsa_type : string -> keytype;
  verify : keytype -> string -> string -> string -> option bool;
  sha256hex : string -> string;
  sha512hex : string -> string
}.

(** crypto.cc:706-714 Hash::Hash(type string, hash): hash upper-cased, type matched case-sensitively. *)
Definition htype_of_string (s : string) : htype :=
  if String.eqb s "sha512" then Sha512 else if String.eqb s "sha256" then Sha256 else HUnknown.
Definition mk_hash (t v : string) : hash := {| h_type := htype_of_string t; h_val := to_upper v |}.
(** crypto.cc:716 Hash::Hash(Type, hash). *)
Definition mk_hash_t (t : htype) (v : string) : hash := {| h_type := t; h_val := to_upper v |}.
(** crypto.cc:718. *)
Definition hash_eqb (a b : hash) : bool := htype_eqb (h_type a) (h_type b) && String.eqb (h_val a) (h_val b).
(** types.h:168 HaveAlgorithm. *)
Definition have_alg (h : hash) : bool := match h_type h with HUnknown => false | _ => true end.
(** crypto.cc:720-729. *)
Definition htype_string (t : htype) : string :=
  match t with Sha256 => "sha256" | Sha512 => "sha512" | HUnknown => "unknown" end.
(** crypto.cc:686-704 Hash::generate. *)
Definition hash_generate (E : Env) (t : htype) (data : string) : res hash :=
  match t with
  | Sha256 => Ok (mk_hash_t t (sha256hex E data))
  | Sha512 => Ok (mk_hash_t t (sha512hex E data))
  | HUnknown => Throw EStd
  end.

(** crypto.cc:20-62 PublicKey::PublicKey(Json). The try block turns JsonCpp errors into an unknown key. *)
Definition pubkey_of_json (E : Env) (j : json) : pubkey :=
  let unknown := {| pk_type := KUnknown; pk_value := "" |} in
  let r := do kt <- jget "keytype" j;
           if negb (jis_string kt) then Ok None else
           do kv <- jget "keyval" j;
           if negb (jis_object kv) then Ok None else
           do pub <- jget "public" kv;
           if negb (jis_string pub) then Ok None else
           do t <- jas_string kt;
           do v <- jas_string pub;
           Ok (Some (t, v)) in
  match r with
  | Ok (Some (t, v)) =>
      let t' := to_lower t in
      {| pk_type := if String.eqb t' "ed25519" then KEd25519
                    else if String.eqb t' "rsa" then rsa_type E v else KUnknown;
         pk_value := v |}
  | _ => unknown
  end.

(** crypto.cc:72-83 PublicKey::VerifySignature. *)
Definition verify_signature (E : Env) (k : pubkey) (sig msg : string) : res bool :=
  match pk_type k with
  | KUnknown => Ok false
  | t => match verify E t (pk_value k) sig msg with Some b => Ok b | None => Throw EStd end
  end.

(** ** Roles *)

(** tuf.h:94 RoleEnum. *)
Inductive rkind := RRoot | RSnapshot | RTargets | RTimestamp | RDelegation | RInvalid.
Record role := { r_kind : rkind; r_name : string }.
Definition role_root := {| r_kind := RRoot; r_name := "root" |}.
Definition role_snapshot := {| r_kind := RSnapshot; r_name := "snapshot" |}.
Definition role_targets := {| r_kind := RTargets; r_name := "targets" |}.
Definition role_timestamp := {| r_kind := RTimestamp; r_name := "timestamp" |}.
Definition role_invalid := {| r_kind := RInvalid; r_name := "invalidrole" |}.

(** tuf.h:77-79. *)
Definition is_reserved (n : string) : bool :=
  String.eqb n "root" || String.eqb n "targets" || String.eqb n "snapshot" || String.eqb n "timestamp".
(** tuf.h:84-85. *)
Definition is_delegation (r : role) : bool := match r_kind r with RDelegation => true | _ => false end.
Definition role_eqb (a b : role) : bool := String.eqb (r_name a) (r_name b).

(** role.cc:13-35 with delegation = false. *)
Definition role_of_string (n : string) : role :=
  let l := to_lower n in
  if String.eqb l "root" then role_root
  else if String.eqb l "snapshot" then role_snapshot
  else if String.eqb l "targets" then role_targets
  else if String.eqb l "timestamp" then role_timestamp
  else role_invalid.
(** role.cc:13-35 with delegation = true. *)
Definition role_delegation (n : string) : res role :=
  if is_reserved (to_lower n) then Throw UBase else Ok {| r_kind := RDelegation; r_name := n |}.

(** ** Timestamps (types.cc:43-66). The empty string is the invalid TimeStamp. *)
Definition timestamp_of_string (s : string) : res string :=
  if Nat.eqb (String.length s) 20 && match String.get 19 s with Some c => Ascii.eqb c "Z" | None => false end
  then Ok s else Throw EStd.
(** std::string operator< (lexicographic on unsigned bytes). *)
Fixpoint str_ltb (a b : string) : bool :=
  match a, b with
  | _, EmptyString => false
  | EmptyString, String _ _ => true
  | String x a', String y b' =>
      if Nat.ltb (nat_of_ascii x) (nat_of_ascii y) then true
      else if Nat.eqb (nat_of_ascii x) (nat_of_ascii y) then str_ltb a' b' else false
  end.
Definition ts_valid (t : string) : bool := negb (String.eqb t "").
(** types.cc:64. *)
Definition ts_lt (a b : string) : bool := ts_valid a && ts_valid b && str_ltb a b.
(** types.cc:54-62. *)
Definition ts_expired_at (t now : string) : bool :=
  if negb (ts_valid t) then true else if negb (ts_valid now) then true else ts_lt t now.

(** ** BaseMeta (tuf.h:140-159) *)
Record base := { b_version : Z; b_expiry : string; b_orig : json }.
Definition base_empty (v : Z) := {| b_version := v; b_expiry := ""; b_orig := JNull |}.

(** tuf.cc:298-311 BaseMeta::init. *)
Definition base_init (j : json) : res base :=
  if negb (jis_object j) then Throw UInvalidMetadata else
  do has <- jmember "signed" j;
  if negb has then Throw UInvalidMetadata else
  do s <- jget "signed" j;
  do vj <- jget "version" s;
  do v <- jas_int vj;
  do ej <- jget "expires" s;
  do es <- jas_string ej;
  match timestamp_of_string es with
  | Ok e => Ok {| b_version := v; b_expiry := e; b_orig := j |}
  | Throw _ => Throw UInvalidMetadata
  end.
(** tuf.h:147. *)
Definition is_expired (b : base) (now : string) : bool := ts_expired_at (b_expiry b) now.

(** ** MetaWithKeys (tuf.h:161-213) *)
(** keys_, keys_for_role_ (pairs role name, key id) and thresholds_for_role_ (role name -> threshold).
    Role comparison is by name (tuf.h:85-87), hence strings. *)
Record keyset := { ks_keys : list (string * pubkey);
                   ks_role_keys : list (string * string);
                   ks_thr : list (string * Z) }.
Definition ks_empty := {| ks_keys := []; ks_role_keys := []; ks_thr := [] |}.

Definition kMinSignatures : Z := 1.     (* tuf.h:207 *)
Definition kMaxSignatures : Z := 1000.  (* tuf.h:208 *)

(** metawithkeys.cc:12-22 ParseKeys. *)
Fixpoint parse_keys (E : Env) (l : list (string * json)) (ks : keyset) : res keyset :=
  match l with
  | [] => Ok ks
  | (kid, kj) :: l' =>
      do ktj <- jget "keytype" kj;
      do kt <- jas_string ktj;
      let t := to_lower kt in
      if negb (String.eqb t "rsa" || String.eqb t "ed25519") then Throw USecurity else
      parse_keys E l' {| ks_keys := aset kid (pubkey_of_json E kj) (ks_keys ks);
                         ks_role_keys := ks_role_keys ks; ks_thr := ks_thr ks |}
  end.

(** metawithkeys.cc:53-55: insertion of the key ids. *)
Fixpoint insert_keyids (rn : string) (l : list (string * json)) (acc : list (string * string)) : res (list (string * string)) :=
  match l with
  | [] => Ok acc
  | (_, kj) :: l' => do k <- jas_string kj; insert_keyids rn l' ((rn, k) :: acc)
  end.

(** metawithkeys.cc:24-56 ParseRole; [rj] is the iterator's value. *)
Definition parse_role (rj : json) (r : role) (ks : keyset) : res keyset :=
  if role_eqb r role_invalid then Ok ks else
  do tj <- jget "threshold" rj;
  do t <- jas_int64 tj;
  if t <? kMinSignatures then Throw UIllegalThreshold else
  if kMaxSignatures <? t then Throw UIllegalThreshold else
  let thr := aset (r_name r) t (ks_thr ks) in
  do kids <- jget "keyids" rj;
  do rk <- insert_keyids (r_name r) (jiter kids) (ks_role_keys ks);
  Ok {| ks_keys := ks_keys ks; ks_role_keys := rk; ks_thr := thr |}.

(** metawithkeys.cc:89. *)
Definition method_supported (m : string) : bool :=
  let m' := to_lower m in
  String.eqb m' "rsassa-pss" || String.eqb m' "rsassa-pss-sha256" || String.eqb m' "ed25519".

(** metawithkeys.cc:78-108: the signature loop. [used] is used_keyids, [n] valid_signatures.
    Simplification: valid_signatures is unbounded (the source uses int; 2^31 signatures would be needed). *)
Fixpoint sig_loop (E : Env) (ks : keyset) (rn canonical : string) (sigs : list (string * json))
         (used : list string) (n : Z) : res Z :=
  match sigs with
  | [] => Ok n
  | (_, s) :: sigs' =>
      do kj <- jget "keyid" s;
      do kid <- jas_string kj;
      if mem_str kid used then Throw UNonUniqueSignatures else
      let used' := kid :: used in
      do mj <- jget "method" s;
      do m <- jas_string mj;
      if negb (method_supported m) then Throw USecurity else
      match aget kid (ks_keys ks) with
      | None => sig_loop E ks rn canonical sigs' used' n
      | Some key =>
          if negb (mem_pair (rn, kid) (ks_role_keys ks)) then sig_loop E ks rn canonical sigs' used' n else
          do sj <- jget "sig" s;
          do sg <- jas_string sj;
          do ok <- verify_signature E key sg canonical;
          sig_loop E ks rn canonical sigs' used' (if ok then n + 1 else n)
      end
  end.

(** metawithkeys.cc:58-121 MetaWithKeys::UnpackSignedObject.
    Simplification: thresholds_for_role_[role] default-inserts 0 for an unknown role; since 0 is rejected the
    insertion has no observable effect and is dropped. *)
Definition unpack_signed (E : Env) (ks : keyset) (r : role) (j : json) : res unit :=
  do sgn <- jget "signed" j;
  do tyj <- jget "_type" sgn;
  do tys <- jas_string tyj;
  let ty := role_of_string tys in
  if is_delegation r && negb (role_eqb ty role_targets) then Throw USecurity else
  if negb (is_delegation r) && negb (role_eqb r ty) then Throw USecurity else
  let canonical := canon E sgn in
  do sigs <- jget "signatures" j;
  do n <- sig_loop E ks (r_name r) canonical (jiter sigs) [] 0;
  let threshold := match aget (r_name r) (ks_thr ks) with Some t => t | None => 0 end in
  if (threshold <? kMinSignatures) || (kMaxSignatures <? threshold) then Throw UIllegalThreshold else
  if Nat.eqb (jsize sigs) 1 && (n =? 0) then Throw UBadKeyId else
  if n <? threshold then Throw UUnmetThreshold else
  Ok tt.

(** tuf.cc:314-323 BaseMeta::BaseMeta(repo, role, json, signer), with the signer's UnpackSignedObject
    (virtual) passed as a function. *)
Definition base_of_json_signed (unpack : role -> json -> res unit) (r : role) (j : json) : res base :=
  if negb (jis_object j) then Throw UInvalidMetadata else
  do has <- jmember "signed" j;
  if negb has then Throw UInvalidMetadata else
  do_ unpack r j;
  base_init j.

(** ** Root (tuf.h:216-256, root.cc) *)
Inductive policy := PRejectAll | PAcceptAll | PCheck.
Record root := { rt_policy : policy; rt_base : base; rt_ks : keyset }.
(** tuf.h:221 *)
Definition root_empty (p : policy) : root := {| rt_policy := p; rt_base := base_empty 0; rt_ks := ks_empty |}.
Definition rt_version (r : root) : Z := b_version (rt_base r).

(** root.cc:22-26 *)
Fixpoint parse_root_roles (l : list (string * json)) (ks : keyset) : res keyset :=
  match l with
  | [] => Ok ks
  | (n, rj) :: l' => do ks' <- parse_role rj (role_of_string n) ks; parse_root_roles l' ks'
  end.

(** root.cc:12-27 Root::Root(repo, json). *)
Definition root_of_json (E : Env) (j : json) : res root :=
  do b <- base_init j;
  do s <- jget "signed" j;
  do hk <- jmember "keys" s;
  if negb hk then Throw UInvalidMetadata else
  do hr <- jmember "roles" s;
  if negb hr then Throw UInvalidMetadata else
  do kj <- jget "keys" s;
  do ks <- parse_keys E (jiter kj) ks_empty;
  do rj <- jget "roles" s;
  do ks' <- parse_root_roles (jiter rj) ks;
  Ok {| rt_policy := PCheck; rt_base := b; rt_ks := ks' |}.

(** root.cc:29-41 Root::UnpackSignedObject. *)
Definition root_unpack (E : Env) (rt : root) (r : role) (j : json) : res unit :=
  match rt_policy rt with
  | PAcceptAll => Ok tt
  | PRejectAll => Throw USecurity
  | PCheck => unpack_signed E (rt_ks rt) r j
  end.

(** root.cc:7-10 Root::Root(repo, json, root): signed by the old root, then by itself. *)
Definition root_of_json_signed (E : Env) (j : json) (old : root) : res root :=
  do new <- root_of_json E j;
  do_ root_unpack E old role_root j;
  do_ root_unpack E new role_root j;
  Ok new.

(** ** Target (types.h:379-444, tuf.cc:85-253) *)
Record target := {
  t_valid : bool;
  t_filename : string;
  t_type : string;
  t_ecus : list (string * string);      (* EcuMap: serial -> hardware id *)
  t_hashes : list hash;
  t_hwids : list string;
  t_custom : json;
  t_length : Z;
  t_corr : string;
  t_uri : string
}.

(** types.h:353-360 EcuSerial::EcuSerial, types.h:322-329 HardwareIdentifier::HardwareIdentifier. *)
Definition ecu_serial (s : string) : res string :=
  if Nat.ltb (String.length s) 1 then Throw EStd else if Nat.ltb 64 (String.length s) then Throw EStd else Ok s.
Definition hw_id (s : string) : res string := if Nat.ltb 200 (String.length s) then Throw EStd else Ok s.

(** std::map::insert: keeps an existing entry. *)
Definition ecu_insert (k v : string) (m : list (string * string)) : list (string * string) :=
  match aget k m with Some _ => m | None => m ++ [(k, v)] end.

(** std::sort by type (tuf.cc:100, 141): sha256 before sha512. Simplification: std::sort is modelled as stable. *)
Definition sort_hashes (l : list hash) : list hash :=
  filter (fun h => htype_eqb (h_type h) Sha256) l ++ filter (fun h => htype_eqb (h_type h) Sha512) l
  ++ filter (fun h => htype_eqb (h_type h) HUnknown) l.

(** tuf.cc:107-112 *)
Fixpoint parse_hwids (l : list (string * json)) (acc : list string) : res (list string) :=
  match l with
  | [] => Ok acc
  | (_, j) :: l' => do s <- jas_string j; do h <- hw_id s; parse_hwids l' (acc ++ [h])
  end.
(** tuf.cc:115-118 *)
Fixpoint parse_ecus (l : list (string * json)) (acc : list (string * string)) : res (list (string * string)) :=
  match l with
  | [] => Ok acc
  | (k, j) :: l' => do e <- ecu_serial k; do hj <- jget "hardwareId" j; do hs <- jas_string hj; do h <- hw_id hs;
                    parse_ecus l' (ecu_insert e h acc)
  end.

(** tuf.cc:103-131 Target::updateCustom. *)
Definition update_custom (t : target) (c : json) : res target :=
  do hw <- jmember "hardwareIds" c;
  do hwids <- (if hw then do hj <- jget "hardwareIds" c; parse_hwids (jiter hj) (t_hwids t) else Ok (t_hwids t));
  do ej <- jget "ecuIdentifiers" c;
  do ecus <- parse_ecus (jiter ej) (t_ecus t);
  do hf <- jmember "targetFormat" c;
  do ty <- (if hf then do fj <- jget "targetFormat" c; jas_string fj else Ok (t_type t));
  do hu <- jmember "uri" c;
  do uri <- (if hu then do uj <- jget "uri" c; do u <- jas_string uj;
               Ok (if String.eqb u "https://example.com/" then t_uri t else u) else Ok (t_uri t));
  Ok {| t_valid := t_valid t; t_filename := t_filename t; t_type := ty; t_ecus := ecus; t_hashes := t_hashes t;
        t_hwids := hwids; t_custom := c; t_length := t_length t; t_corr := t_corr t; t_uri := uri |}.

(** tuf.cc:92-98 *)
Fixpoint parse_hashes (l : list (string * json)) (acc : list hash) : res (list hash) :=
  match l with
  | [] => Ok acc
  | (k, j) :: l' => do v <- jas_string j;
                    let h := mk_hash k v in parse_hashes l' (if have_alg h then acc ++ [h] else acc)
  end.

Definition target_blank (fn : string) : target :=
  {| t_valid := true; t_filename := fn; t_type := ""; t_ecus := []; t_hashes := []; t_hwids := [];
     t_custom := JNull; t_length := 0; t_corr := ""; t_uri := "" |}.

(** tuf.cc:85-101 Target::Target(filename, content). *)
Definition target_of_json (fn : string) (c : json) : res target :=
  do hc <- jmember "custom" c;
  do t <- (if hc then do cu <- jget "custom" c; update_custom (target_blank fn) cu else Ok (target_blank fn));
  do lj <- jget "length" c;
  do len <- jas_uint64 lj;
  do hj <- jget "hashes" c;
  do hs <- parse_hashes (jiter hj) [];
  Ok {| t_valid := true; t_filename := fn; t_type := t_type t; t_ecus := t_ecus t; t_hashes := sort_hashes hs;
        t_hwids := t_hwids t; t_custom := t_custom t; t_length := len; t_corr := ""; t_uri := t_uri t |}.

(** tuf.cc:134-143 the internal constructor. *)
Definition target_internal (fn : string) (ecus : list (string * string)) (hs : list hash) (len : Z) (corr : string) : target :=
  {| t_valid := true; t_filename := fn; t_type := "UNKNOWN"; t_ecus := ecus; t_hashes := sort_hashes hs;
     t_hwids := []; t_custom := JNull; t_length := len; t_corr := corr; t_uri := "" |}.

(** tuf.cc:145-154 Target::Unknown (the JSON is well formed, so the constructor does not throw). *)
Definition target_unknown (E : Env) : target :=
  {| t_valid := false; t_filename := "unknown"; t_type := ""; t_ecus := []; t_hashes := [mk_hash_t Sha256 (sha256hex E "")];
     t_hwids := []; t_custom := JNull; t_length := 0; t_corr := ""; t_uri := "" |}.

(** tuf.cc:156-158. *)
Definition match_hash (t : target) (h : hash) : bool := existsb (fun x => hash_eqb x h) (t_hashes t).
(** tuf.cc:160-172. *)
Definition hash_string (t : target) (ty : htype) : string :=
  match find (fun h => htype_eqb (h_type h) ty) (t_hashes t) with
  | Some h => to_lower (h_val h)
  | None => ""
  end.
Definition sha256_hash (t : target) : string := hash_string t Sha256.
(** tuf.cc:183-197. *)
Definition is_ostree (t : target) : bool :=
  if String.eqb (t_type t) "OSTREE" then true else String.eqb (t_type t) "" && (t_length t =? 0).
(** types.h:411-416 IsForEcu *)
Definition is_for_ecu (t : target) (e : string) : bool := existsb (fun p => String.eqb (fst p) e) (t_ecus t).

(** std::vector<HardwareIdentifier>::operator== *)
Fixpoint strs_eqb (a b : list string) : bool :=
  match a, b with
  | [], [] => true
  | x :: a', y :: b' => String.eqb x y && strs_eqb a' b'
  | _, _ => false
  end.
(** std::map<EcuSerial, HardwareIdentifier>::operator==, as equality of finite maps. *)
Definition opt_str_eqb (a b : option string) : bool :=
  match a, b with Some x, Some y => String.eqb x y | None, None => true | _, _ => false end.
Definition ecumap_eqb (a b : list (string * string)) : bool :=
  forallb (fun p => opt_str_eqb (aget (fst p) a) (aget (fst p) b)) a
  && forallb (fun p => opt_str_eqb (aget (fst p) a) (aget (fst p) b)) b.
Definition nilb {A} (l : list A) : bool := match l with [] => true | _ => false end.

(** tuf.cc:230-235 *)
Definition ecus_in_hwids (m : list (string * string)) (hw : list string) : bool :=
  forallb (fun p => mem_str (snd p) hw) m.
(** tuf.cc:218-236 *)
Definition match_hw (a b : target) : bool :=
  if strs_eqb (t_hwids a) (t_hwids b) && ecumap_eqb (t_ecus a) (t_ecus b) then true
  else if negb (nilb (t_hwids a)) && nilb (t_ecus a) && nilb (t_hwids b) && negb (nilb (t_ecus b))
  then ecus_in_hwids (t_ecus b) (t_hwids a)
  else if negb (nilb (t_hwids b)) && nilb (t_ecus b) && nilb (t_hwids a) && negb (nilb (t_ecus a))
  then ecus_in_hwids (t_ecus a) (t_hwids b)
  else false.
(** tuf.cc:241-252: the two nested loops; [None] = returned false inside the loop. *)
Fixpoint match_inner (h : hash) (l : list hash) (one : bool) : option bool :=
  match l with
  | [] => Some one
  | h2 :: l' =>
      if htype_eqb (h_type h) (h_type h2) && negb (hash_eqb h h2) then None
      else match_inner h l' (if hash_eqb h h2 then true else one)
  end.
Fixpoint match_outer (l l2 : list hash) (one : bool) : bool :=
  match l with
  | [] => one
  | h :: l' => match match_inner h l2 one with None => false | Some o => match_outer l' l2 o end
  end.
(** tuf.cc:199-253 Target::MatchTarget. *)
Definition match_target (a b : target) : bool :=
  if negb (String.eqb (t_filename a) (t_filename b)) then false
  else if negb (t_length a =? t_length b) then false
  else if negb (match_hw a b) then false
  else match_outer (t_hashes a) (t_hashes b) false.

(** tuf.h:258-268 MatchTargetVector *)
Fixpoint match_target_vector (a b : list target) : bool :=
  match a, b with
  | [], [] => true
  | x :: a', y :: b' => match_target x y && match_target_vector a' b'
  | _, _ => false
  end.

(** ** Targets metadata (tuf.h:271-317) *)
Record targets := {
  tg_base : base;
  tg_ks : keyset;
  tg_targets : list target;
  tg_deleg : list string;                    (* delegated_role_names_ *)
  tg_paths : list (string * list string);    (* paths_for_role_ *)
  tg_term : list (string * bool);            (* terminating_role_ *)
  tg_name : string;
  tg_corr : string
}.
(** tuf.h:275 Targets() = default: version 0 from MetaWithKeys(). *)
Definition targets_empty : targets :=
  {| tg_base := base_empty 0; tg_ks := ks_empty; tg_targets := []; tg_deleg := []; tg_paths := []; tg_term := [];
     tg_name := ""; tg_corr := "" |}.
Definition tg_version (t : targets) : Z := b_version (tg_base t).

(** tuf.cc:330-334 *)
Fixpoint parse_target_list (l : list (string * json)) : res (list target) :=
  match l with
  | [] => Ok []
  | (n, j) :: l' => do t <- target_of_json n j; do ts <- parse_target_list l'; Ok (t :: ts)
  end.
(** tuf.cc:347-351 *)
Fixpoint parse_paths (l : list (string * json)) : res (list string) :=
  match l with
  | [] => Ok []
  | (_, j) :: l' => do p <- jas_string j; do ps <- parse_paths l'; Ok (p :: ps)
  end.
(** tuf.cc:340-355 *)
Fixpoint parse_deleg_roles (l : list (string * json)) (t : targets) : res targets :=
  match l with
  | [] => Ok t
  | (_, rj) :: l' =>
      do nj <- jget "name" rj;
      do n <- jas_string nj;
      do r <- role_delegation n;
      do ks <- parse_role rj r (tg_ks t);
      do pj <- jget "paths" rj;
      do ps <- parse_paths (jiter pj);
      do tj <- jget "terminating" rj;
      do te <- jas_bool tj;
      parse_deleg_roles l'
        {| tg_base := tg_base t; tg_ks := ks; tg_targets := tg_targets t; tg_deleg := tg_deleg t ++ [n];
           tg_paths := aset n ps (tg_paths t); tg_term := aset n te (tg_term t); tg_name := tg_name t;
           tg_corr := tg_corr t |}
  end.
(** tuf.cc:325-363 Targets::init. *)
Definition targets_init (E : Env) (b : base) (name : string) (j : json) : res targets :=
  if negb (jis_object j) then Throw UInvalidMetadata else
  do s <- jget "signed" j;
  do ty <- jget "_type" s;
  if negb (jeq_str ty "Targets") then Throw UInvalidMetadata else
  do tl <- jget "targets" s;
  do ts <- parse_target_list (jiter tl);
  let t0 := {| tg_base := b; tg_ks := ks_empty; tg_targets := ts; tg_deleg := []; tg_paths := []; tg_term := [];
               tg_name := name; tg_corr := "" |} in
  do dj <- jget "delegations" s;
  do t1 <- (if jis_object dj then
              do kj <- jget "keys" dj;
              do ks <- parse_keys E (jiter kj) ks_empty;
              do rj <- jget "roles" dj;
              parse_deleg_roles (jiter rj)
                {| tg_base := b; tg_ks := ks; tg_targets := ts; tg_deleg := []; tg_paths := []; tg_term := [];
                   tg_name := name; tg_corr := "" |}
            else Ok t0);
  do cj <- jget "custom" s;
  do corr <- (if jis_object cj then do ci <- jget "correlationId" cj; jas_string ci else Ok "");
  Ok {| tg_base := tg_base t1; tg_ks := tg_ks t1; tg_targets := tg_targets t1; tg_deleg := tg_deleg t1;
        tg_paths := tg_paths t1; tg_term := tg_term t1; tg_name := tg_name t1; tg_corr := corr |}.

(** tuf.cc:365 Targets::Targets(json), unsigned. *)
Definition targets_of_json (E : Env) (j : json) : res targets :=
  do b <- base_init j; targets_init E b "" j.
(** tuf.cc:367-371 Targets::Targets(repo, role, json, signer). *)
Definition targets_of_json_signed (E : Env) (unpack : role -> json -> res unit) (r : role) (j : json) : res targets :=
  do b <- base_of_json_signed unpack r j;
  targets_init E b (r_name r) j.

(** tuf.h:291-305 Targets::getTargets. *)
Definition get_targets (t : targets) (ecu hw : string) : list target :=
  filter (fun x => existsb (fun p => String.eqb ecu (fst p) && String.eqb hw (snd p)) (t_ecus x)) (tg_targets t).

(** ** Timestamp metadata (tuf.h:319-334) *)
Record timestamp := { tm_base : base; tm_hashes : list hash; tm_size : Z; tm_snap_version : Z }.
(** default member values; BaseMeta() leaves version_ at -1. *)
Definition timestamp_empty : timestamp :=
  {| tm_base := base_empty (-1); tm_hashes := []; tm_size := 0; tm_snap_version := -1 |}.

(** tuf.cc:382-385 and 431-434: hashes of unknown type are kept. *)
Fixpoint parse_hashes_all (l : list (string * json)) (acc : list hash) : res (list hash) :=
  match l with
  | [] => Ok acc
  | (k, j) :: l' => do v <- jas_string j; parse_hashes_all l' (acc ++ [mk_hash k v])
  end.
(** tuf.cc:373-388. *)
Definition timestamp_init (b : base) (j : json) : res timestamp :=
  do s <- jget "signed" j;
  do m <- jget "meta" s;
  do sj <- jget "snapshot.json" m;
  do hl <- jget "hashes" sj;
  do sz <- jget "length" sj;
  do vj <- jget "version" sj;
  if negb (jis_object j) then Throw UInvalidMetadata else
  do ty <- jget "_type" s;
  if negb (jeq_str ty "Timestamp") || negb (jis_object hl) || negb (jis_integral sz) || negb (jis_integral vj)
  then Throw UInvalidMetadata else
  do hs <- parse_hashes_all (jiter hl) [];
  do size <- jas_int sz;
  do v <- jas_int vj;
  Ok {| tm_base := b; tm_hashes := hs; tm_size := size; tm_snap_version := v |}.
(** tuf.cc:390 *)
Definition timestamp_of_json (j : json) : res timestamp := do b <- base_init j; timestamp_init b j.
(** tuf.cc:392-396 *)
Definition timestamp_of_json_signed (unpack : role -> json -> res unit) (j : json) : res timestamp :=
  do b <- base_of_json_signed unpack role_timestamp j; timestamp_init b j.

(** ** Snapshot metadata (tuf.h:336-354) *)
Record snapshot := { sn_base : base;
                     sn_size : list (string * Z);
                     sn_version : list (string * Z);
                     sn_hashes : list (string * list hash) }.
Definition snapshot_empty : snapshot :=
  {| sn_base := base_empty (-1); sn_size := []; sn_version := []; sn_hashes := [] |}.

(** std::string::rfind + substr(0, pos): the part before the last '.', the whole string if there is none. *)
Fixpoint strip_ext_opt (s : string) : option string :=
  match s with
  | EmptyString => None
  | String c s' => match strip_ext_opt s' with
                   | Some p => Some (String c p)
                   | None => if Ascii.eqb c "." then Some EmptyString else None
                   end
  end.
Definition strip_ext (s : string) : string := match strip_ext_opt s with Some p => p | None => s end.

(** tuf.cc:404-436. Quirk kept: the length is only recorded when it is a JSON *object* (line 425), and asInt64
    of an object throws. *)
Fixpoint parse_snapshot_meta (l : list (string * json)) (sn : snapshot) : res snapshot :=
  match l with
  | [] => Ok sn
  | (k, mj) :: l' =>
      do hl <- jget "hashes" mj;
      do sz <- jget "length" mj;
      do vj <- jget "version" mj;
      if negb (jis_integral vj) then Throw UInvalidMetadata else
      let rn := strip_ext k in
      do r <- (if is_reserved rn then Ok (role_of_string rn) else role_delegation rn);
      do v <- jas_int vj;
      do size <- (if jis_object sz then jas_int64 sz else Ok (-1));
      do hs <- (if jis_object hl then
                  parse_hashes_all (jiter hl) (match aget (r_name r) (sn_hashes sn) with Some x => x | None => [] end)
                else Ok (match aget (r_name r) (sn_hashes sn) with Some x => x | None => [] end));
      parse_snapshot_meta l'
        {| sn_base := sn_base sn; sn_size := aset (r_name r) size (sn_size sn);
           sn_version := aset (r_name r) v (sn_version sn);
           sn_hashes := aset (r_name r) hs (sn_hashes sn) |}
  end.
(** tuf.cc:398-437. *)
Definition snapshot_init (b : base) (j : json) : res snapshot :=
  do s <- jget "signed" j;
  do ml <- jget "meta" s;
  if negb (jis_object j) then Throw UInvalidMetadata else
  do ty <- jget "_type" s;
  if negb (jeq_str ty "Snapshot") || negb (jis_object ml) then Throw UInvalidMetadata else
  parse_snapshot_meta (jiter ml) {| sn_base := b; sn_size := []; sn_version := []; sn_hashes := [] |}.
(** tuf.cc:439 *)
Definition snapshot_of_json (j : json) : res snapshot := do b <- base_init j; snapshot_init b j.
(** tuf.cc:441-444 *)
Definition snapshot_of_json_signed (unpack : role -> json -> res unit) (j : json) : res snapshot :=
  do b <- base_of_json_signed unpack role_snapshot j; snapshot_init b j.

(** tuf.cc:446-471 *)
Definition role_hashes (sn : snapshot) (rn : string) : list hash :=
  match aget rn (sn_hashes sn) with Some l => l | None => [] end.
Definition role_size (sn : snapshot) (rn : string) : Z := match aget rn (sn_size sn) with Some z => z | None => 0 end.
Definition role_version (sn : snapshot) (rn : string) : Z :=
  match aget rn (sn_version sn) with Some z => z | None => -1 end.

(** tuf.cc:473-480 extractVersionUntrusted. *)
Definition extract_version_untrusted (E : Env) (raw : string) : res Z :=
  do s <- jget "signed" (parse E raw);
  do v <- jget "version" s;
  if negb (jis_integral v) then Ok (-1) else jas_int v.
