(** What a metadata document says, read directly off its JSON (C65). *)
From Verif Require Import Base Json TufModel.

(** The member [k] of a JSON value, null if there is none. *)
Definition sel (k : string) (j : json) : json :=
  match j with JObj l => match aget k l with Some v => v | None => JNull end | _ => JNull end.
Definition signed_part (j : json) : json := sel "signed" j.
(** Elements of an array, or values of an object. *)
Definition elems (j : json) : list json := map snd (jiter j).
(** Member names occur once (JsonCpp objects are maps). *)
Definition unique_members (j : json) : Prop := NoDup (map fst (jiter j)).

Definition base_says (j : json) (b : base) : Prop :=
  jas_int (sel "version" (signed_part j)) = Ok (b_version b) /\ jas_string (sel "expires" (signed_part j)) = Ok (b_expiry b) /\
  String.length (b_expiry b) = 20%nat /\ String.get 19 (b_expiry b) = Some "Z"%char /\ b_orig b = j.

(** The public key described by a JSON value.  A malformed key is of unknown type (and verifies nothing). *)
Definition key_says (E : Env) (kj : json) (key : pubkey) : Prop :=
  (exists t v, sel "keytype" kj = JStr t /\ sel "public" (sel "keyval" kj) = JStr v /\ pk_value key = v /\
     ((to_lower t = "ed25519" /\ pk_type key = KEd25519) \/ (to_lower t = "rsa" /\ pk_type key = rsa_type E v) \/
      (to_lower t <> "ed25519" /\ to_lower t <> "rsa" /\ pk_type key = KUnknown))) \/
  (~ (exists t v, sel "keytype" kj = JStr t /\ sel "public" (sel "keyval" kj) = JStr v) /\ pk_type key = KUnknown).
(** The only types of key a document may contain. *)
Definition key_type_ok (kj : json) : Prop :=
  exists t, jas_string (sel "keytype" kj) = Ok t /\ (to_lower t = "rsa" \/ to_lower t = "ed25519").

(** The keys of [ks] are those of the JSON object [kj]. *)
Definition keys_say (E : Env) (kj : json) (keys : list (string * pubkey)) : Prop :=
  (forall kid k, In (kid, k) (jiter kj) -> key_type_ok k) /\
  (forall kid key, aget kid keys = Some key -> exists k, In (kid, k) (jiter kj) /\ key_says E k key) /\
  (unique_members kj -> forall kid k, In (kid, k) (jiter kj) -> exists key, aget kid keys = Some key /\ key_says E k key).

(** The role description [rj] authorises key id [kid]. *)
Definition lists_key (rj : json) (kid : string) : Prop := exists kj, In kj (elems (sel "keyids" rj)) /\ jas_string kj = Ok kid.

(** The authorisations and thresholds of [ks] are exactly those of the role descriptions [l] (role name, JSON). *)
Definition roles_say (l : list (string * json)) (ks : keyset) : Prop :=
  (forall rn kid, In (rn, kid) (ks_role_keys ks) <-> exists rj, In (rn, rj) l /\ lists_key rj kid) /\
  (forall rn t, aget rn (ks_thr ks) = Some t -> 1 <= t <= 1000 /\ exists rj, In (rn, rj) l /\ jas_int64 (sel "threshold" rj) = Ok t) /\
  (NoDup (map fst l) -> forall rn rj, In (rn, rj) l -> exists t, aget rn (ks_thr ks) = Some t /\ jas_int64 (sel "threshold" rj) = Ok t).

(** The standard roles described in a "roles" object; their names are not case sensitive, other names are ignored. *)
Definition is_standard (n : string) : bool := mem_str (to_lower n) ["root"; "snapshot"; "targets"; "timestamp"].
Definition standard_roles (rolesj : json) : list (string * json) :=
  map (fun p => (to_lower (fst p), snd p)) (filter (fun p => is_standard (fst p)) (jiter rolesj)).

Record root_says (E : Env) (j : json) (R : root) : Prop := {
  rsy_base : base_says j (rt_base R);
  rsy_keys : keys_say E (sel "keys" (signed_part j)) (ks_keys (rt_ks R));
  rsy_roles : roles_say (standard_roles (sel "roles" (signed_part j))) (rt_ks R);
  rsy_policy : rt_policy R = PCheck }.

(** One entry of the "targets" object. *)
Definition hash_named (k v : string) (h : hash) : Prop :=
  h_val h = to_upper v /\ ((k = "sha256" /\ h_type h = Sha256) \/ (k = "sha512" /\ h_type h = Sha512)).
Record target_says (fn : string) (tj : json) (t : target) : Prop := {
  tsy_name : t_filename t = fn;
  tsy_valid : t_valid t = true;
  tsy_length : jas_uint64 (sel "length" tj) = Ok (t_length t) /\ 0 <= t_length t <= max_uint64;
  tsy_hashes : forall h, In h (t_hashes t) <-> exists k vj v, In (k, vj) (jiter (sel "hashes" tj)) /\ jas_string vj = Ok v /\ hash_named k v h;
  tsy_hwids : Forall2 (fun j h => jas_string j = Ok h) (elems (sel "hardwareIds" (sel "custom" tj))) (t_hwids t);
  tsy_ecus : NoDup (map fst (t_ecus t)) /\
    (forall e h, In (e, h) (t_ecus t) -> exists ej, In (e, ej) (jiter (sel "ecuIdentifiers" (sel "custom" tj))) /\ jas_string (sel "hardwareId" ej) = Ok h) /\
    (unique_members (sel "ecuIdentifiers" (sel "custom" tj)) -> forall e ej, In (e, ej) (jiter (sel "ecuIdentifiers" (sel "custom" tj))) ->
       exists h, In (e, h) (t_ecus t) /\ jas_string (sel "hardwareId" ej) = Ok h);
  tsy_custom : t_custom t = sel "custom" tj;
  tsy_type : jas_string (sel "targetFormat" (sel "custom" tj)) = Ok (t_type t);
  tsy_uri : exists u, jas_string (sel "uri" (sel "custom" tj)) = Ok u /\ t_uri t = (if String.eqb u "https://example.com/" then "" else u) }.

(** The delegated roles by name and description.  (The code takes a delegation called "invalidrole" for no role at all.) *)
Definition delegations (names : list string) (dj : json) : list (string * json) :=
  filter (fun p => negb (String.eqb (fst p) "invalidrole")) (combine names (elems (sel "roles" dj))).
Definition reserved_name (n : string) : Prop := In n ["root"; "targets"; "snapshot"; "timestamp"].

(** What a delegated role may sign for: the patterns of file names, and whether the search ends with it. *)
Definition scope_says (rj : json) (T : targets) (n : string) : Prop :=
  (exists ps, aget n (tg_paths T) = Some ps /\ Forall2 (fun j p => jas_string j = Ok p) (elems (sel "paths" rj)) ps) /\
  (exists b, aget n (tg_term T) = Some b /\ jas_bool (sel "terminating" rj) = Ok b).
Record targets_say (E : Env) (name : string) (j : json) (T : targets) : Prop := {
  gsy_base : base_says j (tg_base T);
  gsy_type : sel "_type" (signed_part j) = JStr "Targets";
  gsy_name : tg_name T = name;
  gsy_targets : Forall2 (fun m t => target_says (fst m) (snd m) t) (jiter (sel "targets" (signed_part j))) (tg_targets T);
  gsy_deleg : Forall2 (fun rj n => jas_string (sel "name" rj) = Ok n) (elems (sel "roles" (sel "delegations" (signed_part j)))) (tg_deleg T) /\
    (forall n, In n (tg_deleg T) -> ~ reserved_name (to_lower n));
  gsy_keys : keys_say E (sel "keys" (sel "delegations" (signed_part j))) (ks_keys (tg_ks T));
  gsy_roles : roles_say (delegations (tg_deleg T) (sel "delegations" (signed_part j))) (tg_ks T);
  gsy_scope : forall n, In n (tg_deleg T) ->
    exists rj, In (n, rj) (combine (tg_deleg T) (elems (sel "roles" (sel "delegations" (signed_part j))))) /\ scope_says rj T n;
  gsy_corr : jas_string (sel "correlationId" (sel "custom" (signed_part j))) = Ok (tg_corr T) }.

Definition members (j : json) : list (string * json) := match j with JObj l => l | _ => [] end.
(** A list of hashes as it is written in a Timestamp or Snapshot document (unknown algorithms are kept). *)
Definition hashes_say (hj : json) (l : list hash) : Prop :=
  Forall2 (fun m h => exists v, jas_string (snd m) = Ok v /\ h_val h = to_upper v /\
    h_type h = (if String.eqb (fst m) "sha256" then Sha256 else if String.eqb (fst m) "sha512" then Sha512 else HUnknown)) (members hj) l.

Record timestamp_says (j : json) (t : timestamp) : Prop := {
  msy_base : base_says j (tm_base t);
  msy_type : sel "_type" (signed_part j) = JStr "Timestamp";
  msy_version : jas_int (sel "version" (sel "snapshot.json" (sel "meta" (signed_part j)))) = Ok (tm_snap_version t);
  msy_hashes : hashes_say (sel "hashes" (sel "snapshot.json" (sel "meta" (signed_part j)))) (tm_hashes t) }.

(** The file name of a role in a Snapshot document: the part before the last dot. *)
Definition file_of (rn k : string) : Prop :=
  (exists ext, k = append rn (String "." ext) /\ forall a b, ext <> append a (String "." b)) \/
  (k = rn /\ forall a b, k <> append a (String "." b)).

Record snapshot_says (j : json) (sn : snapshot) : Prop := {
  ssy_base : base_says j (sn_base sn);
  ssy_type : sel "_type" (signed_part j) = JStr "Snapshot";
  ssy_version : forall rn, role_version sn rn <> -1 ->
    exists k mj, In (k, mj) (jiter (sel "meta" (signed_part j))) /\ file_of rn k /\ jas_int (sel "version" mj) = Ok (role_version sn rn);
  ssy_listed : unique_members (sel "meta" (signed_part j)) ->
    (forall rn k1 m1 k2 m2, In (k1, m1) (jiter (sel "meta" (signed_part j))) -> In (k2, m2) (jiter (sel "meta" (signed_part j))) ->
      file_of rn k1 -> file_of rn k2 -> k1 = k2) ->
    forall rn k mj, In (k, mj) (jiter (sel "meta" (signed_part j))) -> file_of rn k ->
      jas_int (sel "version" mj) = Ok (role_version sn rn) /\
      (hashes_say (sel "hashes" mj) (role_hashes sn rn)) }.
