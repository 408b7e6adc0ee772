(** What "signed to threshold" means, stated without reference to the verification code. *)
From Verif Require Import Base Json TufModel.

(** [jfield j k v]: the member [k] of JSON value [j] reads as the string [v]. *)
Definition jfield (j : json) (k v : string) : Prop := exists x, jget k j = Ok x /\ jas_string x = Ok v.

(** The roles metadata is verified for: the four standard ones and delegations. *)
Definition standard_role (r : role) : Prop :=
  r = role_root \/ r = role_snapshot \/ r = role_targets \/ r = role_timestamp.
Definition verifiable_role (r : role) : Prop :=
  standard_role r \/ (r_kind r = RDelegation).

(** The type a metadata document has to declare to be acceptable for a role. *)
Definition type_fits (r : role) (ty : string) : Prop :=
  if is_delegation r then to_lower ty = "targets" else to_lower ty = r_name r.

Definition supported_methods : list string := ["rsassa-pss"; "rsassa-pss-sha256"; "ed25519"].

(** The signature entries of a document. *)
Definition sig_entries (j : json) : list json :=
  match jget "signatures" j with Ok s => map snd (jiter s) | Throw _ => [] end.

(** The signer [ks] knows key id [kid] as [key] and lets it sign for role name [rn]. *)
Definition authorised (ks : keyset) (rn kid : string) (key : pubkey) : Prop :=
  aget kid (ks_keys ks) = Some key /\ In (rn, kid) (ks_role_keys ks).

(** Entry [e] is a valid signature over [msg] by [key] under the name [kid]. *)
Definition valid_entry (E : Env) (ks : keyset) (rn msg : string) (e : json) (kid : string) (key : pubkey) : Prop :=
  jfield e "keyid" kid /\ authorised ks rn kid key /\
  exists sg, jfield e "sig" sg /\ pk_type key <> KUnknown /\ verify E (pk_type key) (pk_value key) sg msg = Some true.

(** The document carries valid signatures over its signed part by at least [t] different authorised key ids. *)
Definition signed_by_at_least (E : Env) (ks : keyset) (rn : string) (j : json) (t : Z) : Prop :=
  exists signed_part good,
    jget "signed" j = Ok signed_part /\ NoDup good /\ t <= Z.of_nat (List.length good) /\
    forall kid, In kid good ->
      exists e key, In e (sig_entries j) /\ valid_entry E ks rn (canon E signed_part) e kid key.

(** Same, counting public keys instead of key ids. *)
Definition signed_by_at_least_keys (E : Env) (ks : keyset) (rn : string) (j : json) (t : Z) : Prop :=
  exists signed_part (good : list pubkey),
    jget "signed" j = Ok signed_part /\ NoDup good /\ t <= Z.of_nat (List.length good) /\
    forall key, In key good ->
      exists e kid, In e (sig_entries j) /\ valid_entry E ks rn (canon E signed_part) e kid key.

(** The signatures of the document can be processed at all: readable, each key id once, supported methods, and the
    crypto library raises no error on the entries that are looked at. *)
Definition signatures_processable (E : Env) (ks : keyset) (rn : string) (j : json) : Prop :=
  exists signed_part sigs kids,
    jget "signed" j = Ok signed_part /\ jget "signatures" j = Ok sigs /\
    Forall2 (fun e kid => jfield e "keyid" kid) (sig_entries j) kids /\ NoDup kids /\
    (forall e, In e (sig_entries j) -> exists m, jfield e "method" m /\ In (to_lower m) supported_methods) /\
    (forall e kid key, In e (sig_entries j) -> jfield e "keyid" kid -> authorised ks rn kid key ->
       exists sg, jfield e "sig" sg /\
         (pk_type key = KUnknown \/ verify E (pk_type key) (pk_value key) sg (canon E signed_part) <> None)).

Definition threshold_met (E : Env) (ks : keyset) (rn : string) (j : json) : Prop :=
  exists t, aget rn (ks_thr ks) = Some t /\ 1 <= t <= 1000 /\ signed_by_at_least E ks rn j t.

Definition declares_type (r : role) (j : json) : Prop :=
  exists s ty, jget "signed" j = Ok s /\ jfield s "_type" ty /\ type_fits r ty.

(** [acceptable E ks r j]: document [j] is to be accepted for role [r] by the signer with key set [ks]. *)
Definition acceptable (E : Env) (ks : keyset) (r : role) (j : json) : Prop :=
  declares_type r j /\ signatures_processable E ks (r_name r) j /\ threshold_met E ks (r_name r) j.

(** The signer registers no public key under two ids for the role. *)
Definition key_ids_injective (ks : keyset) (rn : string) : Prop :=
  forall k1 k2 key, authorised ks rn k1 key -> authorised ks rn k2 key -> k1 = k2.

(** ** When two target descriptions denote the same image *)
Definition same_ecus (m1 m2 : list (string * string)) : Prop := forall ecu, aget ecu m1 = aget ecu m2.
(** [hw]'s side only lists hardware ids, [ecus]' side only assigns ECUs, each of which has one of the hardware ids. *)
Definition hw_covers (hw_side ecu_side : target) : Prop :=
  t_hwids hw_side <> [] /\ t_ecus hw_side = [] /\ t_hwids ecu_side = [] /\ t_ecus ecu_side <> [] /\
  forall ecu h, In (ecu, h) (t_ecus ecu_side) -> In h (t_hwids hw_side).
Definition compatible_hw (a b : target) : Prop :=
  (t_hwids a = t_hwids b /\ same_ecus (t_ecus a) (t_ecus b)) \/ hw_covers a b \/ hw_covers b a.
Definition same_target (a b : target) : Prop :=
  t_filename a = t_filename b /\ t_length a = t_length b /\ compatible_hw a b /\
  (exists h, In h (t_hashes a) /\ In h (t_hashes b)) /\
  (forall h1 h2, In h1 (t_hashes a) -> In h2 (t_hashes b) -> h_type h1 = h_type h2 -> h_val h1 = h_val h2).
