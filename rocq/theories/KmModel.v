(** The key manager: /repo/src/libaktualizr/crypto/keymanager.cc, the use of its files in
    /repo/src/libaktualizr/package_manager/ostreemanager.cc:446-466, and the check of signed manifests in
    /repo/src/libaktualizr/uptane/manifest.cc:24-50. *)
From Verif Require Import Base Json TufModel CodecModel.
From Verif Require GenModel.

(** CryptoSource: types.h. *)
Inductive source := SFile | SPkcs11.
(** KeyManagerConfig, as far as used; [kc_p11]: is aktualizr built with PKCS#11 (keymanager.cc:15-19)? *)
Record kmconfig := { kc_p11 : bool; kc_uptane : source; kc_type : keytype; kc_pkey : source; kc_cert : source; kc_ca : source }.
(** External functions: RSAPSSSign without engine (124-184; empty: it fails),
    ED25519Sign behind unhex (186-198; an exception if the key is not hexadecimal). *)
Record signer := { g_rsa : string -> string -> string; g_ed : string -> string -> res string }.
(** The PKCS#11 device: the public key, whether it can generate one (and which), what it signs (empty: it fails; crypto.cc:127-138), the
    identifiers of the TLS objects. *)
Record device := { d_pub : option string; d_new : option string; d_sign : string -> string; d_pkey_id : string; d_cert_id : string; d_ca_id : string }.
(** The database: the Uptane key pair, the TLS credentials (sqlstorage.cc:74-139). *)
Record kstore := { ks_keys : option (string * string); ks_pkey : option string; ks_cert : option string; ks_ca : option string }.
Definition with_keys (k : option (string * string)) (s : kstore) : kstore := {| ks_keys := k; ks_pkey := ks_pkey s; ks_cert := ks_cert s; ks_ca := ks_ca s |}.
Definition with_pub (p : option string) (d : device) : device :=
  {| d_pub := p; d_new := d_new d; d_sign := d_sign d; d_pkey_id := d_pkey_id d; d_cert_id := d_cert_id d; d_ca_id := d_ca_id d |}.

Section Km.
Context (E : Env) (G : signer).

(** crypto.cc:64-70 PublicKey::PublicKey(value, type). *)
Definition is_rsa (t : keytype) : bool := match t with KRsa2048 | KRsa3072 | KRsa4096 => true | _ => false end.
Definition kt_eqb (a b : keytype) : bool :=
  match a, b with
  | KEd25519, KEd25519 | KRsa2048, KRsa2048 | KRsa3072, KRsa3072 | KRsa4096, KRsa4096 | KUnknown, KUnknown => true
  | _, _ => false
  end.
Definition mk_pubkey (v : string) (t : keytype) : res pubkey :=
  if (is_rsa t && negb (kt_eqb t (rsa_type E v)))%bool then Throw EStd else Ok {| pk_type := t; pk_value := v |}.
(** crypto.cc:16-18 PublicKey::PublicKey(path): from the contents of the file. *)
Definition pubkey_of_file (content : string) : pubkey := {| pk_type := rsa_type E content; pk_value := content |}.

(** crypto.cc:107-114 KeyId. *)
Definition newline : ascii := ascii_of_nat 10.
Fixpoint trim_newlines (s : string) : string :=
  match s with
  | EmptyString => EmptyString
  | String c s' => match trim_newlines s' with
                   | EmptyString => if Ascii.eqb c newline then EmptyString else String c EmptyString
                   | t => String c t
                   end
  end.
Definition key_id (k : pubkey) : string := to_lower (sha256hex E (canon E (JStr (trim_newlines (pk_value k))))).

(** crypto.cc:186-191 Sign; [dev]: with the engine. *)
Definition crypto_sign (t : keytype) (dev : option device) (priv msg : string) : res string :=
  match t with
  | KEd25519 => g_ed G priv msg
  | _ => match dev with Some d => Ok (d_sign d msg) | None => Ok (g_rsa G priv msg) end
  end.

(** keymanager.cc:330-347 UptanePublicKey. *)
Definition uptane_public (c : kmconfig) (d : device) (s : kstore) : res pubkey :=
  match kc_uptane c with
  | SFile => match ks_keys s with Some (pub, _) => mk_pubkey pub (kc_type c) | None => Throw EStd end
  | SPkcs11 => if negb (kc_p11 c) then Throw EStd else match d_pub d with Some pub => mk_pubkey pub (kc_type c) | None => Throw EStd end
  end.
(** keymanager.cc:257-298 signTuf.  A missing private key reads as empty. *)
Definition sign_tuf (c : kmconfig) (d : device) (key_label : string) (s : kstore) (j : json) : res json :=
  do sig <- match kc_uptane c with
            | SPkcs11 => if negb (kc_p11 c) then Throw EStd else crypto_sign (kc_type c) (Some d) key_label (canon E j)
            | SFile => crypto_sign (kc_type c) None (match ks_keys s with Some (_, priv) => priv | None => "" end) (canon E j)
            end;
  do method <- match kc_type c with KUnknown => Throw EStd | KEd25519 => Ok "ed25519" | _ => Ok "rsassa-pss" end;
  do pub <- uptane_public c d s;
  Ok (GenModel.signed_doc (key_id pub) method (to_base64 sig) j).

(** keymanager.cc:300-328 generateUptaneKeyPair; [gen]: Crypto::generateKeyPair (crypto.cc:481-486; None: it fails); [stored]: does storing work (an SQL error is only logged, sqlstorage.cc:79-82)? *)
Definition generate (gen : keytype -> option (string * string)) (c : kmconfig) (stored : bool) (d : device) (s : kstore) : device * kstore * res string :=
  match kc_uptane c with
  | SFile =>
      match ks_keys s with
      | Some (pub, priv) => (d, s, if (String.eqb pub "" && String.eqb priv "")%bool then Throw EStd else Ok pub)
      | None =>
          match gen (kc_type c) with
          | Some (pub, priv) => (d, if stored then with_keys (Some (pub, priv)) s else s, if (String.eqb pub "" && String.eqb priv "")%bool then Throw EStd else Ok pub)
          | None => (d, s, Throw EStd)
          end
      end
  | SPkcs11 =>
      if negb (kc_p11 c) then (d, s, Throw EStd) else
      match d_pub d with
      | Some pub => (d, s, Ok pub)
      | None => let d' := with_pub (d_new d) d in (d', s, match d_new d with Some pub => Ok pub | None => Throw EStd end)
      end
  end.

(** manifest.cc:25-50: the signature, the body and verifySignature; the check of a version report of a Secondary. *)
Definition manifest_sig (m : json) : res string :=
  do l <- jget "signatures" m;
  match l with JArr (x :: _) => do g <- jget "sig" x; jas_string g | JArr [] | JNull => Ok "" | _ => Throw EStd end.
Definition verify_manifest (k : pubkey) (m : json) : res bool :=
  do a <- jmember "signatures" m;
  do b <- jmember "signed" m;
  if negb (a && b) then Ok false else
  let sig := match manifest_sig m with Ok g => g | Throw _ => "" end in
  let body := match jget "signed" m with Ok j => canon E j | Throw _ => "" end in
  verify_signature E k sig body.

(** ** TLS credentials *)
(** keymanager.cc:122-162 getPkey, getCert, getCa. *)
Definition from_source (c : kmconfig) (src : source) (id : string) (stored : option string) : res string :=
  match src with
  | SPkcs11 => if kc_p11 c then Ok id else Throw EStd
  | SFile => Ok (match stored with Some x => x | None => "" end)
  end.
Definition get_pkey c d s := from_source c (kc_pkey c) (d_pkey_id d) (ks_pkey s).
Definition get_cert c d s := from_source c (kc_cert c) (d_cert_id d) (ks_cert s).
Definition get_ca c d s := from_source c (kc_ca c) (d_ca_id d) (ks_ca s).
Definition filled (x : string) : bool := negb (String.eqb x "").
(** keymanager.h:29 isOk *)
Definition is_ready (c : kmconfig) (d : device) (s : kstore) : res bool :=
  do p <- get_pkey c d s;
  if negb (filled p) then Ok false else
  do ce <- get_cert c d s;
  if negb (filled ce) then Ok false else
  do ca <- get_ca c d s; Ok (filled ca).
(** keymanager.cc:247-255 copyCertsToCurl: what setCerts is called with: CA, certificate, private key. *)
Definition copy_certs (c : kmconfig) (d : device) (s : kstore) : res (option (string * string * string)) :=
  do p <- get_pkey c d s;
  do ce <- get_cert c d s;
  do ca <- get_ca c d s;
  Ok (if (filled p && filled ce && filled ca)%bool then Some (ca, ce, p) else None).

(** The temporary files: their contents. *)
Record tmpfiles := { t_pkey : option string; t_cert : option string; t_ca : option string }.
Definition no_files : tmpfiles := {| t_pkey := None; t_cert := None; t_ca := None |}.
(** 28-72 loadKeys: contents given by the caller or of the database; an empty one leaves the file alone. *)
Definition load_one (src : source) (given stored old : option string) : option string :=
  match src with
  | SPkcs11 => old
  | SFile =>
      let x := match given with Some g => g | None => match stored with Some v => v | None => "" end end in
      if filled x then Some x else old
  end.
Definition load_keys (c : kmconfig) (pkey cert ca : option string) (s : kstore) (f : tmpfiles) : tmpfiles :=
  {| t_pkey := load_one (kc_pkey c) pkey (ks_pkey s) (t_pkey f);
     t_cert := load_one (kc_cert c) cert (ks_cert s) (t_cert f);
     t_ca := load_one (kc_ca c) ca (ks_ca s) (t_ca f) |}.
(** 74-120 getPkeyFile, getCertFile, getCaFile: here the contents of the file the path leads to (or the identifier of the object). *)
Definition file_of (c : kmconfig) (src : source) (id : string) (f : option string) : res string :=
  match src with
  | SPkcs11 => if kc_p11 c then Ok id else Throw EStd
  | SFile => Ok (match f with Some x => x | None => "" end)
  end.
(** ostreemanager.cc:454-465: the credentials of the OSTree remote: CA, certificate, private key. *)
Definition remote_creds (c : kmconfig) (d : device) (f : tmpfiles) : res (option (string * string * string)) :=
  do ce <- file_of c (kc_cert c) (d_cert_id d) (t_cert f);
  do p <- file_of c (kc_pkey c) (d_pkey_id d) (t_pkey f);
  do ca <- file_of c (kc_ca c) (d_ca_id d) (t_ca f);
  Ok (if (filled ce && filled p && filled ca)%bool then Some (ca, ce, p) else None).
End Km.
