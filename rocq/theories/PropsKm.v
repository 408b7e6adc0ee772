(** C156-C158: the keys of a device: what it signs, its TLS credentials, its public key. *)
From Verif Require Import Base Json TufModel CodecModel CodecProofs TufProofs KmModel.
From Verif Require GenModel.

(** ** Specification *)
(** What is assumed of the cryptographic library about the pairs that it generates: the type of an RSA key is recognized, a private key in PEM is not
    hexadecimal, a public key of Ed25519 is no RSA key, and what is signed with one half is verified with the other. *)
Record crypto_ok (E : Env) (G : signer) (made : keytype -> string -> string -> Prop) : Prop := {
  ok_rsa : forall t pub priv, made t pub priv -> is_rsa t = true -> rsa_type E pub = t;
  ok_rsa_sig : forall t pub priv m, made t pub priv -> is_rsa t = true -> verify E t pub (to_base64 (g_rsa G priv m)) m = Some true;
  ok_rsa_hex : forall t pub priv m, made t pub priv -> is_rsa t = true -> exists e, g_ed G priv m = Throw e;
  ok_ed : forall pub priv, made KEd25519 pub priv -> rsa_type E pub = KUnknown;
  ok_ed_sig : forall pub priv m, made KEd25519 pub priv -> exists g, g_ed G priv m = Ok g /\ verify E KEd25519 pub (to_base64 g) m = Some true;
  ok_unknown : forall pub priv, ~ made KUnknown pub priv;
  ok_filled : forall t pub priv, made t pub priv -> pub <> "" }.
(** Starts of a device: each with its configuration, what the generation gives then, and whether storing works. *)
Definition start_of := ((keytype -> option (string * string)) * kmconfig * bool)%type.
Definition from_file (x : start_of) : Prop := kc_uptane (snd (fst x)) = SFile.
Definition makes (made : keytype -> string -> string -> Prop) (x : start_of) : Prop := forall t pub priv, fst (fst x) t = Some (pub, priv) -> made t pub priv.
Fixpoint starts (l : list start_of) (d : device) (s : kstore) : device * kstore :=
  match l with [] => (d, s) | x :: l' => let '(d', s', _) := generate (fst (fst x)) (snd (fst x)) (snd x) d s in starts l' d' s' end.
Definition new_device : kstore := {| ks_keys := None; ks_pkey := None; ks_cert := None; ks_ca := None |}.
(** The signature in a document and the name of the key. *)
Definition carries (doc : json) (kid : string) (j : json) : Prop :=
  exists method sig, doc = JObj [("signatures", JArr [JObj [("keyid", JStr kid); ("method", JStr method); ("sig", JStr sig)]]); ("signed", j)].

(** ** C156 *)
(** A device that has got its keys can sign, and what it signs is verified with the key it has got. *)
Definition C156_statement : Prop := forall E G made l d c gen stored d' s' pub label j,
  crypto_ok E G made -> Forall from_file l -> Forall (makes made) l -> kc_uptane c = SFile -> makes made (gen, c, stored) -> stored = true ->
  generate gen c stored d (snd (starts l d new_device)) = (d', s', Ok pub) ->
  exists doc, sign_tuf E G c d' label s' j = Ok doc /\ exists t, verify_manifest E {| pk_type := t; pk_value := pub |} doc = Ok true.

Lemma start_file gen c stored d s : kc_uptane c = SFile -> exists s' r, generate gen c stored d s = (d, s', r) /\
  ((ks_keys s = None /\ stored = true /\ exists k, gen (kc_type c) = Some k /\ ks_keys s' = Some k) \/ ks_keys s' = ks_keys s).
Proof.
  intros F. unfold generate. rewrite F. destruct (ks_keys s) as [[pub priv]|] eqn:K; [eexists _, _; split; [reflexivity|]; right; now rewrite K|].
  destruct (gen (kc_type c)) as [[pub priv]|] eqn:N; [|eexists _, _; split; [reflexivity|]; right; exact K].
  destruct stored; eexists _, _; (split; [reflexivity|]); [left|right; exact K]. repeat split. exists (pub, priv). auto.
Qed.
Lemma starts_made made l : forall d s, Forall from_file l -> Forall (makes made) l ->
  (forall pub priv, ks_keys s = Some (pub, priv) -> exists t, made t pub priv) ->
  fst (starts l d s) = d /\ forall pub priv, ks_keys (snd (starts l d s)) = Some (pub, priv) -> exists t, made t pub priv.
Proof.
  induction l as [|[[gen c] stored] l IH]; intros d s F M K; cbn [starts]; [split; [reflexivity|exact K]|].
  inversion F as [|? ? F1 F2]; subst. inversion M as [|? ? M1 M2]; subst. cbn [fst snd].
  destruct (start_file gen c stored d s F1) as (s' & r & -> & H). apply IH; auto. intros pub priv K'.
  destruct H as [(_ & _ & [p q] & N & K2)|K2]; [|apply K; congruence]. rewrite K2 in K'. injection K' as <- <-. exists (kc_type c). exact (M1 _ _ _ N).
Qed.
Lemma doc_verifies E k kid method sig j : verify_manifest E k (GenModel.signed_doc kid method sig j) = verify_signature E k sig (canon E j).
Proof. reflexivity. Qed.
Lemma signed_by E G made t pub priv c d label s j doc : crypto_ok E G made -> made t pub priv -> ks_keys s = Some (pub, priv) -> kc_uptane c = SFile ->
  sign_tuf E G c d label s j = Ok doc -> kc_type c = t /\ verify_manifest E {| pk_type := t; pk_value := pub |} doc = Ok true /\
    carries doc (key_id E {| pk_type := t; pk_value := pub |}) j.
Proof.
  intros O M K F H. unfold sign_tuf in H. rewrite F, K in H.
  apply bind_ok in H as (g & Hg & H). apply bind_ok in H as (me & Hm & H). apply bind_ok in H as (pk & Hp & H). injection H as <-.
  unfold uptane_public in Hp. rewrite F, K in Hp. unfold mk_pubkey in Hp.
  assert (T : kc_type c = t).
  { destruct (is_rsa t) eqn:R.
    - pose proof (ok_rsa _ _ _ O _ _ _ M R) as RT. destruct (kc_type c) eqn:KT; cbn [is_rsa andb] in Hp.
      + cbn [crypto_sign] in Hg. destruct (ok_rsa_hex _ _ _ O _ _ _ (canon E j) M R) as (e & X). congruence.
      + rewrite RT in Hp. destruct t; try discriminate. reflexivity.
      + rewrite RT in Hp. destruct t; try discriminate. reflexivity.
      + rewrite RT in Hp. destruct t; try discriminate. reflexivity.
      + discriminate.
    - destruct t; try discriminate; [|destruct (ok_unknown _ _ _ O _ _ M)].
      pose proof (ok_ed _ _ _ O _ _ M) as RT. destruct (kc_type c) eqn:KT; cbn [is_rsa andb] in Hp; try (rewrite RT in Hp; discriminate); [reflexivity|discriminate]. }
  split; [exact T|]. rewrite T in *.
  assert (pk = {| pk_type := t; pk_value := pub |}) as -> by (destruct (is_rsa t && _)%bool; [discriminate|]; congruence).
  split; [|eexists _, _; reflexivity]. rewrite doc_verifies. unfold verify_signature. cbn [pk_type pk_value].
  destruct t; cbn [crypto_sign] in Hg.
  - destruct (ok_ed_sig _ _ _ O _ _ (canon E j) M) as (g' & X & V). assert (g' = g) as -> by congruence. now rewrite V.
  - injection Hg as <-. now rewrite (ok_rsa_sig _ _ _ O _ _ _ (canon E j) M eq_refl).
  - injection Hg as <-. now rewrite (ok_rsa_sig _ _ _ O _ _ _ (canon E j) M eq_refl).
  - injection Hg as <-. now rewrite (ok_rsa_sig _ _ _ O _ _ _ (canon E j) M eq_refl).
  - discriminate.
Qed.
(** Whatever configurations a device has had: if it signs at all, the signature is that of the key it has, under its name. *)
Theorem C156_partial : forall E G made l d c label j doc, crypto_ok E G made -> Forall from_file l -> Forall (makes made) l -> kc_uptane c = SFile ->
  sign_tuf E G c d label (snd (starts l d new_device)) j = Ok doc ->
  exists pub priv, ks_keys (snd (starts l d new_device)) = Some (pub, priv) /\ made (kc_type c) pub priv /\
    verify_manifest E {| pk_type := kc_type c; pk_value := pub |} doc = Ok true /\ carries doc (key_id E {| pk_type := kc_type c; pk_value := pub |}) j.
Proof.
  intros E G made l d c label j doc O F M Fc H.
  destruct (starts_made made l d new_device F M ltac:(intros; discriminate)) as [_ K].
  destruct (ks_keys (snd (starts l d new_device))) as [[pub priv]|] eqn:S1.
  - destruct (K _ _ eq_refl) as (t & Mt). destruct (signed_by _ _ _ _ _ _ _ _ _ _ _ _ O Mt S1 Fc H) as (T & V & C). rewrite T. eauto 10.
  - exfalso. unfold sign_tuf in H. apply bind_ok in H as (g & _ & H). apply bind_ok in H as (me & _ & H). apply bind_ok in H as (pk & Hp & _).
    unfold uptane_public in Hp. rewrite Fc, S1 in Hp. discriminate.
Qed.
(** As long as the type of the key in the configuration stays the same, the device can sign. *)
Theorem C156_works : forall E G made l d c gen d' s' pub label j,
  crypto_ok E G made -> Forall from_file l -> Forall (makes made) l -> Forall (fun x => kc_type (snd (fst x)) = kc_type c) l -> kc_uptane c = SFile -> makes made (gen, c, true) ->
  generate gen c true d (snd (starts l d new_device)) = (d', s', Ok pub) ->
  exists doc, sign_tuf E G c d' label s' j = Ok doc /\ verify_manifest E {| pk_type := kc_type c; pk_value := pub |} doc = Ok true /\
    carries doc (key_id E {| pk_type := kc_type c; pk_value := pub |}) j.
Proof.
  intros E G made l d c gen d' s' pub label j O F M T Fc Mg H.
  assert (K : forall l s, Forall from_file l -> Forall (makes made) l -> Forall (fun x => kc_type (snd (fst x)) = kc_type c) l ->
    (forall pub priv, ks_keys s = Some (pub, priv) -> made (kc_type c) pub priv) -> forall pub priv, ks_keys (snd (starts l d s)) = Some (pub, priv) -> made (kc_type c) pub priv).
  { clear - d. induction l as [|[[g c1] st] l IH]; intros s F M T K; cbn [starts]; [exact K|].
    inversion F as [|? ? F1 F2]; subst. inversion M as [|? ? M1 M2]; subst. inversion T as [|? ? T1 T2]; subst. cbn [fst snd] in *.
    destruct (start_file g c1 st d s F1) as (s1 & r & -> & H). apply IH; auto. intros p q K'.
    destruct H as [(_ & _ & [p' q'] & N & K2)|K2]; [|apply K; congruence]. rewrite K2 in K'. injection K' as <- <-. rewrite <- T1. exact (M1 _ _ _ N). }
  specialize (K l new_device F M T ltac:(intros; discriminate)).
  assert (X : d' = d /\ exists priv, ks_keys s' = Some (pub, priv) /\ made (kc_type c) pub priv).
  { unfold generate in H. rewrite Fc in H. destruct (ks_keys (snd (starts l d new_device))) as [[p q]|] eqn:S1.
    - injection H as <- <- H. split; [reflexivity|]. destruct (_ && _)%bool; [discriminate|]. injection H as <-. exists q. auto.
    - destruct (gen (kc_type c)) as [[p q]|] eqn:N; [|discriminate]. injection H as <- <- H. split; [reflexivity|]. destruct (_ && _)%bool; [discriminate|]. injection H as <-.
      exists q. split; [reflexivity|]. exact (Mg _ _ _ N). }
  destruct X as (-> & priv & S1 & Mp).
  assert (Doc : exists doc, sign_tuf E G c d label s' j = Ok doc).
  { unfold sign_tuf, uptane_public, mk_pubkey. rewrite Fc, S1. destruct (kc_type c) eqn:KT.
    - destruct (ok_ed_sig _ _ _ O _ _ (canon E j) Mp) as (g & X & _). cbn [crypto_sign]. rewrite X. cbn [bind is_rsa andb]. eauto.
    - rewrite (ok_rsa _ _ _ O _ _ _ Mp eq_refl). cbn. eauto.
    - rewrite (ok_rsa _ _ _ O _ _ _ Mp eq_refl). cbn. eauto.
    - rewrite (ok_rsa _ _ _ O _ _ _ Mp eq_refl). cbn. eauto.
    - destruct (ok_unknown _ _ _ O _ _ Mp). }
  destruct Doc as (doc & Hd). exists doc. split; [exact Hd|]. destruct (signed_by _ _ _ _ _ _ _ _ _ _ _ _ O Mp S1 Fc Hd) as (_ & V & C). auto.
Qed.
(** A key once stored stays, whatever the configurations of later starts. *)
Theorem C156_stays : forall l d s k, Forall from_file l -> ks_keys s = Some k -> ks_keys (snd (starts l d s)) = Some k.
Proof.
  induction l as [|[[gen c] stored] l IH]; intros d s k F K; cbn [starts]; [exact K|]. inversion F as [|? ? F1 F2]; subst. cbn [fst snd].
  destruct (start_file gen c stored d s F1) as (s' & r & -> & H). apply IH; auto. destruct H as [(N & _)|H]; congruence.
Qed.

(** A small cryptographic library to show that the assumptions can be met. *)
Definition toy_sig (t : string) (priv m : string) : string := append t (append priv (append ":" m)).
Definition toyG : signer := {| g_rsa := fun priv m => if String.eqb priv "S2" then toy_sig "r" priv m else if String.eqb priv "S4" then toy_sig "r" priv m else "";
  g_ed := fun priv m => if String.eqb priv "bb" then Ok (toy_sig "e" priv m) else Throw EStd |}.
Definition toy_gen (t : keytype) : option (string * string) :=
  match t with KEd25519 => Some ("aa", "bb") | KRsa2048 => Some ("P2", "S2") | KRsa4096 => Some ("P4", "S4") | _ => None end.
Definition toyE : Env := {| canon := fun j => match j with JStr s => s | _ => "canon" end; parse := fun _ => JNull;
  rsa_type := fun p => if String.eqb p "P2" then KRsa2048 else if String.eqb p "P4" then KRsa4096 else KUnknown;
  verify := fun t p g m => Some (match t with
    | KEd25519 => String.eqb p "aa" && String.eqb g (to_base64 (toy_sig "e" "bb" m))
    | KRsa2048 => String.eqb p "P2" && String.eqb g (to_base64 (toy_sig "r" "S2" m))
    | KRsa4096 => String.eqb p "P4" && String.eqb g (to_base64 (toy_sig "r" "S4" m))
    | _ => false end);
  sha256hex := fun s => s; sha512hex := fun s => s |}.
Definition toy_made (t : keytype) (pub priv : string) : Prop := toy_gen t = Some (pub, priv).
Lemma toy_ok : crypto_ok toyE toyG toy_made.
Proof.
  constructor; unfold toy_made.
  - intros [| | | |] p q; cbn [toy_gen]; intros [= <- <-] R; try discriminate; reflexivity.
  - intros [| | | |] p q m; cbn [toy_gen]; intros [= <- <-] R; try discriminate; cbn [verify toyE toyG g_rsa]; cbn [String.eqb Ascii.eqb Bool.eqb andb]; now rewrite String.eqb_refl.
  - intros [| | | |] p q m; cbn [toy_gen]; intros [= <- <-] R; try discriminate; eexists; reflexivity.
  - intros p q [= <- <-]. reflexivity.
  - intros p q m [= <- <-]. eexists. split; [reflexivity|]. cbn [verify toyE]. cbn [String.eqb Ascii.eqb Bool.eqb andb]. now rewrite String.eqb_refl.
  - intros p q. discriminate.
  - intros [| | | |] p q; cbn [toy_gen]; intros [= <- <-]; discriminate.
Qed.
Definition cfg (t : keytype) : kmconfig := {| kc_p11 := false; kc_uptane := SFile; kc_type := t; kc_pkey := SFile; kc_cert := SFile; kc_ca := SFile |}.
Definition no_device : device := {| d_pub := None; d_new := None; d_sign := fun _ => ""; d_pkey_id := ""; d_cert_id := ""; d_ca_id := "" |}.
(** After a change of the type of the key in the configuration the start succeeds with the old key, but nothing can be signed any more. *)
Theorem C156_refuted : ~ C156_statement.
Proof.
  intros H.
  destruct (H toyE toyG toy_made [(toy_gen, cfg KRsa2048, true)] no_device (cfg KRsa4096) toy_gen true no_device
    (with_keys (Some ("P2", "S2")) new_device) "P2" "" (JStr "manifest") toy_ok) as (doc & D & _).
  - constructor; [reflexivity|constructor].
  - constructor; [|constructor]. intros t p q K. exact K.
  - reflexivity.
  - intros t p q K. exact K.
  - reflexivity.
  - reflexivity.
  - discriminate.
Qed.
(** With a PKCS#11 device that fails to sign, the document goes out with an empty signature. *)
Theorem C156_device_refuted : exists doc, sign_tuf toyE toyG {| kc_p11 := true; kc_uptane := SPkcs11; kc_type := KRsa2048; kc_pkey := SFile; kc_cert := SFile; kc_ca := SFile |}
    (with_pub (Some "P2") no_device) "03" new_device (JStr "manifest") = Ok doc /\
  manifest_sig doc = Ok "" /\ verify_manifest toyE {| pk_type := KRsa2048; pk_value := "P2" |} doc = Ok false.
Proof. eexists. split; [reflexivity|]. split; reflexivity. Qed.
(** If storing fails, the start reports a key that is not there. *)
Theorem C156_unstored_refuted : exists s', generate toy_gen (cfg KEd25519) false no_device new_device = (no_device, s', Ok "aa") /\ ks_keys s' = None.
Proof. eexists. split; reflexivity. Qed.
Example C156_case : exists doc, sign_tuf toyE toyG (cfg KEd25519) no_device "" (snd (starts [(toy_gen, cfg KEd25519, true); (toy_gen, cfg KRsa2048, true)] no_device new_device)) (JStr "m") = Ok doc.
Proof. eexists. vm_compute. reflexivity. Qed.

(** ** C157 *)
(** The credentials of the OSTree remote are the three that were loaded last, or none are used. *)
Definition C157_statement : Prop := forall c d s f pkey cert ca x, kc_pkey c = SFile -> kc_cert c = SFile -> kc_ca c = SFile ->
  remote_creds c d (load_keys c (Some pkey) (Some cert) (Some ca) s f) = Ok (Some x) -> x = (ca, cert, pkey).
Theorem C157_refuted : ~ C157_statement.
Proof.
  intros H. specialize (H (cfg KEd25519) no_device new_device {| t_pkey := Some "old key"; t_cert := Some "old cert"; t_ca := Some "old ca" |} "new key" "new cert" "" _ eq_refl eq_refl eq_refl eq_refl).
  discriminate.
Qed.
Lemma filled_spec x : filled x = true <-> x <> "".
Proof. unfold filled. destruct (String.eqb_spec x ""); cbn; split; congruence. Qed.
(** It is so if none of the three is empty. *)
Theorem C157_partial : forall c d s f pkey cert ca, kc_pkey c = SFile -> kc_cert c = SFile -> kc_ca c = SFile -> pkey <> "" -> cert <> "" -> ca <> "" ->
  remote_creds c d (load_keys c (Some pkey) (Some cert) (Some ca) s f) = Ok (Some (ca, cert, pkey)).
Proof.
  intros c d s f pkey cert ca P C A Hp Hc Ha. apply filled_spec in Hp, Hc, Ha. unfold remote_creds, load_keys, load_one, file_of. rewrite P, C, A.
  cbn [t_pkey t_cert t_ca]. rewrite Hp, Hc, Ha. cbn [bind]. now rewrite Hp, Hc, Ha.
Qed.
(** The Primary, which makes a key manager for every download, uses for OSTree what it uses for HTTP, whatever the sources. *)
Theorem C157_primary : forall c d s, match remote_creds c d (load_keys c None None None s no_files), copy_certs c d s with
  | Ok x, Ok y => x = y | Throw _, Throw _ => True | _, _ => False end.
Proof.
  intros c d s. unfold remote_creds, copy_certs, load_keys, load_one, file_of, get_pkey, get_cert, get_ca, from_source, no_files. cbn [t_pkey t_cert t_ca].
  assert (X : forall o : option string, match (if filled (match o with Some v => v | None => "" end) then Some (match o with Some v => v | None => "" end) else None) with Some x => x | None => "" end
    = match o with Some v => v | None => "" end).
  { intros [v|]; [|reflexivity]. destruct (filled v) eqn:Fv; [reflexivity|]. unfold filled in Fv. destruct (String.eqb_spec v ""); [now subst|discriminate]. }
  assert (Y : forall a b d : bool, (a && b && d = b && a && d)%bool) by (intros [] [] []; reflexivity).
  destruct (kc_pkey c), (kc_cert c), (kc_ca c), (kc_p11 c); cbn [bind]; rewrite ?X; auto; now rewrite Y.
Qed.
(** HTTP: all three or none; each from where it was configured. *)
Definition source_has (c : kmconfig) (src : source) (id : string) (stored : option string) (x : string) : Prop :=
  x <> "" /\ match src with SFile => stored = Some x | SPkcs11 => kc_p11 c = true /\ x = id end.
Theorem C157_http : forall c d s,
  (forall ca ce p, copy_certs c d s = Ok (Some (ca, ce, p)) <->
     source_has c (kc_ca c) (d_ca_id d) (ks_ca s) ca /\ source_has c (kc_cert c) (d_cert_id d) (ks_cert s) ce /\ source_has c (kc_pkey c) (d_pkey_id d) (ks_pkey s) p) /\
  (is_ready c d s = Ok true <-> exists x, copy_certs c d s = Ok (Some x)).
Proof.
  intros c d s.
  assert (Src : forall src id st x, from_source c src id st = Ok x /\ filled x = true <-> source_has c src id st x).
  { intros src id st x. unfold source_has, from_source. rewrite <- filled_spec. destruct src.
    - destruct st as [v|]; split.
      + intros [[= <-] H]. auto.
      + intros [H [= <-]]. auto.
      + intros [[= <-] H]. discriminate.
      + intros [_ H]. discriminate.
    - destruct (kc_p11 c); split.
      + intros [[= <-] H]. auto.
      + intros (H & _ & ->). auto.
      + intros [H _]. discriminate.
      + intros (_ & H & _). discriminate. }
  split.
  - intros ca ce p. unfold copy_certs. split.
    + intros H. apply bind_ok in H as (p' & Hp & H). apply bind_ok in H as (ce' & Hc & H). apply bind_ok in H as (ca' & Ha & H).
      destruct (filled p' && filled ce' && filled ca')%bool eqn:B; [|discriminate]. injection H as -> -> ->.
      apply Bool.andb_true_iff in B as [B B3]. apply Bool.andb_true_iff in B as [B1 B2]. rewrite <- !Src. auto.
    + intros (A & C & P). apply Src in A as [A1 A2]. apply Src in C as [C1 C2]. apply Src in P as [P1 P2].
      unfold get_pkey, get_cert, get_ca. rewrite P1, C1, A1. cbn [bind]. now rewrite P2, C2, A2.
  - unfold is_ready, copy_certs. split.
    + intros H. apply bind_ok in H as (p & Hp & H). destruct (filled p) eqn:Fp; [|discriminate]. cbn [negb] in H.
      apply bind_ok in H as (ce & Hc & H). destruct (filled ce) eqn:Fc; [|discriminate]. cbn [negb] in H. apply bind_ok in H as (ca & Ha & H). injection H as Fa.
      rewrite Hp, Hc, Ha. cbn [bind]. rewrite Fp, Fc, Fa. cbn [andb]. eauto.
    + intros (x & H). apply bind_ok in H as (p & Hp & H). apply bind_ok in H as (ce & Hc & H). apply bind_ok in H as (ca & Ha & H).
      destruct (filled p && filled ce && filled ca)%bool eqn:B; [|discriminate].
      apply Bool.andb_true_iff in B as [B B3]. apply Bool.andb_true_iff in B as [B1 B2].
      rewrite Hp, Hc, Ha. cbn [bind]. now rewrite B1, B2, B3.
Qed.
Definition full_store : kstore := {| ks_keys := None; ks_pkey := Some "key"; ks_cert := Some "cert"; ks_ca := Some "ca" |}.
Example C157_case : copy_certs (cfg KEd25519) no_device full_store = Ok (Some ("ca", "cert", "key")) /\
  remote_creds (cfg KEd25519) no_device (load_keys (cfg KEd25519) None None None full_store no_files) = Ok (Some ("ca", "cert", "key")).
Proof. split; reflexivity. Qed.

(** ** C158 *)
(** Keys as they come into being: from a document, a file, or a text with a type. *)
Definition built (E : Env) (k : pubkey) : Prop :=
  (exists j, k = pubkey_of_json E j) \/ (exists content, k = pubkey_of_file E content) \/ (exists v t, mk_pubkey E v t = Ok k).
Lemma built_rsa E k : built E k -> is_rsa (pk_type k) = true -> rsa_type E (pk_value k) = pk_type k.
Proof.
  intros [(j & ->)|[(content & ->)|(v & t & H)]].
  - unfold pubkey_of_json. match goal with |- context [match ?r with Ok _ => _ | Throw _ => _ end] => destruct r as [[[t v]|]|] end; cbn [pk_type pk_value]; try discriminate.
    destruct (String.eqb (to_lower t) "ed25519"); [discriminate|]. destruct (String.eqb (to_lower t) "rsa"); [reflexivity|discriminate].
  - reflexivity.
  - unfold mk_pubkey in H. destruct (is_rsa t) eqn:R; cbn [andb] in H.
    + destruct (kt_eqb t (rsa_type E v)) eqn:Q; [|discriminate]. injection H as <-. cbn [pk_type pk_value]. intros _. clear R. revert Q. destruct t, (rsa_type E v); intros Q; try discriminate Q; reflexivity.
    + injection H as <-. cbn [pk_type]. congruence.
Qed.
(** A public key that is written into a document and read again is the same key. *)
Theorem C158_round_trip : forall E k, built E k -> pubkey_of_json E (GenModel.to_uptane k) = k.
Proof.
  intros E k B. pose proof (built_rsa E k B) as R. destruct k as [t v]. cbn [pk_type pk_value] in R. destruct t; unfold GenModel.to_uptane; cbn [pk_type pk_value].
  - reflexivity.
  - specialize (R eq_refl). change (pubkey_of_json E _) with {| pk_type := rsa_type E v; pk_value := v |}. now rewrite R.
  - specialize (R eq_refl). change (pubkey_of_json E _) with {| pk_type := rsa_type E v; pk_value := v |}. now rewrite R.
  - specialize (R eq_refl). change (pubkey_of_json E _) with {| pk_type := rsa_type E v; pk_value := v |}. now rewrite R.
  - reflexivity.
Qed.
(** The name of a key identifies its text, up to newlines at the end (unless the hash collides on the two). *)
Fixpoint newlines (n : nat) : string := match n with O => "" | S m => String newline (newlines m) end.
Lemma trim_decomp s : exists n, s = append (trim_newlines s) (newlines n) .
Proof.
  induction s as [|c s (n & IH)]; [exists 0%nat; reflexivity|]. cbn [trim_newlines]. destruct (trim_newlines s) as [|c' s'] eqn:T.
  - destruct (Ascii.eqb_spec c newline) as [->|Hc]; [exists (S n); cbn; f_equal; exact IH|exists n; cbn; f_equal; exact IH].
  - exists n. cbn [append]. f_equal. exact IH.
Qed.
Lemma trim_app s n : trim_newlines (append s (newlines n)) = trim_newlines s.
Proof.
  assert (N : trim_newlines (newlines n) = "") by (induction n as [|n IH]; [reflexivity|]; cbn [newlines trim_newlines]; now rewrite IH, Ascii.eqb_refl).
  induction s as [|c s IH]; cbn [append]; [exact N|]. cbn [trim_newlines]. now rewrite IH.
Qed.
Theorem C158_name : forall E k k',
  (forall a b, a = trim_newlines (pk_value k) -> b = trim_newlines (pk_value k') ->
     to_lower (sha256hex E (canon E (JStr a))) = to_lower (sha256hex E (canon E (JStr b))) -> a = b) ->
  key_id E k = key_id E k' <-> exists v n m, pk_value k = append v (newlines n) /\ pk_value k' = append v (newlines m).
Proof.
  intros E k k' Hh. unfold key_id. split.
  - intros H. apply (Hh _ _ eq_refl eq_refl) in H. destruct (trim_decomp (pk_value k)) as (n & Hn). destruct (trim_decomp (pk_value k')) as (m & Hm).
    exists (trim_newlines (pk_value k)), n, m. split; [exact Hn|]. now rewrite H.
  - intros (v & n & m & -> & ->). now rewrite !trim_app.
Qed.
Example C158_case : built toyE {| pk_type := KRsa2048; pk_value := "P2" |} /\
  pubkey_of_json toyE (JObj [("keytype", JStr "Rsa"); ("keyval", JObj [("public", JStr "P2")])]) = {| pk_type := KRsa2048; pk_value := "P2" |} /\
  key_id toyE {| pk_type := KRsa2048; pk_value := "P2" |} <> key_id toyE {| pk_type := KRsa4096; pk_value := "P4" |}.
Proof. split; [right; right; exists "P2", KRsa2048; reflexivity|]. split; [reflexivity|discriminate]. Qed.

Print Assumptions C156_partial. Print Assumptions C156_works. Print Assumptions C156_stays. Print Assumptions C156_refuted. Print Assumptions C156_device_refuted. Print Assumptions C156_unstored_refuted.
Print Assumptions C157_partial. Print Assumptions C157_primary. Print Assumptions C157_http. Print Assumptions C157_refuted.
Print Assumptions C158_round_trip. Print Assumptions C158_name.
