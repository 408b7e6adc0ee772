(** The documents that the generator writes, as the client reads them. *)
From Verif Require Import Base Json TufModel TufSpec TufProofs MetaStore RepoModel RepoSpec RepoProofs RepoProofs4 GenModel GenSpec GenProofs.

(** ** Shapes *)
Definition om (k : string) (o : option json) : list (string * json) := match o with Some v => [(k, v)] | None => [] end.
Definition root_shape (keys roles : json) (e : string) (v : Z) : json :=
  JObj [("_type", JStr "Root"); ("expires", JStr e); ("keys", keys); ("roles", roles); ("version", JInt v)].
Definition snap_shape (e : string) (ml : list (string * json)) (v : Z) : json :=
  JObj [("_type", JStr "Snapshot"); ("expires", JStr e); ("meta", JObj ml); ("version", JInt v)].
Definition ts_shape (e a b : string) (len sv v : Z) : json :=
  JObj [("_type", JStr "Timestamp"); ("expires", JStr e);
        ("meta", JObj [("snapshot.json", JObj [("hashes", JObj [("sha256", JStr a); ("sha512", JStr b)]); ("length", JInt len); ("version", JInt sv)])]);
        ("version", JInt v)].
Definition tgt_shape (cu de : option json) (e : string) (ts : json) (v : Z) : json :=
  JObj (("_type", JStr "Targets") :: om "custom" cu ++ om "delegations" de ++ [("expires", JStr e); ("targets", ts); ("version", JInt v)]).

Lemma plain_signed kid m sg j : ascii_text kid = true -> ascii_text m = true -> ascii_text sg = true -> plain j = true -> plain (signed_doc kid m sg j) = true.
Proof. intros A B C D. unfold signed_doc. cbn [plain forallb fst snd]. rewrite A, B, C, D. reflexivity. Qed.

(** ** Acceptance *)
Section Docs.
Context (E : Env).
Lemma accept_signed ks r kid m sg j ty key :
  verifiable_role r -> jget "_type" j = Ok (JStr ty) -> role_of_string ty = r -> is_delegation r = false ->
  aget kid (ks_keys ks) = Some key -> mem_pair (r_name r, kid) (ks_role_keys ks) = true -> aget (r_name r) (ks_thr ks) = Some 1 ->
  method_supported m = true -> pk_type key <> KUnknown -> verify E (pk_type key) (pk_value key) sg (canon E j) = Some true ->
  acceptable E ks r (signed_doc kid m sg j).
Proof.
  intros V T R D K P Th M U Ve. apply (proj1 (unpack_signed_iff E ks r _ V)).
  unfold unpack_signed. change (jget "signed" (signed_doc kid m sg j)) with (Ok j). cbn [bind]. rewrite T. cbn [bind jas_string]. rewrite R, D. cbn [andb negb].
  replace (role_eqb r r) with true by (unfold role_eqb; now rewrite String.eqb_refl). cbn [negb].
  change (jget "signatures" (signed_doc kid m sg j)) with (@Ok json (JArr [JObj [("keyid", JStr kid); ("method", JStr m); ("sig", JStr sg)]])). cbn [bind].
  change (jiter (JArr [JObj [("keyid", JStr kid); ("method", JStr m); ("sig", JStr sg)]])) with [(to_dec 0, JObj [("keyid", JStr kid); ("method", JStr m); ("sig", JStr sg)])].
  cbn [sig_loop].
  change (jget "keyid" (JObj [("keyid", JStr kid); ("method", JStr m); ("sig", JStr sg)])) with (Ok (JStr kid)).
  change (jget "method" (JObj [("keyid", JStr kid); ("method", JStr m); ("sig", JStr sg)])) with (Ok (JStr m)).
  change (jget "sig" (JObj [("keyid", JStr kid); ("method", JStr m); ("sig", JStr sg)])) with (Ok (JStr sg)).
  cbn [bind jas_string mem_str existsb]. rewrite M, K, P. cbn [negb bind]. unfold verify_signature. revert Ve U. destruct (pk_type key); intros Ve U; try congruence; rewrite Ve; cbn [bind]; rewrite Th; reflexivity.
Qed.

(** ** Bases *)
Lemma base_signed kid m sg j v e : jget "version" j = Ok (JInt v) -> in_range min_int max_int v = true -> jget "expires" j = Ok (JStr e) -> timestamp_of_string e = Ok e ->
  base_init (signed_doc kid m sg j) = Ok {| b_version := v; b_expiry := e; b_orig := signed_doc kid m sg j |}.
Proof.
  intros A B C D. unfold base_init. cbn [jis_object signed_doc negb].
  change (jmember "signed" (signed_doc kid m sg j)) with (Ok true). change (jget "signed" (signed_doc kid m sg j)) with (Ok j). cbn [bind negb].
  rewrite A. cbn [bind]. unfold jas_int, jas_range. rewrite B. cbn [bind]. rewrite C. cbn [bind jas_string]. now rewrite D.
Qed.
Lemma extract_signed raw kid m sg j v : parse E raw = signed_doc kid m sg j -> jget "version" j = Ok (JInt v) -> in_range min_int max_int v = true -> extract_version_untrusted E raw = Ok v.
Proof.
  intros P A B. unfold extract_version_untrusted. rewrite P. change (jget "signed" (signed_doc kid m sg j)) with (Ok j). cbn [bind]. rewrite A. cbn [bind jis_integral negb].
  unfold jas_int, jas_range. now rewrite B.
Qed.

(** ** Roots *)
Context (keyid : pubkey -> string).
Lemma pubkey_round p : pk_type p <> KUnknown -> (pk_type p <> KEd25519 -> rsa_type E (pk_value p) = pk_type p) -> pubkey_of_json E (to_uptane p) = p.
Proof.
  intros U R. destruct p as [t x]. cbn in U, R. unfold pubkey_of_json, to_uptane. cbn. destruct t; cbn; try congruence; try (rewrite R by discriminate); reflexivity.
Qed.
Lemma parse_keys_spec : forall l, NoDup (map fst l) -> (forall kid j, In (kid, j) l -> exists p, j = to_uptane p /\ pk_type p <> KUnknown) ->
  forall ks, exists ks', parse_keys E l ks = Ok ks' /\ ks_role_keys ks' = ks_role_keys ks /\ ks_thr ks' = ks_thr ks /\
    forall kid, aget kid (ks_keys ks') = match aget kid l with Some j => Some (pubkey_of_json E j) | None => aget kid (ks_keys ks) end.
Proof.
  induction l as [|(k, j) l IH]; intros N H ks.
  - exists ks. repeat split; auto.
  - inversion N as [|? ? N1 N2]; subst. destruct (H k j (or_introl eq_refl)) as (p & -> & U). cbn [parse_keys].
    change (jget "keytype" (to_uptane p)) with (Ok (JStr (match pk_type p with KUnknown => "unknown" | KEd25519 => "ED25519" | _ => "RSA" end))). cbn [bind jas_string].
    replace (negb _) with false by (destruct (pk_type p); try congruence; reflexivity).
    destruct (IH N2 (fun kid j i => H kid j (or_intror i)) {| ks_keys := aset k (pubkey_of_json E (to_uptane p)) (ks_keys ks); ks_role_keys := ks_role_keys ks; ks_thr := ks_thr ks |})
      as (ks' & A & B & C & D). exists ks'. split; [exact A|]. split; [exact B|]. split; [exact C|]. intros kid. rewrite D. cbn [aget ks_keys aset].
    destruct (String.eqb_spec kid k) as [->|]; [|reflexivity]. destruct (aget k l) eqn:G; [|reflexivity]. exfalso. apply N1. apply aget_in in G. apply (in_map fst) in G. exact G.
Qed.

(** The key set that a Root of the generator declares. *)
Definition keys_list (K : repo_keys) : list (string * json) := put_key keyid (rk_timestamp K) (put_key keyid (rk_targets K) (put_key keyid (rk_snapshot K) (put_key keyid (rk_root K) []))).
Definition roles_list (K : repo_keys) : list (string * json) :=
  [("root", root_role keyid (rk_root K)); ("snapshot", root_role keyid (rk_snapshot K)); ("targets", root_role keyid (rk_targets K)); ("timestamp", root_role keyid (rk_timestamp K))].
Definition root_doc_json (K : repo_keys) (e : string) (v : Z) : json := root_shape (JObj (keys_list K)) (JObj (roles_list K)) e v.
Lemma root_json_shape I K : root_json keyid I K = root_doc_json K (n_expires I) 1. Proof. reflexivity. Qed.

Lemma in_keys_list K kid j : In (kid, j) (keys_list K) -> exists kp, In kp (keys_of K) /\ kid = keyid (kp_pub kp) /\ j = to_uptane (kp_pub kp).
Proof.
  unfold keys_list, put_key. intros H. repeat (apply in_oput in H as [H|H]; [injection H as -> ->; eexists; split; [|split; reflexivity]; cbn; tauto|]). destruct H.
Qed.
Lemma keys_list_increasing K : increasing (keys_list K) = true.
Proof. unfold keys_list, put_key. repeat apply oput_increasing. reflexivity. Qed.
Lemma keys_list_get K kp : keys_ok E keyid K -> In kp (keys_of K) -> aget (keyid (kp_pub kp)) (keys_list K) = Some (to_uptane (kp_pub kp)).
Proof.
  intros (_ & Inj) H.
  assert (exists j, aget (keyid (kp_pub kp)) (keys_list K) = Some j) as (j & G).
  { assert (P : forall k v l x, (exists j, aget x l = Some j) -> exists j, aget x (oput k v l) = Some j).
    { intros k v l x (j & A). destruct (String.eqb_spec x k) as [->|N]; [rewrite aget_oput; eauto|rewrite aget_oput_other; eauto]. }
    unfold keys_list, put_key. cbn in H. destruct H as [<-|[<-|[<-|[<-|[]]]]].
    - apply P, P, P. rewrite aget_oput. eauto.
    - apply P, P. rewrite aget_oput. eauto.
    - apply P. rewrite aget_oput. eauto.
    - rewrite aget_oput. eauto. }
  rewrite G. apply aget_in in G. apply in_keys_list in G as (kp' & H' & e & ->). now rewrite (Inj kp kp' H H' e).
Qed.
Definition root_keyset (K : repo_keys) : keyset :=
  match parse_keys E (keys_list K) ks_empty with
  | Ok ks => {| ks_keys := ks_keys ks;
                ks_role_keys := [("timestamp", keyid (kp_pub (rk_timestamp K))); ("targets", keyid (kp_pub (rk_targets K)));
                                 ("snapshot", keyid (kp_pub (rk_snapshot K))); ("root", keyid (kp_pub (rk_root K)))];
                ks_thr := [("timestamp", 1); ("targets", 1); ("snapshot", 1); ("root", 1)] |}
  | Throw _ => ks_empty
  end.
Lemma root_keyset_keys K kp : keys_ok E keyid K -> In kp (keys_of K) -> aget (keyid (kp_pub kp)) (ks_keys (root_keyset K)) = Some (kp_pub kp).
Proof.
  intros H i. unfold root_keyset. destruct (parse_keys_spec (keys_list K) (increasing_nodup _ (keys_list_increasing K))) with (ks := ks_empty) as (ks & -> & _ & _ & D).
  { intros kid j h. apply in_keys_list in h as (kp' & i' & -> & ->). destruct H as (H & _). apply H in i' as (U & _). eauto. }
  cbn [ks_keys]. rewrite D, keys_list_get by auto. destruct H as (H & _). apply H in i as (U & R & _). now rewrite pubkey_round.
Qed.
Lemma root_parse K kid m sg e v : keys_ok E keyid K -> in_range min_int max_int v = true -> timestamp_of_string e = Ok e ->
  root_of_json E (signed_doc kid m sg (root_doc_json K e v)) =
    Ok {| rt_policy := PCheck; rt_base := {| b_version := v; b_expiry := e; b_orig := signed_doc kid m sg (root_doc_json K e v) |}; rt_ks := root_keyset K |}.
Proof.
  intros H B T. unfold root_of_json. rewrite (base_signed kid m sg (root_doc_json K e v) v e) by (auto; reflexivity). cbn [bind].
  change (jget "signed" (signed_doc kid m sg (root_doc_json K e v))) with (Ok (root_doc_json K e v)). cbn [bind].
  change (jmember "keys" (root_doc_json K e v)) with (Ok true). change (jmember "roles" (root_doc_json K e v)) with (Ok true). cbn [bind negb].
  change (jget "keys" (root_doc_json K e v)) with (Ok (JObj (keys_list K))). change (jget "roles" (root_doc_json K e v)) with (Ok (JObj (roles_list K))). cbn [bind jiter].
  unfold root_keyset. destruct (parse_keys_spec (keys_list K) (increasing_nodup _ (keys_list_increasing K))) with (ks := ks_empty) as (ks & -> & A & C & _).
  { intros kid' j h. apply in_keys_list in h as (kp' & i' & -> & ->). destruct H as (H & _). apply H in i' as (U & _). eauto. }
  cbn [bind]. destruct ks as [kk rk th]. cbn [ks_role_keys ks_thr ks_empty] in A, C. subst. reflexivity.
Qed.
Lemma plain_root K e v : keys_ok E keyid K -> ascii_text e = true -> 0 <= v <= max_uint64 -> plain (root_doc_json K e v) = true.
Proof.
  intros (H & _) A B. assert (P : forall kp, In kp (keys_of K) -> key_ok E keyid kp) by auto.
  assert (R : forall kp, In kp (keys_of K) -> plain (root_role keyid kp) = true).
  { intros kp i. apply P in i as (_ & _ & _ & i). unfold root_role. cbn. now rewrite i. }
  apply plain_obj. split; [reflexivity|]. intros k x [e1|[e1|[e1|[e1|[e1|[]]]]]]; injection e1 as <- <-; (split; [reflexivity|]).
  - reflexivity.
  - exact A.
  - apply plain_obj. split; [apply keys_list_increasing|]. intros kid j i. apply in_keys_list in i as (kp & i & -> & ->). apply P in i as (_ & _ & i1 & i2). split; [exact i2|].
    unfold to_uptane. cbn. rewrite i1. destruct (pk_type (kp_pub kp)); reflexivity.
  - apply plain_obj. split; [reflexivity|]. intros k x [e1|[e1|[e1|[e1|[]]]]]; injection e1 as <- <-; (split; [reflexivity|]); apply R; cbn; tauto.
  - now apply plain_int.
Qed.

(** ** Signing *)
Context (I : invocation).
Lemma sign_accepted K mem rn r j ty doc :
  keys_ok E keyid K -> (forall kp, In kp (keys_of K) -> signs E I kp) -> repo_key K rn = aget rn mem ->
  In r [role_root; role_snapshot; role_targets; role_timestamp] -> rn = r_name r -> jget "_type" j = Ok (JStr ty) -> role_of_string ty = r -> plain j = true ->
  sign_tuf E keyid I mem rn j = Ok doc ->
  exists kid m sg, doc = signed_doc kid m sg j /\ plain doc = true /\ acceptable E (root_keyset K) r doc.
Proof.
  intros HK HS Hm Hr -> T R P. unfold sign_tuf. rewrite <- Hm.
  assert (exists kp, repo_key K (r_name r) = Some kp /\ In kp (keys_of K) /\ verifiable_role r /\ is_delegation r = false /\
    mem_pair (r_name r, keyid (kp_pub kp)) (ks_role_keys (root_keyset K)) = true /\ aget (r_name r) (ks_thr (root_keyset K)) = Some 1) as (kp & -> & i & V & D & M & Th).
  { unfold root_keyset. destruct (parse_keys_spec (keys_list K) (increasing_nodup _ (keys_list_increasing K))) with (ks := ks_empty) as (ks & -> & _).
    { intros kid' j' h. apply in_keys_list in h as (kp' & i' & -> & ->). destruct HK as (H & _). apply H in i' as (U & _). eauto. }
    cbn [ks_role_keys ks_thr].
    destruct Hr as [<-|[<-|[<-|[<-|[]]]]]; [exists (rk_root K)|exists (rk_snapshot K)|exists (rk_targets K)|exists (rk_timestamp K)];
      (split; [reflexivity|]); (split; [cbn; tauto|]); (split; [unfold verifiable_role, standard_role; tauto|]); (split; [reflexivity|]); (split; [|reflexivity]);
      unfold mem_pair; cbn [existsb fst snd r_name role_root role_snapshot role_targets role_timestamp String.eqb Ascii.eqb Bool.eqb andb orb]; rewrite String.eqb_refl; reflexivity. }
  pose proof (root_keyset_keys K kp HK i) as G. destruct HK as (HK & _). destruct (HK kp i) as (U & _ & _ & A). destruct (HS kp i (canon E j)) as (S1 & S2).
  intros H.
  assert (exists m, (m = "ed25519" \/ m = "rsassa-pss") /\ doc = signed_doc (keyid (kp_pub kp)) m (n_sign I (pk_type (kp_pub kp)) (kp_priv kp) (canon E j)) j) as (m & Hm' & ->).
  { destruct (pk_type (kp_pub kp)); try congruence; injection H as <-; eauto. }
  exists (keyid (kp_pub kp)), m, (n_sign I (pk_type (kp_pub kp)) (kp_priv kp) (canon E j)). split; [reflexivity|].
  split; [apply plain_signed; auto; destruct Hm' as [-> | ->]; reflexivity|].
  eapply accept_signed; eauto. destruct Hm' as [-> | ->]; reflexivity.
Qed.
End Docs.
