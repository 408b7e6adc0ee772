(** The parsers read what the documents say. *)
From Verif Require Import Base Json TufModel TufProofs ParseSpec.

Lemma jget_sel k j x : jget k j = Ok x -> x = sel k j.
Proof. destruct j; simpl; try discriminate; try congruence. Qed.
Lemma jmember_sel k j b : jmember k j = Ok b -> b = false -> sel k j = JNull.
Proof. destruct j; simpl; try discriminate; auto. destruct (aget k l); [congruence|auto]. Qed.

Lemma aget_aset_same {A} k (v : A) m : aget k (aset k v m) = Some v.
Proof. simpl. now rewrite String.eqb_refl. Qed.
Lemma aget_in {A} k (v : A) m : aget k m = Some v -> In (k, v) m.
Proof. induction m as [|(k', v') m IH]; simpl; [discriminate|]. destruct (String.eqb_spec k k'); [intros; left; congruence|auto]. Qed.

(** *** Base *)
Lemma timestamp_of_string_ok s t : timestamp_of_string s = Ok t -> t = s /\ String.length s = 20%nat /\ String.get 19 s = Some "Z"%char.
Proof.
  unfold timestamp_of_string. destruct (Nat.eqb_spec (String.length s) 20); simpl; [|discriminate].
  destruct (String.get 19 s) as [c|]; [|discriminate]. destruct (Ascii.eqb_spec c "Z"%char); [|discriminate].
  intros H. injection H as <-. subst. auto.
Qed.
Lemma base_init_says j b : base_init j = Ok b -> base_says j b.
Proof.
  unfold base_init, base_says, signed_part. intros H. destruct (jis_object j); [|discriminate]. simpl in H.
  apply bind_ok in H. destruct H as (h & _ & H). destruct h; [|discriminate]. simpl in H.
  apply bind_ok in H. destruct H as (s & Hs & H). apply jget_sel in Hs. subst s.
  apply bind_ok in H. destruct H as (vj & Hs & H). apply jget_sel in Hs. subst vj.
  apply bind_ok in H. destruct H as (v & Hv & H).
  apply bind_ok in H. destruct H as (ej & Hs & H). apply jget_sel in Hs. subst ej.
  apply bind_ok in H. destruct H as (es & He & H).
  destruct (timestamp_of_string es) as [e|] eqn:Ht; [|discriminate]. injection H as <-. simpl.
  apply timestamp_of_string_ok in Ht. destruct Ht as (-> & A & B). auto.
Qed.
Lemma base_signed_says u r j b : base_of_json_signed u r j = Ok b -> base_says j b.
Proof.
  unfold base_of_json_signed. intros H. destruct (jis_object j); [|discriminate]. simpl in H.
  apply bind_ok in H. destruct H as (h & _ & H). destruct h; [|discriminate]. simpl in H.
  apply bind_ok in H. destruct H as (x & _ & H). now apply base_init_says.
Qed.

(** *** Keys *)
Lemma pubkey_says E kj : key_says E kj (pubkey_of_json E kj).
Proof.
  unfold key_says, pubkey_of_json.
  assert (Hbad : ~ (exists t v, sel "keytype" kj = JStr t /\ sel "public" (sel "keyval" kj) = JStr v) \/
    exists t v lk lv, kj = JObj lk /\ aget "keytype" lk = Some (JStr t) /\ aget "keyval" lk = Some (JObj lv) /\ aget "public" lv = Some (JStr v)).
  { destruct kj; simpl; try (left; intros (t & v & A & B); discriminate).
    destruct (aget "keytype" l) as [x|] eqn:Hx; [|left; intros (t & v & A & B); discriminate].
    destruct x; try (left; intros (t & v & A & B); discriminate).
    destruct (aget "keyval" l) as [y|] eqn:Hy; [|left; intros (t & v & A & B); discriminate].
    destruct y; try (left; intros (t & v & A & B); discriminate). simpl.
    destruct (aget "public" l0) as [z|] eqn:Hz; [|left; intros (t & v & A & B); discriminate].
    destruct z; try (left; intros (t & v & A & B); discriminate).
    right. exists s, s0, l, l0. auto. }
  destruct Hbad as [Hbad | (t & v & lk & lv & -> & A & B & C)].
  - right. split; auto.
    match goal with |- pk_type (match ?r with _ => _ end) = _ => destruct r as [[(t, v)|]|e] eqn:Hr end; auto.
    exfalso. apply Hbad.
    apply bind_ok in Hr. destruct Hr as (kt & K & Hr). apply jget_sel in K. subst kt.
    destruct (jis_string (sel "keytype" kj)) eqn:S1; [|discriminate]. simpl in Hr.
    apply bind_ok in Hr. destruct Hr as (kv & K & Hr). apply jget_sel in K. subst kv.
    destruct (jis_object (sel "keyval" kj)) eqn:S2; [|discriminate]. simpl in Hr.
    apply bind_ok in Hr. destruct Hr as (pu & K & Hr). apply jget_sel in K. subst pu.
    destruct (jis_string (sel "public" (sel "keyval" kj))) eqn:S3; [|discriminate].
    destruct (sel "keytype" kj); try discriminate. destruct (sel "public" (sel "keyval" kj)); try discriminate. eauto.
  - left. exists t, v. cbn -[String.eqb]. rewrite A. cbn -[String.eqb]. rewrite B. cbn -[String.eqb]. rewrite C. cbn -[String.eqb].
    do 3 (split; [reflexivity|]).
    destruct (String.eqb_spec (to_lower t) "ed25519"); auto. destruct (String.eqb_spec (to_lower t) "rsa"); auto.
Qed.
Lemma parse_keys_spec E : forall l ks ks', parse_keys E l ks = Ok ks' ->
  ks_role_keys ks' = ks_role_keys ks /\ ks_thr ks' = ks_thr ks /\
  (forall kid k, In (kid, k) l -> key_type_ok k) /\
  (forall kid key, aget kid (ks_keys ks') = Some key -> aget kid (ks_keys ks) = Some key \/ exists k, In (kid, k) l /\ key = pubkey_of_json E k) /\
  (forall kid, ~ In kid (map fst l) -> aget kid (ks_keys ks') = aget kid (ks_keys ks)) /\
  (NoDup (map fst l) -> forall kid k, In (kid, k) l -> aget kid (ks_keys ks') = Some (pubkey_of_json E k)).
Proof.
  induction l as [|(kid0, kj) l IH]; intros ks ks' H; cbn [parse_keys] in H.
  - injection H as <-. split; [auto|]. split; [auto|]. split; [intros ? ? []|]. split; [auto|]. split; [auto|]. intros _ ? ? [].
  - apply bind_ok in H. destruct H as (kt & K & H). apply jget_sel in K. subst kt.
    apply bind_ok in H. destruct H as (t & Ht & H). cbv zeta in H.
    destruct (String.eqb (to_lower t) "rsa" || String.eqb (to_lower t) "ed25519") eqn:Hty; [|discriminate].
    cbn [negb] in H. apply IH in H. destruct H as (A & B & C & D & F & G). cbn [ks_role_keys ks_thr ks_keys] in A, B, D, F.
    split; [exact A|]. split; [exact B|]. split; [|split; [|split]].
    + intros kid k [Heq | Hin]; [|eauto]. injection Heq as <- <-. exists t. split; auto. apply orb_true_iff in Hty.
      rewrite !String.eqb_eq in Hty. exact Hty.
    + intros kid key Hk. apply D in Hk. destruct Hk as [Hk | (k & Hk & ->)].
      * simpl in Hk. destruct (String.eqb_spec kid kid0).
        { subst. right. exists kj. split; [now left|]. congruence. }
        left; auto.
      * right. exists k. split; [now right|auto].
    + intros kid Hn. simpl in Hn. rewrite F by tauto. simpl. destruct (String.eqb_spec kid kid0); auto. subst. tauto.
    + intros HN kid k [Heq | Hin]; simpl in HN; inversion HN; subst.
      * injection Heq as <- <-. rewrite F by auto. apply aget_aset_same.
      * auto.
Qed.
Lemma parse_keys_say E kj ks : parse_keys E (jiter kj) ks_empty = Ok ks -> keys_say E kj (ks_keys ks) /\ ks_role_keys ks = [] /\ ks_thr ks = [].
Proof.
  intros H. apply parse_keys_spec in H. destruct H as (A & B & C & D & F & G). split; [|auto]. split; [exact C|]. split.
  - intros kid key Hk. apply D in Hk. destruct Hk as [Hk | (k & Hk & ->)]; [discriminate|]. exists k. split; auto. apply pubkey_says.
  - intros HN kid k Hin. exists (pubkey_of_json E k). split; [now apply G|apply pubkey_says].
Qed.

(** *** Roles *)
Lemma insert_keyids_spec rn : forall l acc r, insert_keyids rn l acc = Ok r ->
  forall rn' kid, In (rn', kid) r <-> In (rn', kid) acc \/ (rn' = rn /\ exists kj, In kj (map snd l) /\ jas_string kj = Ok kid).
Proof.
  induction l as [|(i, kj) l IH]; intros acc r H rn' kid; cbn [insert_keyids] in H.
  - injection H as <-. split; auto. intros [?|(_ & ? & [] & _)]; auto.
  - apply bind_ok in H. destruct H as (k & Hk & H). rewrite (IH _ _ H). simpl. split.
    + intros [[Heq | Hin] | (-> & x & Hx & Hs)]; auto.
      * injection Heq as <- <-. right. split; auto. exists kj. auto.
      * right. split; auto. exists x. auto.
    + intros [Hin | (-> & x & [<- | Hx] & Hs)]; auto.
      * left. left. congruence.
      * right. split; auto. exists x. auto.
Qed.
(** [roles_more l ks ks']: [ks'] is [ks] plus the role descriptions [l]. *)
Definition roles_more (l : list (string * json)) (ks ks' : keyset) : Prop :=
  ks_keys ks' = ks_keys ks /\
  (forall rn kid, In (rn, kid) (ks_role_keys ks') <-> In (rn, kid) (ks_role_keys ks) \/ exists rj, In (rn, rj) l /\ lists_key rj kid) /\
  (forall rn t, aget rn (ks_thr ks') = Some t -> aget rn (ks_thr ks) = Some t \/ (1 <= t <= 1000 /\ exists rj, In (rn, rj) l /\ jas_int64 (sel "threshold" rj) = Ok t)) /\
  (forall rn, ~ In rn (map fst l) -> aget rn (ks_thr ks') = aget rn (ks_thr ks)) /\
  (NoDup (map fst l) -> forall rn rj, In (rn, rj) l -> exists t, aget rn (ks_thr ks') = Some t /\ jas_int64 (sel "threshold" rj) = Ok t).
Lemma roles_more_nil ks : roles_more [] ks ks.
Proof.
  split; auto. split; [|split; [|split]]; auto.
  - intros rn kid. split; auto. intros [?|(? & [] & _)]; auto.
  - intros _ ? ? [].
Qed.
Lemma roles_more_cons rn rj l ks ks1 ks' : roles_more [(rn, rj)] ks ks1 -> roles_more l ks1 ks' -> roles_more ((rn, rj) :: l) ks ks'.
Proof.
  intros (A1 & B1 & C1 & D1 & F1) (A2 & B2 & C2 & D2 & F2). split; [congruence|]. split; [|split; [|split]].
  - intros rn' kid. rewrite B2, B1. split.
    + intros [[?|(x & [Hx|[]] & Hy)]|(x & Hx & Hy)]; auto; right; exists x; simpl; auto.
    + intros [?|(x & [Hx|Hx] & Hy)]; auto.
      * left. right. exists x. simpl. auto.
      * right. exists x. auto.
  - intros rn' t Ht. apply C2 in Ht. destruct Ht as [Ht|(R & x & Hx & Hy)].
    + apply C1 in Ht. destruct Ht as [?|(R & x & [Hx|[]] & Hy)]; auto. right. split; auto. exists x. simpl. auto.
    + right. split; auto. exists x. simpl; auto.
  - intros rn' Hn. simpl in Hn. rewrite D2, D1; auto. simpl. tauto.
  - intros HN rn' rj' [Heq|Hin]; simpl in HN; inversion HN; subst.
    + injection Heq as <- <-. destruct (F1 ltac:(simpl; constructor; [intros []|constructor]) rn rj (or_introl eq_refl)) as (t & Ht & Hj).
      exists t. rewrite D2; auto.
    + auto.
Qed.
Lemma parse_role_spec rj r ks ks' : parse_role rj r ks = Ok ks' ->
  (r_name r = "invalidrole" /\ ks' = ks) \/ (r_name r <> "invalidrole" /\ roles_more [(r_name r, rj)] ks ks').
Proof.
  unfold parse_role, role_eqb. simpl r_name. intros H. destruct (String.eqb_spec (r_name r) "invalidrole"); [left; split; congruence|].
  right. split; auto.
  apply bind_ok in H. destruct H as (tj & K & H). apply jget_sel in K. subst tj.
  apply bind_ok in H. destruct H as (t & Ht & H). unfold kMinSignatures, kMaxSignatures in H.
  destruct (Z.ltb_spec t 1); [discriminate|]. destruct (Z.ltb_spec 1000 t); [discriminate|].
  apply bind_ok in H. destruct H as (kids & K & H). apply jget_sel in K. subst kids.
  apply bind_ok in H. destruct H as (rk & Hrk & H). injection H as <-.
  split; [reflexivity|]. cbn [ks_role_keys ks_thr]. split; [|split; [|split]].
  - intros rn kid. rewrite (insert_keyids_spec _ _ _ _ Hrk). split.
    + intros [?|(-> & kj & Hk & Hs)]; auto. right. exists rj. split; [now left|]. exists kj. auto.
    + intros [?|(x & [Heq|[]] & kj & Hk & Hs)]; auto. injection Heq as <- <-. right. split; auto. exists kj. auto.
  - intros rn t'. simpl. destruct (String.eqb_spec rn (r_name r)); auto. subst. intros Heq. injection Heq as <-.
    right. split; [lia|]. exists rj. auto.
  - intros rn Hn. simpl in *. destruct (String.eqb_spec rn (r_name r)); auto. subst. tauto.
  - intros _ rn x [Heq|[]]. injection Heq as <- <-. exists t. rewrite aget_aset_same. auto.
Qed.
Lemma roles_more_say l ks ks' : ks_role_keys ks = [] -> ks_thr ks = [] -> roles_more l ks ks' -> roles_say l ks'.
Proof.
  intros Hr Ht (_ & B & C & _ & F). rewrite Hr in B. rewrite Ht in C. split; [|split; [|exact F]].
  - intros rn kid. rewrite B. split; auto. intros [[]|?]; auto.
  - intros rn t H. apply C in H. destruct H as [H|H]; [discriminate|auto].
Qed.

(** *** Root *)
Lemma role_of_string_name n : is_standard n = true -> r_name (role_of_string n) = to_lower n /\ r_name (role_of_string n) <> "invalidrole".
Proof.
  unfold is_standard, mem_str, role_of_string. simpl existsb. cbv zeta. intros H.
  destruct (String.eqb_spec (to_lower n) "root") as [->|]; [split; [reflexivity|discriminate]|].
  destruct (String.eqb_spec (to_lower n) "snapshot") as [->|]; [split; [reflexivity|discriminate]|].
  destruct (String.eqb_spec (to_lower n) "targets") as [->|]; [split; [reflexivity|discriminate]|].
  destruct (String.eqb_spec (to_lower n) "timestamp") as [->|]; [split; [reflexivity|discriminate]|]. discriminate.
Qed.
Lemma role_of_string_other n : is_standard n = false -> r_name (role_of_string n) = "invalidrole".
Proof.
  unfold is_standard, mem_str, role_of_string. simpl existsb. cbv zeta. intros H.
  repeat (destruct (String.eqb (to_lower n) _); [discriminate|]). reflexivity.
Qed.
Lemma parse_root_roles_spec : forall l ks ks', parse_root_roles l ks = Ok ks' ->
  roles_more (map (fun p => (to_lower (fst p), snd p)) (filter (fun p => is_standard (fst p)) l)) ks ks'.
Proof.
  induction l as [|(n, rj) l IH]; intros ks ks' H; cbn [parse_root_roles] in H.
  - injection H as <-. apply roles_more_nil.
  - apply bind_ok in H. destruct H as (ks1 & H1 & H). apply parse_role_spec in H1. apply IH in H.
    cbn [filter fst]. destruct (is_standard n) eqn:S; cbn [map fst snd].
    + apply role_of_string_name in S. destruct S as (S1 & S2). destruct H1 as [(H1 & _)|(_ & H1)]; [congruence|].
      rewrite S1 in H1. eapply roles_more_cons; eauto.
    + apply role_of_string_other in S. destruct H1 as [(_ & ->)|(H1 & _)]; [exact H|congruence].
Qed.
Theorem root_parsed E j R : root_of_json E j = Ok R -> root_says E j R.
Proof.
  unfold root_of_json. intros H.
  apply bind_ok in H. destruct H as (b & Hb & H). apply base_init_says in Hb.
  apply bind_ok in H. destruct H as (s & K & H). apply jget_sel in K. subst s.
  apply bind_ok in H. destruct H as (hk & _ & H). destruct hk; [|discriminate]. simpl in H.
  apply bind_ok in H. destruct H as (hr & _ & H). destruct hr; [|discriminate]. simpl in H.
  apply bind_ok in H. destruct H as (kj & K & H). apply jget_sel in K. subst kj.
  apply bind_ok in H. destruct H as (ks & Hks & H). apply parse_keys_say in Hks. destruct Hks as (Hks & E1 & E2).
  apply bind_ok in H. destruct H as (rj & K & H). apply jget_sel in K. subst rj.
  apply bind_ok in H. destruct H as (ks' & Hr & H). injection H as <-. apply parse_root_roles_spec in Hr.
  split; auto; cbn [rt_ks].
  - destruct Hr as (-> & _). exact Hks.
  - eapply roles_more_say; eauto.
Qed.

(** *** Targets *)
Lemma parse_hwids_spec : forall l acc r, parse_hwids l acc = Ok r -> exists x, r = acc ++ x /\ Forall2 (fun j h => jas_string j = Ok h) (map snd l) x.
Proof.
  induction l as [|(i, j) l IH]; intros acc r H; cbn [parse_hwids] in H.
  - injection H as <-. exists []. rewrite app_nil_r. split; auto. constructor.
  - apply bind_ok in H. destruct H as (s & Hs & H). apply bind_ok in H. destruct H as (h & Hh & H).
    apply IH in H. destruct H as (x & -> & Hx). exists (h :: x). rewrite <- app_assoc. split; auto. constructor; auto.
    unfold hw_id in Hh. destruct (Nat.ltb _ _); [discriminate|]. injection Hh as <-. exact Hs.
Qed.
Lemma ecu_insert_fst k v m : NoDup (map fst m) -> NoDup (map fst (ecu_insert k v m)).
Proof.
  unfold ecu_insert. destruct (aget k m) eqn:Hk; auto. intros HN. rewrite map_app.
  assert (~ In k (map fst m)).
  { clear HN. induction m as [|(k', v') m IH]; simpl in *; [tauto|]. destruct (String.eqb_spec k k'); [discriminate|].
    intros [?|?]; [congruence|]. now apply IH. }
  clear Hk. induction m as [|(k', v') m IH]; simpl in *; [constructor; [intros []|constructor]|].
  inversion HN; subst. constructor.
  - rewrite in_app_iff. simpl. intros [?|[?|[]]]; [auto|]. subst. tauto.
  - apply IH; auto.
Qed.
Lemma aget_None_in {A} k (m : list (string * A)) : aget k m = None <-> ~ In k (map fst m).
Proof.
  induction m as [|(k', v') m IH]; simpl; [tauto|]. destruct (String.eqb_spec k k'); split; intros H.
  - discriminate.
  - exfalso. apply H. auto.
  - rewrite IH in H. intros [?|?]; [congruence|auto].
  - apply IH. tauto.
Qed.
Lemma parse_ecus_spec : forall l acc r, parse_ecus l acc = Ok r -> NoDup (map fst acc) ->
  NoDup (map fst r) /\
  (forall e h, In (e, h) r -> In (e, h) acc \/ exists ej, In (e, ej) l /\ jas_string (sel "hardwareId" ej) = Ok h) /\
  (forall e h, In (e, h) acc -> In (e, h) r) /\
  (NoDup (map fst l) -> forall e ej, In (e, ej) l -> ~ In e (map fst acc) -> exists h, In (e, h) r /\ jas_string (sel "hardwareId" ej) = Ok h).
Proof.
  induction l as [|(k, j) l IH]; intros acc r H HN; cbn [parse_ecus] in H.
  - injection H as <-. split; auto. split; auto. split; auto. intros _ ? ? [].
  - apply bind_ok in H. destruct H as (e & He & H). apply bind_ok in H. destruct H as (hj & K & H). apply jget_sel in K. subst hj.
    apply bind_ok in H. destruct H as (hs & Hs & H). apply bind_ok in H. destruct H as (h & Hh & H).
    assert (e = k). { unfold ecu_serial in He. destruct (Nat.ltb _ _); [discriminate|]. destruct (Nat.ltb _ _); [discriminate|]. congruence. }
    assert (h = hs). { unfold hw_id in Hh. destruct (Nat.ltb _ _); [discriminate|]. congruence. }
    subst e h.
    apply IH in H; [|now apply ecu_insert_fst]. destruct H as (A & B & C & D). split; auto. split; [|split].
    + intros e h Hin. apply B in Hin. destruct Hin as [Hin|(ej & Hin & Hx)].
      * unfold ecu_insert in Hin. destruct (aget k acc); [auto|]. apply in_app_or in Hin. destruct Hin as [?|[Heq|[]]]; auto.
        injection Heq as <- <-. right. exists j. split; [now left|auto].
      * right. exists ej. split; [now right|auto].
    + intros e h Hin. apply C. unfold ecu_insert. destruct (aget k acc); auto. apply in_or_app. auto.
    + intros HNl e ej Hin Hni. simpl in HNl. inversion HNl; subst. destruct Hin as [Heq|Hin].
      * injection Heq as <- <-. exists hs. split; auto. apply C. unfold ecu_insert.
        apply aget_None_in in Hni. rewrite Hni. apply in_or_app. right. now left.
      * apply D; auto. intros Hc. unfold ecu_insert in Hc. destruct (aget k acc); [auto|].
        rewrite map_app in Hc. apply in_app_or in Hc. destruct Hc as [?|[Hc|[]]]; [auto|]. simpl in Hc. subst.
        apply in_map with (f := fst) in Hin. simpl in Hin. auto.
Qed.
Lemma parse_hashes_spec : forall l acc r, parse_hashes l acc = Ok r ->
  forall h, In h r <-> In h acc \/ exists k vj v, In (k, vj) l /\ jas_string vj = Ok v /\ hash_named k v h.
Proof.
  induction l as [|(k, j) l IH]; intros acc r H h; cbn [parse_hashes] in H.
  - injection H as <-. split; auto. intros [?|(? & ? & ? & [] & _)]; auto.
  - apply bind_ok in H. destruct H as (v & Hv & H). cbv zeta in H. rewrite (IH _ _ H). clear H IH.
    assert (Hh : In h (if have_alg (mk_hash k v) then acc ++ [mk_hash k v] else acc) <-> In h acc \/ hash_named k v h).
    { unfold mk_hash, have_alg, hash_named, htype_of_string. simpl h_type.
      destruct (String.eqb_spec k "sha512") as [->|N1]; [|destruct (String.eqb_spec k "sha256") as [->|N2]].
      - rewrite in_app_iff. simpl. split; intros [?|X]; auto.
        + destruct X as [<-|[]]. right. simpl. auto.
        + right. left. destruct h as [ht hv]. simpl in X. destruct X as (-> & [(X & _)|(_ & ->)]); [discriminate|reflexivity].
      - rewrite in_app_iff. simpl. split; intros [?|X]; auto.
        + destruct X as [<-|[]]. right. simpl. auto.
        + right. left. destruct h as [ht hv]. simpl in X. destruct X as (-> & [(_ & ->)|(X & _)]); [reflexivity|discriminate].
      - split; auto. intros [?|(_ & [(X & _)|(X & _)])]; auto; congruence. }
    rewrite Hh. split.
    + intros [[?|X]|(k' & vj & v' & X & Y & Z)]; auto.
      * right. exists k, j, v. simpl. auto.
      * right. exists k', vj, v'. simpl. auto.
    + intros [?|(k' & vj & v' & [X|X] & Y & Z)]; auto.
      * injection X as <- <-. left. right. congruence.
      * right. exists k', vj, v'. auto.
Qed.
Lemma sort_hashes_in l h : In h (sort_hashes l) <-> In h l.
Proof.
  unfold sort_hashes. rewrite !in_app_iff, !filter_In. split; [tauto|].
  intros H. destruct (h_type h); simpl; auto.
Qed.
Lemma target_parsed fn tj t : target_of_json fn tj = Ok t -> target_says fn tj t.
Proof.
  unfold target_of_json. intros H.
  apply bind_ok in H. destruct H as (hc & Hhc & H). apply bind_ok in H. destruct H as (t0 & Ht0 & H).
  apply bind_ok in H. destruct H as (lj & K & H). apply jget_sel in K. subst lj.
  apply bind_ok in H. destruct H as (len & Hlen & H).
  apply bind_ok in H. destruct H as (hj & K & H). apply jget_sel in K. subst hj.
  apply bind_ok in H. destruct H as (hs & Hhs & H). injection H as <-.
  assert (Hcu : t_custom t0 = sel "custom" tj /\
    Forall2 (fun j h => jas_string j = Ok h) (elems (sel "hardwareIds" (sel "custom" tj))) (t_hwids t0) /\
    parse_ecus (jiter (sel "ecuIdentifiers" (sel "custom" tj))) [] = Ok (t_ecus t0) /\
    jas_string (sel "targetFormat" (sel "custom" tj)) = Ok (t_type t0) /\
    exists u, jas_string (sel "uri" (sel "custom" tj)) = Ok u /\ t_uri t0 = (if String.eqb u "https://example.com/" then "" else u)).
  { destruct hc.
    - apply bind_ok in Ht0. destruct Ht0 as (cu & K & Ht0). apply jget_sel in K. subst cu. unfold update_custom in Ht0.
      apply bind_ok in Ht0. destruct Ht0 as (hw & Hhw & Ht0). apply bind_ok in Ht0. destruct Ht0 as (hwids & Hhwids & Ht0).
      apply bind_ok in Ht0. destruct Ht0 as (ej & K & Ht0). apply jget_sel in K. subst ej.
      apply bind_ok in Ht0. destruct Ht0 as (ecus & Hecus & Ht0).
      apply bind_ok in Ht0. destruct Ht0 as (hf & Hhf & Ht0). apply bind_ok in Ht0. destruct Ht0 as (ty & Hty & Ht0).
      apply bind_ok in Ht0. destruct Ht0 as (hu & Hhu & Ht0). apply bind_ok in Ht0. destruct Ht0 as (uri & Huri & Ht0).
      injection Ht0 as <-. cbn [t_custom t_hwids t_ecus t_type t_uri target_blank] in *. split; [reflexivity|]. split; [|split; [|split]].
      + destruct hw.
        * apply bind_ok in Hhwids. destruct Hhwids as (x & K & Hx). apply jget_sel in K. subst x.
          apply parse_hwids_spec in Hx. destruct Hx as (x & -> & Hx). exact Hx.
        * injection Hhwids as <-. rewrite (jmember_sel _ _ _ Hhw eq_refl). constructor.
      + exact Hecus.
      + destruct hf.
        * apply bind_ok in Hty. destruct Hty as (x & K & Hx). apply jget_sel in K. subst x. exact Hx.
        * injection Hty as <-. rewrite (jmember_sel _ _ _ Hhf eq_refl). reflexivity.
      + destruct hu.
        * apply bind_ok in Huri. destruct Huri as (x & K & Hx). apply jget_sel in K. subst x.
          apply bind_ok in Hx. destruct Hx as (u & Hu & Hx). injection Hx as <-. exists u. auto.
        * injection Huri as <-. rewrite (jmember_sel _ _ _ Hhu eq_refl). exists "". auto.
    - injection Ht0 as <-. rewrite (jmember_sel _ _ _ Hhc eq_refl). simpl. repeat (split; [try reflexivity; constructor|]). exists "". auto. }
  destruct Hcu as (C1 & C2 & C3 & C4 & C5).
  split; cbn [t_filename t_valid t_length t_hashes t_hwids t_ecus t_custom t_type t_uri]; auto.
  - split; auto. unfold jas_uint64, jas_range in Hlen. unfold max_uint64.
    destruct (sel "length" tj) as [|[|]| | | | |]; try discriminate; try (injection Hlen as <-; lia);
      destruct (in_range _ _ _) eqn:R; try discriminate; injection Hlen as <-; unfold in_range in R; apply andb_true_iff in R;
      destruct R as (R1 & R2); apply Z.leb_le in R1, R2; auto.
  - intros h. rewrite sort_hashes_in, (parse_hashes_spec _ _ _ Hhs). split; auto. intros [[]|?]; auto.
  - apply parse_ecus_spec in C3; [|constructor]. destruct C3 as (A & B & _ & D). split; auto. split.
    + intros e h Hin. apply B in Hin. destruct Hin as [[]|?]; auto.
    + intros HN e ej Hin. apply D; auto.
Qed.
Lemma parse_target_list_spec : forall l ts, parse_target_list l = Ok ts -> Forall2 (fun m t => target_says (fst m) (snd m) t) l ts.
Proof.
  induction l as [|(n, j) l IH]; intros ts H; cbn [parse_target_list] in H.
  - injection H as <-. constructor.
  - apply bind_ok in H. destruct H as (t & Ht & H). apply bind_ok in H. destruct H as (ts' & Hts & H). injection H as <-.
    constructor; auto. now apply target_parsed.
Qed.
Lemma is_reserved_iff n : is_reserved n = true <-> reserved_name n.
Proof.
  unfold is_reserved, reserved_name. rewrite !orb_true_iff, !String.eqb_eq. simpl. intuition congruence.
Qed.
Lemma parse_paths_spec : forall l ps, parse_paths l = Ok ps -> Forall2 (fun j p => jas_string j = Ok p) (map snd l) ps.
Proof.
  induction l as [|(i, j) l IH]; intros ps H; cbn [parse_paths] in H; [injection H as <-; constructor|].
  apply bind_ok in H. destruct H as (p & Hp & H). apply bind_ok in H. destruct H as (ps' & Hps & H). injection H as <-. constructor; auto.
Qed.
Lemma parse_deleg_scope : forall l t t' names, parse_deleg_roles l t = Ok t' ->
  Forall2 (fun rj n => jas_string (sel "name" rj) = Ok n) (map snd l) names ->
  (forall n, ~ In n names -> aget n (tg_paths t') = aget n (tg_paths t) /\ aget n (tg_term t') = aget n (tg_term t)) /\
  (forall n, In n names -> exists rj, In (n, rj) (combine names (map snd l)) /\ scope_says rj t' n).
Proof.
  induction l as [|(i, rj) l IH]; intros t t' names H HF; cbn [parse_deleg_roles] in H.
  - injection H as <-. inversion HF; subst. split; auto. intros n [].
  - apply bind_ok in H. destruct H as (nj & K & H). apply jget_sel in K. subst nj.
    apply bind_ok in H. destruct H as (n & Hn & H). apply bind_ok in H. destruct H as (r & Hr & H).
    apply bind_ok in H. destruct H as (ks & Hks & H). apply bind_ok in H. destruct H as (pj & K & H). apply jget_sel in K. subst pj.
    apply bind_ok in H. destruct H as (ps & Hps & H). apply bind_ok in H. destruct H as (tj & K & H). apply jget_sel in K. subst tj.
    apply bind_ok in H. destruct H as (te & Hte & H). cbn [map snd] in HF. inversion HF as [|? n' ? names' Hn' HF']; subst.
    assert (n' = n) by congruence. subst n'.
    specialize (IH _ _ _ H HF'). cbn [tg_paths tg_term] in IH. destruct IH as (A & B). split.
    + intros m Hm. simpl in Hm. destruct (A m ltac:(tauto)) as (A1 & A2). rewrite A1, A2. simpl.
      destruct (String.eqb_spec m n); [subst; tauto|auto].
    + intros m Hm. destruct (in_dec string_dec m names') as [Hi|Hi].
      * destruct (B m Hi) as (x & Hx & S). exists x. split; [now right|auto].
      * destruct Hm as [<-|Hm]; [|tauto]. exists rj. split; [now left|]. destruct (A n Hi) as (A1 & A2).
        split.
        -- exists ps. rewrite A1, aget_aset_same. split; auto. now apply parse_paths_spec.
        -- exists te. rewrite A2, aget_aset_same. auto.
Qed.
Lemma parse_deleg_spec : forall l t t', parse_deleg_roles l t = Ok t' ->
  tg_base t' = tg_base t /\ tg_targets t' = tg_targets t /\ tg_name t' = tg_name t /\
  exists names, tg_deleg t' = tg_deleg t ++ names /\ Forall2 (fun rj n => jas_string (sel "name" rj) = Ok n) (map snd l) names /\
    (forall n, In n names -> ~ reserved_name (to_lower n)) /\
    roles_more (filter (fun p => negb (String.eqb (fst p) "invalidrole")) (combine names (map snd l))) (tg_ks t) (tg_ks t').
Proof.
  induction l as [|(i, rj) l IH]; intros t t' H; cbn [parse_deleg_roles] in H.
  - injection H as <-. repeat (split; auto). exists []. rewrite app_nil_r. split; auto. split; [constructor|]. split; [intros ? []|apply roles_more_nil].
  - apply bind_ok in H. destruct H as (nj & K & H). apply jget_sel in K. subst nj.
    apply bind_ok in H. destruct H as (n & Hn & H). apply bind_ok in H. destruct H as (r & Hr & H).
    apply bind_ok in H. destruct H as (ks & Hks & H). apply bind_ok in H. destruct H as (pj & K & H). apply jget_sel in K. subst pj.
    apply bind_ok in H. destruct H as (ps & Hps & H). apply bind_ok in H. destruct H as (tj & K & H). apply jget_sel in K. subst tj.
    apply bind_ok in H. destruct H as (te & Hte & H).
    apply IH in H. cbn [tg_base tg_targets tg_name tg_deleg tg_ks] in H. destruct H as (A & B & C & names & D & F & G & R).
    split; auto. split; auto. split; auto. exists (n :: names). split; [now rewrite D, <- app_assoc|]. split; [constructor; auto|].
    unfold role_delegation in Hr. destruct (is_reserved (to_lower n)) eqn:Hres; [discriminate|]. injection Hr as <-.
    split.
    + intros m [<-|Hm]; auto. rewrite <- is_reserved_iff, Hres. discriminate.
    + cbn [map snd combine filter fst]. apply parse_role_spec in Hks. cbn [r_name] in Hks.
      destruct (String.eqb_spec n "invalidrole"); cbn [negb].
      * destruct Hks as [(_ & ->)|(X & _)]; [exact R|congruence].
      * destruct Hks as [(X & _)|(_ & X)]; [congruence|]. eapply roles_more_cons; eauto.
Qed.
Lemma sel_not_object k j : jis_object j = false -> sel k j = JNull.
Proof. destruct j; simpl; auto; discriminate. Qed.
Theorem targets_parsed E b name j T : base_says j b -> targets_init E b name j = Ok T -> targets_say E name j T.
Proof.
  unfold targets_init. intros Hb H. destruct (jis_object j); [|discriminate]. simpl in H.
  apply bind_ok in H. destruct H as (s & K & H). apply jget_sel in K. subst s. fold (signed_part j) in H.
  apply bind_ok in H. destruct H as (ty & K & H). apply jget_sel in K. subst ty.
  destruct (jeq_str (sel "_type" (signed_part j)) "Targets") eqn:Hty; [|discriminate]. simpl in H.
  apply bind_ok in H. destruct H as (tl & K & H). apply jget_sel in K. subst tl.
  apply bind_ok in H. destruct H as (ts & Hts & H). apply parse_target_list_spec in Hts.
  apply bind_ok in H. destruct H as (dj & K & H). apply jget_sel in K. subst dj.
  apply bind_ok in H. destruct H as (t1 & Ht1 & H).
  apply bind_ok in H. destruct H as (cj & K & H). apply jget_sel in K. subst cj.
  apply bind_ok in H. destruct H as (corr & Hcorr & H). injection H as <-.
  assert (Hd : tg_base t1 = b /\ tg_targets t1 = ts /\ tg_name t1 = name /\
    (Forall2 (fun rj n => jas_string (sel "name" rj) = Ok n) (elems (sel "roles" (sel "delegations" (signed_part j)))) (tg_deleg t1) /\
    (forall n, In n (tg_deleg t1) -> ~ reserved_name (to_lower n))) /\
    keys_say E (sel "keys" (sel "delegations" (signed_part j))) (ks_keys (tg_ks t1)) /\
    roles_say (delegations (tg_deleg t1) (sel "delegations" (signed_part j))) (tg_ks t1) /\
    forall n, In n (tg_deleg t1) -> exists rj, In (n, rj) (combine (tg_deleg t1) (elems (sel "roles" (sel "delegations" (signed_part j))))) /\ scope_says rj t1 n).
  { destruct (jis_object (sel "delegations" (signed_part j))) eqn:Ho.
    - apply bind_ok in Ht1. destruct Ht1 as (kj & K & Ht1). apply jget_sel in K. subst kj.
      apply bind_ok in Ht1. destruct Ht1 as (ks & Hks & Ht1). apply parse_keys_say in Hks. destruct Hks as (Hks & E1 & E2).
      apply bind_ok in Ht1. destruct Ht1 as (rj & K & Ht1). apply jget_sel in K. subst rj.
      pose proof Ht1 as Ht1'. apply parse_deleg_spec in Ht1. cbn [tg_base tg_targets tg_name tg_deleg tg_ks app] in Ht1.
      destruct Ht1 as (A & B & C & names & D & F & G & R). simpl in D. rewrite D.
      do 3 (split; [assumption|]). split; [split; assumption|]. split.
      + destruct R as (R & _). rewrite R. exact Hks.
      + split; [eapply roles_more_say; eauto|]. exact (proj2 (parse_deleg_scope _ _ _ _ Ht1' F)).
    - injection Ht1 as <-. cbn [tg_base tg_targets tg_name tg_deleg tg_ks]. unfold delegations. rewrite !(sel_not_object _ _ Ho).
      do 3 (split; [reflexivity|]). split; [split; [constructor|intros ? []]|]. split.
      + split; [intros ? ? []|]. split; [discriminate|intros _ ? ? []].
      + split; [|intros ? []]. split; [|split]; [intros ? ?; split; [intros []|intros (? & [] & _)] | discriminate | intros _ ? ? []]. }
  destruct Hd as (D1 & D2 & D3 & D4 & D5 & D6 & D7).
  split; cbn [tg_base tg_targets tg_name tg_deleg tg_ks tg_corr]; auto.
  - now rewrite D1.
  - destruct (sel "_type" (signed_part j)); try discriminate. simpl in Hty. apply String.eqb_eq in Hty. now subst.
  - now rewrite D2.
  - destruct (jis_object (sel "custom" (signed_part j))) eqn:Ho.
    + apply bind_ok in Hcorr. destruct Hcorr as (x & K & Hx). apply jget_sel in K. now subst x.
    + injection Hcorr as <-. rewrite (sel_not_object _ _ Ho). reflexivity.
Qed.

(** *** Timestamp *)
Lemma parse_hashes_all_spec : forall l acc r, parse_hashes_all l acc = Ok r -> exists x, r = acc ++ x /\
  Forall2 (fun m h => exists v, jas_string (snd m) = Ok v /\ h_val h = to_upper v /\
    h_type h = (if String.eqb (fst m) "sha256" then Sha256 else if String.eqb (fst m) "sha512" then Sha512 else HUnknown)) l x.
Proof.
  induction l as [|(k, j) l IH]; intros acc r H; cbn [parse_hashes_all] in H.
  - injection H as <-. exists []. rewrite app_nil_r. split; auto.
  - apply bind_ok in H. destruct H as (v & Hv & H). apply IH in H. destruct H as (x & -> & Hx). exists (mk_hash k v :: x).
    rewrite <- app_assoc. split; auto. constructor; auto. exists v. split; auto. split; auto. simpl. unfold htype_of_string.
    destruct (String.eqb_spec k "sha512") as [->|]; [reflexivity|]. destruct (String.eqb k "sha256"); reflexivity.
Qed.
Theorem timestamp_parsed b j t : base_says j b -> timestamp_init b j = Ok t -> timestamp_says j t.
Proof.
  unfold timestamp_init. intros Hb H.
  apply bind_ok in H. destruct H as (s & K & H). apply jget_sel in K. subst s. fold (signed_part j) in H.
  apply bind_ok in H. destruct H as (m & K & H). apply jget_sel in K. subst m.
  apply bind_ok in H. destruct H as (sj & K & H). apply jget_sel in K. subst sj.
  apply bind_ok in H. destruct H as (hl & K & H). apply jget_sel in K. subst hl.
  apply bind_ok in H. destruct H as (sz & K & H). apply jget_sel in K. subst sz.
  apply bind_ok in H. destruct H as (vj & K & H). apply jget_sel in K. subst vj.
  destruct (jis_object j); [|discriminate]. simpl in H.
  apply bind_ok in H. destruct H as (ty & K & H). apply jget_sel in K. subst ty.
  destruct (jeq_str (sel "_type" (signed_part j)) "Timestamp") eqn:Hty; [|discriminate]. simpl in H.
  destruct (jis_object (sel "hashes" _)) eqn:Hho; [|discriminate]. simpl in H.
  destruct (jis_integral (sel "length" _)); [|discriminate]. destruct (jis_integral (sel "version" _)); [|discriminate]. simpl in H.
  apply bind_ok in H. destruct H as (hs & Hhs & H). apply bind_ok in H. destruct H as (size & _ & H).
  apply bind_ok in H. destruct H as (v & Hv & H). injection H as <-.
  split; cbn [tm_base tm_snap_version tm_hashes]; auto.
  - destruct (sel "_type" (signed_part j)); try discriminate. simpl in Hty. apply String.eqb_eq in Hty. now subst.
  - apply parse_hashes_all_spec in Hhs. destruct Hhs as (x & -> & Hx). unfold hashes_say.
    destruct (sel "hashes" _); try discriminate. exact Hx.
Qed.

(** *** Snapshot *)
Lemma strip_ext_opt_some : forall k p, strip_ext_opt k = Some p -> exists ext, k = append p (String "." ext) /\ forall a b, ext <> append a (String "." b).
Proof.
  assert (Hnone : forall k, strip_ext_opt k = None -> forall a b, k <> append a (String "." b)).
  { induction k as [|c k IH]; intros H a b; simpl in H.
    - destruct a; discriminate.
    - destruct (strip_ext_opt k); [discriminate|]. destruct (Ascii.eqb_spec c "."%char); [discriminate|].
      destruct a as [|c' a]; simpl; intros Heq; injection Heq as -> Heq; [congruence|]. exact (IH eq_refl a b Heq). }
  induction k as [|c k IH]; intros p H; simpl in H; [discriminate|].
  destruct (strip_ext_opt k) as [q|] eqn:Hk.
  - injection H as <-. destruct (IH q eq_refl) as (ext & -> & He). exists ext. auto.
  - destruct (Ascii.eqb_spec c "."%char); [|discriminate]. injection H as <-. subst. exists k. split; auto.
Qed.
Lemma strip_ext_opt_none : forall k, strip_ext_opt k = None <-> forall a b, k <> append a (String "." b).
Proof.
  intros k. split.
  - revert k. induction k as [|c k IH]; intros H a b; simpl in H.
    + destruct a; discriminate.
    + destruct (strip_ext_opt k); [discriminate|]. destruct (Ascii.eqb_spec c "."%char); [discriminate|].
      destruct a as [|c' a]; simpl; intros Heq; injection Heq as -> Heq; [congruence|]. exact (IH eq_refl a b Heq).
  - intros H. destruct (strip_ext_opt k) as [p|] eqn:Hk; auto. apply strip_ext_opt_some in Hk. destruct Hk as (ext & -> & _).
    exfalso. exact (H p ext eq_refl).
Qed.
Lemma append_dot_unique : forall a b x y, append a (String "." x) = append b (String "." y) ->
  (forall u v, x <> append u (String "." v)) -> (forall u v, y <> append u (String "." v)) -> a = b /\ x = y.
Proof.
  induction a as [|c a IH]; intros b x y H Hx Hy; destruct b as [|c' b]; simpl in H; injection H; intros.
  - auto.
  - exfalso. exact (Hx _ _ H0).
  - exfalso. exact (Hy _ _ (eq_sym H0)).
  - subst. destruct (IH _ _ _ H0 Hx Hy) as (-> & ->). auto.
Qed.
Lemma strip_ext_file rn k : file_of rn k <-> strip_ext k = rn.
Proof.
  unfold file_of, strip_ext. destruct (strip_ext_opt k) as [p|] eqn:Hk.
  - pose proof Hk as Hk'. apply strip_ext_opt_some in Hk. destruct Hk as (ext & Heq & He). split.
    + intros [(ext' & Heq' & He')|(_ & Hn)].
      * rewrite Heq in Heq'. apply append_dot_unique in Heq'; auto. tauto.
      * exfalso. exact (Hn _ _ Heq).
    + intros <-. left. eauto.
  - rewrite strip_ext_opt_none in Hk. split.
    + intros [(ext' & Heq' & He')|(-> & _)]; auto. exfalso. exact (Hk _ _ Heq').
    + intros <-. right. auto.
Qed.
Definition snap_entry (sn : snapshot) (rn : string) : Z * list hash := (role_version sn rn, role_hashes sn rn).
Lemma parse_snapshot_spec : forall l sn sn', parse_snapshot_meta l sn = Ok sn' ->
  sn_base sn' = sn_base sn /\
  (forall rn, role_version sn' rn = role_version sn rn \/ exists k mj, In (k, mj) l /\ strip_ext k = rn /\ jas_int (sel "version" mj) = Ok (role_version sn' rn)) /\
  (forall rn, ~ In rn (map (fun p => strip_ext (fst p)) l) -> snap_entry sn' rn = snap_entry sn rn) /\
  (NoDup (map (fun p => strip_ext (fst p)) l) -> forall k mj, In (k, mj) l -> role_hashes sn (strip_ext k) = [] ->
     jas_int (sel "version" mj) = Ok (role_version sn' (strip_ext k)) /\ hashes_say (sel "hashes" mj) (role_hashes sn' (strip_ext k))).
Proof.
  induction l as [|(k, mj) l IH]; intros sn sn' H; cbn [parse_snapshot_meta] in H.
  - injection H as <-. split; auto. split; auto. split; auto. intros _ ? ? [].
  - apply bind_ok in H. destruct H as (hl & K & H). apply jget_sel in K. subst hl.
    apply bind_ok in H. destruct H as (sz & K & H). apply jget_sel in K. subst sz.
    apply bind_ok in H. destruct H as (vj & K & H). apply jget_sel in K. subst vj.
    destruct (jis_integral (sel "version" mj)); [|discriminate]. simpl in H.
    apply bind_ok in H. destruct H as (r & Hr & H). apply bind_ok in H. destruct H as (v & Hv & H).
    apply bind_ok in H. destruct H as (size & _ & H). apply bind_ok in H. destruct H as (hs & Hhs & H).
    assert (Hname : r_name r = strip_ext k).
    { destruct (is_reserved (strip_ext k)) eqn:Hres.
      - injection Hr as <-. apply is_reserved_iff in Hres. unfold reserved_name in Hres. simpl in Hres.
        destruct Hres as [<-|[<-|[<-|[<-|[]]]]]; reflexivity.
      - unfold role_delegation in Hr. destruct (is_reserved (to_lower (strip_ext k))); [discriminate|]. injection Hr as <-. reflexivity. }
    rewrite Hname in *. apply IH in H. destruct H as (A & B & C & D). cbn [sn_base] in A.
    assert (Hother : forall rn, rn <> strip_ext k -> forall a b c, snap_entry {| sn_base := a; sn_size := b; sn_version := aset (strip_ext k) v (sn_version sn); sn_hashes := aset (strip_ext k) c (sn_hashes sn) |} rn = snap_entry sn rn).
    { intros rn Hne a b c. unfold snap_entry, role_version, role_hashes. simpl. destruct (String.eqb_spec rn (strip_ext k)); [congruence|reflexivity]. }
    split; auto. split; [|split].
    + intros rn. destruct (B rn) as [Heq|(k' & mj' & Hin & X & Y)].
      * destruct (String.eqb_spec rn (strip_ext k)) as [->|Hne].
        { right. exists k, mj. split; [now left|]. split; auto. rewrite Heq. unfold role_version. simpl. rewrite String.eqb_refl. exact Hv. }
        { left. rewrite Heq. pose proof (Hother rn Hne (sn_base sn) (aset (strip_ext k) size (sn_size sn)) hs) as Ho. unfold snap_entry in Ho. congruence. }
      * right. exists k', mj'. simpl. auto.
    + intros rn Hn. simpl in Hn. rewrite C by tauto. apply Hother. intros ->. tauto.
    + intros HN k' mj' Hin Hemp. simpl in HN. inversion HN as [|? ? Hni HN']; subst. destruct Hin as [Heq|Hin].
      * injection Heq as <- <-. specialize (C _ Hni). unfold snap_entry, role_version, role_hashes in C. simpl in C. rewrite String.eqb_refl in C.
        injection C as C1 C2. unfold role_version, role_hashes. rewrite C1, C2. split; auto.
        unfold role_hashes in Hemp. destruct (jis_object (sel "hashes" mj)) eqn:Ho.
        -- apply parse_hashes_all_spec in Hhs. destruct Hhs as (x & -> & Hx). rewrite Hemp. unfold hashes_say.
           destruct (sel "hashes" mj); try discriminate. exact Hx.
        -- injection Hhs as <-. rewrite Hemp. unfold hashes_say. destruct (sel "hashes" mj); try discriminate; constructor.
      * assert (Hne : strip_ext k' <> strip_ext k).
        { intros Heq. apply Hni. rewrite <- Heq. apply in_map with (f := fun p => strip_ext (fst p)) in Hin. exact Hin. }
        apply D; auto. pose proof (Hother _ Hne (sn_base sn) (aset (strip_ext k) size (sn_size sn)) hs) as Ho. unfold snap_entry in Ho. congruence.
Qed.
Lemma nodup_strip (l : list (string * json)) : NoDup (map fst l) ->
  (forall rn k1 m1 k2 m2, In (k1, m1) l -> In (k2, m2) l -> file_of rn k1 -> file_of rn k2 -> k1 = k2) ->
  NoDup (map (fun p => strip_ext (fst p)) l).
Proof.
  induction l as [|(k, mj) l IH]; simpl; intros HN Hinj; [constructor|]. inversion HN as [|? ? Hni HN']; subst. constructor.
  - intros Hin. apply in_map_iff in Hin. destruct Hin as ((k', mj') & Heq & Hin). simpl in Heq.
    assert (k = k').
    { apply (Hinj (strip_ext k) k mj k' mj'); auto; apply strip_ext_file; auto. }
    subst. apply Hni. apply in_map with (f := fst) in Hin. exact Hin.
  - apply IH; auto. intros. eapply Hinj; eauto.
Qed.
Theorem snapshot_parsed b j sn : base_says j b -> snapshot_init b j = Ok sn -> snapshot_says j sn.
Proof.
  unfold snapshot_init. intros Hb H.
  apply bind_ok in H. destruct H as (s & K & H). apply jget_sel in K. subst s. fold (signed_part j) in H.
  apply bind_ok in H. destruct H as (ml & K & H). apply jget_sel in K. subst ml.
  destruct (jis_object j); [|discriminate]. simpl in H.
  apply bind_ok in H. destruct H as (ty & K & H). apply jget_sel in K. subst ty.
  destruct (jeq_str (sel "_type" (signed_part j)) "Snapshot") eqn:Hty; [|discriminate]. simpl in H.
  destruct (jis_object (sel "meta" _)); [|discriminate]. simpl in H.
  apply parse_snapshot_spec in H. cbn [sn_base] in H. destruct H as (A & B & C & D).
  split.
  - now rewrite A.
  - destruct (sel "_type" (signed_part j)); try discriminate. simpl in Hty. apply String.eqb_eq in Hty. now subst.
  - intros rn Hne. destruct (B rn) as [Heq|(k & mj & Hin & X & Y)]; [exfalso; apply Hne; rewrite Heq; reflexivity|].
    exists k, mj. split; auto. split; auto. now apply strip_ext_file.
  - intros HN Hinj rn k mj Hin Hf. apply strip_ext_file in Hf. subst rn. apply D; auto. apply nodup_strip; auto.
Qed.

(** The version read before verification is the verified one. *)
Theorem version_untrusted_says E raw b v : base_says (parse E raw) b -> extract_version_untrusted E raw = Ok v -> v = b_version b \/ v = -1.
Proof.
  unfold extract_version_untrusted. intros (Hv & _) H.
  apply bind_ok in H. destruct H as (s & K & H). apply jget_sel in K. subst s.
  apply bind_ok in H. destruct H as (vj & K & H). apply jget_sel in K. subst vj. unfold signed_part in Hv.
  destruct (jis_integral _); simpl in H; [left|right]; congruence.
Qed.
Theorem version_untrusted_int E raw b z : base_says (parse E raw) b -> sel "version" (signed_part (parse E raw)) = JInt z ->
  extract_version_untrusted E raw = Ok (b_version b) /\ b_version b = z.
Proof.
  intros (Hv & _) Hz. unfold extract_version_untrusted. rewrite Hz in Hv.
  assert (exists l, parse E raw = JObj l) as (l & Hl).
  { unfold signed_part in Hz. destruct (parse E raw); simpl in Hz; try discriminate. eauto. }
  rewrite Hl in *. unfold signed_part in Hz. simpl in *. destruct (aget "signed" l) as [s|]; [|discriminate]. simpl in *.
  destruct s; simpl in Hz; try discriminate. simpl. destruct (aget "version" l0); [|discriminate]. subst. simpl.
  unfold jas_int, jas_range in Hv |- *. destruct (in_range _ _ _); [|discriminate]. split; congruence.
Qed.
