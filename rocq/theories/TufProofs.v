From Verif Require Import Base Json TufModel TufSpec.

(** ** Generic facts *)
Lemma bind_ok {A B} (m : res A) (k : A -> res B) b :
  bind m k = Ok b <-> exists a, m = Ok a /\ k a = Ok b.
Proof.
  destruct m; simpl; split; intros H.
  - eauto.
  - destruct H as (x & Hx & H); now inversion Hx; subst.
  - discriminate.
  - destruct H as (x & Hx & H); discriminate.
Qed.

Lemma mem_str_In k l : mem_str k l = true <-> In k l.
Proof.
  unfold mem_str. rewrite existsb_exists. split.
  - intros (x & Hx & He). apply String.eqb_eq in He. now subst.
  - intros H. exists k. split; auto. apply String.eqb_refl.
Qed.
Lemma mem_str_nIn k l : mem_str k l = false <-> ~ In k l.
Proof.
  rewrite <- mem_str_In. destruct (mem_str k l); split; intros; congruence.
Qed.
Lemma mem_pair_In p l : mem_pair p l = true <-> In p l.
Proof.
  unfold mem_pair. rewrite existsb_exists. split.
  - intros ((a, b) & Hx & He). apply andb_true_iff in He. destruct He as [H1 H2].
    apply String.eqb_eq in H1, H2. destruct p; simpl in *; now subst.
  - intros H. exists p. split; auto. now rewrite !String.eqb_refl.
Qed.

Lemma jfield_fun j k v w : jfield j k v -> jfield j k w -> v = w.
Proof. intros (x & H1 & H2) (y & H3 & H4). congruence. Qed.

(** ** C01: the signature loop *)

Definition good_b (E : Env) (ks : keyset) (rn msg : string) (s : json) : bool :=
  match jget "keyid" s with
  | Ok kj => match jas_string kj with
    | Ok kid => match aget kid (ks_keys ks) with
      | Some key => mem_pair (rn, kid) (ks_role_keys ks) &&
          match jget "sig" s with Ok sj => match jas_string sj with Ok sg =>
             match verify_signature E key sg msg with Ok b => b | _ => false end | _ => false end | _ => false end
      | None => false end
    | _ => false end
  | _ => false end.

Definition kid_of (s : json) : string :=
  match jget "keyid" s with Ok kj => match jas_string kj with Ok k => k | _ => "" end | _ => "" end.

Definition entry_ok (E : Env) (ks : keyset) (rn msg : string) (s : json) : Prop :=
  exists kid m, jfield s "keyid" kid /\ jfield s "method" m /\ method_supported m = true /\
    (forall key, authorised ks rn kid key -> exists sg, jfield s "sig" sg /\ exists b, verify_signature E key sg msg = Ok b).

Lemma kid_of_field s kid : jfield s "keyid" kid -> kid_of s = kid.
Proof. intros (x & H1 & H2). unfold kid_of. now rewrite H1, H2. Qed.

Lemma sig_loop_ok E ks rn msg : forall l used n m,
  sig_loop E ks rn msg l used n = Ok m <->
  (Forall (entry_ok E ks rn msg) (map snd l) /\ NoDup (map kid_of (map snd l)) /\
   (forall k, In k (map kid_of (map snd l)) -> ~ In k used) /\
   m = n + Z.of_nat (List.length (filter (good_b E ks rn msg) (map snd l)))).
Proof.
  induction l as [|(x, s) l IH]; intros used n m.
  { simpl. split.
    - intros H; inversion H; subst. repeat split; auto; try constructor; try lia.
    - intros (_ & _ & _ & ->). f_equal; lia. }
  cbn [sig_loop map snd].
  rewrite bind_ok.
  assert (Hcount : forall n', n' = (if good_b E ks rn msg s then n + 1 else n) ->
     forall l', n + Z.of_nat (List.length (filter (good_b E ks rn msg) (s :: l'))) =
     n' + Z.of_nat (List.length (filter (good_b E ks rn msg) l'))).
  { intros n' -> l'. cbn [filter]. destruct (good_b E ks rn msg s); cbn [List.length]; lia. }
  split.
  - intros (kj & Hkj & H). apply bind_ok in H. destruct H as (kid & Hkid & H).
    destruct (mem_str kid used) eqn:Hu; [discriminate|]. apply mem_str_nIn in Hu.
    apply bind_ok in H. destruct H as (mj & Hmj & H). apply bind_ok in H. destruct H as (mm & Hmm & H).
    destruct (method_supported mm) eqn:Hms; simpl in H; [|discriminate].
    assert (Hf : jfield s "keyid" kid) by (exists kj; auto).
    assert (Hk := kid_of_field _ _ Hf).
    assert (Hrest : forall n', n' = (if good_b E ks rn msg s then n + 1 else n) ->
       sig_loop E ks rn msg l (kid :: used) n' = Ok m ->
       (forall key, authorised ks rn kid key -> exists sg, jfield s "sig" sg /\ exists b, verify_signature E key sg msg = Ok b) ->
       Forall (entry_ok E ks rn msg) (s :: map snd l) /\ NoDup (kid_of s :: map kid_of (map snd l)) /\
       (forall k, In k (kid_of s :: map kid_of (map snd l)) -> ~ In k used) /\
       m = n + Z.of_nat (List.length (filter (good_b E ks rn msg) (s :: map snd l)))).
    { intros n' Hn' Hl Ha. apply IH in Hl. destruct Hl as (H1 & H2 & H3 & H4).
      repeat split.
      - constructor; auto. exists kid, mm. repeat split; auto. exists mj; auto.
      - constructor; auto. rewrite Hk. intros Hin. apply (H3 kid Hin). now left.
      - intros k Hin. destruct Hin as [He | Hin].
        + rewrite <- He, Hk. assumption.
        + intros Hi. apply (H3 k Hin). now right.
      - rewrite (Hcount n' Hn'). assumption. }
    assert (Hg : good_b E ks rn msg s = match aget kid (ks_keys ks) with
      | Some key => mem_pair (rn, kid) (ks_role_keys ks) &&
          match jget "sig" s with Ok sj => match jas_string sj with Ok sg =>
             match verify_signature E key sg msg with Ok b => b | _ => false end | _ => false end | _ => false end
      | None => false end).
    { unfold good_b. now rewrite Hkj, Hkid. }
    destruct (aget kid (ks_keys ks)) as [key|] eqn:Hkey.
    + destruct (mem_pair (rn, kid) (ks_role_keys ks)) eqn:Hmp; simpl in H.
      * apply bind_ok in H. destruct H as (sj & Hsj & H). apply bind_ok in H. destruct H as (sg & Hsg & H).
        apply bind_ok in H. destruct H as (ok & Hok & H).
        apply (Hrest _ ) in H; auto.
        -- rewrite Hg, Hsj, Hsg, Hok. reflexivity.
        -- intros key' (Ha & _). exists sg. split. { exists sj; auto. } rewrite Hkey in Ha. inversion Ha; subst. eauto.
      * apply (Hrest _) in H; auto.
        -- rewrite Hg. reflexivity.
        -- intros key' (_ & Ha). apply mem_pair_In in Ha. congruence.
    + apply (Hrest _) in H; auto.
      * rewrite Hg. reflexivity.
      * intros key' (Ha & _). congruence.
  - intros (HF & HN & HU & Hm).
    inversion HF as [|? ? He HF']; subst. inversion HN as [|? ? Hn HN']; subst.
    destruct He as (kid & mm & Hkid & Hmm & Hms & Ha).
    assert (Hk := kid_of_field _ _ Hkid).
    destruct Hkid as (kj & Hkj & Hkid). destruct Hmm as (mj & Hmj & Hmm).
    exists kj. split; auto. rewrite Hkid. cbn [bind].
    assert (Hu : mem_str kid used = false).
    { apply mem_str_nIn. apply HU. left. exact Hk. }
    rewrite Hu, Hmj. cbn [bind]. rewrite Hmm. cbn [bind]. rewrite Hms. cbn [negb].
    assert (Hg : good_b E ks rn msg s = match aget kid (ks_keys ks) with
      | Some key => mem_pair (rn, kid) (ks_role_keys ks) &&
          match jget "sig" s with Ok sj => match jas_string sj with Ok sg =>
             match verify_signature E key sg msg with Ok b => b | _ => false end | _ => false end | _ => false end
      | None => false end).
    { unfold good_b. now rewrite Hkj, Hkid. }
    assert (Hrest : forall n', n' = (if good_b E ks rn msg s then n + 1 else n) ->
       sig_loop E ks rn msg l (kid :: used) n' = Ok (n + Z.of_nat (List.length (filter (good_b E ks rn msg) (s :: map snd l))))).
    { intros n' Hn'. apply IH. repeat split; auto.
      - intros k Hin [Heq | Hi].
        + subst k. apply Hn. now rewrite Hk.
        + apply (HU k); auto. now right.
      }
    destruct (aget kid (ks_keys ks)) as [key|] eqn:Hkey.
    + destruct (mem_pair (rn, kid) (ks_role_keys ks)) eqn:Hmp; cbn [negb].
      * destruct (Ha key) as (sg & (sj & Hsj & Hsg) & b & Hb).
        { split; auto. now apply mem_pair_In. }
        rewrite Hsj. cbn [bind]. rewrite Hsg. cbn [bind]. rewrite Hb. cbn [bind].
        apply Hrest. rewrite Hg, Hsj, Hsg, Hb. reflexivity.
      * apply Hrest. now rewrite Hg.
    + apply Hrest. now rewrite Hg.
Qed.

Lemma good_b_spec E ks rn msg s :
  good_b E ks rn msg s = true <-> exists key, valid_entry E ks rn msg s (kid_of s) key.
Proof.
  unfold good_b, valid_entry, kid_of. split.
  - destruct (jget "keyid" s) as [kj|] eqn:H1; [|discriminate].
    destruct (jas_string kj) as [kid|] eqn:H2; [|discriminate].
    destruct (aget kid (ks_keys ks)) as [key|] eqn:H3; [|discriminate].
    intros H. apply andb_true_iff in H. destruct H as [Hm H]. apply mem_pair_In in Hm.
    destruct (jget "sig" s) as [sj|] eqn:H4; [|discriminate].
    destruct (jas_string sj) as [sg|] eqn:H5; [|discriminate].
    exists key. split. { exists kj; auto. } split. { split; auto. }
    exists sg. split. { exists sj; auto. }
    unfold verify_signature in H.
    destruct (pk_type key) eqn:Ht; try discriminate;
    (split; [discriminate|]); destruct (verify E _ (pk_value key) sg msg) as [[|]|] eqn:Hv; congruence.
  - intros (key & (kj & H1 & H2) & (H3 & Hin) & sg & (sj & H4 & H5) & Ht & Hv).
    rewrite H1 in *. rewrite H2 in *. rewrite H3. apply mem_pair_In in Hin. rewrite Hin. simpl.
    rewrite H4, H5. unfold verify_signature. destruct (pk_type key) eqn:Hk; try congruence; now rewrite Hv.
Qed.

Lemma Forall2_kids (l : list json) kids :
  Forall2 (fun e kid => jfield e "keyid" kid) l kids -> map kid_of l = kids.
Proof. induction 1; simpl; auto. rewrite (kid_of_field _ _ H). now f_equal. Qed.

Lemma kids_Forall2 E ks rn msg (l : list json) :
  Forall (entry_ok E ks rn msg) l -> Forall2 (fun e kid => jfield e "keyid" kid) l (map kid_of l).
Proof.
  induction 1; simpl; constructor; auto.
  destruct H as (kid & m & Hk & _). now rewrite (kid_of_field _ _ Hk).
Qed.

Lemma method_supported_spec m : method_supported m = true <-> In (to_lower m) supported_methods.
Proof.
  unfold method_supported, supported_methods. simpl.
  rewrite !orb_true_iff, !String.eqb_eq. intuition congruence.
Qed.

Lemma NoDup_map_filter {A B} (f : A -> B) (p : A -> bool) l : NoDup (map f l) -> NoDup (map f (filter p l)).
Proof.
  induction l; simpl; intros H; auto. inversion H; subst.
  destruct (p a); simpl; auto. constructor; auto.
  intros Hin. apply H2. apply in_map_iff in Hin. destruct Hin as (x & Hx & Hi).
  apply filter_In in Hi. apply in_map_iff. exists x; tauto.
Qed.

Lemma type_check r tys : verifiable_role r ->
  ((is_delegation r && negb (role_eqb (role_of_string tys) role_targets) = false) /\
   (negb (is_delegation r) && negb (role_eqb r (role_of_string tys)) = false)) <-> type_fits r tys.
Proof.
  unfold type_fits. intros Hv.
  assert (Hro : forall (_ : string), role_eqb (role_of_string tys) {| r_kind := RTargets; r_name := "targets" |} = true <-> to_lower tys = "targets").
  { intros _. unfold role_of_string, role_eqb.
    destruct (String.eqb (to_lower tys) "root") eqn:H1. { apply String.eqb_eq in H1. rewrite H1. simpl. split; discriminate. }
    destruct (String.eqb (to_lower tys) "snapshot") eqn:H2. { apply String.eqb_eq in H2. rewrite H2. simpl. split; discriminate. }
    destruct (String.eqb (to_lower tys) "targets") eqn:H3. { apply String.eqb_eq in H3. rewrite H3. simpl. split; reflexivity. }
    apply String.eqb_neq in H3.
    destruct (String.eqb (to_lower tys) "timestamp"); simpl; split; try discriminate; congruence. }
  destruct Hv as [Hv | Hv].
  - assert (Hd : is_delegation r = false) by (destruct Hv as [-> | [-> | [-> | ->]]]; reflexivity).
    rewrite Hd. simpl. rewrite negb_false_iff. unfold role_eqb, role_of_string.
    destruct (String.eqb (to_lower tys) "root") eqn:H1; [apply String.eqb_eq in H1|apply String.eqb_neq in H1].
    { rewrite H1. destruct Hv as [-> | [-> | [-> | ->]]]; simpl; intuition discriminate. }
    destruct (String.eqb (to_lower tys) "snapshot") eqn:H2; [apply String.eqb_eq in H2|apply String.eqb_neq in H2].
    { rewrite H2. destruct Hv as [-> | [-> | [-> | ->]]]; simpl; intuition discriminate. }
    destruct (String.eqb (to_lower tys) "targets") eqn:H3; [apply String.eqb_eq in H3|apply String.eqb_neq in H3].
    { rewrite H3. destruct Hv as [-> | [-> | [-> | ->]]]; simpl; intuition discriminate. }
    destruct (String.eqb (to_lower tys) "timestamp") eqn:H4; [apply String.eqb_eq in H4|apply String.eqb_neq in H4].
    { rewrite H4. destruct Hv as [-> | [-> | [-> | ->]]]; simpl; intuition discriminate. }
    destruct Hv as [-> | [-> | [-> | ->]]]; simpl; intuition (try discriminate; congruence).
  - unfold is_delegation. rewrite Hv. simpl. rewrite negb_false_iff. rewrite (Hro ""). tauto.
Qed.

Lemma entry_ok_checkable E ks rn msg e kid key :
  entry_ok E ks rn msg e -> jfield e "keyid" kid -> authorised ks rn kid key ->
  exists sg, jfield e "sig" sg /\ (pk_type key = KUnknown \/ verify E (pk_type key) (pk_value key) sg msg <> None).
Proof.
  intros (kid' & m & Hk & Hm & Hs & Ha) Hk' Hau.
  rewrite (jfield_fun _ _ _ _ Hk' Hk) in Hau.
  destruct (Ha key Hau) as (sg & Hsg & b & Hb). exists sg. split; auto.
  unfold verify_signature in Hb. destruct (pk_type key); auto; right; destruct (verify _ _ _ _ _); congruence.
Qed.

Theorem unpack_signed_iff E ks r j : verifiable_role r ->
  unpack_signed E ks r j = Ok tt <-> acceptable E ks r j.
Proof.
  intros Hv. unfold unpack_signed, acceptable.
  split.
  - intros H.
    apply bind_ok in H. destruct H as (sgn & Hsgn & H).
    apply bind_ok in H. destruct H as (tyj & Htyj & H).
    apply bind_ok in H. destruct H as (tys & Htys & H).
    destruct (is_delegation r && negb (role_eqb (role_of_string tys) role_targets)) eqn:Hc1; [discriminate|].
    destruct (negb (is_delegation r) && negb (role_eqb r (role_of_string tys))) eqn:Hc2; [discriminate|].
    apply bind_ok in H. destruct H as (sigs & Hsigs & H).
    apply bind_ok in H. destruct H as (n & Hn & H).
    assert (Hse : sig_entries j = map snd (jiter sigs)) by (unfold sig_entries; now rewrite Hsigs).
    apply sig_loop_ok in Hn. rewrite <- Hse in Hn. destruct Hn as (HF & HN & _ & Hn).
    destruct (aget (r_name r) (ks_thr ks)) as [t|] eqn:Ht; [|simpl in H; discriminate].
    destruct ((t <? kMinSignatures) || (kMaxSignatures <? t)) eqn:Hr; [discriminate|].
    apply orb_false_iff in Hr. unfold kMinSignatures, kMaxSignatures in Hr. destruct Hr as [Hr1 Hr2].
    apply Z.ltb_ge in Hr1, Hr2.
    destruct (Nat.eqb (jsize sigs) 1 && (n =? 0)); [discriminate|].
    destruct (n <? t) eqn:Hnt; [discriminate|]. apply Z.ltb_ge in Hnt.
    split; [|split].
    + exists sgn, tys. split; auto. split. { exists tyj; auto. } apply type_check; auto.
    + exists sgn, sigs, (map kid_of (sig_entries j)). split; auto. split; auto.
      split. { eapply kids_Forall2; eauto. } split; auto. rewrite Forall_forall in HF. split.
      * intros e He. destruct (HF e He) as (kid & m & _ & Hm & Hms & _). exists m. split; auto. now apply method_supported_spec.
      * intros e kid key He Hk Ha. eapply entry_ok_checkable; eauto.
    + exists t. split; auto. split; [lia|].
      exists sgn, (map kid_of (filter (good_b E ks (r_name r) (canon E sgn)) (sig_entries j))).
      split; auto. split. { now apply NoDup_map_filter. } split. { rewrite map_length. lia. }
      intros kid Hin. apply in_map_iff in Hin. destruct Hin as (e & He & Hin). apply filter_In in Hin.
      destruct Hin as (Hin & Hg). apply good_b_spec in Hg. destruct Hg as (key & Hg). subst kid. eauto.
  - intros ((s & ty & Hs & (tyj & Htyj & Htys) & Hfit) & (sgn & sigs & kids & Hsgn & Hsigs & HF2 & HN & Hm & Hau) & t & Ht & Hr & sgn' & good & Hsgn' & HNg & Hlen & Hgood).
    assert (s = sgn) by congruence. assert (sgn' = sgn) by congruence. subst s sgn'.
    rewrite Hsgn. cbn [bind]. rewrite Htyj. cbn [bind]. rewrite Htys. cbn [bind].
    apply (type_check r ty Hv) in Hfit. destruct Hfit as [Hf1 Hf2]. rewrite Hf1, Hf2.
    rewrite Hsigs. cbn [bind].
    assert (Hse : sig_entries j = map snd (jiter sigs)) by (unfold sig_entries; now rewrite Hsigs).
    assert (Hk := Forall2_kids _ _ HF2).
    set (cnt := Z.of_nat (List.length (filter (good_b E ks (r_name r) (canon E sgn)) (sig_entries j)))).
    assert (Hl : sig_loop E ks (r_name r) (canon E sgn) (jiter sigs) [] 0 = Ok cnt).
    { apply sig_loop_ok. rewrite <- Hse. split; [|split; [|split]].
      - apply Forall_forall. intros e He. destruct (Hm e He) as (m & Hmf & Hms).
        assert (exists kid, jfield e "keyid" kid) as (kid & Hkid).
        { clear - HF2 He. induction HF2; [inversion He|]. destruct He; subst; eauto. }
        exists kid, m. repeat split; auto. { now apply method_supported_spec. }
        intros key Hkey. destruct (Hau e kid key He Hkid Hkey) as (sg & Hsg & Hor). exists sg. split; auto.
        unfold verify_signature. destruct Hor as [-> | Hor]; [eauto|].
        destruct (pk_type key); eauto; destruct (verify _ _ _ _ _); eauto; congruence.
      - now rewrite Hk.
      - intros k _ [].
      - subst cnt. lia. }
    rewrite Hl. cbn [bind]. rewrite Ht.
    assert (Hge : t <= cnt).
    { subst cnt. etransitivity; [exact Hlen|]. apply Nat2Z.inj_le.
      rewrite <- (map_length kid_of). apply NoDup_incl_length; auto.
      intros kid Hin. destruct (Hgood kid Hin) as (e & key & He & Hve).
      apply in_map_iff. exists e. assert (Hke := kid_of_field _ _ (proj1 Hve)). split; auto.
      apply filter_In. split; auto. apply good_b_spec. exists key. now rewrite Hke. }
    unfold kMinSignatures, kMaxSignatures.
    replace ((t <? 1) || (1000 <? t)) with false by (symmetry; apply orb_false_iff; split; apply Z.ltb_ge; lia).
    replace (cnt =? 0) with false by (symmetry; apply Z.eqb_neq; lia). rewrite andb_false_r.
    replace (cnt <? t) with false by (symmetry; apply Z.ltb_ge; lia). reflexivity.
Qed.

(** ** C02 *)

Lemma keys_of_ids E ks rn j msg : key_ids_injective ks rn ->
  forall good, NoDup good ->
  (forall kid, In kid good -> exists e key, In e (sig_entries j) /\ valid_entry E ks rn msg e kid key) ->
  exists keys, NoDup keys /\ List.length keys = List.length good /\
    forall key, In key keys -> exists e kid, In kid good /\ In e (sig_entries j) /\ valid_entry E ks rn msg e kid key.
Proof.
  intros Hinj. induction good as [|k good IH]; intros HN Hg.
  - exists []. repeat split; auto; try constructor. intros key [].
  - inversion HN; subst. destruct IH as (keys & HNk & Hlen & Hk); auto.
    { intros kid Hi. apply Hg. now right. }
    destruct (Hg k (or_introl eq_refl)) as (e & key & He & Hv).
    exists (key :: keys). split; [|split].
    + constructor; auto. intros Hin. destruct (Hk key Hin) as (e' & kid' & Hin' & _ & Hv').
      destruct Hv as (_ & Ha & _). destruct Hv' as (_ & Ha' & _).
      rewrite (Hinj _ _ _ Ha Ha') in H1. contradiction.
    + simpl. congruence.
    + intros key' [<- | Hin].
      * exists e, k. repeat split; auto. now left. all: apply Hv.
      * destruct (Hk key' Hin) as (e' & kid' & Hin' & He' & Hv'). exists e', kid'. split; [now right|]. auto.
Qed.

Theorem unpack_signed_keys E ks r j : verifiable_role r -> key_ids_injective ks (r_name r) ->
  unpack_signed E ks r j = Ok tt ->
  exists t, aget (r_name r) (ks_thr ks) = Some t /\ 1 <= t /\ signed_by_at_least_keys E ks (r_name r) j t.
Proof.
  intros Hv Hinj H. apply unpack_signed_iff in H; auto.
  destruct H as (_ & _ & t & Ht & Hr & sgn & good & Hs & HN & Hlen & Hg).
  exists t. split; auto. split; [lia|].
  destruct (keys_of_ids E ks (r_name r) j (canon E sgn) Hinj good HN Hg) as (keys & HNk & Hl & Hk).
  exists sgn, keys. split; auto. split; auto. split; [lia|].
  intros key Hin. destruct (Hk key Hin) as (e & kid & _ & He & Hve). eauto.
Qed.
