(** Every command of the generator keeps the repositories in order: the commands on the Image repository. *)
From Verif Require Import Base Json TufModel TufSpec TufProofs MetaStore RepoModel RepoSpec RepoProofs RepoProofs4 GenModel GenSpec GenProofs GenProofs2 GenProofs3 GenProofs4 GenProofs5 GenProofs6 GenProofs7.

Lemma not_reserved n : is_reserved n = false -> n <> "root" /\ n <> "targets" /\ n <> "snapshot" /\ n <> "timestamp".
Proof.
  unfold is_reserved. destruct (String.eqb_spec n "root"), (String.eqb_spec n "targets"), (String.eqb_spec n "snapshot"), (String.eqb_spec n "timestamp"); try discriminate. auto.
Qed.
Lemma role_file_deleg n : n <> "targets" -> role_file n = delegation_file n.
Proof. intros H. unfold role_file. destruct (String.eqb_spec n "targets"); [contradiction|reflexivity]. Qed.
Lemma deleg_file_neq n p : (exists c s, p = String c s /\ c <> "d"%char) -> p <> delegation_file n.
Proof. intros (c & s & -> & N) H. injection H as H _. contradiction. Qed.
Ltac dneq := match goal with
  | |- ?p <> delegation_file ?n => first [ (apply deleg_file_neq; do 2 eexists; split; [reflexivity|discriminate]) | apply root_file_neq; reflexivity | neq ]
  end.

Ltac gr2 := repeat first [apply grows_bind | apply grows_lift | apply grows_ret | apply grows_throw | apply grows_change | apply grows_key | apply grows_read | apply grows_wsigned | apply grows_update
  | match goal with |- forall _, grows _ => intro | |- grows (if ?b then _ else _) => destruct b | |- grows (match ?b with Some _ => _ | None => _ end) => destruct b end | apply grows_pure].
Tactic Notation "lift_ok" ident(x) ident(H) := (eapply tri_bind; [apply tri_lift|gr2|]); let s1 := fresh "s1" in intros x s1 _ (-> & H).

Section Keep.
Context (E : Env) (keyid : pubkey -> string) (depth : nat) (HE : env_ok E).
Context (K : repo_keys) (HK : keys_ok E keyid K).
Context (I : invocation) (d0 : side).
Notation tri := (tri E keyid Image K I d0).
Notation keep := (keep E keyid Image K d0).
Notation core := (core E keyid Image K).
Notation text_ok := (text_ok E keyid K).
Notation doc_at := (doc_at E keyid K).
Notation inv := (inv E keyid Image K I d0).
Notation ver := (ver E).

Lemma file_json_put p q text d : file_json E q (put_file p text d) = if String.eqb q p then parse E text else file_json E q d.
Proof. unfold file_json. rewrite aget_put. now destruct (String.eqb q p). Qed.
Lemma keep_files d d' : keep d -> f_keys d' = f_keys d -> (forall p, (forall n, p <> delegation_file n) -> aget p (f_files d') = aget p (f_files d)) ->
  (forall n, file_ok (file_json E (delegation_file n) d')) -> bounded E d' -> keep d'.
Proof.
  intros ((C1 & C2 & C3 & C4 & C5 & C6 & C7) & L) HKy Fr Fo B. split.
  - split; [now rewrite HKy|]. split; [refine (root_frame E keyid K d _ _ _ C2); [apply Fr; intros; dneq|intros; apply Fr; intros; dneq]|].
    split; [refine (targets_frame E keyid Image K d _ _ C3); apply Fr; intros; dneq|].
    split; [refine (snap_frame E keyid K d _ _ C4); apply Fr; intros; dneq|].
    split; [refine (ts_frame E keyid K d _ _ C5); apply Fr; intros; dneq|].
    split; [split; [exact Fo|discriminate]|exact B].
  - refine (later_frame E Image d0 d _ _ _ _ L); intros; apply Fr; intros; dneq.
Qed.
Lemma keep_deleg d n text : keep d -> file_ok (parse E text) -> bounded E (put_file (delegation_file n) text d) -> keep (put_file (delegation_file n) text d).
Proof.
  intros KD F B. eapply keep_files; [exact KD|reflexivity| | |exact B].
  - intros p Hp. apply aget_put_other. apply Hp.
  - intros m. rewrite file_json_put. destruct (String.eqb _ _); [exact F|]. destruct KD as ((_ & _ & _ & _ & _ & (X & _) & _) & _). apply X.
Qed.
Lemma file_ok_null : file_ok JNull.
Proof. split; [reflexivity|]. intros s t A B. injection A as <-. injection B as <-. now left. Qed.
Lemma file_json_del p q d : file_json E q (del_file p d) = if String.eqb q p then parse E "" else file_json E q d.
Proof. unfold file_json. rewrite aget_del_file. now destruct (String.eqb q p). Qed.
Lemma keep_del d n : keep d -> bounded E (del_file (delegation_file n) d) -> keep (del_file (delegation_file n) d).
Proof.
  intros KD B. eapply keep_files; [exact KD|reflexivity| | |exact B].
  - intros p Hp. apply aget_del_other. apply Hp.
  - intros m. rewrite file_json_del. destruct (String.eqb _ _); [rewrite (eo_empty E HE); apply file_ok_null|]. destruct KD as ((_ & _ & _ & _ & _ & (X & _) & _) & _). apply X.
Qed.
Lemma keep_keys d ks : keep d -> keys_there K ks -> bounded E {| f_files := f_files d; f_keys := ks |} -> keep {| f_files := f_files d; f_keys := ks |}.
Proof.
  intros ((C1 & C2 & C3 & C4 & C5 & C6 & C7) & L) HKy B. split; [|exact L].
  split; [exact HKy|]. split; [exact C2|]. split; [exact C3|]. split; [exact C4|]. split; [exact C5|]. split; [exact C6|exact B].
Qed.
Lemma file_ok_signed kid m sg j : plain (signed_doc kid m sg j) = true -> (forall t, jget "targets" j = Ok t -> tlist_ok t) -> file_ok (parse E (canon E (signed_doc kid m sg j))).
Proof. intros P H. rewrite (eo_round E HE _ P). split; [exact P|]. intros s t A B. injection A as <-. now apply H. Qed.

(** ** addImage *)
Lemma tri_write_top s cu de e ts v cu' de' e' ts' : doc_at (g_side s) "targets.json" role_targets (tgt_shape cu de e ts v) -> 0 <= v <= max_int ->
  custom_ok cu' -> deleg_ok de' -> tlist_ok ts' -> time_ok e' -> plain (tgt_shape cu' de' e' ts' (v + 1)) = true ->
  tri s (write_signed E keyid I "targets" "targets.json" (tgt_shape cu' de' e' ts' (v + 1))) (fun text s' => s' = with_side (put_file "targets.json" text (g_side s)) s).
Proof.
  intros D V G1 G2 G3 G4 P. apply tri_inv. intros ((C & L) & _). eapply tri_weaken.
  - apply (tri_write E keyid Image K HK I d0 s role_targets "targets.json" _ "Targets"); [cbn; tauto|apply jget_tgt_type|reflexivity|exact P|].
    intros text T B. refine (keep_tgt E keyid HE Image K d0 _ _ _ _ _ _ _ (conj C L) T G1 G2 G3 G4 _ _ _ B); [discriminate|unfold uint_mod, max_int in *; lia|].
    cbv iota. rewrite (ver_doc E keyid HE K _ _ _ _ v D (jget_tgt_version _ _ _ _ _)) by (unfold uint_mod, max_int in *; lia). lia.
  - intros text s' _ (_ & H). exact H.
Qed.
Lemma tri_add_image s name target hw dn : ascii_text name = true -> plain target = true -> good_target target -> hw_ok hw ->
  tri s (add_image E keyid depth I name target hw dn) (fun _ s' => consistent E keyid K (g_side s')).
Proof.
  intros An Pt Gt (Hw1 & Hw2). apply tri_inv. intros V. pose proof V as ((C & L) & _). unfold add_image. destruct dn as [n|].
  - eapply tri_bind; [apply tri_read_any|gr2|]. intros tj s1 _ (-> & Htj). lift_ok t' H1. lift_ok t1 H2. lift_ok t2 H3. lift_ok x H4.
    destruct (deleg_not_reserved n x H4) as (Nr & _). apply not_reserved in Nr as (_ & Nt & _). rewrite (role_file_deleg n Nt) in *.
    assert (Fo : file_ok (file_json E (delegation_file n) (g_side s))) by (destruct C as (_ & _ & _ & _ & _ & (X & _) & _); apply X). destruct Fo as (Pf & Ft).
    assert (Ptj : plain tj = true) by (eapply plain_jget; [exact Pf|exact Htj]).
    assert (Pt' : plain t' = true) by exact (plain_add_hw _ _ _ Pt Hw1 H1). assert (Gt' : good_target t') by exact (good_add_hw _ _ _ Gt Hw2 H1).
    assert (Pt2 : plain t2 = true).
    { refine (plain_bump _ _ _ H3). refine (plain_jmod "targets" _ _ _ eq_refl Ptj _ H2). intros a b Pa Hb. exact (plain_jset _ _ _ _ An Pt' Pa Hb). }
    assert (Tt2 : forall t, jget "targets" t2 = Ok t -> tlist_ok t).
    { intros t Ht. apply bump_obj in H3 as (l & z & -> & H3). rewrite jget_obj, get_oput_other in Ht by discriminate. apply jmod_obj in H2 as (l' & y & -> & H2 & H2').
      destruct H3 as [e|(e & _)]; [injection e as <-|discriminate]. rewrite get_oput in Ht. injection Ht as <-. refine (tlist_put name t' _ _ _ Gt' H2). apply (Ft tj); [exact Htj|now apply jget_kept]. }
    eapply tri_bind.
    { apply tri_write_any; [exact Pt2|]. intros kid m sg P B. apply keep_deleg; [split; assumption|now apply file_ok_signed|exact B]. }
    { gr2. }
    intros text s1 V1 _. apply tri_update; assumption.
  - pose proof C as (_ & _ & (cu & de & e & ts & v & (G1 & G2 & G3 & G4 & G5 & _) & Dt) & _).
    change (role_file "targets") with "targets.json".
    eapply tri_bind; [apply (tri_read E keyid HE Image K I d0 s _ _ _ Dt)|gr2|]. intros a s1 _ (-> & ->).
    lift_ok t' H1. lift_ok t1 H2. lift_ok t2 H3. lift_ok x H4.
    assert (Pt' : plain t' = true) by exact (plain_add_hw _ _ _ Pt Hw1 H1). assert (Gt' : good_target t') by exact (good_add_hw _ _ _ Gt Hw2 H1).
    assert (Pt2 : plain t2 = true).
    { apply file_doc in Dt as (kid & m & sg & _ & P); [|exact HE]. refine (plain_bump _ _ _ H3). refine (plain_jmod "targets" _ _ _ eq_refl P _ H2). intros a b Pa Hb. exact (plain_jset _ _ _ _ An Pt' Pa Hb). }
    assert (exists ts', tlist_ok ts' /\ t2 = tgt_shape cu de e ts' (v + 1)) as (ts' & Tt' & ->).
    { unfold jmod in H2. rewrite jget_tgt_targets in H2. cbn [bind] in H2. apply bind_ok in H2 as (ts' & H2 & H2'). rewrite jset_tgt_targets in H2'. injection H2' as <-. rewrite bump_tgt in H3 by exact G5. injection H3 as <-.
      exists ts'. split; [exact (tlist_put _ _ _ _ G3 Gt' H2)|reflexivity]. }
    eapply tri_bind; [apply (tri_write_top s cu de e ts v); assumption|gr2|].
    intros text s1 V1 _. apply tri_update; assumption.
Qed.

(** ** addDelegation *)
Lemma plain_uptane kp : key_ok E keyid kp -> plain (to_uptane (kp_pub kp)) = true.
Proof. intros (A & _ & B & _). cbn. rewrite B. destruct (pk_type (kp_pub kp)); reflexivity. Qed.
Lemma tri_generate_key s rn kp : is_reserved rn = false -> key_ok E keyid kp -> signs E I kp ->
  tri s (generate_key rn kp) (fun _ s' => f_files (g_side s') = f_files (g_side s)).
Proof.
  intros R Hk Hs s' r (V1 & V2 & V3) X L. injection X as <- <-. inversion L as [|? ? L1 L2]; subst. split; [|reflexivity].
  assert (Ka : forall l, keys_there K l -> keys_there K (aset rn kp l)).
  { intros l Hl r i. cbn [aget]. apply not_reserved in R as (R1 & R2 & R3 & R4). unfold aset. cbn [aget].
    destruct (String.eqb_spec r rn) as [->|]; [|now apply Hl]. destruct i as [<-|[<-|[<-|[<-|[]]]]]; contradiction. }
  assert (Kp : keep {| f_files := f_files (g_side s); f_keys := aset rn kp (f_keys (g_side s)) |}) by (apply keep_keys; [exact V1|apply Ka, V1|exact L1]).
  split; [exact Kp|]. split; [|constructor; assumption]. destruct V2 as (M1 & M2). split; [now apply Ka|]. intros r kp' H. cbn [g_mem aset aget] in H. unfold aset in H. cbn [aget] in H.
  destruct (String.eqb r rn); [injection H as <-; auto|eauto].
Qed.
Lemma entry_plain name kid path te : ascii_text name = true -> ascii_text kid = true -> ascii_text path = true -> plain (role_entry name kid path te) = true.
Proof. intros A B C. cbn. now rewrite A, B, C. Qed.
Lemma tri_add_delegation s name parent path te kp : ascii_text name = true -> ascii_text path = true -> key_ok E keyid kp -> signs E I kp -> time_ok (n_expires I) ->
  tri s (add_delegation E keyid depth I name parent path te kp) (fun _ s' => consistent E keyid K (g_side s')).
Proof.
  intros An Ap Hk Hs Te. unfold add_delegation. lift_ok rx R. lift_ok px P. eapply tri_bind; [apply tri_pure|gr2|].
  intros known s1 _ (-> & _). destruct known; [apply tri_throw|]. destruct (is_reserved name) eqn:Rn; [apply tri_throw|].
  eapply tri_bind; [apply tri_pure|gr2|]. intros there s1 _ (-> & _). destruct (negb there); [apply tri_throw|].
  eapply tri_bind; [apply tri_generate_key; assumption|gr2|]. intros u1 s1 V1 F1.
  assert (Pk : plain (to_uptane (kp_pub kp)) = true) by now apply plain_uptane.
  assert (Ak : ascii_text (keyid (kp_pub kp)) = true) by apply Hk.
  assert (Ik : pk_type (kp_pub kp) <> KUnknown) by apply Hk.
  pose proof (entry_plain name (keyid (kp_pub kp)) path te An Ak Ap) as Pe. set (entry := role_entry name (keyid (kp_pub kp)) path te) in *.
  eapply tri_bind.
  { apply tri_write_any; [cbn; now rewrite (proj2 Te)|]. intros kid m sg P0 B. apply keep_deleg; [apply V1| |exact B]. apply file_ok_signed; [exact P0|]. intros t Ht. injection Ht as <-. right. exists []. split; [reflexivity|intros ? ? []]. }
  { gr2. }
  intros text s2 V2 _. pose proof V2 as ((C & L) & _).
  assert (PP : forall pj p1 p2 p3, plain pj = true -> jmod "delegations" (jmod "keys" (jset (keyid (kp_pub kp)) (to_uptane (kp_pub kp)))) pj = Ok p1 ->
     jmod "delegations" (jmod "roles" (jappend entry)) p1 = Ok p2 -> bump p2 = Ok p3 -> plain p3 = true).
  { intros pj p1 p2 p3 P0 H1 H2 H3. refine (plain_bump _ _ _ H3). refine (plain_jmod "delegations" _ _ _ eq_refl _ _ H2).
    - refine (plain_jmod "delegations" _ _ _ eq_refl P0 _ H1). intros a b Pa Hb. refine (plain_jmod "keys" _ _ _ eq_refl Pa _ Hb). intros a' b' Pa' Hb'. exact (plain_jset _ _ _ _ Ak Pk Pa' Hb').
    - intros a b Pa Hb. refine (plain_jmod "roles" _ _ _ eq_refl Pa _ Hb). intros a' b' Pa' Hb'. exact (plain_jappend _ _ _ Pe Pa' Hb'). }
  destruct (String.eqb_spec parent "targets") as [->|Np].
  - pose proof C as (_ & _ & (cu & de & e & ts & v & (G1 & G2 & G3 & G4 & G5 & _) & Dt) & _). change (role_file "targets") with "targets.json".
    eapply tri_bind; [apply (tri_read E keyid HE Image K I d0 s2 _ _ _ Dt)|gr2|]. intros a s1' _ (-> & ->).
    lift_ok p1 H1. lift_ok p2 H2. lift_ok p3 H3.
    assert (Pp3 : plain p3 = true) by (apply file_doc in Dt as (kid & m & sg & _ & P0); [|exact HE]; exact (PP _ _ _ _ P0 H1 H2 H3)).
    assert (exists de', deleg_ok (Some de') /\ p3 = tgt_shape cu (Some de') e ts (v + 1)) as (de' & Dok & ->).
    { unfold jmod at 1 in H1. rewrite jget_tgt_deleg in H1. cbn [bind] in H1. apply bind_ok in H1 as (y & H1 & H1'). rewrite jset_tgt_deleg in H1'. injection H1' as <-.
      unfold jmod at 1 in H2. rewrite jget_tgt_deleg in H2. cbn [bind] in H2. apply bind_ok in H2 as (z & H2 & H2'). rewrite jset_tgt_deleg in H2'. injection H2' as <-.
      rewrite bump_tgt in H3 by exact G5. injection H3 as <-. exists z. split; [|reflexivity].
      assert (Ge : good_entry entry) by (exists name, (keyid (kp_pub kp)), path, te; split; [reflexivity|eauto]).
      destruct de as [d|].
      - destruct G2 as (kj & rl & -> & Gk & Gr). unfold jmod in H1. change (jget "keys" (JObj [("keys", kj); ("roles", JArr rl)])) with (Ok kj) in H1. cbn [bind] in H1. apply bind_ok in H1 as (kj' & H1 & H1').
        change (jset "keys" kj' (JObj [("keys", kj); ("roles", JArr rl)])) with (Ok (JObj [("keys", kj'); ("roles", JArr rl)])) in H1'. injection H1' as <-.
        assert (z = JObj [("keys", kj'); ("roles", JArr (rl ++ [entry]))]) as -> by (cbv in H2; now injection H2 as <-).
        exists kj', (rl ++ [entry]). split; [reflexivity|]. split.
        + right. apply jset_obj in H1 as (l & -> & H1). eexists. split; [reflexivity|]. intros kid j i. apply in_oput in i as [h|i]; [injection h as -> ->; eauto|].
          destruct H1 as [->|(_ & ->)]; [|destruct i]. destruct Gk as [h|(kl & h & Gk)]; [discriminate|]. injection h as <-. eauto.
        + intros r i. apply in_app_or in i as [i|[<-|[]]]; auto.
      - unfold jmod in H1. cbn [jget bind jset] in H1. injection H1 as <-.
        assert (z = JObj [("keys", JObj [(keyid (kp_pub kp), to_uptane (kp_pub kp))]); ("roles", JArr [entry])]) as -> by (cbn in H2; now injection H2 as <-).
        do 2 eexists. split; [reflexivity|]. split.
        + right. eexists. split; [reflexivity|]. intros kid j [h|[]]. injection h as <- <-. eauto.
        + intros r [<-|[]]. exact Ge. }
    eapply tri_bind; [apply (tri_write_top s2 cu de e ts v); assumption|gr2|].
    intros text2 s3 V3 _. apply tri_update; assumption.
  - rewrite (role_file_deleg parent Np). eapply tri_bind; [apply tri_read_any|gr2|]. intros pj s1' _ (-> & Hpj). lift_ok p1 H1. lift_ok p2 H2. lift_ok p3 H3.
    assert (Fo : file_ok (file_json E (delegation_file parent) (g_side s2))) by (destruct C as (_ & _ & _ & _ & _ & (X & _) & _); apply X). destruct Fo as (Pf & Ft).
    assert (Ppj : plain pj = true) by (eapply plain_jget; [exact Pf|exact Hpj]).
    eapply tri_bind.
    { apply tri_write_any; [exact (PP _ _ _ _ Ppj H1 H2 H3)|]. intros kid m sg P0 B. apply keep_deleg; [split; assumption| |exact B]. apply file_ok_signed; [exact P0|]. intros t Ht.
      apply (Ft pj t Hpj). rewrite <- Ht. apply bump_obj in H3 as (l & z & -> & H3). rewrite jget_obj, get_oput_other by discriminate.
      apply jmod_obj in H2 as (l2 & y2 & -> & _ & H2). destruct H3 as [h|(h & _)]; [injection h as <-|discriminate]. rewrite get_oput_other by discriminate.
      apply jmod_obj in H1 as (l1 & y1 & -> & _ & H1). destruct H2 as [h|(h & _)]; [injection h as <-|discriminate]. rewrite get_oput_other by discriminate. now apply jget_kept. }
    { gr2. }
    intros text2 s3 V3 _. apply tri_update; assumption.
Qed.
End Keep.
