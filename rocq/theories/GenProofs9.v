(** Every command of the generator keeps the repositories in order: revoking a delegation. *)
From Verif Require Import Base Json TufModel TufSpec TufProofs MetaStore RepoModel RepoSpec RepoProofs RepoProofs4 GenModel GenSpec GenProofs GenProofs2 GenProofs3 GenProofs4 GenProofs5 GenProofs6 GenProofs7 GenProofs8.

Section Keep.
Context (E : Env) (keyid : pubkey -> string) (depth : nat) (HE : env_ok E).
Context (K : repo_keys) (HK : keys_ok E keyid K).
Context (I : invocation) (d0 : side).
Notation tri := (tri E keyid Image K I d0).
Notation keep := (keep E keyid Image K d0).
Notation core := (core E keyid Image K).
Notation doc_at := (doc_at E keyid K).
Notation inv := (inv E keyid Image K I d0).

(** The loop over the delegations of a role. *)
Definition remove_loop (rd : string -> G unit) (name : string) : list (string * json) -> G (list json) :=
  fix loop (l : list (string * json)) : G (list json) :=
    match l with
    | [] => gret []
    | (_, r) :: l' =>
        let% nj := glift (jget "name" r) in
        let% n := glift (jas_string nj) in
        if String.eqb n name then loop l'
        else
          let% dr := glift (role_delegation n) in
          rd (r_name dr) %;
          let% rest := loop l' in
          gret (r :: rest)
    end.
Lemma remove_unfold f name kid parent : remove_delegation E keyid I (S f) name kid parent =
  let% tj := read_signed E (role_file parent) in
  let% t1 := glift (jmod "delegations" (jmod "keys" (jremove kid)) tj) in
  let% dj := glift (jget "delegations" t1) in
  let% rolesj := glift (jget "roles" dj) in
  let% kept := remove_loop (remove_delegation E keyid I f name kid) name (jiter rolesj) in
  let% t2 := glift (jmod "delegations" (jset "roles" (JArr kept)) t1) in
  let% t3 := glift (bump t2) in
  let% _t := write_signed E keyid I parent (role_file parent) t3 in
  gret tt.
Proof. reflexivity. Qed.
Lemma grows_loop rd name : (forall n, grows (rd n)) -> forall l, grows (remove_loop rd name l).
Proof.
  intros H. induction l as [|(k, r) l IH]; cbn [remove_loop]; [apply grows_ret|]. apply grows_bind; [apply grows_lift|intros nj]. apply grows_bind; [apply grows_lift|intros n].
  destruct (String.eqb n name); [exact IH|]. apply grows_bind; [apply grows_lift|intros dr]. apply grows_bind; [apply H|intros _]. apply grows_bind; [exact IH|intros; apply grows_ret].
Qed.
Lemma grows_remove : forall f name kid parent, grows (remove_delegation E keyid I f name kid parent).
Proof.
  induction f as [|f IH]; intros name kid parent; [apply grows_throw|]. rewrite remove_unfold. gr2. apply grows_loop. intros n. apply IH.
Qed.
Definition same (s s' : gst) : Prop := aget "targets.json" (f_files (g_side s')) = aget "targets.json" (f_files (g_side s)).
Lemma tri_loop rd name : (forall n, grows (rd n)) -> (forall n s, n <> "targets" -> tri s (rd n) (fun _ s' => same s s')) ->
  forall l s, tri s (remove_loop rd name l) (fun kept s' => same s s' /\ forall r, In r kept -> exists k, In (k, r) l).
Proof.
  intros Hg H. induction l as [|(k, r) l IH]; intros s; cbn [remove_loop].
  - apply tri_ret. split; [reflexivity|intros ? []].
  - pose proof (grows_loop rd name Hg l) as Gl. eapply tri_bind; [apply tri_lift| |].
    { intros nj. apply grows_bind; [apply grows_lift|intros n]. destruct (String.eqb n name); [exact Gl|]. apply grows_bind; [apply grows_lift|intros dr]. apply grows_bind; [apply Hg|intros _]. apply grows_bind; [exact Gl|intros; apply grows_ret]. }
    intros nj s1 _ (-> & _). eapply tri_bind; [apply tri_lift| |].
    { intros n. destruct (String.eqb n name); [exact Gl|]. apply grows_bind; [apply grows_lift|intros dr]. apply grows_bind; [apply Hg|intros _]. apply grows_bind; [exact Gl|intros; apply grows_ret]. }
    intros n s1 _ (-> & _). destruct (String.eqb n name).
    { eapply tri_weaken; [apply IH|]. intros kept s' _ (A & B). split; [exact A|]. intros r' i. destruct (B r' i) as (k' & i'). exists k'. now right. }
    eapply tri_bind; [apply tri_lift| |].
    { intros dr. apply grows_bind; [apply Hg|intros _]. apply grows_bind; [exact Gl|intros; apply grows_ret]. }
    intros dr s1 _ (-> & Hd). destruct (deleg_not_reserved n dr Hd) as (Nr & ->). apply not_reserved in Nr as (_ & Nt & _). cbn [r_name].
    eapply tri_bind; [apply H; exact Nt|intros _; apply grows_bind; [exact Gl|intros; apply grows_ret]|]. intros u s1 _ S1.
    eapply tri_bind; [apply IH|intros; apply grows_ret|]. intros rest s2 _ (S2 & In2). apply tri_ret. split; [unfold same in *; congruence|].
    intros r' [<-|i]; [exists k; now left|]. destruct (In2 r' i) as (k' & i'). exists k'. now right.
Qed.

Lemma plain_removed kid tj t1 dj rolesj kept t2 t3 : plain tj = true -> jmod "delegations" (jmod "keys" (jremove kid)) tj = Ok t1 -> jget "delegations" t1 = Ok dj -> jget "roles" dj = Ok rolesj ->
  (forall r, In r kept -> exists k, In (k, r) (jiter rolesj)) -> jmod "delegations" (jset "roles" (JArr kept)) t1 = Ok t2 -> bump t2 = Ok t3 -> plain t3 = true.
Proof.
  intros P H1 H2 H3 Hk H4 H5. refine (plain_bump _ _ _ H5).
  assert (P1 : plain t1 = true).
  { refine (plain_jmod "delegations" _ _ _ eq_refl P _ H1). intros a b Pa Hb. refine (plain_jmod "keys" _ _ _ eq_refl Pa _ Hb). intros a' b' Pa' Hb'. exact (plain_jremove _ _ _ Pa' Hb'). }
  assert (Pr : plain rolesj = true) by (eapply plain_jget; [|exact H3]; eapply plain_jget; [exact P1|exact H2]).
  refine (plain_jmod "delegations" _ _ _ eq_refl P1 _ H4). intros a b Pa Hb. refine (plain_jset "roles" _ _ _ eq_refl _ Pa Hb). apply plain_arr. intros r i. destruct (Hk r i) as (k & i'). exact (plain_iter _ _ _ Pr i').
Qed.
Lemma tri_remove_deleg : forall f name kid parent s, parent <> "targets" -> tri s (remove_delegation E keyid I f name kid parent) (fun _ s' => same s s').
Proof.
  induction f as [|f IH]; intros name kid parent s Np; [apply tri_throw|]. rewrite remove_unfold, (role_file_deleg parent Np).
  pose proof (fun l => grows_loop (remove_delegation E keyid I f name kid) name (grows_remove f name kid) l) as Gl.
  apply tri_inv. intros V. pose proof V as ((C & L) & _).
  assert (Fo : file_ok (file_json E (delegation_file parent) (g_side s))) by (destruct C as (_ & _ & _ & _ & _ & (X & _) & _); apply X). destruct Fo as (Pf & Ft).
  eapply tri_bind; [apply tri_read_any|gr2; apply Gl|]. intros tj s1 _ (-> & Htj).
  eapply tri_bind; [apply tri_lift|gr2; apply Gl|]. intros t1 s1 _ (-> & H1).
  eapply tri_bind; [apply tri_lift|gr2; apply Gl|]. intros dj s1 _ (-> & H2).
  eapply tri_bind; [apply tri_lift|gr2; apply Gl|]. intros rolesj s1 _ (-> & H3).
  eapply tri_bind; [apply tri_loop; [apply grows_remove|intros n s1 Hn; apply IH; exact Hn]|gr2|]. intros kept s1 V1 (S1 & Hk).
  lift_ok t2 H4. lift_ok t3 H5.
  assert (Pt3 : plain t3 = true) by exact (plain_removed kid tj t1 dj rolesj kept t2 t3 (plain_jget _ _ _ Pf Htj) H1 H2 H3 Hk H4 H5).
  eapply tri_bind.
  { apply tri_write_any; [exact Pt3|]. intros kid' m sg P0 B. apply (keep_deleg E keyid K d0); [apply V1| |exact B]. apply file_ok_signed; [exact HE|exact P0|]. intros t Ht.
    apply (Ft tj t Htj). rewrite <- Ht. apply bump_obj in H5 as (l & z & -> & H5). rewrite jget_obj, get_oput_other by discriminate.
    apply jmod_obj in H4 as (l2 & y2 & -> & _ & H4). destruct H5 as [h|(h & _)]; [injection h as <-|discriminate]. rewrite get_oput_other by discriminate.
    apply jmod_obj in H1 as (l1 & y1 & -> & _ & H1). destruct H4 as [h|(h & _)]; [injection h as <-|discriminate]. rewrite get_oput_other by discriminate. now apply jget_kept. }
  { gr2. }
  intros text s2 V2 (kid' & m & sg & _ & _ & ->). apply tri_ret. unfold same in *. cbn [with_side g_side]. rewrite aget_put_other by dneq. exact S1.
Qed.
Lemma tri_remove_top f name kid s : tri s (remove_delegation E keyid I f name kid "targets") (fun _ _ => True).
Proof.
  destruct f as [|f]; [apply tri_throw|]. rewrite remove_unfold. change (role_file "targets") with "targets.json".
  pose proof (fun l => grows_loop (remove_delegation E keyid I f name kid) name (grows_remove f name kid) l) as Gl.
  apply tri_inv. intros V. pose proof V as ((C & L) & _). pose proof C as (_ & _ & (cu & de & e & ts & v & (G1 & G2 & G3 & G4 & G5 & _) & Dt) & _).
  eapply tri_bind; [apply (tri_read E keyid HE Image K I d0 s _ _ _ Dt)|gr2; apply Gl|]. intros tj s1 _ (-> & ->).
  eapply tri_bind; [apply tri_lift|gr2; apply Gl|]. intros t1 s1 _ (-> & H1).
  eapply tri_bind; [apply tri_lift|gr2; apply Gl|]. intros dj s1 _ (-> & H2).
  eapply tri_bind; [apply tri_lift|gr2; apply Gl|]. intros rolesj s1 _ (-> & H3).
  eapply tri_bind; [apply tri_loop; [apply grows_remove|intros n s1 Hn; apply tri_remove_deleg; exact Hn]|gr2|]. intros kept s1 V1 (S1 & Hk).
  lift_ok t2 H4. lift_ok t3 H5.
  assert (Pt3 : plain t3 = true) by (apply file_doc in Dt as (kid' & m & sg & _ & P0); [|exact HE]; exact (plain_removed kid _ t1 dj rolesj kept t2 t3 P0 H1 H2 H3 Hk H4 H5)).
  assert (Dt1 : doc_at (g_side s1) "targets.json" role_targets (tgt_shape cu de e ts v)) by (refine (doc_frame E keyid K _ _ _ _ _ S1 Dt)).
  assert (exists de', deleg_ok (Some de') /\ t3 = tgt_shape cu (Some de') e ts (v + 1)) as (de' & Dok & ->).
  { unfold jmod at 1 in H1. rewrite jget_tgt_deleg in H1. cbn [bind] in H1. apply bind_ok in H1 as (y & H1 & H1'). rewrite jset_tgt_deleg in H1'. injection H1' as <-.
    rewrite jget_tgt_deleg in H2. injection H2 as <-.
    unfold jmod at 1 in H4. rewrite jget_tgt_deleg in H4. cbn [bind] in H4. apply bind_ok in H4 as (z & H4 & H4'). rewrite jset_tgt_deleg in H4'. injection H4' as <-.
    rewrite bump_tgt in H5 by exact G5. injection H5 as <-. exists z. split; [|reflexivity].
    destruct de as [d|].
    - destruct G2 as (kj & rl & -> & Gk & Gr). unfold jmod in H1. change (jget "keys" (JObj [("keys", kj); ("roles", JArr rl)])) with (Ok kj) in H1. cbn [bind] in H1. apply bind_ok in H1 as (kj' & H1 & H1').
      change (jset "keys" kj' (JObj [("keys", kj); ("roles", JArr rl)])) with (Ok (JObj [("keys", kj'); ("roles", JArr rl)])) in H1'. injection H1' as <-.
      change (jget "roles" (JObj [("keys", kj'); ("roles", JArr rl)])) with (@Ok json (JArr rl)) in H3. injection H3 as <-.
      change (jset "roles" (JArr kept) (JObj [("keys", kj'); ("roles", JArr rl)])) with (Ok (JObj [("keys", kj'); ("roles", JArr kept)])) in H4. injection H4 as <-.
      exists kj', kept. split; [reflexivity|]. split.
      + destruct Gk as [->|(kl & -> & Gk)]; [injection H1 as <-; now left|]. injection H1 as <-. right. eexists. split; [reflexivity|]. intros k j i. apply filter_In in i as (i & _). eauto.
      + intros r i. destruct (Hk r i) as (k & i'). apply in_index in i'. auto.
    - unfold jmod in H1. cbn [jget bind jset jremove] in H1. injection H1 as <-. change (jget "roles" (JObj [("keys", JNull)])) with (@Ok json JNull) in H3. injection H3 as <-.
      assert (kept = []) as -> by (destruct kept as [|r kept]; [reflexivity|destruct (Hk r (or_introl eq_refl)) as (k & [])]).
      change (jset "roles" (JArr []) (JObj [("keys", JNull)])) with (@Ok json (JObj [("keys", JNull); ("roles", JArr [])])) in H4. injection H4 as <-.
      exists JNull, []. split; [reflexivity|]. split; [now left|intros ? []]. }
  eapply tri_bind; [apply (tri_write_top E keyid HE K HK I d0 s1 cu de e ts v); assumption|gr2|]. intros text s2 _ _. now apply tri_ret.
Qed.
Lemma tri_revoke_delegation s name : tri s (revoke_delegation E keyid depth I name) (fun _ s' => consistent E keyid K (g_side s')).
Proof.
  unfold revoke_delegation. eapply tri_bind; [apply tri_pure|gr2; apply grows_remove|]. intros kp s1 V (-> & _). destruct kp as [kp|]; [|apply tri_throw]. destruct (is_reserved name) eqn:Rn; [apply tri_throw|].
  eapply tri_bind; [apply tri_change|gr2; apply grows_remove|].
  { intros B. apply keep_keys; [apply V| |exact B]. intros rn i. pose proof V as (((C1 & _) & _) & _). rewrite <- (C1 rn i). apply not_reserved in Rn as (R1 & R2 & R3 & R4).
    assert (Nn : rn <> name) by (destruct i as [<-|[<-|[<-|[<-|[]]]]]; congruence). clear -Nn. generalize (f_keys (g_side s)). induction l as [|(k, x) l IH]; [reflexivity|]. cbn [filter fst].
    destruct (String.eqb_spec k name) as [->|]; cbn [negb aget]; rewrite IH; [|reflexivity]. destruct (String.eqb_spec rn name); [contradiction|reflexivity]. }
  intros u s1 V1 _. eapply tri_bind; [apply tri_change|gr2; apply grows_remove|].
  { intros B. apply (keep_del E keyid HE K d0); [apply V1|exact B]. }
  intros u2 s2 V2 _. eapply tri_bind; [apply tri_remove_top|gr2|]. intros u3 s3 V3 _. apply tri_update; assumption.
Qed.
End Keep.
