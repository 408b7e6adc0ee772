From Verif Require Import Base Json TufModel TufSpec TufProofs TufProofs2 MetaStore RepoModel RepoSpec RepoProofs RepoProofs2
  RepoProofs3 RepoProofs4 RepoProofs5 RepoProofs6 ClientModel ClientSpec.

(** Nothing but the delegations table changes. *)
Definition only_deleg (s s' : ust) : Prop :=
  d_meta (u_db s') = d_meta (u_db s) /\ u_droot s' = u_droot s /\ u_dtargets s' = u_dtargets s /\ u_dlatest s' = u_dlatest s /\
  u_iroot s' = u_iroot s /\ u_itime s' = u_itime s /\ u_isnap s' = u_isnap s /\ u_itargets s' = u_itargets s.
Lemma od_refl s : only_deleg s s. Proof. repeat split. Qed.
Lemma od_trans a b c : only_deleg a b -> only_deleg b c -> only_deleg a c.
Proof. unfold only_deleg. intuition congruence. Qed.
Definition odm {A} (m : M A) : Prop := forall s s' r, m s = (s', r) -> only_deleg s s'.
Lemma od_bind {A B} (m : M A) (k : A -> M B) : odm m -> (forall a, odm (k a)) -> odm (mbind m k).
Proof.
  intros Hm Hk s s' r H. apply mbind_inv in H. destruct H as [(s1 & a & H1 & H) | (e & H1 & _)].
  - eapply od_trans; [eapply Hm | eapply Hk]; eauto.
  - eapply Hm; eauto.
Qed.
Lemma od_lift {A} (x : res A) : odm (lift x). Proof. intros s s' r H. inversion H; apply od_refl. Qed.
Lemma od_gets {A} (f : ust -> A) : odm (gets f). Proof. intros s s' r H. inversion H; apply od_refl. Qed.
Lemma od_throw {A} e : @odm A (throw e). Proof. intros s s' r H. inversion H; apply od_refl. Qed.
Lemma od_ret {A} (a : A) : odm (ret a). Proof. intros s s' r H. inversion H; apply od_refl. Qed.
Lemma od_guard b e : odm (guard b e). Proof. unfold guard. destruct b; [apply od_throw|apply od_ret]. Qed.
Lemma od_del n : odm (write (delete_delegation n)). Proof. intros s s' r H. inversion H; repeat split. Qed.
Lemma od_store raw n : odm (write (store_delegation raw n)). Proof. intros s s' r H. inversion H; repeat split. Qed.

Lemma od_trusted E srv off name parent : odm (get_trusted_delegation E srv off name parent).
Proof.
  unfold get_trusted_delegation.
  repeat first [ apply od_lift | apply od_gets | apply od_throw | apply od_ret | apply od_guard | apply od_del | apply od_store
               | apply od_bind; [|intros] | match goal with |- odm (if ?b then _ else _) => destruct b end
               | match goal with |- odm (match ?b with _ => _ end) => destruct b end ].
Qed.

Lemma extract_base' E raw v b : extract_version_untrusted E raw = Ok v -> base_init (parse E raw) = Ok b -> v <> -1 -> b_version b = v.
Proof.
  unfold extract_version_untrusted, base_init. intros H Hb Hv.
  destruct (negb (jis_object (parse E raw))); [discriminate|].
  apply bind_ok in Hb; destruct Hb as (m & _ & Hb). destruct (negb m); [discriminate|].
  apply bind_ok in Hb; destruct Hb as (s & Hs & Hb). rewrite Hs in H. simpl in H.
  apply bind_ok in Hb; destruct Hb as (vj & Hvj & Hb). rewrite Hvj in H. simpl in H.
  apply bind_ok in Hb; destruct Hb as (v' & Hv' & Hb).
  destruct (jis_integral vj); simpl in H; [|inversion H; lia].
  rewrite Hv' in H. inversion H; subst.
  apply bind_ok in Hb; destruct Hb as (ej & _ & Hb). apply bind_ok in Hb; destruct Hb as (es & _ & Hb).
  destruct (timestamp_of_string es); inversion Hb; reflexivity.
Qed.

(** The document a trusted delegation was read from. *)
Lemma trusted_spec E srv off name parent s s' t : get_trusted_delegation E srv off name parent s = (s', Ok t) ->
  exists raw, (forall h, In h (role_hashes (u_isnap s) name) -> digest_matches E raw h) /\
     acceptable E (tg_ks parent) {| r_kind := RDelegation; r_name := name |} (parse E raw) /\
     targets_doc E name (parse E raw) t /\
     (tg_version t = role_version (u_isnap s) name \/ role_version (u_isnap s) name = -1).
Proof.
  unfold get_trusted_delegation. intros H. apply gets_inv in H. apply gets_inv in H.
  apply lift_inv in H. destruct H as [(stored & Hst & H) | (e & _ & _ & H)]; [|discriminate].
  apply mbind_inv in H. destruct H as [(s1 & local & Hl & H) | (e & _ & H)]; [|discriminate].
  apply mbind_inv in H. destruct H as [(s2 & raw & Hr & H) | (e & _ & H)]; [|discriminate].
  apply mbind_inv in H. destruct H as [(s3 & u & Hv & H) | (e & _ & H)]; [|discriminate].
  apply lift_inv in H. destruct H as [(t' & Ht & H) | (e & _ & _ & H)]; [|discriminate].
  apply mbind_inv in H. destruct H as [(s4 & u' & Hg & H) | (e & _ & H)]; [|discriminate].
  inversion H; subst t'; clear H.
  exists raw.
  assert (Hd : verifiable_role {| r_kind := RDelegation; r_name := name |}) by (right; reflexivity).
  apply targets_signed_ok in Ht; [|exact Hd]. destruct Ht as (Ha & Hdoc). simpl in Hdoc.
  split.
  { unfold verify_role_hashes in Hv. destruct (check_hashes _ _ _ _) eqn:Hc in Hv; [|discriminate].
    apply check_hashes_spec in Hc. apply Hc. }
  split; [exact Ha|]. split; [exact Hdoc|].
  destruct (String.eqb local "") eqn:Hrem.
  - left. apply mbind_inv in Hg. destruct Hg as [(s5 & u2 & Hg & _) | (e & _ & Hg)]; [|discriminate].
    unfold guard in Hg. destruct (tg_version t =? role_version (u_isnap s) name) eqn:He; [now apply Z.eqb_eq|discriminate].
  - destruct stored as [sraw|]; [|inversion Hl; subst; discriminate].
    apply lift_inv in Hl. destruct Hl as [(ver & Hver & Hl) | (e & _ & _ & Hl)]; [|discriminate].
    destruct (role_version (u_isnap s) name <? ver) eqn:L1; [discriminate|].
    destruct (ver <? role_version (u_isnap s) name) eqn:L2.
    { apply mbind_inv in Hl. destruct Hl as [(s5 & u2 & _ & Hl) | (e & _ & Hl)]; [|discriminate]. inversion Hl; subst; discriminate. }
    inversion Hl; subst local. inversion Hr; subst raw.
    apply Z.ltb_ge in L1. apply Z.ltb_ge in L2. assert (Hve : ver = role_version (u_isnap s) name) by lia.
    destruct (Z.eq_dec ver (-1)); [right; congruence|left].
    destruct Hdoc as (Hb & _). unfold tg_version. rewrite (extract_base' _ _ _ _ Hver Hb); [congruence|assumption].
Qed.

Section Search.
Context (E : Env) (fnm : string -> string -> bool) (srv : server) (now : string -> string) (off : bool) (q : target).

Lemma helper_spec : forall fuel term cur s s' r,
  find_target_helper E fnm srv now off q fuel term cur s = (s', r) ->
  only_deleg s s' /\
  forall t, r = Ok (Some t) -> exists n role, delegation_path E fnm now (u_isnap s) q term cur n role /\ (n <= fuel)%nat /\
    In t (tg_targets role) /\ same_target t q.
Proof.
  induction fuel as [|fuel IH]; intros term cur s s' r H.
  - simpl in H. destruct (find _ (tg_targets cur)) as [x|] eqn:Hf.
    + inversion H; subst. split; [apply od_refl|]. intros t Ht. inversion Ht; subst.
      apply find_some in Hf. destruct Hf as (Hi & Hm). exists 0%nat, cur. split; [constructor|]. split; [lia|]. split; auto.
      now apply match_target_iff.
    + destruct term; inversion H; subst; (split; [apply od_refl|discriminate]).
  - simpl in H. destruct (find _ (tg_targets cur)) as [x|] eqn:Hf.
    + inversion H; subst. split; [apply od_refl|]. intros t Ht. inversion Ht; subst.
      apply find_some in Hf. destruct Hf as (Hi & Hm). exists 0%nat, cur. split; [constructor|]. split; [lia|]. split; auto.
      now apply match_target_iff.
    + destruct term. { inversion H; subst; split; [apply od_refl|discriminate]. }
      match type of H with ?L _ s = _ => set (loop := L) in H end.
      assert (Hloop : forall names s0 s' r, (forall x, In x names -> In x (tg_deleg cur)) -> loop names s0 = (s', r) ->
        only_deleg s0 s' /\ forall t, r = Ok (Some t) -> exists n role,
          delegation_path E fnm now (u_isnap s0) q false cur n role /\ (n <= S fuel)%nat /\ In t (tg_targets role) /\ same_target t q).
      { clear s s' r H. induction names as [|name rest IHn]; intros s s' r Hsub H.
        - inversion H; subst. split; [apply od_refl|discriminate].
        - cbn [loop] in H. unfold loop in H. fold loop in H. 
          assert (Hsub' : forall x, In x rest -> In x (tg_deleg cur)) by (intros; apply Hsub; now right).
          apply lift_inv in H. destruct H as [(rl & Hrl & H) | (e & _ & -> & ->)]; [|split; [apply od_refl|discriminate]].
          unfold role_delegation in Hrl. destruct (is_reserved (to_lower name)); [discriminate|].
          injection Hrl as <-. simpl in H.
          destruct (aget name (tg_paths cur)) as [ps|] eqn:Hps; [|now apply IHn].
          destruct (existsb _ ps) eqn:Hex; [|now apply IHn].
          apply mbind_inv in H. destruct H as [(s1 & d & Hd & H) | (e & Hd & ->)].
          2:{ split; [eapply od_trusted; eauto|discriminate]. }
          assert (Ho := od_trusted _ _ _ _ _ _ _ _ Hd). apply trusted_spec in Hd.
          assert (Hsn : u_isnap s1 = u_isnap s) by apply Ho.
          destruct (is_expired (tg_base d) (now name)) eqn:Hexp.
          { apply IHn in H; auto. destruct H as (H1 & H2). split; [eapply od_trans; eauto|]. rewrite <- Hsn. exact H2. }
          destruct (aget name (tg_term cur)) as [tm|] eqn:Htm.
          2:{ inversion H; subst. split; [exact Ho|discriminate]. }
          apply mbind_inv in H. destruct H as [(s2 & fo & Hf2 & H) | (e & Hf2 & ->)].
          2:{ apply IH in Hf2. split; [eapply od_trans; [exact Ho|apply Hf2]|discriminate]. }
          apply IH in Hf2. destruct Hf2 as (Ho2 & Hf2).
          destruct fo as [t|].
          + inversion H; subst. split; [eapply od_trans; eauto|]. intros t' Ht'. inversion Ht'; subst t'.
            destruct (Hf2 t eq_refl) as (n & role & Hp & Hn & Hi & Hs). rewrite Hsn in Hp.
            exists (S n), role. split; [|split; [lia|auto]].
            econstructor; [|exact Htm|exact Hp].
            split; [apply Hsub; now left|]. split.
            { apply existsb_exists in Hex. destruct Hex as (p & Hpi & Hp'). exists ps, p. auto. }
            split; [exact Hd|exact Hexp].
          + apply IHn in H; auto. destruct H as (H1 & H2). split; [eapply od_trans; [exact Ho|eapply od_trans; eauto]|].
            intros t Ht. assert (Hsn2 : u_isnap s2 = u_isnap s) by (destruct Ho2 as (?&?&?&?&?&?&?&?); congruence).
            rewrite <- Hsn2. now apply H2. }
      apply (Hloop (tg_deleg cur)); auto.
Qed.

Theorem find_target_sound s s' r : find_target_in_tree E fnm srv now off q s = (s', r) ->
  only_deleg s s' /\
  forall t, r = Ok (Some t) -> exists top, u_itargets s = Some top /\ vouched E fnm now (u_isnap s) top q t.
Proof.
  unfold find_target_in_tree. intros H. apply gets_inv in H. destruct (u_itargets s) as [top|] eqn:Ht.
  - apply helper_spec in H. destruct H as (H1 & H2). split; [exact H1|]. intros t Hr. exists top. split; auto.
    destruct (H2 t Hr) as (n & role & Hp & Hn & Hi). exists n, role. auto.
  - inversion H; subst. split; [apply od_refl|discriminate].
Qed.

(** A target that top-level Targets list is found without consulting any delegation. *)
Theorem find_target_toplevel s top : u_itargets s = Some top -> (exists i, In i (tg_targets top) /\ same_target i q) ->
  exists i, find_target_in_tree E fnm srv now off q s = (s, Ok (Some i)) /\ In i (tg_targets top) /\ same_target i q.
Proof.
  intros Ht (i & Hi & Hs). unfold find_target_in_tree, mbind, gets. rewrite Ht. simpl.
  destruct (find (fun t => match_target t q) (tg_targets top)) as [x|] eqn:Hf.
  - exists x. apply find_some in Hf. destruct Hf as (H1 & H2). split; [reflexivity|]. split; auto. now apply match_target_iff.
  - exfalso. apply (find_none _ _ Hf) in Hi. apply match_target_iff in Hs. congruence.
Qed.
End Search.
