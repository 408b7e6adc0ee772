From Verif Require Import Base Json TufModel TufSpec TufProofs MetaStore RepoModel RepoSpec RepoProofs RepoProofs2 RepoProofs3.

(** ** Parsing signed documents *)
Lemma base_signed_ok E ks r j b : verifiable_role r ->
  base_of_json_signed (unpack_signed E ks) r j = Ok b -> acceptable E ks r j /\ base_init j = Ok b.
Proof.
  intros Hv H. unfold base_of_json_signed in H.
  destruct (jis_object j) eqn:Ho; simpl in H; [|discriminate].
  apply bind_ok in H. destruct H as (m & Hm & H). destruct m; simpl in H; [|discriminate].
  apply bind_ok in H. destruct H as ([] & Hu & H). split; auto. now apply unpack_signed_iff.
Qed.
Lemma parse_deleg_base : forall l t t', parse_deleg_roles l t = Ok t' -> tg_base t' = tg_base t.
Proof.
  induction l as [|(k, rj) l IH]; intros t t' H; simpl in H; [inversion H; auto|].
  repeat (apply bind_ok in H; destruct H as (? & ? & H)). apply IH in H. exact H.
Qed.
Lemma targets_init_base E b n j t : targets_init E b n j = Ok t -> tg_base t = b.
Proof.
  unfold targets_init. destruct (negb (jis_object j)); [discriminate|]. intros H.
  apply bind_ok in H; destruct H as (s & _ & H). apply bind_ok in H; destruct H as (ty & _ & H).
  destruct (negb (jeq_str ty "Targets")); [discriminate|].
  apply bind_ok in H; destruct H as (tl & _ & H). apply bind_ok in H; destruct H as (ts & _ & H).
  apply bind_ok in H; destruct H as (dj & _ & H). apply bind_ok in H; destruct H as (t1 & Ht1 & H).
  apply bind_ok in H; destruct H as (cj & _ & H). apply bind_ok in H; destruct H as (co & _ & H).
  inversion H; subst; simpl. destruct (jis_object dj).
  - repeat (apply bind_ok in Ht1; destruct Ht1 as (? & ? & Ht1)). apply parse_deleg_base in Ht1. exact Ht1.
  - inversion Ht1; reflexivity.
Qed.
Lemma targets_signed_ok E ks r j t : verifiable_role r ->
  targets_of_json_signed E (unpack_signed E ks) r j = Ok t -> acceptable E ks r j /\ targets_doc E (r_name r) j t.
Proof.
  intros Hv H. unfold targets_of_json_signed in H. apply bind_ok in H. destruct H as (b & Hb & H).
  apply base_signed_ok in Hb; auto. destruct Hb as (Ha & Hb). split; auto.
  pose proof (targets_init_base _ _ _ _ _ H) as He. rewrite <- He in *. split; congruence.
Qed.
Lemma timestamp_signed_ok E ks j t : 
  timestamp_of_json_signed (unpack_signed E ks) j = Ok t -> acceptable E ks role_timestamp j /\ timestamp_doc j t.
Proof.
  intros H. unfold timestamp_of_json_signed in H. apply bind_ok in H. destruct H as (b & Hb & H).
  apply base_signed_ok in Hb; auto using standard_timestamp. destruct Hb as (Ha & Hb). split; auto.
  assert (He : tm_base t = b).
  { clear -H. unfold timestamp_init in H. do 6 (apply bind_ok in H; destruct H as (? & _ & H)).
    destruct (negb (jis_object j)); [discriminate|]. apply bind_ok in H; destruct H as (? & _ & H).
    destruct (_ || _)%bool; [discriminate|]. repeat (apply bind_ok in H; destruct H as (? & _ & H)).
    inversion H; reflexivity. }
  rewrite <- He in *. split; congruence.
Qed.
Lemma parse_snapshot_base : forall l sn sn', parse_snapshot_meta l sn = Ok sn' -> sn_base sn' = sn_base sn.
Proof.
  induction l as [|(k, rj) l IH]; intros t t' H; cbn [parse_snapshot_meta] in H; [inversion H; auto|].
  do 3 (apply bind_ok in H; destruct H as (? & _ & H)). destruct (negb _); [discriminate|].
  repeat (apply bind_ok in H; destruct H as (? & _ & H)). apply IH in H. exact H.
Qed.
Lemma snapshot_signed_ok E ks j t : 
  snapshot_of_json_signed (unpack_signed E ks) j = Ok t -> acceptable E ks role_snapshot j /\ snapshot_doc j t.
Proof.
  intros H. unfold snapshot_of_json_signed in H. apply bind_ok in H. destruct H as (b & Hb & H).
  apply base_signed_ok in Hb; auto using standard_snapshot. destruct Hb as (Ha & Hb). split; auto.
  assert (He : sn_base t = b).
  { clear -H. unfold snapshot_init in H. do 2 (apply bind_ok in H; destruct H as (? & _ & H)).
    destruct (negb (jis_object j)); [discriminate|]. apply bind_ok in H; destruct H as (? & _ & H).
    destruct (_ || _)%bool; [discriminate|]. apply parse_snapshot_base in H. exact H. }
  rewrite <- He in *. split; congruence.
Qed.

(** The version number read before verification is the one read after it. *)
Lemma extract_base E raw v b : extract_version_untrusted E raw = Ok v -> base_init (parse E raw) = Ok b -> 0 <= v -> b_version b = v.
Proof.
  unfold extract_version_untrusted, base_init. intros H Hb Hv.
  destruct (negb (jis_object (parse E raw))); [discriminate|].
  apply bind_ok in Hb; destruct Hb as (m & _ & Hb). destruct (negb m); [discriminate|].
  apply bind_ok in Hb; destruct Hb as (s & Hs & Hb). rewrite Hs in H. simpl in H.
  apply bind_ok in Hb; destruct Hb as (vj & Hvj & Hb). rewrite Hvj in H. simpl in H.
  apply bind_ok in Hb; destruct Hb as (v' & Hv' & Hb).
  destruct (jis_integral vj); simpl in H; [|inversion H; lia].
  rewrite Hv' in H. inversion H; subst.
  apply bind_ok in Hb; destruct Hb as (ej & _ & Hb). apply bind_ok in Hb; destruct Hb as (es & _ & Hb).
  destruct (timestamp_of_string es); inversion Hb; reflexivity.
Qed.

(** ** Director *)
Definition same_roots (s s' : ust) : Prop := forall rp, get_root rp s' = get_root rp s.
Definition same_image (s s' : ust) : Prop :=
  u_itime s' = u_itime s /\ u_isnap s' = u_isnap s /\ u_itargets s' = u_itargets s.
Definition same_director (s s' : ust) : Prop := u_dtargets s' = u_dtargets s /\ u_dlatest s' = u_dlatest s.

Definition verified_targets (E : Env) (R : root) (raw : string) (t : targets) : Prop :=
  acceptable E (rt_ks R) role_targets (parse E raw) /\ targets_doc E "targets" (parse E raw) t.

Lemma director_verify_spec E raw s s' r : director_verify_targets E raw s = (s', r) ->
  (exists e, r = Throw e /\ s' = s) \/
  (r = Ok tt /\ exists t, verified_targets E (get_root Director s) raw t /\ u_dlatest s' = t /\
     u_dtargets s' = (if negb (nilb (tg_targets (u_dtargets s))) && nilb (tg_targets t) then u_dtargets s else t) /\
     u_db s' = u_db s /\ u_log s' = u_log s /\ same_roots s s' /\ same_image s s').
Proof.
  unfold director_verify_targets. intros H. apply gets_inv in H.
  apply lift_inv in H. destruct H as [(t & Ht & H) | (e & He & -> & ->)]; [|left; eauto].
  apply targets_signed_ok in Ht; [|apply standard_targets].
  right. unfold mbind, set_dlatest, modify, gets, set_dtargets, ret, use_previous in H. simpl in H.
  destruct (negb (nilb (tg_targets (u_dtargets s))) && nilb (tg_targets t)) eqn:Hb;
    inversion H; subst; clear H; (split; auto); exists t; simpl; rewrite ?Hb;
    (split; [exact Ht|]); repeat split; intros []; reflexivity.
Qed.

Lemma ecu_repeated_NoDup : forall l seen, ecu_repeated seen l = false <-> (NoDup l /\ forall x, In x l -> ~ In x seen).
Proof.
  induction l as [|e l IH]; intros seen; simpl.
  - split; auto. intros _. split; [constructor|]. intros x [].
  - destruct (mem_str e seen) eqn:Hm.
    + apply mem_str_In in Hm. split; [discriminate|]. intros (_ & H). exfalso. apply (H e); auto.
    + apply mem_str_nIn in Hm. rewrite IH. split.
      * intros (HN & Hs). split.
        -- constructor; auto. intros Hin. apply (Hs e Hin). now left.
        -- intros x [<- | Hx]; auto. intros Hin. apply (Hs x Hx). now right.
      * intros (HN & Hs). inversion HN; subst. split; auto.
        intros x Hx [<- | Hin]; auto. apply (Hs x); auto.
Qed.

Lemma director_tail_spec clk s s' r :
  (director_check_expired clk ;; director_sanity) s = (s', r) ->
  s' = s /\ (r = Ok tt -> is_expired (tg_base (u_dlatest s)) (clk RTargets) = false /\ tg_deleg (u_dlatest s) = [] /\
                          one_target_per_ecu (u_dtargets s)).
Proof.
  unfold director_check_expired, director_sanity, guard, mbind, gets, throw, ret.
  destruct (is_expired _ _); [intros H; inversion H; split; auto; discriminate|].
  destruct (tg_deleg (u_dlatest s)) eqn:Hd; simpl; [|intros H; inversion H; split; auto; discriminate].
  destruct (ecu_repeated _ _) eqn:He; intros H; inversion H; subst; split; auto; try discriminate.
  intros _. split; auto. split; auto. apply ecu_repeated_NoDup in He. apply He.
Qed.

Definition keeps_previous (E : Env) (s s' : ust) (tl : targets) : Prop :=
  tg_targets tl = [] /\ tg_targets (u_dtargets s') <> [] /\
  exists sraw, load_nonroot Director RTargets (u_db s) = Ok (Some sraw) /\
    verified_targets E (get_root Director s) sraw (u_dtargets s').

Lemma director_block_spec E srv clk s s' r :
  director_targets_block E srv clk s = (s', r) -> tg_targets (u_dtargets s) = [] ->
  same_roots s s' /\ same_image s s' /\
  ((wrote Director [] s s' /\ exists e, r = Throw e) \/
   exists raw remote local,
     srv Director "targets" (-1) = Ok raw /\ extract_version_untrusted E raw = Ok remote /\
     local_version E Director RTargets (u_db s) local /\ local <= remote /\
     verified_targets E (get_root Director s) raw (u_dlatest s') /\
     ((u_dtargets s' = u_dlatest s' /\ wrote Director (if local <? remote then [(RTargets, raw)] else []) s s') \/
      (keeps_previous E s s' (u_dlatest s') /\ wrote Director [] s s')) /\
     (r = Ok tt -> is_expired (tg_base (u_dlatest s')) (clk RTargets) = false /\ tg_deleg (u_dlatest s') = [] /\
                   one_target_per_ecu (u_dtargets s'))).
Proof.
  unfold director_targets_block. intros H Hemp.
  assert (Hnil : forall e, r = Throw e -> s' = s -> same_roots s s' /\ same_image s s' /\ wrote Director [] s s').
  { intros e _ ->. repeat split. }
  apply lift_inv in H. destruct H as [(raw & Hraw & H) | (e & _ & -> & ->)].
  2: { split; [repeat split|]. split; [repeat split|]. left. split; [now apply wrote_nil|eauto]. }
  apply lift_inv in H. destruct H as [(remote & Hrem & H) | (e & _ & -> & ->)].
  2: { split; [repeat split|]. split; [repeat split|]. left. split; [now apply wrote_nil|eauto]. }
  apply gets_inv in H.
  apply lift_inv in H. destruct H as [(so & Hso & H) | (e & _ & -> & ->)].
  2: { split; [repeat split|]. split; [repeat split|]. left. split; [now apply wrote_nil|eauto]. }
  (* the stored document *)
  assert (Hst : (exists e, r = Throw e /\ s' = s) \/
    exists local s1, local_version E Director RTargets (u_db s) local /\
     u_db s1 = u_db s /\ u_log s1 = u_log s /\ same_roots s s1 /\ same_image s s1 /\
     (tg_targets (u_dtargets s1) = [] \/ exists sraw, so = Some sraw /\ verified_targets E (get_root Director s) sraw (u_dtargets s1)) /\
     (director_verify_targets E raw ;;
      let* up := gets use_previous in
      (if remote <? local then throw USecurity
       else if (local <? remote) && negb up then write (store_nonroot raw Director RTargets)
       else ret tt) ;; director_check_expired clk ;; director_sanity) s1 = (s', r)).
  { destruct so as [sraw|].
    - apply mbind_inv in H. destruct H as [(s1 & lv & H1 & H) | (e & H1 & ->)].
      + right. apply lift_inv in H1. destruct H1 as [(lv' & Hlv & H1) | (e & _ & _ & Hd)]; [|discriminate].
        apply mbind_inv in H1. destruct H1 as [(s1' & [] & H1a & H1) | (e & _ & Hd)]; [|discriminate].
        unfold ret in H1. inversion H1; subst; clear H1.
        exists lv, s1. split. { unfold local_version. now rewrite Hso. }
        unfold catch in H1a. destruct (director_verify_targets E sraw s) as [s2 rr] eqn:Hdv.
        apply director_verify_spec in Hdv. destruct Hdv as [(e & -> & ->) | (-> & t & Hvt & Hl & Ht & Hdb & Hlog & Hr & Hi)].
        * unfold any_exn, ret in H1a. inversion H1a; subst. split; auto. split; auto. split; [repeat split|]. split; [repeat split|].
          split; auto.
        * inversion H1a; subst. split; auto. split; auto. split; auto. split; auto. split; auto.
          rewrite Hemp in Ht. simpl in Ht. right. exists sraw. split; auto. rewrite Ht. exact Hvt.
      + left. apply lift_inv in H1. destruct H1 as [(lv' & Hlv & H1) | (e' & _ & -> & He)]; [|eauto].
        apply mbind_inv in H1. destruct H1 as [(s1' & [] & H1a & H1) | (e' & H1a & Hd)]; [discriminate|].
        unfold catch, any_exn, ret in H1a. destruct (director_verify_targets E sraw s) as [s2 [u|]]; discriminate.
    - right. exists (-1), s. split. { unfold local_version. now rewrite Hso. }
      split; auto. split; auto. split; [repeat split|]. split; [repeat split|]. split; auto. }
  clear H. destruct Hst as [(e & -> & ->) | (local & s1 & Hloc & Hdb1 & Hlog1 & Hr1 & Hi1 & Hprev & H)].
  { split; [repeat split|]. split; [repeat split|]. left. split; [now apply wrote_nil|eauto]. }
  apply mbind_inv in H. destruct H as [(s2 & [] & H2 & H) | (e & H2 & ->)].
  2: { apply director_verify_spec in H2. destruct H2 as [(e' & _ & ->) | (? & _)]; [|discriminate].
       split; auto. split; auto. left. split; [now apply wrote_nil|eauto]. }
  apply director_verify_spec in H2. destruct H2 as [(? & ? & _) | (_ & t & Hvt & Hl & Ht & Hdb2 & Hlog2 & Hr2 & Hi2)]; [discriminate|].
  assert (Hr02 : same_roots s s2) by (intros rp; rewrite Hr2; apply Hr1).
  assert (Hi02 : same_image s s2).
  { destruct Hi1 as (A1 & A2 & A3), Hi2 as (B1 & B2 & B3). repeat split; congruence. }
  apply gets_inv in H.
  destruct (Z.ltb_spec remote local).
  { unfold mbind, throw in H. inversion H; subst. split; auto. split; auto. left. split; [apply wrote_nil; congruence|eauto]. }
  (* commit phase *)
  assert (Hvt' : verified_targets E (get_root Director s) raw t).
  { destruct Hvt as (Ha & Hb). split; auto. rewrite <- (Hr1 Director). exact Ha. }
  assert (Hup : use_previous s2 = negb (nilb (tg_targets (u_dtargets s1))) && nilb (tg_targets t)).
  { unfold use_previous. rewrite Hl, Ht.
    destruct (nilb (tg_targets t)) eqn:Ht2, (nilb (tg_targets (u_dtargets s1))) eqn:Ht1; simpl; rewrite ?Ht1, ?Ht2; reflexivity. }
  apply mbind_inv in H. destruct H as [(s3 & [] & H3 & H) | (e & H3 & ->)].
  2: { destruct ((local <? remote) && negb (use_previous s2)); [apply write_spec in H3; destruct H3; discriminate | inversion H3]. }
  apply director_tail_spec in H. destruct H as (-> & Htail).
  destruct (use_previous s2) eqn:Hup2.
  - rewrite andb_false_r in H3. unfold ret in H3. inversion H3; subst s3; clear H3.
    split; auto. split; auto. right. exists raw, remote, local. do 4 (split; [first [assumption | lia]|]).
    rewrite Hl in *. split; auto. split; auto. right. split; [|apply wrote_nil; congruence].
    symmetry in Hup. rewrite Hup in Ht. apply andb_true_iff in Hup. destruct Hup as (U1 & U2).
    split. { destruct (tg_targets t); [reflexivity|discriminate]. }
    rewrite Ht. split. { intros Hc. rewrite Hc in U1. discriminate. }
    destruct Hprev as [Hp | (sraw & -> & Hp)]. { rewrite Hp in U1. discriminate. }
    exists sraw. split; auto.
  - rewrite andb_true_r in H3.
    assert (Ht' : u_dtargets s2 = t). { rewrite Ht, <- Hup. reflexivity. }
    destruct (Z.ltb_spec local remote).
    + pose proof (wrote_one _ _ _ _ _ _ H3) as Hw. apply write_spec in H3.
      destruct H3 as (_ & D3 & L3 & G3 & F3). specialize (F3 Director). destruct F3 as (_ & F3a & F3b & F3c & F3d & F3e).
      split. { intros rp. rewrite G3. apply Hr02. }
      split. { destruct Hi02 as (A1 & A2 & A3). repeat split; congruence. }
      right. exists raw, remote, local. do 4 (split; [first [assumption | lia]|]).
      rewrite F3b, Hl in *. split; auto. split; auto. left. split; [congruence|].
      replace (local <? remote) with true by (symmetry; apply Z.ltb_lt; lia).
      destruct Hw as (W1 & W2). split; rewrite ?W1, ?W2, ?Hdb2, ?Hdb1, ?Hlog2, ?Hlog1; reflexivity.
    + unfold ret in H3. inversion H3; subst s3; clear H3.
      split; auto. split; auto. right. exists raw, remote, local. do 4 (split; [first [assumption | lia]|]).
      rewrite Hl in *. split; auto. split; auto. left. split; [congruence|].
      replace (local <? remote) with false by (symmetry; apply Z.ltb_ge; lia). apply wrote_nil; congruence.
Qed.
