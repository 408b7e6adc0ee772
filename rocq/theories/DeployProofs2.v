(** The programs. *)
From Verif Require Import Base Json TufModel TufProofs PushModel PushSpec PushProofs8 PropsPush DeployModel DeploySpec DeployProofs.

Lemma objects_app a b : objects (a ++ b) = objects a ++ objects b.
Proof. unfold objects. apply flat_map_app. Qed.
Lemma objects_up R m cap root l : objects (upload_events R m cap root l) = if have R root then trace (fst (push_run R m cap root l)) else [].
Proof.
  unfold upload_events. destruct (have R root); [|reflexivity]. generalize (trace (fst (push_run R m cap root l))). intros t.
  induction t as [|e t IH]; [reflexivity|]. cbn [map objects flat_map app]. f_equal. exact IH.
Qed.
Lemma up_obj R m cap root l e : In e (upload_events R m cap root l) -> exists t, e = EObj t /\ In t (trace (fst (push_run R m cap root l))).
Proof. unfold upload_events. destruct (have R root); [|intros []]. intros H. apply in_map_iff in H. destruct H as (t & <- & I). eauto. Qed.
Lemma up_dry R m cap root l e : m = MDryRun \/ m = MWalkTree -> In e (upload_events R m cap root l) -> ~ changes e.
Proof.
  intros M H. apply up_obj in H. destruct H as (t & -> & I). destruct t; cbn [changes]; auto. intros _. exact (C62_dry_run R m cap root l M o I).
Qed.
Lemma push_reported R m cap root l : m = MDefault \/ m = MPushTree -> push R m cap root l = Some true ->
  commit_reported R root (upload_events R m cap root l).
Proof.
  intros M P o. rewrite objects_up. assert (Hv : have R root = true) by (unfold push in P; destruct (have R root); [reflexivity|discriminate]).
  rewrite Hv. now apply C47_success_complete.
Qed.
(** garage-push *)
Lemma push_split A E evs out : garage_push A E = (evs, out) ->
  (evs = [] /\ out <> Exit true) \/
  (exists h content, pe_valid E = true /\ 1 <= pa_jobs A /\
     ((exists file, pe_refs E (pa_ref A) = Some file /\ content = Some (ref_content file) /\ parse_hash (ref_content file) = Some h) \/
      (pe_refs E (pa_ref A) = None /\ content = None /\ parse_hash (pa_ref A) = Some h)) /\
     push_commit A E h content = (evs, out)).
Proof.
  unfold garage_push. destruct (pa_cacert_ok A); cbn [negb]; [|intros H; inversion H; left; split; [auto|discriminate]].
  destruct (pa_jobs A <? 1) eqn:J; [intros H; inversion H; left; split; [auto|discriminate]|]. apply Z.ltb_ge in J.
  destruct (pe_valid E) eqn:V; cbn [negb]; [|intros H; inversion H; left; split; [auto|discriminate]].
  destruct (pe_refs E (pa_ref A)) as [file|] eqn:R.
  - destruct (parse_hash (ref_content file)) as [h|] eqn:P; [|intros H; inversion H; left; split; [auto|discriminate]].
    intros H. right. exists h, (Some (ref_content file)). split; [auto|]. split; [auto|]. split; [|exact H]. left. eauto.
  - destruct (parse_hash (pa_ref A)) as [h|] eqn:P; [|intros H; inversion H; left; split; [auto|discriminate]].
    intros H. right. exists h, None. split; [auto|]. split; [auto|]. split; [|exact H]. right. auto.
Qed.
Definition up_of (A : push_args) (E : push_env) (h : ohash) : list ev := upload_events (pe_repo E) (push_mode A) (pa_jobs A) (pe_oid E h) (pe_rounds E).
Lemma commit_split A E h content evs out : push_commit A E h content = (evs, out) ->
  (evs = [] /\ out <> Exit true) \/
  (evs = up_of A E h /\ out <> Exit true) \/
  (push (pe_repo E) (push_mode A) (pa_jobs A) (pe_oid E h) (pe_rounds E) = Some true /\
   ((is_dry (push_mode A) = false /\ exists c, content = Some c /\
      ((ref_ok (pe_ref_ans E) = true /\ evs = (up_of A E h ++ [ERef (pa_ref A) c; ERefAns (pe_ref_ans E)]) ++ send_manifest A E h /\ out = Exit true) \/
       (ref_ok (pe_ref_ans E) = false /\ evs = up_of A E h ++ [ERef (pa_ref A) c; ERefAns (pe_ref_ans E)] /\ out = Exit false))) \/
    ((is_dry (push_mode A) = true \/ content = None) /\ evs = up_of A E h ++ send_manifest A E h /\ out = Exit true))).
Proof.
  unfold push_commit, up_of. destruct (pe_cred E); [|intros H; inversion H; left; split; [auto|discriminate]|intros H; inversion H; left; split; [auto|discriminate]].
  destruct (pe_auth E) as [[|]|]; [|intros H; inversion H; left; split; [auto|discriminate]|intros H; inversion H; left; split; [auto|discriminate]].
  cbn zeta. destruct (push (pe_repo E) (push_mode A) (pa_jobs A) (pe_oid E h) (pe_rounds E)) as [[|]|];
    [|intros H; inversion H; right; left; split; [auto|discriminate]|intros H; inversion H; right; left; split; [auto|discriminate]].
  intros H. right; right. split; [reflexivity|]. destruct (is_dry (push_mode A)).
  - right. inversion H. auto.
  - destruct content as [c|]; [left|right; inversion H; auto]. split; [auto|]. exists c. split; [auto|].
    destruct (ref_ok (pe_ref_ans E)); inversion H; auto.
Qed.
Lemma manifest_in A E h e : In e (send_manifest A E h) -> is_dry (push_mode A) = false /\ forall t, e <> EObj t /\ forall n c, e <> ERef n c.
Proof.
  unfold send_manifest. destruct (pa_manifest A); [|intros []]. destruct (pe_xml E); [|intros []]. destruct (is_dry (push_mode A)); [intros []|].
  intros [<-|[<-|[]]]; split; auto; split; discriminate.
Qed.
Theorem push_dry A E evs out : pa_dry A = true -> garage_push A E = (evs, out) ->
  (forall o, ~ In (EObj (TPost o)) evs) /\ (pa_walk A = false -> forall e, In e evs -> ~ changes e).
Proof.
  intros D H. assert (M : push_mode A = MDryRun /\ pa_walk A = false \/ push_mode A = MWalkTree /\ pa_walk A = true).
  { unfold push_mode. rewrite D. destruct (pa_walk A); auto. }
  assert (Mm : push_mode A = MDryRun \/ push_mode A = MWalkTree) by tauto.
  apply push_split in H. destruct H as [[-> _]|(h & content & _ & _ & _ & H)]; [split; intros; auto|].
  assert (U : forall e, In e (up_of A E h) -> ~ changes e) by (intros e; now apply up_dry).
  assert (MF : forall o, ~ In (EObj (TPost o)) (send_manifest A E h)) by (intros o I; apply manifest_in in I; destruct I as [_ I]; now destruct (I (TPost o))).
  assert (UT : forall o, ~ In (EObj (TPost o)) (up_of A E h)) by (intros o I; apply (U _ I); exact Logic.I).
  apply commit_split in H. destruct H as [[-> _]|[[-> _]|(_ & [(N & c & _ & [(_ & -> & _)|(_ & -> & _)])|(_ & -> & _)])]].
  - split; intros; auto.
  - split; [exact UT|]. intros _. exact U.
  - split.
    + intros o I. apply in_app_or in I. destruct I as [I|I]; [|eapply MF; eauto]. apply in_app_or in I. destruct I as [I|[I|[I|[]]]]; try discriminate I. eapply UT; eauto.
    + intros W. destruct M as [[M _]|[_ M]]; [|congruence]. rewrite M in N. discriminate N.
  - split.
    + intros o I. apply in_app_or in I. destruct I as [I|[I|[I|[]]]]; try discriminate I. eapply UT; eauto.
    + intros W. destruct M as [[M _]|[_ M]]; [|congruence]. rewrite M in N. discriminate N.
  - split.
    + intros o I. apply in_app_or in I. destruct I as [I|I]; [eapply UT; eauto|eapply MF; eauto].
    + intros W e I. apply in_app_or in I. destruct I as [I|I]; [now apply U|]. apply manifest_in in I. destruct I as [I _].
      destruct M as [[M _]|[_ M]]; [|congruence]. rewrite M in I. discriminate I.
Qed.
Lemma mode_real A : pa_dry A = false -> (push_mode A = MDefault \/ push_mode A = MPushTree) /\ is_dry (push_mode A) = false.
Proof. intros D. unfold push_mode. rewrite D. destruct (pa_walk A); auto. Qed.
Theorem push_ref A E evs out name c : pa_dry A = false -> garage_push A E = (evs, out) -> In (ERef name c) evs ->
  exists l1 l2 file h, evs = l1 ++ ERef name c :: l2 /\ objects l2 = [] /\ (forall n d, ~ In (ERef n d) (l1 ++ l2)) /\
    name = pa_ref A /\ pe_refs E name = Some file /\ c = ref_content file /\ parse_hash c = Some h /\
    have (pe_repo E) (pe_oid E h) = true /\ commit_reported (pe_repo E) (pe_oid E h) l1.
Proof.
  intros D H I. destruct (mode_real A D) as [Mm Md]. apply push_split in H. destruct H as [[-> _]|(h & content & _ & _ & S0 & H)]; [destruct I|].
  assert (UR : ~ In (ERef name c) (up_of A E h)) by (intros X; apply up_obj in X; destruct X as (t & X & _); discriminate X).
  assert (UR2 : forall n d, ~ In (ERef n d) (up_of A E h)) by (intros n d X; apply up_obj in X; destruct X as (t & X & _); discriminate X).
  assert (MF : ~ In (ERef name c) (send_manifest A E h)) by (intros X; apply manifest_in in X; destruct X as [_ X]; destruct (X (TPost 0%nat)) as [_ Y]; now apply (Y name c)).
  assert (MF2 : forall n d, ~ In (ERef n d) (send_manifest A E h)) by (intros n d X; apply manifest_in in X; destruct X as [_ X]; destruct (X (TPost 0%nat)) as [_ Y]; now apply (Y n d)).
  apply commit_split in H. destruct H as [[-> _]|[[-> _]|(P & [(N & d & C & H)|(N & -> & _)])]].
  - destruct I.
  - contradiction.
  - assert (K : exists l2, evs = up_of A E h ++ ERef (pa_ref A) d :: ERefAns (pe_ref_ans E) :: l2 /\ (l2 = [] \/ l2 = send_manifest A E h)).
    { destruct H as [(_ & -> & _)|(_ & -> & _)]; [exists (send_manifest A E h)|exists []]; (split; [rewrite <- ?List.app_assoc; reflexivity|auto]). }
    destruct K as (l2 & -> & L2). assert (X : ERef name c = ERef (pa_ref A) d).
    { apply in_app_or in I. destruct I as [I|[I|[I|I]]]; [contradiction|auto|discriminate I|]. destruct L2 as [-> | ->]; [destruct I|contradiction]. }
    injection X as -> ->. destruct S0 as [(file & R & C' & Ph)|(_ & C' & _)]; [|congruence]. rewrite C in C'. injection C' as ->.
    exists (up_of A E h), (ERefAns (pe_ref_ans E) :: l2), file, h. split; [reflexivity|]. split.
    { destruct L2 as [-> | ->]; [reflexivity|]. cbn [objects flat_map app]. unfold send_manifest. destruct (pa_manifest A); [|reflexivity].
      destruct (pe_xml E); [|reflexivity]. destruct (is_dry (push_mode A)); reflexivity. }
    split.
    { intros n e X. apply in_app_or in X. destruct X as [X|[X|X]]; [now apply UR2 in X|discriminate X|]. destruct L2 as [-> | ->]; [destruct X|now apply MF2 in X]. }
    split; [reflexivity|]. split; [exact R|]. split; [reflexivity|]. split; [exact Ph|]. split.
    { unfold push in P. destruct (have (pe_repo E) (pe_oid E h)); [reflexivity|discriminate]. }
    now apply push_reported.
  - apply in_app_or in I. destruct I; contradiction.
Qed.
Theorem push_success A E evs : pa_dry A = false -> garage_push A E = (evs, Exit true) ->
  exists h, (exists text, (exists file, pe_refs E (pa_ref A) = Some file /\ text = ref_content file) \/ (pe_refs E (pa_ref A) = None /\ text = pa_ref A)) /\
    commit_reported (pe_repo E) (pe_oid E h) evs /\ have (pe_repo E) (pe_oid E h) = true /\
    match pe_refs E (pa_ref A) with
    | Some file => parse_hash (ref_content file) = Some h /\ In (ERef (pa_ref A) (ref_content file)) evs /\ exists code, In (ERefAns (Some code)) evs /\ 200 <= code < 400
    | None => parse_hash (pa_ref A) = Some h
    end.
Proof.
  intros D H. destruct (mode_real A D) as [Mm Md]. apply push_split in H. destruct H as [[_ X]|(h & content & _ & _ & S0 & H)]; [congruence|]. exists h.
  split.
  { destruct S0 as [(file & R & _)|(R & _)]; eexists; [left|right]; eauto. }
  assert (MO : objects (send_manifest A E h) = []).
  { unfold send_manifest. destruct (pa_manifest A); [|reflexivity]. destruct (pe_xml E); [|reflexivity]. destruct (is_dry (push_mode A)); reflexivity. }
  apply commit_split in H. destruct H as [[_ X]|[[_ X]|(P & H)]]; [congruence|congruence|].
  assert (Hv : have (pe_repo E) (pe_oid E h) = true) by (unfold push in P; destruct (have (pe_repo E) (pe_oid E h)); [reflexivity|discriminate]).
  pose proof (push_reported _ _ _ _ _ Mm P) as CR. destruct H as [(_ & c & C & [(RO & -> & _)|(_ & _ & X)])|(N & -> & _)]; [|discriminate X|].
  - split.
    { unfold commit_reported. rewrite !objects_app, MO. cbn [objects flat_map app]. rewrite !List.app_nil_r. exact CR. }
    split; [exact Hv|]. destruct S0 as [(file & R & C' & Ph)|(_ & C' & _)]; [|congruence]. rewrite R. rewrite C in C'. injection C' as ->.
    split; [exact Ph|]. split; [apply in_or_app; left; apply in_or_app; right; now left|].
    unfold ref_ok in RO. destruct (pe_ref_ans E) as [code|]; [|discriminate]. exists code.
    split; [apply in_or_app; left; apply in_or_app; right; right; now left|]. apply negb_true_iff, orb_false_iff in RO. destruct RO as [R1 R2].
    apply Z.ltb_ge in R1. apply Z.leb_gt in R2. lia.
  - split.
    { unfold commit_reported. rewrite !objects_app, MO, !List.app_nil_r. exact CR. }
    split; [exact Hv|]. destruct N as [N|N]; [congruence|]. destruct S0 as [(file & R & C' & Ph)|(R & C' & Ph)]; [congruence|]. now rewrite R.
Qed.
(** A push that can work, works. *)
Theorem push_works A E U name hex w h : pa_dry A = false -> pa_walk A = false -> pa_cacert_ok A = true -> 1 <= pa_jobs A -> pe_valid E = true ->
  pe_cred E = CredOk -> pe_auth E = Some true -> pa_ref A = name -> hex64 hex -> every blank w -> pe_refs E name = Some (append hex w) -> parse_hash hex = Some h ->
  complete (pe_repo E) (pe_oid E h) U -> well_behaved (trace (fst (push_run (pe_repo E) MDefault (pa_jobs A) (pe_oid E h) (pe_rounds E)))) ->
  (push (pe_repo E) MDefault (pa_jobs A) (pe_oid E h) (pe_rounds E) = None ->
     List.length (pe_rounds E) <= answers (trace (fst (push_run (pe_repo E) MDefault (pa_jobs A) (pe_oid E h) (pe_rounds E)))))%nat ->
  (2 * List.length U < List.length (pe_rounds E))%nat -> (exists code, pe_ref_ans E = Some code /\ 200 <= code < 300) ->
  exists evs, garage_push A E = (evs, Exit true) /\ In (ERef name hex) evs.
Proof.
  intros D Wk CA J V Cr Au N [HL HH] B F P C WB An L (code & RA & RC). unfold garage_push. rewrite CA. cbn [negb].
  replace (pa_jobs A <? 1) with false by (symmetry; apply Z.ltb_ge; lia). rewrite V. cbn [negb]. rewrite N, F, (ref_of_file hex w HH B), P.
  unfold push_commit. rewrite Cr, Au. cbn zeta. assert (M : push_mode A = MDefault) by (unfold push_mode; now rewrite D, Wk). rewrite M. cbn [is_dry].
  rewrite (C63_ends_in_success _ U _ _ _ C WB An L), RA. assert (RO : ref_ok (Some code) = true).
  { cbn [ref_ok]. apply negb_true_iff, orb_false_iff. split; [apply Z.ltb_ge|apply Z.leb_gt]; lia. }
  rewrite RO, N. eexists. split; [reflexivity|]. apply in_or_app; left; apply in_or_app; right; now left.
Qed.

(** garage-check *)
Lemma jget_field k j v : jget k j = Ok v -> v <> JNull -> field k j = Some v.
Proof. destruct j; cbn [jget field]; intros H N; inversion H; subst; try congruence. destruct (aget k l); [reflexivity|congruence]. Qed.
Lemma jiter_elements j k t : In (k, t) (jiter j) -> In t (elements j).
Proof.
  destruct j; cbn [jiter elements]; try (intros []).
  - generalize 0. induction l as [|x l IH]; intros n; cbn [index_from]; [intros []|]. intros [H|H]; [inversion H; now left|right; eauto].
  - intros H. apply in_map_iff. exists (k, t). auto.
Qed.
Lemma lists_ref_spec l ref : lists_ref l ref = Ok true -> ref <> "" -> exists k t h v, In (k, t) l /\ field "hashes" t = Some h /\ field "sha256" h = Some v /\ jas_string v = Ok ref.
Proof.
  intros H N. induction l as [|[k t] l IH]; [discriminate|]. cbn [lists_ref] in H.
  apply bind_ok in H. destruct H as (h & H1 & H). apply bind_ok in H. destruct H as (s & H2 & H). apply bind_ok in H. destruct H as (v & H3 & H).
  destruct (String.eqb_spec v ref) as [->|NE].
  - exists k, t, h, s. split; [now left|]. assert (s <> JNull) by (intros ->; cbn in H3; inversion H3; congruence).
    split; [apply jget_field; [exact H1|]|split; [now apply jget_field|exact H3]]. intros ->. cbn in H2. inversion H2. congruence.
  - destruct (IH H) as (k' & t' & h' & v' & I & R). exists k', t', h', v'. split; [now right|exact R].
Qed.
Lemma timestamp_ok s t : timestamp_of_string s = Ok t -> t = s /\ String.length s = 20%nat.
Proof.
  unfold timestamp_of_string. destruct (Nat.eqb_spec (String.length s) 20) as [E|]; [|discriminate]. cbn [andb].
  destruct (match String.get 19 s with Some c => Ascii.eqb c "Z" | None => false end); [|discriminate]. intros H. injection H as <-. auto.
Qed.
Theorem targets_check_spec E ref : ref <> "" -> targets_check E ref = CDone true -> exists j, ce_targets E = Some (200, j) /\ names_commit j ref (ce_now E).
Proof.
  intros N. unfold targets_check. destruct (ce_targets E) as [[code j]|]; [|discriminate]. destruct (Z.eqb_spec code 200) as [->|]; [|discriminate]. cbn [negb].
  intros H. exists j. split; [reflexivity|].
  match type of H with match ?m with _ => _ end = _ => destruct m as [[|]|] eqn:M; try discriminate H end. clear H.
  apply bind_ok in M. destruct M as (s & S1 & M). apply bind_ok in M. destruct M as (e & S2 & M). apply bind_ok in M. destruct M as (es & S3 & M).
  apply bind_ok in M. destruct M as (t & S4 & M). apply timestamp_ok in S4. destruct S4 as [-> L].
  destruct (ts_expired_at es (ce_now E)) eqn:X; [discriminate|]. apply bind_ok in M. destruct M as (tl & S5 & M).
  destruct (lists_ref_spec _ _ M N) as (k & t & h & v & I & F1 & F2 & F3).
  assert (e <> JNull) by (intros ->; cbn in S3; inversion S3; subst es; discriminate L).
  assert (s <> JNull) by (intros ->; cbn in S2; inversion S2; congruence).
  assert (tl <> JNull) by (intros ->; cbn in I; destruct I).
  unfold ts_expired_at, ts_valid in X. destruct (String.eqb_spec es "") as [->|]; [discriminate L|]. cbn [negb] in X.
  destruct (String.eqb_spec (ce_now E) "") as [|NN]; [cbn in X; discriminate X|]. cbn [negb] in X. unfold ts_lt, ts_valid in X.
  rewrite (proj2 (String.eqb_neq es "") n), (proj2 (String.eqb_neq (ce_now E) "") NN) in X. cbn [negb andb] in X.
  exists s, e, es, tl, t, h, v. split; [now apply jget_field|]. split; [now apply jget_field|]. split; [exact S3|]. split; [exact L|]. split; [exact NN|].
  split; [exact X|]. split; [now apply jget_field|]. split; [eapply jiter_elements; eauto|auto].
Qed.
Lemma substring_0 s : substring 0 0 s = "".
Proof. destruct s; reflexivity. Qed.
Lemma substring_all s : forall n, (String.length s <= n)%nat -> substring 0 n s = s.
Proof. induction s as [|c s IH]; intros n L; [destruct n; reflexivity|]. destruct n as [|n]; [cbn in L; lia|]. cbn [substring]. now rewrite IH by (cbn in L; lia). Qed.
Lemma path_file ref : (2 <= String.length ref)%nat -> object_path ref = commit_file ref.
Proof.
  destruct ref as [|a [|b r]]; cbn [String.length]; try lia. intros _. unfold object_path, commit_file. cbn [substring String.length]. rewrite substring_0, substring_all by lia. reflexivity.
Qed.
Theorem check_spec E ref walk cap : check_ref E ref walk cap = CDone true ->
  (deployed E ref \/ (walk = true /\ ce_head E (commit_file ref) = Some 404)) /\
  (walk = true -> exists h, parse_hash ref = Some h /\ have (ce_repo E) (ce_oid E h) = true /\ snd (push_run (ce_repo E) MWalkTree cap (ce_oid E h) (ce_rounds E)) = true).
Proof.
  unfold check_ref. destruct (Nat.ltb_spec (String.length ref) 2) as [|L]; [discriminate|]. rewrite (path_file ref L).
  assert (N : ref <> "") by (intros ->; cbn in L; lia). unfold deployed.
  destruct (ce_head E (commit_file ref)) as [code|] eqn:Hd; [|discriminate].
  destruct (Z.eqb_spec code 404) as [->|C4].
  - cbn [andb negb]. destruct walk; [|discriminate]. cbn [negb]. destruct (parse_hash ref) as [h|] eqn:P; [|discriminate]. cbn zeta.
    destruct (have (ce_repo E) (ce_oid E h)) eqn:Hv; [|discriminate]. cbn [negb]. destruct (push_run _ _ _ _ _) as [s b] eqn:PR. destruct b; [|discriminate].
    intros _. split; [right; auto|]. intros _. exists h. rewrite PR. auto.
  - cbn [andb negb]. destruct (Z.eqb_spec code 200) as [->|C2]; [|cbn [negb andb]; discriminate]. cbn [negb andb].
    destruct walk.
    + destruct (parse_hash ref) as [h|] eqn:P; [|discriminate]. cbn zeta.
      destruct (have (ce_repo E) (ce_oid E h)) eqn:Hv; [|discriminate]. cbn [negb]. destruct (push_run _ _ _ _ _) as [s b] eqn:PR. destruct b; [|discriminate].
      intros H. split; [left; split; [auto|]; now apply targets_check_spec|]. intros _. exists h. rewrite PR. auto.
    + intros H. split; [left; split; [auto|]; now apply targets_check_spec|]. discriminate.
Qed.

(** garage-deploy *)
Lemma run_cmds_ok sys l evs : run_cmds sys l = (evs, true) -> evs = map ESys l /\ forall c, In c l -> sys c = 0.
Proof.
  revert evs. induction l as [|c l IH]; intros evs H; cbn [run_cmds] in H; [inversion H; split; [auto|intros c []]|].
  destruct (Z.eqb_spec (sys c) 0) as [E|]; [|inversion H]. destruct (run_cmds sys l) as [e b]. inversion H; subst. destruct (IH e eq_refl) as [-> B].
  split; [reflexivity|]. intros d [<-|I]; auto.
Qed.
Lemma run_cmds_in sys l evs b e : run_cmds sys l = (evs, b) -> In e evs -> exists c, e = ESys c /\ In c l.
Proof.
  revert evs b. induction l as [|c l IH]; intros evs b H I; cbn [run_cmds] in H; [inversion H; subst; destruct I|].
  destruct (sys c =? 0); [|inversion H; subst; destruct I as [<-|[]]; exists c; split; [auto|now left]].
  destruct (run_cmds sys l) as [e' b']. inversion H; subst. destruct I as [<-|I]; [exists c; split; [auto|now left]|].
  destruct (IH _ _ eq_refl I) as (d & -> & J). exists d. split; [auto|now right].
Qed.
Lemma run_cmds_prefix sys l evs b : run_cmds sys l = (evs, b) -> exists l', l = map (fun e => match e with ESys c => c | _ => "" end) evs ++ l'.
Proof.
  revert evs b. induction l as [|c l IH]; intros evs b H; cbn [run_cmds] in H; [inversion H; exists []; reflexivity|].
  destruct (sys c =? 0); [|inversion H; exists l; reflexivity]. destruct (run_cmds sys l) as [e' b'] eqn:R. inversion H; subst.
  destruct (IH _ _ eq_refl) as [l' ->]. exists l'. reflexivity.
Qed.
Theorem deploy_split A E evs out : garage_deploy A E = (evs, out) ->
  (evs = [] /\ out <> Exit true) \/
  exists h m, parse_hash (da_commit A) = Some h /\ m = (if da_dry A then MDryRun else MDefault) /\ 1 <= da_jobs A /\
    let up := upload_events (de_repo E) m (da_jobs A) (de_oid E h) (de_rounds E) in
    (evs = up /\ (out <> Exit true \/ da_dry A = true)) \/
    (da_dry A = false /\ push (de_repo E) m (da_jobs A) (de_oid E h) (de_rounds E) = Some true /\
     exists cs ok, run_cmds (de_sys E) (sign_cmds (da_cred_path A) (da_name A) h (da_hwids A)) = (cs, ok) /\ evs = up ++ cs /\
       (out = Exit true -> ok = true /\ check_ref (de_chk E) (da_commit A) false (da_jobs A) = CDone true)).
Proof.
  unfold garage_deploy. destruct (da_jobs A <? 1) eqn:J; [intros H; inversion H; left; split; [auto|discriminate]|]. apply Z.ltb_ge in J.
  destruct (de_fetch_auth E) as [[|]|]; [|intros H; inversion H; left; split; [auto|discriminate]|intros H; inversion H; left; split; [auto|discriminate]].
  destruct (de_push_auth E) as [[|]|]; [|intros H; inversion H; left; split; [auto|discriminate]|intros H; inversion H; left; split; [auto|discriminate]].
  destruct (parse_hash (da_commit A)) as [h|] eqn:P; [|intros H; inversion H; left; split; [auto|discriminate]].
  cbn zeta. intros H. right. exists h, (if da_dry A then MDryRun else MDefault). split; [reflexivity|]. split; [reflexivity|]. split; [exact J|].
  destruct (push _ _ _ _ _) as [[|]|] eqn:PU; [|inversion H; left; split; [auto|left; discriminate]|inversion H; left; split; [auto|left; discriminate]].
  destruct (da_dry A) eqn:D; cbn [is_dry] in H; [inversion H; left; auto|].
  destruct (de_can_sign E); cbn [negb] in H; [|inversion H; left; split; [auto|left; discriminate]].
  right. split; [auto|]. split; [reflexivity|]. destruct (run_cmds _ _) as [cs ok]. exists cs, ok. split; [reflexivity|].
  destruct ok; cbn [negb] in H; [|inversion H; split; [auto|discriminate]].
  destruct (check_ref _ _ _ _); inversion H; (split; [auto|]); try discriminate. intros K. inversion K; subst. auto.
Qed.
