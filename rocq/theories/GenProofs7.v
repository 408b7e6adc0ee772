(** Every command of the generator keeps the repositories in order: refresh, and the commands on the Image repository. *)
From Verif Require Import Base Json TufModel TufSpec TufProofs MetaStore RepoModel RepoSpec RepoProofs RepoProofs4 GenModel GenSpec GenProofs GenProofs2 GenProofs3 GenProofs4 GenProofs5 GenProofs6.

(** ** Changing a Targets document *)
Lemma jset_tgt_version w cu de e ts v : jset "version" (JInt w) (tgt_shape cu de e ts v) = Ok (tgt_shape cu de e ts w). Proof. destruct cu, de; reflexivity. Qed.
Lemma jset_tgt_expires w cu de e ts v : jset "expires" (JStr w) (tgt_shape cu de e ts v) = Ok (tgt_shape cu de w ts v). Proof. destruct cu, de; reflexivity. Qed.
Lemma jset_tgt_targets w cu de e ts v : jset "targets" w (tgt_shape cu de e ts v) = Ok (tgt_shape cu de e w v). Proof. destruct cu, de; reflexivity. Qed.
Lemma jset_tgt_deleg w cu de e ts v : jset "delegations" w (tgt_shape cu de e ts v) = Ok (tgt_shape cu (Some w) e ts v). Proof. destruct cu, de; reflexivity. Qed.
Lemma jset_tgt_custom w cu de e ts v : jset "custom" w (tgt_shape cu de e ts v) = Ok (tgt_shape (Some w) de e ts v). Proof. destruct cu, de; reflexivity. Qed.
Lemma bump_tgt cu de e ts v : 0 <= v <= max_int -> bump (tgt_shape cu de e ts v) = Ok (tgt_shape cu de e ts (v + 1)).
Proof. intros V. unfold bump. rewrite jget_tgt_version. cbn [bind]. rewrite jas_uint_ok by exact V. cbn [bind]. rewrite (proj1 (next_small v V)). apply jset_tgt_version. Qed.
Lemma tlist_put name c ts ts' : tlist_ok ts -> good_target c -> jset name c ts = Ok ts' -> tlist_ok ts'.
Proof.
  intros T G H. right. apply jset_obj in H as (l & -> & H). exists (oput name c l). split; [reflexivity|]. intros n x i. apply in_oput in i as [e|i].
  - injection e as -> ->. exact G.
  - destruct H as [->|(_ & ->)]; [|destruct i]. destruct T as [T|(l' & e & T)]; [discriminate|]. injection e as <-. eapply T; eauto.
Qed.
Lemma plain_bump j j' : plain j = true -> bump j = Ok j' -> plain j' = true.
Proof.
  intros P H. apply bind_ok in H as (vj & _ & H). apply bind_ok in H as (v & _ & H). refine (plain_jset "version" _ _ _ eq_refl _ P H).
  apply plain_int. destruct (uint_small (v + 1)) as (A & _). exact A.
Qed.
(** bump and changes of the delegations do not change the targets *)
Lemma bump_obj j j' : bump j = Ok j' -> exists l z, j' = JObj (oput "version" (JInt z) l) /\ (j = JObj l \/ (j = JNull /\ l = [])).
Proof. intros H. apply bind_ok in H as (vj & _ & H). apply bind_ok in H as (v & _ & H). apply jset_obj in H as (l & -> & H). eauto. Qed.
Lemma jget_kept k j l : (j = JObj l \/ (j = JNull /\ l = [])) -> jget k j = Ok (get k l).
Proof. intros [->|(-> & ->)]; reflexivity. Qed.

Tactic Notation "lift_ok" ident(x) ident(H) := (eapply tri_bind; [apply tri_lift|gr|]); let s1 := fresh "s1" in intros x s1 _ (-> & H).

Section Keep.
Context (E : Env) (keyid : pubkey -> string) (depth : nat) (HE : env_ok E).
Context (rp : repo) (K : repo_keys) (HK : keys_ok E keyid K).
Context (I : invocation) (d0 : side).
Notation tri := (tri E keyid rp K I d0).
Notation keep := (keep E keyid rp K d0).
Notation core := (core E keyid rp K).
Notation text_ok := (text_ok E keyid K).
Notation doc_at := (doc_at E keyid K).
Notation inv := (inv E keyid rp K I d0).
Notation ver := (ver E).

Lemma tri_inv {A} s (m : G A) Q : (inv s -> tri s m Q) -> tri s m Q.
Proof. intros H s' r V. exact (H V s' r V). Qed.

(** ** refresh *)
Lemma keep_root d text e : keep d -> forall V e0, doc_at d "root.json" role_root (root_doc_json keyid K e0 V) -> 0 <= V <= max_int -> text_ok role_root text (root_doc_json keyid K e (V + 1)) -> time_ok e ->
  bounded E (put_file "root.json" text d) -> keep (put_file "root.json" text d).
Proof.
  intros ((C1 & C2 & C3 & C4 & C5 & C6 & C7) & L) V e0 D0 V0 T Te B.
  assert (V1 : 0 <= V + 1 <= max_int) by (refine (bounded_doc E keyid HE K _ _ _ _ (V + 1) B (put_doc E keyid K d _ _ _ _ T) eq_refl _); unfold uint_mod, max_int in *; lia).
  split.
  - split; [exact C1|]. split.
    + destruct C2 as (V' & N & e' & A1 & A2 & A3 & A4 & A5 & A6 & A7).
      assert (V' = V) as -> by (pose proof (signed_file E keyid HE K _ _ _ _ A4) as X; rewrite (signed_file E keyid HE K _ _ _ _ D0) in X; now injection X).
      exists (V + 1), N, e. split; [lia|]. split; [lia|]. split; [exact Te|]. split; [now apply put_doc|].
      split; [intros v Hv; destruct (A5 v Hv) as (e2 & B1 & B2); exists e2; split; [exact B1|refine (doc_frame E keyid K d _ _ _ _ _ B2); now rewrite aget_put_other by neq]|].
      split; [now rewrite aget_put_other by neq|]. intros v Hv. rewrite aget_put_other by neq. intros X. specialize (A7 v Hv X). lia.
    + split; [refine (targets_frame E keyid rp K d _ _ C3); now rewrite aget_put_other by neq|].
      split; [refine (snap_frame E keyid K d _ _ C4); now rewrite aget_put_other by neq|].
      split; [refine (ts_frame E keyid K d _ _ C5); now rewrite aget_put_other by neq|].
      split; [refine (extra_frame E rp d _ _ _ _ C6); intros; now rewrite aget_put_other by neq|exact B].
  - refine (later_frame E rp d0 d _ _ _ _ L); intros; now rewrite aget_put_other by neq.
Qed.
Lemma keep_numbered d text e V : keep d -> doc_at d "root.json" role_root (root_doc_json keyid K e V) -> 0 <= V <= max_int -> time_ok e -> text_ok role_root text (root_doc_json keyid K e V) ->
  (forall v, 0 <= v -> aget (root_file v) (f_files d) <> None -> v < V) ->
  bounded E (put_file (root_file V) text d) -> keep (put_file (root_file V) text d).
Proof.
  intros ((C1 & C2 & C3 & C4 & C5 & C6 & C7) & (L1 & L2 & L3)) D0 V0 Te T Hi B.
  assert (Fr : forall v, 0 <= v -> v <> V -> aget (root_file v) (f_files (put_file (root_file V) text d)) = aget (root_file v) (f_files d)).
  { intros v Hv Hn. apply aget_put_other. intros X. apply Hn. apply (root_file_inj v V); [exact Hv|lia|exact X]. }
  assert (Fo : forall c s, numeric c = false -> aget (String c s) (f_files (put_file (root_file V) text d)) = aget (String c s) (f_files d)).
  { intros c s Hc. apply aget_put_other. intros X. symmetry in X. now apply root_file_neq in X. }
  split.
  - split; [exact C1|]. split.
    + destruct C2 as (V' & N & e' & A1 & A2 & A3 & A4 & A5 & A6 & A7).
      assert (V' = V) as -> by (pose proof (signed_file E keyid HE K _ _ _ _ A4) as X; rewrite (signed_file E keyid HE K _ _ _ _ D0) in X; now injection X).
      assert (NV : N < V) by (destruct (A5 N) as (e2 & _ & t & X & _); [lia|]; apply (Hi N); [lia|congruence]).
      assert (D1 : doc_at (put_file (root_file V) text d) "root.json" role_root (root_doc_json keyid K e V)) by (refine (doc_frame E keyid K d _ _ _ _ _ D0); now apply Fo).
      assert (Low : forall v, 1 <= v <= N -> exists e2, time_ok e2 /\ doc_at (put_file (root_file V) text d) (root_file v) role_root (root_doc_json keyid K e2 v)).
      { intros v Hv. destruct (A5 v Hv) as (e2 & B1 & B2). exists e2. split; [exact B1|]. refine (doc_frame E keyid K d _ _ _ _ _ B2). apply Fr; lia. }
      assert (Up : forall v, 0 <= v -> aget (root_file v) (f_files (put_file (root_file V) text d)) <> None -> v <= V).
      { intros v Hv X. destruct (Z.eq_dec v V) as [->|Hn]; [lia|]. rewrite (Fr v Hv Hn) in X. specialize (Hi v Hv X). lia. }
      destruct (Z.eq_dec (N + 1) V) as [EV|NE].
      * exists V, V, e. split; [lia|]. split; [lia|]. split; [exact Te|]. split; [exact D1|]. split.
        -- intros v Hv. destruct (Z.eq_dec v V) as [->|]; [exists e; split; [exact Te|now apply put_doc]|apply Low; lia].
        -- split; [|exact Up]. destruct (aget (root_file (V + 1)) (f_files (put_file (root_file V) text d))) as [x|] eqn:G; [|reflexivity]. exfalso.
           assert (V + 1 <= V) by (apply Up; [lia|congruence]). lia.
      * exists V, N, e. split; [lia|]. split; [lia|]. split; [exact Te|]. split; [exact D1|]. split; [exact Low|]. split; [|exact Up]. rewrite Fr; [exact A6|lia|exact NE].
    + split; [refine (targets_frame E keyid rp K d _ _ C3); now apply Fo|].
      split; [refine (snap_frame E keyid K d _ _ C4); now apply Fo|].
      split; [refine (ts_frame E keyid K d _ _ C5); now apply Fo|].
      split; [refine (extra_frame E rp d _ _ _ _ C6); intros; now apply Fo|exact B].
  - split.
    + intros v x Hv Hx. destruct (Z.eq_dec v V) as [->|Hn]; [|rewrite (Fr v Hv Hn); now apply L1].
      exfalso. assert (V < V); [|lia]. apply Hi; [exact Hv|]. rewrite (L1 _ _ Hv Hx). discriminate.
    + rewrite (ver_frame E "timestamp.json" d (put_file (root_file V) text d)) by (now apply Fo). rewrite (ver_frame E "targets.json" d (put_file (root_file V) text d)) by (now apply Fo).
      rewrite (Fo "t"%char "argets.json") by reflexivity. auto.
Qed.

Lemma tri_refresh s r : time_ok (n_renewed I) -> In r [role_root; role_snapshot; role_targets; role_timestamp] ->
  (rp = Director -> r = role_targets -> aget staging (f_files (g_side s)) = None) ->
  tri s (refresh E keyid depth I rp r) (fun _ s' => consistent E keyid K (g_side s')).
Proof.
  intros Tr R St. apply tri_inv. intros V. pose proof V as ((C & L) & _).
  pose proof C as (C1 & C2 & (cu & de & e & ts & v & (G1 & G2 & G3 & G4 & G5 & G6) & Dt) & (se & sml & sv & Tse & Vs & Ds) & (te & ta & tb & tl & tsv & tv & Tte & Vt & Dts) & _ & Bd).
  assert (Tcond : forall (e1 e2 : string), time_ok e1 -> time_ok (if ts_expired_at e2 (n_now I) then n_renewed I else e1)) by (intros e1 e2 X; destruct (ts_expired_at e2 (n_now I)); assumption).
  assert (Hu : forall u, 0 <= u < uint_mod -> plain (JInt u) = true) by (intros u Hu; apply plain_int; unfold uint_mod, max_uint64 in *; lia).
  destruct R as [<-|[<-|[<-|[<-|[]]]]]; unfold refresh; cbn [r_kind r_name role_root role_snapshot role_targets role_timestamp].
  - (* Root *)
    destruct C2 as (RV & RN & re & Rn & Rm & Tre & Droot & Rl & Rg & Ru).
    assert (RVp : 0 <= RV <= max_int) by lia. destruct (next_small RV RVp) as (Nv & Bv).
    replace (match rp with Director => _ | Image => _ end) with (
      let% m := read_signed E "root.json" in
      let% vj := glift (jget "version" m) in
      let% v := glift (jas_uint vj) in
      let% ej := glift (jget "expires" m) in
      let% es := glift (jas_string ej) in
      let% e := glift (timestamp_of_string es) in
      let% m1 := glift (if ts_expired_at e (n_now I) then jset "expires" (JStr (n_renewed I)) m else Ok m) in
      let% m2 := glift (jset "version" (JInt (next_uint v)) m1) in
      let% text := write_signed E keyid I "root" "root.json" m2 in
      write_file (root_file (next_uint v)) text %;
      update_repo E keyid depth I) by (destruct rp; reflexivity).
    eapply tri_bind; [apply (tri_read E keyid HE rp K I d0 s _ _ _ Droot)|gr|]. intros a s1 _ (-> & ->).
    lift_ok x H. inj H. lift_ok x H. rewrite jas_uint_ok in H by exact RVp. injection H as <-. rewrite Nv.
    lift_ok x H. inj H. lift_ok x H. inj H. lift_ok ex H.
    set (e1 := if ts_expired_at ex (n_now I) then n_renewed I else re).
    lift_ok m1 H1. lift_ok m2 H2.
    assert (m2 = root_doc_json keyid K e1 (RV + 1)) as ->.
    { unfold e1. clear -H1 H2. destruct (ts_expired_at ex (n_now I)); injection H1 as <-; injection H2 as <-; reflexivity. }
    eapply tri_bind.
    { apply (tri_write E keyid rp K HK I d0 s role_root "root.json" _ "Root"); [cbn; tauto|reflexivity|reflexivity| |].
      - apply (plain_root E keyid); [exact HK|apply (Tcond re ex Tre)|unfold uint_mod, max_uint64 in *; lia].
      - intros text T B. eapply keep_root; [split; assumption|exact Droot|exact RVp|exact T|apply Tcond; exact Tre|exact B]. }
    { gr. }
    intros text s1 V1 (Tx & ->). set (d1 := put_file "root.json" text (g_side s)) in *.
    assert (Bv1 : 0 <= RV + 1 <= max_int).
    { pose proof V1 as ((Cd1 & _) & _). cbn [with_side g_side] in Cd1. destruct Cd1 as (_ & _ & _ & _ & _ & _ & Bd1).
      refine (bounded_doc E keyid HE K _ _ _ _ (RV + 1) Bd1 (put_doc E keyid K _ _ _ _ _ Tx) eq_refl Bv). }
    eapply tri_bind.
    { apply tri_change. cbn [with_side g_side]. intros B. eapply keep_numbered; [apply V1|apply put_doc; exact Tx|exact Bv1|apply Tcond; exact Tre|exact Tx| |exact B].
      intros w Hw X. unfold d1 in X. rewrite aget_put_other in X by neq. specialize (Ru w Hw X). lia. }
    { gr. }
    intros _ s1 V2 ->. apply tri_update; assumption.
  - (* Snapshot *)
    destruct rp; [apply tri_throw|]. destruct (next_small sv Vs) as (Nv & Bv).
    eapply tri_bind; [apply (tri_read E keyid HE Image K I d0 s _ _ _ Ds)|gr|]. intros a s1 _ (-> & ->).
    lift_ok x H. inj H. lift_ok x H. rewrite jas_uint_ok in H by exact Vs. injection H as <-. rewrite Nv.
    lift_ok x H. inj H. lift_ok x H. inj H. lift_ok ex H.
    set (e1 := if ts_expired_at ex (n_now I) then n_renewed I else se).
    lift_ok m1 H1. lift_ok m2 H2.
    assert (m2 = snap_shape e1 sml (sv + 1)) as ->.
    { unfold e1. clear -H1 H2. destruct (ts_expired_at ex (n_now I)); injection H1 as <-; injection H2 as <-; reflexivity. }
    assert (Pm : plain (snap_shape e1 sml (sv + 1)) = true).
    { apply file_doc in Ds as (kid & m & sg & _ & P); [|exact HE]. unfold e1. clear H1 H2. pose proof (Tcond se ex Tse) as (_ & A). unfold snap_shape in *. cbn [plain increasing forallb fst snd] in *.
      rewrite A, (Hu _ Bv). apply andb_true_iff in P as (P1 & P). apply andb_true_iff in P as (P2 & P). apply andb_true_iff in P as (P3 & P). apply andb_true_iff in P as (P4 & P). rewrite P1, P4. reflexivity. }
    eapply tri_bind.
    { apply (tri_write E keyid Image K HK I d0 s role_snapshot "snapshot.json" _ "Snapshot"); [cbn; tauto|reflexivity|reflexivity|exact Pm|].
      intros text T B. eapply keep_snap; [assumption|split; assumption|exact T|apply Tcond; exact Tse|exact Bv|exact B]. }
    { gr. }
    intros text s1 V1 (Tx & ->). eapply tri_bind; [apply (tri_ret _ _ _ _ _ _ _ tt (fun _ s' => s' = with_side (put_file "snapshot.json" text (g_side s)) s)); reflexivity|gr|].
    intros _ s1 V2 ->. apply tri_update; assumption.
  - (* Targets *)
    destruct (next_small v G5) as (Nv & Bv).
    replace (match rp with Director => _ | Image => _ end) with (
      let% m := read_signed E "targets.json" in
      let% vj := glift (jget "version" m) in
      let% v := glift (jas_uint vj) in
      let% ej := glift (jget "expires" m) in
      let% es := glift (jas_string ej) in
      let% e := glift (timestamp_of_string es) in
      let% m1 := glift (if ts_expired_at e (n_now I) then jset "expires" (JStr (n_renewed I)) m else Ok m) in
      let% m2 := glift (jset "version" (JInt (next_uint v)) m1) in
      let% text := write_signed E keyid I "targets" "targets.json" m2 in
      gret tt %;
      update_repo E keyid depth I) by (destruct rp; reflexivity).
    eapply tri_bind; [apply (tri_read E keyid HE rp K I d0 s _ _ _ Dt)|gr|]. intros a s1 _ (-> & ->).
    lift_ok x H. rewrite jget_tgt_version in H. injection H as <-. lift_ok x H. rewrite jas_uint_ok in H by exact G5. injection H as <-. rewrite Nv.
    lift_ok x H. rewrite jget_tgt_expires in H. injection H as <-. lift_ok x H. inj H. lift_ok ex H.
    set (e1 := if ts_expired_at ex (n_now I) then n_renewed I else e).
    lift_ok m1 H1. lift_ok m2 H2.
    assert (Pm : plain m2 = true).
    { apply file_doc in Dt as (kid & m & sg & _ & P); [|exact HE]. refine (plain_jset "version" _ _ _ eq_refl (Hu _ Bv) _ H2).
      destruct (ts_expired_at ex (n_now I)); [|now injection H1 as <-]. refine (plain_jset "expires" _ _ _ eq_refl _ P H1). apply Tr. }
    assert (m2 = tgt_shape cu de e1 ts (v + 1)) as ->.
    { unfold e1. clear -H1 H2. destruct (ts_expired_at ex (n_now I)); [rewrite jset_tgt_expires in H1|]; injection H1 as <-; rewrite jset_tgt_version in H2; now injection H2 as <-. }
    eapply tri_bind.
    { apply (tri_write E keyid rp K HK I d0 s role_targets "targets.json" _ "Targets"); [cbn; tauto|apply jget_tgt_type|reflexivity|exact Pm|].
      intros text T B. eapply keep_tgt; try eassumption; [split; assumption|apply Tcond; assumption|].
      rewrite (ver_doc E keyid HE K _ _ _ _ v Dt (jget_tgt_version _ _ _ _ _)) by (unfold uint_mod, max_int in *; lia).
      destruct rp; [|lia]. split; [lia|]. intros x cu' e' ts' w X. rewrite St in X by reflexivity. discriminate. }
    { gr. }
    intros text s1 V1 (Tx & ->). eapply tri_bind; [apply (tri_ret _ _ _ _ _ _ _ tt (fun _ s' => s' = with_side (put_file "targets.json" text (g_side s)) s)); reflexivity|gr|].
    intros _ s1 V2 ->. apply tri_update; assumption.
  - (* Timestamp *)
    destruct rp; [apply tri_throw|]. destruct (next_small tv Vt) as (Nv & Bv).
    eapply tri_bind; [apply (tri_read E keyid HE Image K I d0 s _ _ _ Dts)|gr|]. intros a s1 _ (-> & ->).
    lift_ok x H. inj H. lift_ok x H. rewrite jas_uint_ok in H by exact Vt. injection H as <-. rewrite Nv.
    lift_ok x H. inj H. lift_ok x H. inj H. lift_ok ex H.
    set (e1 := if ts_expired_at ex (n_now I) then n_renewed I else te).
    lift_ok m1 H1. lift_ok m2 H2.
    assert (m2 = ts_shape e1 ta tb tl tsv (tv + 1)) as ->.
    { unfold e1. clear -H1 H2. destruct (ts_expired_at ex (n_now I)); injection H1 as <-; injection H2 as <-; reflexivity. }
    assert (Pm : plain (ts_shape e1 ta tb tl tsv (tv + 1)) = true).
    { apply file_doc in Dts as (kid & m & sg & _ & P); [|exact HE]. unfold e1. clear H1 H2. pose proof (Tcond te ex Tte) as (_ & A). unfold ts_shape in *.
      apply plain_obj in P as (P1 & P). apply plain_obj. split; [reflexivity|]. intros k x [h|[h|[h|[h|[]]]]]; injection h as <- <-; (split; [reflexivity|]).
      - reflexivity.
      - exact A.
      - apply (P "meta"). right. right. now left.
      - now apply Hu. }
    eapply tri_bind.
    { apply (tri_write E keyid Image K HK I d0 s role_timestamp "timestamp.json" _ "Timestamp"); [cbn; tauto|reflexivity|reflexivity|exact Pm|].
      intros text T B. eapply keep_ts; [assumption|split; assumption|exact T|apply Tcond; exact Tte|exact Bv| |exact B].
      rewrite (ver_doc E keyid HE K _ _ _ _ tv Dts eq_refl) by (unfold uint_mod, max_int in *; lia). lia. }
    { gr. }
    intros text s1 V1 (Tx & ->). eapply tri_bind; [apply (tri_ret _ _ _ _ _ _ _ tt (fun _ s' => s' = with_side (put_file "timestamp.json" text (g_side s)) s)); reflexivity|gr|].
    intros _ s1 V2 ->. apply tri_update; assumption.
Qed.
End Keep.
