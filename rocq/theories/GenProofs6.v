(** Every command of the generator keeps the repositories in order: the steps. *)
From Verif Require Import Base Json TufModel TufSpec TufProofs MetaStore RepoModel RepoSpec RepoProofs RepoProofs4 GenModel GenSpec GenProofs GenProofs2 GenProofs3 GenProofs4 GenProofs5.

Ltac gr := repeat first [apply grows_bind | apply grows_lift | apply grows_ret | apply grows_throw | apply grows_change | apply grows_key | apply grows_read | apply grows_wsigned | apply grows_update | apply grows_pure | intro].
Ltac inj H := first [injection H as <- | (cbn in H; injection H as <-)].

Section Keep.
Context (E : Env) (keyid : pubkey -> string) (depth : nat) (HE : env_ok E).
Context (rp : repo) (K : repo_keys) (HK : keys_ok E keyid K).
Context (I : invocation) (d0 : side).
Notation tri := (tri E keyid rp K I d0).
Notation keep := (keep E keyid rp K d0).
Notation core := (core E keyid rp K).
Notation text_ok := (text_ok E keyid K).
Notation doc_at := (doc_at E keyid K).
Notation inv := (inv E keyid rp K I d0).
Notation ver := (ver E).

Lemma put_doc d p r text j : text_ok r text j -> doc_at (put_file p text d) p r j.
Proof. intros H. exists text. split; [apply aget_put_same|exact H]. Qed.

Lemma keep_snap d text e ml v : keep d -> text_ok role_snapshot text (snap_shape e ml v) -> time_ok e -> 0 <= v < uint_mod ->
  bounded E (put_file "snapshot.json" text d) -> keep (put_file "snapshot.json" text d).
Proof.
  intros ((C1 & C2 & C3 & C4 & C5 & C6 & C7) & L) T Te V B. split.
  - split; [exact C1|]. split; [refine (root_frame E keyid K d _ _ _ C2); [now rewrite aget_put_other by neq|intros; now rewrite aget_put_other by neq]|].
    split; [refine (targets_frame E keyid rp K d _ _ C3); now rewrite aget_put_other by neq|].
    split; [exists e, ml, v; split; [exact Te|]; split; [refine (bounded_doc E keyid HE K _ _ _ _ v B (put_doc d _ _ _ _ T) eq_refl V)|now apply put_doc]|].
    split; [refine (ts_frame E keyid K d _ _ C5); now rewrite aget_put_other by neq|].
    split; [refine (extra_frame E rp d _ _ _ _ C6); intros; now rewrite aget_put_other by neq|exact B].
  - refine (later_frame E rp d0 d _ _ _ _ L); intros; now rewrite aget_put_other by neq.
Qed.
Lemma keep_ts d text e a b len sv v : keep d -> text_ok role_timestamp text (ts_shape e a b len sv v) -> time_ok e -> 0 <= v < uint_mod -> ver "timestamp.json" d <= v ->
  bounded E (put_file "timestamp.json" text d) -> keep (put_file "timestamp.json" text d).
Proof.
  intros ((C1 & C2 & C3 & C4 & C5 & C6 & C7) & (L1 & L2 & L3)) T Te V W B. split.
  - split; [exact C1|]. split; [refine (root_frame E keyid K d _ _ _ C2); [now rewrite aget_put_other by neq|intros; now rewrite aget_put_other by neq]|].
    split; [refine (targets_frame E keyid rp K d _ _ C3); now rewrite aget_put_other by neq|].
    split; [refine (snap_frame E keyid K d _ _ C4); now rewrite aget_put_other by neq|].
    split; [exists e, a, b, len, sv, v; split; [exact Te|]; split; [refine (bounded_doc E keyid HE K _ _ _ _ v B (put_doc d _ _ _ _ T) eq_refl V)|now apply put_doc]|].
    split; [refine (extra_frame E rp d _ _ _ _ C6); intros; now rewrite aget_put_other by neq|exact B].
  - split; [intros w x Hw Hx; rewrite aget_put_other by neq; now apply L1|]. split.
    + rewrite (ver_doc E keyid HE K _ "timestamp.json" _ _ v (put_doc d _ _ _ _ T) eq_refl V). lia.
    + rewrite (ver_frame E "targets.json" d (put_file "timestamp.json" text d)) by (now rewrite aget_put_other by neq). rewrite aget_put_other by neq. exact L3.
Qed.
(** Targets of the Image repository and of the Director. *)
Lemma keep_tgt d text cu de e ts v : keep d -> text_ok role_targets text (tgt_shape cu de e ts v) ->
  custom_ok cu -> deleg_ok de -> tlist_ok ts -> time_ok e -> (rp = Director -> de = None) -> 0 <= v < uint_mod ->
  match rp with Image => ver "targets.json" d < v
              | Director => ver "targets.json" d <= v /\ (forall x cu' e' ts' w, aget staging (f_files d) = Some x -> x = canon E (tgt_shape cu' None e' ts' w) -> plain (tgt_shape cu' None e' ts' w) = true -> v <= w) end ->
  bounded E (put_file "targets.json" text d) -> keep (put_file "targets.json" text d).
Proof.
  intros ((C1 & C2 & C3 & C4 & C5 & C6 & C7) & (L1 & L2 & L3)) T G1 G2 G3 Te G4 V W B.
  assert (V' : 0 <= v <= max_int) by (refine (bounded_doc E keyid HE K _ _ _ _ v B (put_doc d _ _ _ _ T) (jget_tgt_version _ _ _ _ _) V)).
  assert (Ve : ver "targets.json" (put_file "targets.json" text d) = v) by (refine (ver_doc E keyid HE K _ "targets.json" _ _ v (put_doc d _ _ _ _ T) (jget_tgt_version _ _ _ _ _) V)).
  split.
  - split; [exact C1|]. split; [refine (root_frame E keyid K d _ _ _ C2); [now rewrite aget_put_other by neq|intros; now rewrite aget_put_other by neq]|].
    split; [exists cu, de, e, ts, v; split; [repeat (split; [assumption|]); assumption|now apply put_doc]|].
    split; [refine (snap_frame E keyid K d _ _ C4); now rewrite aget_put_other by neq|].
    split; [refine (ts_frame E keyid K d _ _ C5); now rewrite aget_put_other by neq|].
    split; [|exact B]. destruct C6 as (X1 & X2). split.
    + intros n. unfold file_json. rewrite aget_put_other by neq. apply X1.
    + intros R. specialize (X2 R). unfold staged_ok in *. rewrite aget_put_other by neq. destruct (aget staging (f_files d)) as [x|] eqn:Gs; [|exact Logic.I].
      destruct X2 as (cu' & e' & ts' & w & -> & P & Gg & Lw). exists cu', e', ts', w. split; [reflexivity|]. split; [exact P|]. split; [exact Gg|].
      rewrite Ve. rewrite R in W. destruct W as (_ & W). split; [|lia]. now apply (W _ cu' e' ts' w eq_refl eq_refl P).
  - split; [intros w x Hw Hx; rewrite aget_put_other by neq; now apply L1|]. split.
    + rewrite (ver_frame E "timestamp.json" d (put_file "targets.json" text d)) by (now rewrite aget_put_other by neq). exact L2.
    + rewrite Ve. destruct rp; [lia|]. right. destruct L3 as [L3|L3]; [|lia]. rewrite <- (ver_frame E "targets.json" d0 d L3). exact W.
Qed.

(** ** updateRepo *)
Lemma tri_update s : tri s (update_repo E keyid depth I) (fun _ s' => consistent E keyid K (g_side s')).
Proof.
  intros s'' r'' V0 X0 L0. revert s'' r'' V0 X0 L0. change (tri s (update_repo E keyid depth I) (fun _ s' => consistent E keyid K (g_side s'))).
  enough (H : inv s -> tri s (update_repo E keyid depth I) (fun _ s' => consistent E keyid K (g_side s'))) by (intros s' r V X L; exact (H V s' r V X L)).
  intros V. pose proof V as ((C & L) & _). pose proof C as (C1 & (RV & RN & re & RVn & RVm & _ & Droot & _) & _ & (oe & oml & ov & Toe & Vo & Dsnap) & (te & ta & tb & tl & tsv & tv & Tte & Vt & Dts) & _ & Bd).
  assert (RVp : 0 <= RV <= max_int) by lia.
  unfold update_repo.
  eapply tri_bind; [apply (tri_read E keyid HE rp K I d0 s _ _ _ Dsnap)|gr|]. intros a s1 _ (-> & ->).
  eapply tri_bind; [apply tri_lift|gr|]. intros oe' s1 _ (-> & H). inj H.
  eapply tri_bind; [apply tri_lift|gr|]. intros ovj s1 _ (-> & H). inj H.
  eapply tri_bind; [apply tri_lift|gr|]. intros ov' s1 _ (-> & H). rewrite jas_uint_ok in H by exact Vo. injection H as <-.
  eapply tri_bind; [apply (tri_read E keyid HE rp K I d0 s _ _ _ Droot)|gr|]. intros a s1 _ (-> & ->).
  eapply tri_bind; [apply tri_lift|gr|]. intros rvj s1 _ (-> & H). inj H.
  eapply tri_bind; [apply tri_lift|gr|]. intros rv s1 _ (-> & H). rewrite jas_uint_ok in H by exact RVp. injection H as <-.
  destruct (next_small ov Vo) as (Nov & Bov). rewrite Nov.
  eapply tri_bind; [apply tri_lift|gr|]. intros snap s1 _ (-> & H).
  assert (snap = snap_shape oe [("root.json", JObj [("version", JInt RV)])] (ov + 1)) as -> by (injection H as <-; reflexivity). clear H.
  eapply tri_bind; [apply tri_pure|gr|]. intros snap s1 _ (-> & H).
  assert (M0 : simple_meta [("root.json", JObj [("version", JInt RV)])]).
  { split; [reflexivity|]. intros k j [h|[]]. injection h as <- <-. exists "root", RV. split; [reflexivity|]. split; [now left|]. split; [reflexivity|]. auto. }
  destruct (add_ok E (g_side s) Bd (core_plain_files E keyid HE rp K _ C) depth "targets" oe _ (ov + 1) snap M0 (or_intror (or_introl eq_refl)) eq_refl H) as (ml & -> & M & Tm).
  change (String.eqb "targets" "targets") with true in Tm. cbv iota in Tm. clear H.
  eapply tri_bind.
  { apply (tri_write E keyid rp K HK I d0 s role_snapshot "snapshot.json" _ "Snapshot"); [cbn; tauto|reflexivity|reflexivity| |].
    - apply simple_meta_plain; [exact M|apply Toe|unfold uint_mod, max_uint64 in *; lia].
    - intros text T B. apply (keep_snap _ _ oe ml (ov + 1)); auto. split; assumption. }
  { gr. }
  intros text s1 V1 (Tx & ->). set (d1 := put_file "snapshot.json" text (g_side s)) in *.
  assert (Dts1 : doc_at d1 "timestamp.json" role_timestamp (ts_shape te ta tb tl tsv tv)) by (refine (doc_frame E keyid K _ _ _ _ _ _ Dts); unfold d1; now rewrite aget_put_other by neq).
  eapply tri_bind; [apply (tri_read E keyid HE rp K I d0 (with_side d1 s) _ _ _ Dts1)|gr|]. intros a s1 _ (-> & ->).
  eapply tri_bind; [apply tri_lift|gr|]. intros tvj s1 _ (-> & H). inj H.
  eapply tri_bind; [apply tri_lift|gr|]. intros tv' s1 _ (-> & H). rewrite jas_uint_ok in H by exact Vt. injection H as <-.
  destruct (next_small tv Vt) as (Ntv & Btv). rewrite Ntv.
  eapply tri_bind; [apply tri_lift|gr|]. intros ts1 s1 _ (-> & H).
  assert (ts1 = ts_shape te ta tb tl tsv (tv + 1)) as -> by (injection H as <-; reflexivity). clear H.
  eapply tri_bind; [apply tri_lift|gr|]. intros ts2 s1 _ (-> & H).
  assert (ts2 = ts_shape te (lower_hex (sha256hex E text)) (lower_hex (sha512hex E text)) (Z.of_nat (String.length text) mod uint_mod) (ov + 1) (tv + 1)) as -> by (injection H as <-; reflexivity). clear H.
  pose proof V1 as ((Cd1 & Ld1) & _). cbn [with_side g_side] in Cd1.
  assert (Bov1 : 0 <= ov + 1 <= max_int).
  { destruct Cd1 as (_ & _ & _ & _ & _ & _ & Bd1). refine (bounded_doc E keyid HE K _ _ _ _ (ov + 1) Bd1 (put_doc _ _ _ _ _ Tx) eq_refl Bov). }
  eapply tri_bind.
  { apply (tri_write E keyid rp K HK I d0 (with_side d1 s) role_timestamp "timestamp.json" _ "Timestamp"); [cbn; tauto|reflexivity|reflexivity| |].
    - destruct (uint_small (Z.of_nat (String.length text))) as (U & _). apply plain_int in U.
      assert (U1 : plain (JInt (ov + 1)) = true) by (apply plain_int; unfold max_int, max_uint64 in *; lia).
      assert (U2 : plain (JInt (tv + 1)) = true) by (apply plain_int; unfold uint_mod, max_uint64 in *; lia).
      unfold ts_shape. cbn [plain increasing forallb fst snd] in *. rewrite U, U1, U2. unfold lower_hex. rewrite !ascii_lower by (apply (eo_sha256 E HE) || apply (eo_sha512 E HE)).
      destruct Tte as (_ & ->). reflexivity.
    - intros text2 T2 B2. eapply keep_ts; [split; assumption|exact T2|exact Tte|exact Btv| |exact B2].
      cbn [with_side g_side]. rewrite (ver_doc E keyid HE K _ _ _ _ tv Dts1 eq_refl) by (unfold uint_mod, max_int in *; lia). lia. }
  { gr. }
  intros text2 s1 V2 (Tx2 & ->). apply tri_ret. cbn [with_side g_side].
  pose proof V2 as ((C2 & _) & _). cbn [with_side g_side] in C2. destruct C2 as (_ & _ & _ & _ & _ & _ & Bd2).
  exists text, oe, ml, (ov + 1), te, (tv + 1).
  split; [rewrite aget_put_other by neq; unfold d1; apply aget_put_same|]. split; [exact Toe|]. split; [exact Bov1|]. split; [exact Tx|]. split; [now apply simple_meta_ok|].
  split; [rewrite Tm; repeat f_equal; symmetry; apply ver_frame; rewrite aget_put_other by neq; unfold d1; now rewrite aget_put_other by neq|].
  split; [exact Tte|]. split; [refine (bounded_doc E keyid HE K _ _ _ _ (tv + 1) Bd2 (put_doc _ _ _ _ _ Tx2) eq_refl Btv)|]. now apply put_doc.
Qed.
End Keep.
