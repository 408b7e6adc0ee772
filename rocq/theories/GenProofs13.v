(** Published metadata is in order for a device that follows the repository. *)
From Verif Require Import Base Json TufModel TufSpec TufProofs MetaStore RepoModel RepoSpec RepoProofs RepoProofs2 RepoProofs3 RepoProofs4 RepoProofs5 RepoProofs6 OrdSpec OrdProofs CodecModel CodecSpec CodecProofs GenModel GenSpec GenProofs GenProofs2 GenProofs3 GenProofs4 GenProofs5 GenProofs6 GenProofs11 GenProofs12.

Section Order.
Context (E : Env) (keyid : pubkey -> string) (HE : env_ok E).
Context (rp : repo) (K : repo_keys) (HK : keys_ok E keyid K).
Context (k : disk) (clk : clock) (HC : core E keyid rp K (side_of rp k)) (HV : servable E k rp clk).

(** ** Roots *)
Lemma roots_there : exists N, 1 <= N < 1000 /\ aget (root_file (N + 1)) (f_files (side_of rp k)) = None /\
  forall v, 1 <= v <= N -> exists raw R, publish k rp "root" v = Ok raw /\ self_signed_root E raw R /\ rt_ks R = root_keyset E keyid K /\ rt_version R = v /\ base_init (parse E raw) = Ok (rt_base R).
Proof.
  pose proof HC as (_ & (V & N & e & A1 & A2 & A3 & A4 & A5 & A6 & A7) & _). exists N. split; [split; [lia|]|split; [exact A6|]].
  - destruct (Z.lt_ge_cases N 1000) as [X|X]; [exact X|exfalso]. destruct (A5 1000 ltac:(lia)) as (e' & _ & (text & B & _)).
    pose proof (sv_few E k rp clk HV) as F. rewrite (sv_small E k rp clk HV "root" 1000 text) in F; [discriminate|]. now rewrite root_path by lia.
  - intros v Hv. destruct (A5 v Hv) as (e' & Te & (text & B1 & B2)). exists text. apply (parse_text E keyid HE K) in B2 as (kid' & m' & sg' & C1 & C2 & C3 & C4).
    assert (Rg : Json.in_range min_int max_int v = true) by (unfold Json.in_range, min_int, max_int in *; lia).
    eexists. split; [apply (sv_small E k rp clk HV); now rewrite root_path by lia|]. split; [split; [rewrite C1; apply root_parse; [exact HK|exact Rg|apply Te]|exact C3]|].
    split; [reflexivity|]. split; [reflexivity|]. cbn [rt_base]. rewrite C1. apply base_signed; [reflexivity|exact Rg|reflexivity|apply Te].
Qed.
Lemma roots_chain N : (forall v, 1 <= v <= N -> exists raw R, publish k rp "root" v = Ok raw /\ self_signed_root E raw R /\ rt_ks R = root_keyset E keyid K /\ rt_version R = v /\ base_init (parse E raw) = Ok (rt_base R)) ->
  forall n R raw, rt_ks R = root_keyset E keyid K -> 1 <= rt_version R -> rt_version R + Z.of_nat n = N -> publish k rp "root" (rt_version R) = Ok raw -> base_init (parse E raw) = Ok (rt_base R) ->
  exists l R' raw', root_chain E R l R' /\ rt_version R' = N /\ rt_ks R' = root_keyset E keyid K /\ (forall v x, In (v, x) l -> publish k rp "root" v = Ok x) /\
    publish k rp "root" N = Ok raw' /\ base_init (parse E raw') = Ok (rt_base R').
Proof.
  intros F. induction n as [|n IH]; intros R raw HR P Hn Hp Hb.
  - exists [], R, raw. replace N with (rt_version R) in * by lia. split; [constructor|]. split; [reflexivity|]. split; [exact HR|]. split; [intros v x []|auto].
  - destruct (F (rt_version R + 1) ltac:(lia)) as (raw1 & R1 & G1 & (G2 & G3) & G4 & G5 & G6).
    destruct (IH R1 raw1 G4 ltac:(lia) ltac:(lia) ltac:(now rewrite G5) G6) as (l & R' & raw' & L1 & L2 & L3 & L4 & L5).
    exists ((rt_version R1, raw1) :: l), R', raw'. split; [|split; [exact L2|split; [exact L3|split; [|exact L5]]]].
    + econstructor; [|exact L1]. split; [exact G2|]. rewrite HR. rewrite G4 in G3. rewrite G4. auto.
    + intros v x [X|X]; [injection X as <- <-; now rewrite G5|now apply L4].
Qed.
Lemma roots_ready D : rows_ok E keyid rp K (side_of rp k) D -> exists l R, roots_in_order E (publish k) clk rp D l R /\ rt_ks R = root_keyset E keyid K.
Proof.
  intros HR. destruct roots_there as (N & HN & Hnone & F).
  assert (exists R0 raw0, (load_latest_root rp D = Ok (Some raw0) \/ (load_latest_root rp D = Ok None /\ publish k rp "root" 1 = Ok raw0)) /\ self_signed_root E raw0 R0 /\
     1 <= rt_version R0 <= N /\ publish k rp "root" (rt_version R0) = Ok raw0) as (R0 & raw0 & H1 & H2 & H3 & H4).
  { destruct (stored_latest E keyid HE rp K HK k D HC HR) as [X|(v & raw & R & X1 & X2 & X3 & X4 & X5 & X6 & X7)].
    - destruct (F 1 ltac:(lia)) as (raw & R & G1 & G2 & G3 & G4 & G5). exists R, raw. split; [right; auto|]. split; [exact G2|]. rewrite G4. split; [lia|exact G1].
    - assert (v <= N) by (destruct (Z.le_gt_cases v N); [assumption|exfalso; apply (X4 (N + 1)); [lia|exact Hnone]]).
      exists R, raw. split; [now left|]. split; [exact X5|]. rewrite X7. split; [lia|]. apply (sv_small E k rp clk HV). now rewrite root_path by lia. }
  destruct (F _ H3) as (raw1 & R1 & G1 & G2 & G3 & G4 & G5). rewrite H4 in G1. injection G1 as <-.
  assert (R1 = R0) by (destruct G2 as (G2 & _), H2 as (H2 & _); congruence). subst R1.
  destruct (roots_chain N F (Z.to_nat (N - rt_version R0)) R0 raw0 G3 ltac:(lia) ltac:(lia) H4 G5) as (l & R & raw & L1 & L2 & L3 & L4 & L5 & L6).
  assert (Nx : exists e, publish k rp "root" (N + 1) = Throw e) by (exists UFetchFailure; unfold publish; rewrite root_path by lia; now rewrite Hnone).
  exists l, R. split; [|exact L3]. exists raw0, R0. split; [exact H1|]. split; [exact H2|]. split; [exact L1|]. split; [exact L4|]. rewrite L2. split; [exact Nx|]. split; [lia|].
  apply (sv_roots E k rp clk HV N raw); [|exact L6]. split; [exact L5|]. split; [|exact Nx]. intros w Hw. destruct (F w Hw) as (x & _ & X & _). eauto.
Qed.

(** ** What is stored of other roles *)
Lemma stored_row D ty : ty <> RRoot -> rows_ok E keyid rp K (side_of rp k) D ->
  load_nonroot rp ty D = Ok None \/ exists w, row_ok E keyid rp K (side_of rp k) w /\ w_repo w = rp /\ w_type w = ty /\ load_nonroot rp ty D = (do s <- blob_to_string (w_data w); Ok (Some s)).
Proof.
  clear HV HC HK HE. intros _ H. unfold load_nonroot. destruct (latest_row rp ty D) as [w|] eqn:W; [right|now left].
  apply max_row_in in W as (W & _). apply filter_In in W as (W1 & W2). unfold is_row in W2. apply andb_true_iff in W2 as (A & B).
  exists w. unfold rows_ok in H. rewrite Forall_forall in H. split; [now apply H|]. split; [destruct (w_repo w), rp; auto; discriminate|]. split; [|reflexivity].
  destruct (w_type w), ty; auto; discriminate.
Qed.
Lemma text_nul r text j : text_ok E keyid K r text j -> nul_free text.
Proof. intros (kid & m & sg & -> & P & _). now apply (eo_text E HE). Qed.
Lemma extract_text r text j v : text_ok E keyid K r text j -> jget "version" j = Ok (JInt v) -> 0 <= v <= max_int -> extract_version_untrusted E text = Ok v.
Proof.
  intros T J V. apply (parse_text E keyid HE K) in T as (kid & m & sg & P & _). unfold extract_version_untrusted. rewrite P.
  change (jget "signed" (signed_doc kid m sg j)) with (Ok j). cbn [bind]. rewrite J. cbn [bind jis_integral negb]. now apply jas_int_ok.
Qed.
Lemma published r j : In r [role_snapshot; role_targets; role_timestamp] -> doc_at E keyid K (side_of rp k) (append (r_name r) ".json") r j ->
  exists raw, publish k rp (r_name r) (-1) = Ok raw /\ text_ok E keyid K r raw j /\ unexpired E raw (clk (r_kind r)).
Proof.
  intros R (text & A & T). assert (P : publish k rp (r_name r) (-1) = Ok text) by (apply (sv_small E k rp clk HV); exact A).
  exists text. split; [exact P|]. split; [exact T|]. now apply (sv_others E k rp clk HV r).
Qed.
End Order.

Lemma collision_dec E k D : ~ snapshot_collision E k D \/ snapshot_collision E k D.
Proof.
  unfold snapshot_collision. destruct (load_nonroot Image RSnapshot D) as [[a|]|]; try (left; intros (x & y & H & _); discriminate).
  destruct (publish k Image "snapshot" (-1)) as [b|]; try (left; intros (x & y & _ & H & _); discriminate).
  destruct (string_dec a b) as [->|Ne]; [left; intros (x & y & H1 & H2 & H3 & _); congruence|].
  destruct (string_dec (to_upper (sha256hex E a)) (to_upper (sha256hex E b))) as [H1|N1]; [|left; intros (x & y & X1 & X2 & _ & X3 & _); congruence].
  destruct (string_dec (to_upper (sha512hex E a)) (to_upper (sha512hex E b))) as [H2|N2]; [|left; intros (x & y & X1 & X2 & _ & _ & X3); congruence].
  right. exists a, b. auto.
Qed.
Section OrderImage.
Context (E : Env) (keyid : pubkey -> string) (HE : env_ok E).
Context (K : repo_keys) (HK : keys_ok E keyid K).
Context (k : disk) (clk : clock) (HC : core E keyid Image K (k_img k)) (HV : servable E k Image clk) (HS : consistent E keyid K (k_img k)).

Lemma image_ready D : rows_ok E keyid Image K (k_img k) D ->
  forall l R, rt_ks R = root_keyset E keyid K -> snapshot_collision E k D \/
  exists tm sn t raw, image_in_order E (publish k) clk D l R tm sn t /\ publish k Image "targets" (-1) = Ok raw /\ targets_doc E "targets" (parse E raw) t.
Proof.
  intros HR l R RK. pose proof (collision_dec E k D) as Dec.
  pose proof HC as (_ & _ & (cu & de & et & ts & tv & Tg & Td) & _).
  destruct HS as (stext & e & ml & v & e' & v' & S1 & S2 & S3 & S4 & S5 & S6 & S7 & S8 & S9).
  change (k_img k) with (side_of Image k) in Td, S1, S9.
  destruct (published E keyid Image K k clk HV role_timestamp _ ltac:(cbn; tauto) S9) as (traw & P1 & P2 & P3).
  destruct (published E keyid Image K k clk HV role_targets _ ltac:(cbn; tauto) Td) as (graw & Q1 & Q2 & Q3).
  destruct (published E keyid Image K k clk HV role_snapshot (snap_shape e ml v) ltac:(cbn; tauto)) as (sraw & O1 & O2 & O3); [exists stext; auto|].
  assert (sraw = stext) by (apply (publish_get Image k) in O1; change (document_path (r_name role_snapshot) (-1)) with "snapshot.json" in O1; congruence). subst sraw.
  pose proof Tg as (G1 & G2 & G3 & G4 & G5 & _).
  assert (Len : Z.of_nat (String.length stext) mod uint_mod = Z.of_nat (String.length stext) /\ 0 <= Z.of_nat (String.length stext) <= max_int).
  { unfold publish in O1. rewrite S1 in O1 || (change (aget (document_path (r_name role_snapshot) (-1)) (f_files (side_of Image k))) with (aget "snapshot.json" (f_files (side_of Image k))) in O1; rewrite S1 in O1).
    destruct (size_limit Image (r_name role_snapshot) <? Z.of_nat (String.length stext)) eqn:X; [discriminate|]. apply Z.ltb_ge in X. change (size_limit Image (r_name role_snapshot)) with 65536 in X.
    unfold uint_mod, max_int. split; [apply Z.mod_small; lia|lia]. }
  destruct Len as (Lm & Ll). rewrite Lm in *.
  assert (Vt : ver E "targets.json" (k_img k) = tv) by (apply publish_get in Q1; eapply (ver_targets E keyid HE Image K (k_img k)); eauto).
  rewrite Vt in S6.
  (* the documents as the client reads them *)
  destruct (parse_text E keyid HE K _ _ _ P2) as (kid1 & m1 & sg1 & Pt & _ & At & _).
  destruct (timestamp_parse kid1 m1 sg1 e' (lower_hex (sha256hex E stext)) (lower_hex (sha512hex E stext)) (Z.of_nat (String.length stext)) v v' Ll S3 S8 (proj1 S7)) as (tm & T1 & T2 & T3 & T4). rewrite <- Pt in T1.
  destruct (parse_text E keyid HE K _ _ _ O2) as (kid2 & m2 & sg2 & Ps & _ & As & Cs).
  destruct (snapshot_parse kid2 m2 sg2 e ml v tv S5 S6 S3 (proj1 S2)) as (sn & U1 & U2 & U3 & U4). rewrite <- Ps in U1.
  destruct (parse_text E keyid HE K _ _ _ Q2) as (kid3 & m3 & sg3 & Pg & _ & Ag & _).
  destruct (targets_parse E kid3 m3 sg3 cu de et ts tv G1 G2 G3 G5 (proj1 G4)) as (t & tl & W2 & W3 & _). rewrite <- Pg in W2.
  assert (Hh : tm_hashes tm = [{| h_type := Sha256; h_val := to_upper (sha256hex E stext) |}; {| h_type := Sha512; h_val := to_upper (sha512hex E stext) |}]).
  { rewrite T4. unfold mk_hash, lower_hex. rewrite !upper_lower. reflexivity. }
  destruct Dec as [NC|Co]; [right|now left].
  exists tm, sn, t, graw. split; [|split; [exact Q1|exact W2]]. split; [|split].
  - exists traw, v'. split; [exact P1|]. split; [eapply extract_text; eauto|]. split; [lia|]. split; [split; [now rewrite RK|exact T1]|]. split; [apply P3; apply T1|]. right.
    destruct (stored_row E keyid Image K k D RTimestamp ltac:(discriminate) HR) as [X|(w & X1 & X2 & X3 & X4)]; [now left|right].
    specialize (X1 X2). rewrite X3 in X1. destruct X1 as (e1 & a1 & b1 & len1 & sv1 & v1 & Y1 & Y2 & Y3). exists (w_data w), v1. rewrite X4, (nul_free_blob _ (text_nul E keyid HE K _ _ _ Y1)).
    split; [reflexivity|]. split; [eapply extract_text; eauto|]. cbn [side_of] in Y3.
    rewrite (ver_doc E keyid HE K (k_img k) "timestamp.json" role_timestamp _ v' S9 eq_refl) in Y3 by (unfold uint_mod, max_int in *; lia). exact Y3.
  - exists stext, v. split; [exact O1|]. split; [eapply extract_text; eauto|]. split; [lia|]. split.
    { split; [rewrite Hh; eexists; split; [left; reflexivity|discriminate]|]. split.
      - rewrite Hh. intros h [<-|[<-|[]]]; unfold digest_matches; cbn [h_type h_val]; now rewrite Cs.
      - split; [split; [now rewrite RK|exact U1]|]. now rewrite T3. }
    split; [apply O3; apply U1|]. right.
    destruct (stored_row E keyid Image K k D RSnapshot ltac:(discriminate) HR) as [X|(w & X1 & X2 & X3 & X4)]; [exists None; split; [exact X|discriminate]|].
    specialize (X1 X2). rewrite X3 in X1. destruct X1 as (j & Y1 & Y2). assert (Nf : nul_free (w_data w)) by (rewrite Y2; now apply (eo_text E HE)).
    rewrite (nul_free_blob _ Nf) in X4. cbn [bind] in X4. exists (Some (w_data w)). split; [exact X4|]. intros x Hx Hd. injection Hx as <-.
    destruct (string_dec (w_data w) stext) as [->|Ne]; [reflexivity|]. exfalso. apply NC. exists (w_data w), stext. split; [exact X4|]. split; [exact O1|]. split; [exact Ne|].
    assert (Cw : canon E (parse E (w_data w)) = w_data w) by (rewrite Y2, (eo_round E HE j Y1); reflexivity).
    rewrite Hh in Hd. pose proof (Hd _ (or_introl eq_refl)) as D1. pose proof (Hd _ (or_intror (or_introl eq_refl))) as D2. unfold digest_matches in D1, D2. cbn [h_type h_val] in D1, D2. rewrite Cw in D1, D2. auto.
  - exists graw, tv. split; [exact Q1|]. split; [eapply extract_text; eauto; apply jget_tgt_version|]. split; [lia|]. split.
    { split; [rewrite U4; intros h []|]. split; [now rewrite RK|]. split; [exact W2|]. now rewrite U3. }
    split; [apply Q3; apply W2|]. right.
    destruct (stored_row E keyid Image K k D RTargets ltac:(discriminate) HR) as [X|(w & X1 & X2 & X3 & X4)]; [exists None; split; [exact X|discriminate]|].
    specialize (X1 X2). rewrite X3 in X1. destruct X1 as (cu1 & de1 & e1 & ts1 & v1 & Y1 & Y2 & Y3). rewrite (nul_free_blob _ (text_nul E keyid HE K _ _ _ Y1)) in X4. cbn [bind] in X4.
    exists (Some (w_data w)). split; [exact X4|]. intros x st Hx _ _ Hst. injection Hx as <-. cbn [side_of] in Y3. rewrite Vt in Y3.
    destruct (parse_text E keyid HE K _ _ _ Y1) as (kid4 & m4 & sg4 & Pw & _). destruct Y2 as (Y21 & Y22 & Y23 & Y24 & Y25 & _).
    destruct (targets_parse E kid4 m4 sg4 cu1 de1 e1 ts1 v1 Y21 Y22 Y23 Y25 (proj1 Y24)) as (t1 & tl1 & Z1 & Z2 & _). rewrite <- Pw in Z1.
    assert (FU : forall a b j, targets_doc E "targets" j a -> targets_doc E "targets" j b -> a = b).
    { intros a b j (F1 & F2) (F3 & F4). rewrite F1 in F3. injection F3 as F3. rewrite <- F3 in F4. congruence. }
    pose proof (FU _ _ _ Hst Z1) as ->. destruct Y3 as [Y3|Y3].
    + apply (publish_get Image k) in Q1. change (document_path (r_name role_targets) (-1)) with "targets.json" in Q1. cbn [side_of] in Q1. rewrite Q1 in Y3. injection Y3 as Y3. rewrite <- Y3 in Z1.
      pose proof (FU _ _ _ Z1 W2) as ->. split; [lia|auto].
    + rewrite Z2, W3. split; [lia|]. intros X. lia.
Qed.
End OrderImage.
