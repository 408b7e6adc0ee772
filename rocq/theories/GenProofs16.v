(** What the commands publish: whole commands. *)
From Verif Require Import Base Json TufModel TufSpec TufProofs MetaStore RepoModel RepoSpec RepoProofs RepoProofs4 GenModel GenSpec GenSpec2 GenProofs GenProofs2 GenProofs3 GenProofs4 GenProofs5 GenProofs7 GenProofs8 GenProofs10 GenProofs11 GenProofs12 GenProofs14 GenProofs15.

Section Content.
Context (E : Env) (keyid : pubkey -> string) (depth : nat) (fnm : string -> string -> bool) (HE : env_ok E).

(** ** Reading Targets *)
Lemma roles_indep : forall l a b ta, same_delegations a b -> parse_deleg_roles l a = Ok ta ->
  exists tb, parse_deleg_roles l b = Ok tb /\ same_delegations ta tb /\ tg_targets ta = tg_targets a /\ tg_base ta = tg_base a.
Proof.
  induction l as [|(k, r) l IH]; intros a b ta S H; cbn [parse_deleg_roles] in H |- *; [injection H as <-; eauto|]. destruct S as (S1 & S2 & S3 & S4).
  apply bind_ok in H as (nj & -> & H). cbn [bind]. apply bind_ok in H as (n & -> & H). cbn [bind]. apply bind_ok in H as (x & -> & H). cbn [bind]. apply bind_ok in H as (ks & H1 & H).
  rewrite S1 in H1. rewrite H1. cbn [bind]. apply bind_ok in H as (pj & -> & H). cbn [bind]. apply bind_ok in H as (ps & -> & H). cbn [bind]. apply bind_ok in H as (tj & -> & H). cbn [bind]. apply bind_ok in H as (te & -> & H). cbn [bind].
  eapply IH in H as (tb & H & S & T & B); [exists tb; split; [exact H|]; split; [exact S|]; split; [exact T|exact B]|].
  split; [reflexivity|]. cbn. rewrite S2, S3, S4. auto.
Qed.
Definition deleg_read (de : option json) (t : targets) : Prop :=
  exists t1, (match de with
              | Some d => if jis_object d then do kj <- jget "keys" d; do ks <- parse_keys E (jiter kj) ks_empty; do rj <- jget "roles" d;
                            parse_deleg_roles (jiter rj) {| tg_base := base_empty 0; tg_ks := ks; tg_targets := []; tg_deleg := []; tg_paths := []; tg_term := []; tg_name := ""; tg_corr := "" |}
                          else Ok targets_empty
              | None => Ok targets_empty
              end) = Ok t1 /\ same_delegations t t1.
Lemma deleg_same de a b : deleg_read de a -> deleg_read de b -> same_delegations a b.
Proof. intros (x & X & (S1 & S2 & S3 & S4)) (y & Y & (T1 & T2 & T3 & T4)). rewrite X in Y. injection Y as <-. unfold same_delegations. rewrite S1, S2, S3, S4, T1, T2, T3, T4. auto. Qed.
Lemma doc_read kid m sg cu de e ts v t : targets_doc E "targets" (signed_doc kid m sg (tgt_shape cu de e ts v)) t -> 0 <= v <= max_int -> time_ok e ->
  tg_version t = v /\ parse_target_list (jiter ts) = Ok (tg_targets t) /\ deleg_read de t.
Proof.
  intros (B & H) V (Te & _). set (j := tgt_shape cu de e ts v) in *.
  assert (B' : base_init (signed_doc kid m sg j) = Ok {| b_version := v; b_expiry := e; b_orig := signed_doc kid m sg j |}).
  { apply base_signed; [apply jget_tgt_version|now apply range_int|apply jget_tgt_expires|exact Te]. }
  rewrite B' in B. injection B as B. split; [unfold tg_version; now rewrite <- B|].
  unfold targets_init in H. cbn [jis_object signed_doc negb] in H. change (jget "signed" (signed_doc kid m sg j)) with (Ok j) in H. cbn [bind] in H.
  assert (J1 : jget "_type" j = Ok (JStr "Targets")) by apply jget_tgt_type. assert (J2 : jget "targets" j = Ok ts) by apply jget_tgt_targets.
  assert (J3 : jget "delegations" j = Ok (match de with Some d => d | None => JNull end)) by apply jget_tgt_deleg.
  rewrite J1, J2 in H. cbn [bind jeq_str] in H. rewrite String.eqb_refl in H. cbn [negb] in H. apply bind_ok in H as (tl & -> & H). rewrite J3 in H. cbn [bind] in H.
  apply bind_ok in H as (t1 & H1 & H). apply bind_ok in H as (cj & _ & H). apply bind_ok in H as (corr & _ & H). injection H as H.
  assert (S0 : same_delegations t t1) by (rewrite <- H; repeat split). assert (T0 : tg_targets t = tg_targets t1) by now rewrite <- H. clear H B' J1 J2 J3.
  enough (Q : tg_targets t1 = tl /\ deleg_read de t1).
  { destruct Q as (Q & (x & X & S)). split; [congruence|]. exists x. split; [exact X|]. destruct S as (?&?&?&?), S0 as (?&?&?&?). unfold same_delegations. repeat split; congruence. }
  destruct de as [d|]; [|injection H1 as <-; split; [reflexivity|]; exists targets_empty; split; [reflexivity|repeat split]].
  unfold deleg_read. destruct (jis_object d); [|injection H1 as <-; split; [reflexivity|]; exists targets_empty; split; [reflexivity|repeat split]].
  apply bind_ok in H1 as (kj & -> & H1). cbn [bind]. apply bind_ok in H1 as (ks & -> & H1). cbn [bind]. apply bind_ok in H1 as (rj & -> & H1). cbn [bind].
  pose proof (fun b S => roles_indep _ _ b _ S H1) as Q.
  destruct (Q {| tg_base := base_empty 0; tg_ks := ks; tg_targets := []; tg_deleg := []; tg_paths := []; tg_term := []; tg_name := ""; tg_corr := "" |}) as (tb & H2 & S & T & _); [repeat split|]. split; [exact T|].
  exists tb. split; [exact H2|exact S].
Qed.

(** ** The file "targets.json" *)
Definition tfile (d : side) (j : json) : Prop :=
  exists kid m sg, aget "targets.json" (f_files d) = Some (canon E (signed_doc kid m sg j)) /\ plain (signed_doc kid m sg j) = true.
Lemma tfile_fun d i j : tfile d i -> tfile d j -> i = j.
Proof.
  intros (a & b & c & H & P) (a' & b' & c' & H' & P'). rewrite H in H'. injection H' as H'. apply (f_equal (parse E)) in H'. rewrite (eo_round E HE _ P), (eo_round E HE _ P') in H'. injection H' as _ _ _ H'. exact H'.
Qed.
Lemma core_tfile rp K d : core E keyid rp K d -> exists cu de e ts v, tfile d (tgt_shape cu de e ts v) /\ good_tgt rp cu de e ts v /\ plain (tgt_shape cu de e ts v) = true.
Proof.
  intros (_ & _ & (cu & de & e & ts & v & G & (text & Ht & (kid & m & sg & -> & P & _))) & _). exists cu, de, e, ts, v. split; [exists kid, m, sg; auto|]. split; [exact G|].
  apply plain_obj in P as (_ & P). apply (P "signed"). right. now left.
Qed.
Lemma read_published rp k cu de e ts v raw : tfile (side_of rp k) (tgt_shape cu de e ts v) -> good_tgt rp cu de e ts v -> publish k rp "targets" (-1) = Ok raw ->
  (exists t, targets_doc E "targets" (parse E raw) t) /\
  forall t, targets_doc E "targets" (parse E raw) t -> tg_version t = v /\ parse_target_list (jiter ts) = Ok (tg_targets t) /\ deleg_read de t.
Proof.
  intros (kid & m & sg & H & P) (G1 & G2 & G3 & G4 & G5 & _) Pb. apply publish_get in Pb. change (document_path "targets" (-1)) with "targets.json" in Pb. rewrite H in Pb. injection Pb as <-.
  rewrite (eo_round E HE _ P). split.
  - edestruct (targets_parse E kid m sg cu de e ts v) as (t & tl & T & _); try eassumption; [apply G4|eauto].
  - intros t T. eapply doc_read; eassumption.
Qed.
Lemma sign_plain I mem rn j doc : sign_tuf E keyid I mem rn j = Ok doc -> (forall kp, aget rn mem = Some kp -> key_ok E keyid kp /\ signs E I kp) -> plain j = true ->
  exists kid m sg, doc = signed_doc kid m sg j /\ plain doc = true.
Proof.
  intros G Vm P. unfold sign_tuf in G. destruct (aget rn mem) as [kp|] eqn:Gk; [|discriminate]. destruct (Vm kp eq_refl) as ((_ & _ & _ & A) & S). destruct (S (canon E j)) as (S1 & _).
  destruct (pk_type (kp_pub kp)); try discriminate; injection G as <-; do 3 eexists; (split; [reflexivity|]); apply plain_signed; auto.
Qed.
Lemma read_inv p s s' j : read_signed E p s = (s', Ok j) -> s' = s /\ jget "signed" (file_json E p (g_side s)) = Ok j.
Proof. intros H. unfold read_signed, gbind, read_json, glift in H. now injection H as <- ->. Qed.
Lemma tfile_signed d j : tfile d j -> jget "signed" (file_json E "targets.json" d) = Ok j.
Proof. intros (kid & m & sg & H & P). unfold file_json. now rewrite H, (eo_round E HE _ P). Qed.
Lemma update_frame I s s' : update_repo E keyid depth I s = (s', Ok tt) -> forall p, p <> "snapshot.json" -> p <> "timestamp.json" -> aget p (f_files (g_side s')) = aget p (f_files (g_side s)).
Proof.
  intros H p N1 N2. unfold update_repo in H.
  Local Ltac step H := apply gbind_ok in H as (? & ? & ?H & H).
  Local Ltac pure X := first [apply lift_inv in X as (-> & X) | apply read_inv in X as (-> & X)].
  step H. pure H0. step H. pure H1. step H. pure H2. step H. pure H3. step H. pure H4. step H. pure H5. step H. pure H6. step H. pure H7. step H. injection H8 as <- _.
  step H. apply write_signed_ok in H8 as (-> & _). step H. pure H8. step H. pure H9. step H. pure H10. step H. pure H11. step H. pure H12. step H. apply write_signed_ok in H13 as (-> & _). injection H as <-.
  cbn [g_side with_side]. now rewrite !aget_put_other by assumption.
Qed.
Lemma tfile_written I rn j s s' text : write_signed E keyid I rn "targets.json" j s = (s', Ok text) -> (forall kp, aget rn (g_mem s) = Some kp -> key_ok E keyid kp /\ signs E I kp) -> plain j = true -> tfile (g_side s') j.
Proof.
  intros H K P. apply write_signed_ok in H as (-> & doc & H & ->). apply sign_plain in H as (kid & m & sg & -> & Pd); [|assumption..]. exists kid, m, sg. cbn [g_side with_side]. rewrite aget_put_same. auto.
Qed.
Lemma tfile_frame d d' j : aget "targets.json" (f_files d') = aget "targets.json" (f_files d) -> tfile d j -> tfile d' j.
Proof. intros e (kid & m & sg & H & P). exists kid, m, sg. rewrite e. auto. Qed.
Lemma good_next rp cu de e ts v ts' : good_tgt rp cu de e ts v -> tlist_ok ts' -> v + 1 <= max_int -> good_tgt rp cu de e ts' (v + 1).
Proof. intros (A & B & C & D & F & G) T L. repeat (split; [assumption|]). split; [lia|exact G]. Qed.
(** The version in the file is bounded. *)
Lemma tfile_bound rp K d cu de e ts v : core E keyid rp K d -> tfile d (tgt_shape cu de e ts v) -> good_tgt rp cu de e ts v.
Proof.
  intros C T. apply core_tfile in C as (cu' & de' & e' & ts' & v' & T' & G & _). pose proof (tfile_fun _ _ _ T T') as e0.
  assert (v' = v) by (pose proof (jget_tgt_version cu de e ts v) as X; rewrite e0, jget_tgt_version in X; congruence).
  assert (e' = e) by (pose proof (jget_tgt_expires cu de e ts v) as X; rewrite e0, jget_tgt_expires in X; congruence).
  assert (ts' = ts) by (pose proof (jget_tgt_targets cu de e ts v) as X; rewrite e0, jget_tgt_targets in X; congruence). subst.
  unfold tgt_shape in e0. destruct cu, de, cu', de'; cbn in e0; try discriminate e0; inversion e0; subst; exact G.
Qed.

(** ** image *)
Lemma add_image_inv I name target hw s s' cu de e ts v : add_image E keyid depth I name target hw None s = (s', Ok tt) ->
  (forall kp, aget "targets" (g_mem s) = Some kp -> key_ok E keyid kp /\ signs E I kp) -> tfile (g_side s) (tgt_shape cu de e ts v) -> plain (tgt_shape cu de e ts v) = true -> 0 <= v <= max_int ->
  plain target = true -> ascii_text name = true -> ascii_text hw = true ->
  exists c ts', jmod "custom" (jmod "hardwareIds" (jset0 (JStr hw))) target = Ok c /\ jset name c ts = Ok ts' /\ tfile (g_side s') (tgt_shape cu de e ts' (v + 1)).
Proof.
  intros H K T P V Pt An Ah. unfold add_image in H. change (role_file "targets") with "targets.json" in H.
  step H. apply read_inv in H0 as (-> & H0). rewrite (tfile_signed _ _ T) in H0. injection H0 as <-.
  step H. apply lift_inv in H0 as (-> & H0). step H. apply lift_inv in H1 as (-> & H1). step H. apply lift_inv in H2 as (-> & H2). step H. apply lift_inv in H3 as (-> & _).
  step H. assert (Px : plain x0 = true) by exact (plain_add_hw _ _ _ Pt Ah H0).
  assert (P2 : plain x2 = true) by (refine (plain_bump _ _ _ H2); refine (plain_jmod "targets" _ _ _ eq_refl P _ H1); intros a b Pa Hb; exact (plain_jset _ _ _ _ An Px Pa Hb)).
  apply tfile_written in H3; [|assumption..]. unfold jmod in H1. rewrite jget_tgt_targets in H1. cbn [bind] in H1. apply bind_ok in H1 as (ts' & H1 & H1'). rewrite jset_tgt_targets in H1'. injection H1' as <-.
  rewrite bump_tgt in H2 by exact V. injection H2 as <-. exists x0, ts'. split; [exact H0|]. split; [exact H1|]. eapply tfile_frame; [|exact H3]. eapply update_frame; [exact H|discriminate..].
Qed.
Lemma image_content KI I k k' l im name hw url x raw : keys_ok E keyid KI -> core E keyid Image KI (k_img k) -> invocation_ok E keyid I k -> arguments_ok E keyid I (CImage im name hw url None) ->
  run_command E keyid depth fnm I (CImage im name hw url None) k = (k', l, Ok tt) -> Forall (bounded_disk E) l ->
  (match im with IBinary content => x = binary_target E content url | ICustom h len custom => custom_target h len url custom = Ok x end) ->
  publish k' Image "targets" (-1) = Ok raw ->
  exists t' c y, targets_doc E "targets" (parse E raw) t' /\ k_dir k' = k_dir k /\ jmod "custom" (jmod "hardwareIds" (jset0 (JStr hw))) x = Ok c /\ target_of_json name c = Ok y /\ In y (tg_targets t') /\
    forall t, published E Image k t -> tg_version t' = tg_version t + 1 /\ same_delegations t t' /\ replaced (tg_targets t) (tg_targets t') y.
Proof.
  intros HK C Iv Ar H B Hx Pn. pose proof (image_step E keyid depth fnm HE KI I (CImage im name hw url None) k k' l _ HK C eq_refl Iv Ar H B) as ((C1 & _) & _).
  destruct (core_tfile _ _ _ C) as (cu & de & e & ts & v & T & G & P). change (k_img k) with (side_of Image k) in *. change (k_img k') with (side_of Image k') in *.
  destruct Ar as (Im & An & (Ah & Ah2) & Au).
  assert (Hp : plain x = true).
  { destruct im as [content|h len custom]; [subst x; now apply plain_binary|]. destruct Im as (M1 & M2 & _). exact (plain_custom_target _ _ _ _ _ M1 Au M2 Hx). }
  cbn [run_command] in H. apply on_side_run in H as (s & H & Hs & -> & _). step H. assert (E0 : x0 = start (side_of Image k) /\ x1 = None) by (cbn [image_delegation] in H0; split; congruence). destruct E0 as (-> & ->).
  assert (H' : add_image E keyid depth I name x hw None (start (side_of Image k)) = (s, Ok tt)).
  { destruct im as [content|h len custom]; [now subst x|]. apply gbind_ok in H as (s9 & x9 & H9 & H). apply lift_inv in H9 as (-> & H9). rewrite Hx in H9. injection H9 as <-. exact H. }
  assert (K : forall kp, aget "targets" (g_mem (start (side_of Image k))) = Some kp -> key_ok E keyid kp /\ signs E I kp) by (intros kp Hk; exact (proj2 (proj2 (proj2 Iv)) Image "targets" kp Hk)).
  pose proof G as (_ & _ & G3 & _ & G5 & _).
  destruct (add_image_inv _ _ _ _ _ _ _ _ _ _ _ H' K T P G5 Hp An Ah) as (c & ts' & H1 & H2 & T').
  change (g_side s) with (side_of Image (set_side Image (g_side s) k)) in T'. pose proof (tfile_bound _ _ _ _ _ _ _ _ C1 T') as G'.
  destruct (read_published Image _ _ _ _ _ _ raw T' G' Pn) as ((t' & Tn) & R). destruct (R _ Tn) as (V' & L' & D').
  pose proof (plain_jget "targets" _ _ P (jget_tgt_targets _ _ _ _ _)) as Pts. pose proof G' as (_ & _ & G3' & _).
  assert (exists tl, parse_target_list (jiter ts) = Ok tl) as (tl & L) by (destruct G3 as [->|(lo & -> & G3)]; [now exists []|exact (parse_list_ok _ G3)]).
  destruct (put_members name c ts ts' _ _ G3 G3' Pts H2 L L') as (y & Y & M).
  exists t', c, y. split; [exact Tn|]. split; [reflexivity|]. split; [exact H1|]. split; [exact Y|]. split; [apply M; now left|].
  intros t (old & Po & To). destruct (read_published Image k _ _ _ _ _ old T G Po) as (_ & R0). destruct (R0 _ To) as (V & L0 & D). assert (tl = tg_targets t) as -> by congruence.
  split; [lia|]. split; [eapply deleg_same; eassumption|]. intros z. rewrite M. now rewrite (target_name _ _ _ Y).
Qed.
End Content.
