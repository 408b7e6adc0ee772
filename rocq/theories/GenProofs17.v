(** What the commands publish: the Director. *)
From Verif Require Import Base Json TufModel TufSpec TufProofs MetaStore RepoModel RepoSpec RepoProofs RepoProofs4 GenModel GenSpec GenSpec2 GenProofs GenProofs2 GenProofs3 GenProofs4 GenProofs5 GenProofs7 GenProofs8 GenProofs10 GenProofs11 GenProofs12 GenProofs14 GenProofs15 GenProofs16.

Section Content.
Context (E : Env) (keyid : pubkey -> string) (depth : nat) (fnm : string -> string -> bool) (HE : env_ok E).

(** What "signtargets" signs. *)
Definition to_sign (d : side) (j : json) : Prop :=
  (if exists_file staging d then Ok (file_json E staging d) else if exists_file "targets.json" d then jget "signed" (file_json E "targets.json" d) else Throw EStd) = Ok j.
Lemma to_sign_fun d i j : to_sign d i -> to_sign d j -> i = j. Proof. unfold to_sign. congruence. Qed.
Lemma to_sign_staged d' j : aget staging (f_files d') = Some (canon E j) -> plain j = true -> to_sign d' j.
Proof. intros H P. unfold to_sign, exists_file, file_json. now rewrite H, (eo_round E HE _ P). Qed.

Lemma director_core visible k d ok : follows E keyid depth fnm staged_first visible k d ok ->
  exists KD KI, keys_ok E keyid KD /\ keys_ok E keyid KI /\ core E keyid Director KD (k_dir k) /\ core E keyid Image KI (k_img k).
Proof.
  induction 1 as [I KD KI k l A T C H B | k d ok I c k' l r F IH Ng Al Iv Ar H B | k d ok I c k' l r kk F IH Ng Al Iv Ar H B Hin | k d ok o s s' r d' F IH Vis Op Ud Ul H Hin].
  - destruct (generate_both E keyid depth fnm HE I KD KI k l A T C H B) as (C0 & C1 & _). exists KD, KI. split; [apply A|]. split; [apply A|]. split; [exact C0|exact C1].
  - destruct IH as (KD & KI & HD & HK & CD & C). destruct (image_step E keyid depth fnm HE KI I c k k' l r HK C Ng Iv Ar H B) as ((C1 & _) & _).
    destruct (director_step E keyid depth fnm HE KD KI I c k k' l r HD CD C Ng Al Iv Ar H B) as ((C2 & L2) & _).
    exists KD, KI. split; [exact HD|]. split; [exact HK|]. split; [exact C2|exact C1].
  - destruct IH as (KD & KI & HD & HK & CD & C). destruct (image_step E keyid depth fnm HE KI I c k k' l r HK C Ng Iv Ar H B) as (_ & X1 & _).
    destruct (director_step E keyid depth fnm HE KD KI I c k k' l r HD CD C Ng Al Iv Ar H B) as (_ & X2).
    rewrite Forall_forall in X1, X2. destruct (X1 kk Hin) as (C1 & _). destruct (X2 kk Hin) as (C2 & L2).
    exists KD, KI. split; [exact HD|]. split; [exact HK|]. split; [exact C2|exact C1].
  - exact IH.
Qed.

(** ** signtargets *)
Lemma sign_inv I s s' j : sign_targets E keyid depth I s = (s', Ok tt) -> (forall kp, aget "targets" (g_mem s) = Some kp -> key_ok E keyid kp /\ signs E I kp) -> to_sign (g_side s) j -> plain j = true ->
  tfile E (g_side s') j.
Proof.
  intros H K T P. unfold sign_targets in H. apply gbind_ok in H as (s1 & x & H0 & H). unfold to_sign in T. injection H0 as <- H0. rewrite T in H0. injection H0 as <-.
  apply gbind_ok in H as (s2 & y & H1 & H). eapply tfile_written in H1; [|eassumption..]. apply gbind_ok in H as (s3 & z & H2 & H). injection H2 as <- _.
  eapply tfile_frame; [eapply update_frame; [exact H|discriminate..]|]. eapply tfile_frame; [|exact H1]. cbn [g_side]. now rewrite aget_del_other.
Qed.
Lemma sign_content KD KI I k k' l raw : keys_ok E keyid KD -> core E keyid Director KD (k_dir k) -> core E keyid Image KI (k_img k) -> invocation_ok E keyid I k ->
  run_command E keyid depth fnm I CSignTargets k = (k', l, Ok tt) -> Forall (bounded_disk E) l -> publish k' Director "targets" (-1) = Ok raw ->
  exists cu e ts v, to_sign (k_dir k) (tgt_shape cu None e ts v) /\ plain (tgt_shape cu None e ts v) = true /\ custom_ok cu /\ tlist_ok ts /\ time_ok e /\ k_img k' = k_img k /\
    (exists t, targets_doc E "targets" (parse E raw) t) /\ forall t, targets_doc E "targets" (parse E raw) t -> tg_version t = v /\ parse_target_list (jiter ts) = Ok (tg_targets t).
Proof.
  intros HD CD CI Iv H B Pn. destruct (director_step E keyid depth fnm HE KD KI I CSignTargets k k' l _ HD CD CI eq_refl Logic.I Iv Logic.I H B) as ((C' & _) & _).
  cbn [run_command] in H. apply on_side_run in H as (s & H & Hs & -> & _).
  assert (exists j, to_sign (k_dir k) j) as (j & T).
  { unfold sign_targets in H. apply gbind_ok in H as (s1 & x & H0 & H). injection H0 as _ H0. exists x. exact H0. }
  destruct (staged_doc E keyid HE KD _ CD _ T) as (cu & e & ts & v & -> & P & G1 & G3 & G4 & _).
  assert (K : forall kp, aget "targets" (g_mem (start (k_dir k))) = Some kp -> key_ok E keyid kp /\ signs E I kp) by (intros kp Hk; exact (proj2 (proj2 (proj2 Iv)) Director "targets" kp Hk)).
  pose proof (sign_inv I _ _ _ H K T P) as F. change (g_side s) with (side_of Director (set_side Director (g_side s) k)) in F.
  pose proof (tfile_bound E keyid HE _ _ _ _ _ _ _ _ C' F) as G. destruct (read_published E HE Director _ _ _ _ _ _ raw F G Pn) as (X & R).
  exists cu, e, ts, v. do 5 (split; [assumption|]). split; [reflexivity|]. split; [exact X|]. intros t Ht. destruct (R t Ht) as (R1 & R2 & _). auto.
Qed.

(** ** addtarget *)
Lemma add_target_inv I name target hw serial url expires s s' cu e ts v cu2 de2 e2 ts2 v2 : add_target E keyid depth I name target hw serial url expires s = (s', Ok tt) ->
  to_sign (g_side s) (tgt_shape cu None e ts v) -> plain (tgt_shape cu None e ts v) = true -> tfile E (g_side s) (tgt_shape cu2 de2 e2 ts2 v2) -> 0 <= v2 <= max_int ->
  plain target = true -> ascii_text name = true -> ascii_text hw = true -> ascii_text serial = true -> ascii_text url = true -> (expires = "" \/ time_ok expires) ->
  exists c ts' e', director_target target hw serial url = Ok c /\ jset name c ts = Ok ts' /\ to_sign (g_side s') (tgt_shape cu None e' ts' (v2 + 1)) /\
    aget "targets.json" (f_files (g_side s')) = aget "targets.json" (f_files (g_side s)).
Proof.
  intros H T P F V Pt An Ah As Au Te. unfold add_target in H.
  apply gbind_ok in H as (s1 & cur & H0 & H). unfold to_sign in T. injection H0 as <- H0. rewrite T in H0. injection H0 as <-.
  apply gbind_ok in H as (s1 & dd & H0 & H). apply lift_inv in H0 as (-> & H0). apply gbind_ok in H as (s1 & t & H1 & H). apply lift_inv in H1 as (-> & H1).
  apply gbind_ok in H as (s1 & d1 & H2 & H). apply lift_inv in H2 as (-> & H2). apply gbind_ok in H as (s1 & sj & H3 & H). apply read_inv in H3 as (-> & H3).
  rewrite (tfile_signed E HE _ _ F) in H3. injection H3 as <-. apply gbind_ok in H as (s1 & vj & H3 & H). apply lift_inv in H3 as (-> & H3). rewrite jget_tgt_version in H3. injection H3 as <-.
  apply gbind_ok in H as (s1 & vv & H3 & H). apply lift_inv in H3 as (-> & H3). rewrite jas_uint_ok in H3 by exact V. injection H3 as <-. rewrite (proj1 (next_small v2 V)) in H.
  apply gbind_ok in H as (s1 & d2 & H4 & H). apply lift_inv in H4 as (-> & H4). apply gbind_ok in H as (s1 & u & H5 & H). injection H5 as <- _.
  assert (Pt' : plain t = true) by exact (plain_director _ _ _ _ _ Pt Ah As Au H1).
  assert (exists e', dd = tgt_shape cu None e' ts v) as (e' & Hd).
  { destruct (String.eqb expires ""); [injection H0 as <-; eauto|]. rewrite jset_tgt_expires in H0. injection H0 as <-. eauto. }
  assert (Pd : plain d2 = true).
  { refine (plain_jset "version" _ _ _ eq_refl _ _ H4); [apply plain_int; unfold max_int, max_uint64 in *; lia|].
    refine (plain_jmod "targets" _ _ _ eq_refl _ _ H2); [|intros a b Pa Hb; exact (plain_jset _ _ _ _ An Pt' Pa Hb)].
    destruct (String.eqb_spec expires "") as [->|Ne]; [now injection H0 as <-|]. refine (plain_jset "expires" _ _ _ eq_refl _ P H0). destruct Te as [->|(_ & Te)]; [contradiction|exact Te]. }
  subst dd. unfold jmod in H2. rewrite jget_tgt_targets in H2. cbn [bind] in H2. apply bind_ok in H2 as (ts' & H2 & H2'). rewrite jset_tgt_targets in H2'. injection H2' as <-. rewrite jset_tgt_version in H4. injection H4 as <-.
  exists t, ts', e'. split; [exact H1|]. split; [exact H2|]. split.
  - apply to_sign_staged; [|exact Pd]. rewrite (update_frame E keyid depth I _ _ H) by discriminate. reflexivity.
  - rewrite (update_frame E keyid depth I _ _ H) by discriminate. reflexivity.
Qed.
(** The description of an image in the top-level Targets. *)
Lemma get_listed KI k names name ti i : core E keyid Image KI (k_img k) -> published E Image k ti -> In i (tg_targets ti) -> t_filename i = name ->
  exists c, get_target E names name (k_img k) = Ok c /\ target_of_json name c = Ok i /\ plain c = true /\ good_target c.
Proof.
  intros C (raw & Pb & T) Hi <-. destruct (core_tfile E keyid _ _ _ C) as (cu & de & e & ts & v & F & G & P). pose proof G as (_ & _ & G3 & _).
  change (k_img k) with (side_of Image k) in *. destruct (read_published E HE Image k _ _ _ _ _ raw F G Pb) as (_ & R). destruct (R _ T) as (_ & L & _).
  rewrite tlist_iter in L by exact G3. apply (parse_list_in _ _ L) in Hi as (n & c & i0 & Y). pose proof (target_name _ _ _ Y) as <-. clear L R.
  pose proof (plain_jget "targets" _ _ P (jget_tgt_targets _ _ _ _ _)) as Pts. apply in_aget in i0; [|now apply increasing_nodup, members_plain].
  destruct G3 as [->|(l & -> & G3)]; [discriminate i0|]. cbn [members] in i0.
  exists c. unfold get_target. rewrite (tfile_signed E HE _ _ F). cbn [bind]. rewrite jget_tgt_targets. cbn [bind]. rewrite jmember_get, i0, jget_obj. unfold get. rewrite i0. cbn [bind].
  apply aget_in in i0. split; [reflexivity|]. split; [exact Y|]. apply plain_obj in Pts as (_ & Pts). split; [now apply (Pts (t_filename i))|eauto].
Qed.
Lemma add_target_content KD KI I k kb lb name hw serial url expires names ti i : keys_ok E keyid KD -> core E keyid Director KD (k_dir k) -> core E keyid Image KI (k_img k) -> invocation_ok E keyid I k ->
  arguments_ok E keyid I (CAddTarget name hw serial url expires names) -> run_command E keyid depth fnm I (CAddTarget name hw serial url expires names) k = (kb, lb, Ok tt) ->
  published E Image k ti -> In i (tg_targets ti) -> t_filename i = name ->
  exists c y e' cu e ts ts' v cu2 de2 e2 ts2 v2, target_of_json name c = Ok y /\ assigns y i serial hw url /\ jset name c ts = Ok ts' /\ to_sign (k_dir k) (tgt_shape cu None e ts v) /\ plain (tgt_shape cu None e ts v) = true /\ tlist_ok ts /\
    to_sign (k_dir kb) (tgt_shape cu None e' ts' (v2 + 1)) /\ tfile E (k_dir k) (tgt_shape cu2 de2 e2 ts2 v2) /\ good_tgt Director cu2 de2 e2 ts2 v2 /\
    aget "targets.json" (f_files (k_dir kb)) = aget "targets.json" (f_files (k_dir k)) /\ k_img kb = k_img k.
Proof.
  intros HD CD CI Iv (An & (Ah & Ah2) & (As & As2) & Au & Te) H Pb Hi Hn. destruct (get_listed KI k names name ti i CI Pb Hi Hn) as (c0 & Hc & Yi & Pc & Gc).
  cbn [run_command] in H. rewrite Hc in H. assert (N : c0 <> JNull) by (intros ->; discriminate H).
  assert (H' : on_side Director (add_target E keyid depth I name c0 hw serial url expires) k = (kb, lb, Ok tt)) by (destruct c0 as [| | | | |[|]|[|]]; try exact H; discriminate H).
  apply on_side_run in H' as (s & H1 & Hs & -> & _).
  assert (exists j, to_sign (k_dir k) j) as (j & T).
  { pose proof H1 as H2. unfold add_target in H2. apply gbind_ok in H2 as (s1 & x & H0 & H2). injection H0 as _ H0. exists x. exact H0. }
  destruct (staged_doc E keyid HE KD _ CD _ T) as (cu & e & ts & v & -> & P & G1 & G3 & G4 & _).
  destruct (core_tfile E keyid _ _ _ CD) as (cu2 & de2 & e2 & ts2 & v2 & F & G & P2).
  destruct (add_target_inv _ _ _ _ _ _ _ _ _ _ _ _ _ _ _ _ _ _ H1 T P F) as (c & ts' & e' & X1 & X2 & X3 & X4); try assumption; [apply G|].
  assert (Gd : good_target c) by exact (good_director _ _ _ _ _ Gc As2 Ah2 X1). destruct (proj2 (target_iff name c) Gd) as (y & Y).
  exists c, y, e', cu, e, ts, ts', v, cu2, de2, e2, ts2, v2. split; [exact Y|]. split; [exact (read_assigned _ _ _ _ _ _ _ _ Ah2 N Gc X1 Yi Y)|]. do 2 (split; [assumption|]).
  split; [exact P|]. split; [exact G3|]. split; [exact X3|]. split; [exact F|]. split; [exact G|]. split; [exact X4|reflexivity].
Qed.
Theorem assigned visible k d ok I1 I2 I3 ka la kb lb kc lc name hw serial url expires names t ta ti i raw : follows E keyid depth fnm staged_first visible k d ok ->
  invocation_ok E keyid I1 k -> invocation_ok E keyid I2 k -> invocation_ok E keyid I3 kb ->
  run_command E keyid depth fnm I1 CSignTargets k = (ka, la, Ok tt) -> Forall (bounded_disk E) la ->
  arguments_ok E keyid I2 (CAddTarget name hw serial url expires names) -> run_command E keyid depth fnm I2 (CAddTarget name hw serial url expires names) k = (kb, lb, Ok tt) -> Forall (bounded_disk E) lb ->
  run_command E keyid depth fnm I3 CSignTargets kb = (kc, lc, Ok tt) -> Forall (bounded_disk E) lc ->
  published E Director k t -> published E Director ka ta -> published E Image k ti -> In i (tg_targets ti) -> t_filename i = name -> publish kc Director "targets" (-1) = Ok raw ->
  exists tc x, targets_doc E "targets" (parse E raw) tc /\ tg_version tc = tg_version t + 1 /\ assigns x i serial hw url /\ replaced (tg_targets ta) (tg_targets tc) x /\ k_img kc = k_img k.
Proof.
  intros F Iv1 Iv2 Iv3 Ha Ba Ar Hb Bb Hc Bc (rt & Pt & Tt) (ra & Pa & Ta) Pi Hi Hn Pn. apply director_core in F as (KD & KI & HD & HK & CD & CI).
  destruct (add_target_content KD KI I2 k kb lb name hw serial url expires names ti i HD CD CI Iv2 Ar Hb Pi Hi Hn) as (c & y & e' & cu & e & ts & ts' & v & cu2 & de2 & e2 & ts2 & v2 & Y & As & J & T & P & G3 & T' & F & G & Fr & Im).
  destruct (director_step E keyid depth fnm HE KD KI I2 _ k kb lb _ HD CD CI (eq_refl : is_generate (CAddTarget name hw serial url expires names) = false) Logic.I Iv2 Ar Hb Bb) as ((CDb & _) & _).
  destruct (sign_content KD KI I1 k ka la ra HD CD CI Iv1 Ha Ba Pa) as (cu3 & e3 & ts3 & v3 & T3 & P3 & _ & _ & _ & _ & _ & R3). destruct (R3 _ Ta) as (_ & L3).
  pose proof (to_sign_fun _ _ _ T T3) as e0. assert (ts3 = ts) as -> by (pose proof (jget_tgt_targets cu None e ts v) as X; rewrite e0, jget_tgt_targets in X; congruence). clear e0 T3 P3.
  assert (CIb : core E keyid Image KI (k_img kb)) by now rewrite Im.
  destruct (sign_content KD KI I3 kb kc lc raw HD CDb CIb Iv3 Hc Bc Pn) as (cu4 & e4 & ts4 & v4 & T4 & P4 & _ & G4 & _ & Im4 & (tc & Tc) & R4). destruct (R4 _ Tc) as (V4 & L4).
  pose proof (to_sign_fun _ _ _ T' T4) as e0. assert (ts4 = ts') as -> by (pose proof (jget_tgt_targets cu None e' ts' (v2 + 1)) as X; rewrite e0, jget_tgt_targets in X; congruence).
  assert (v4 = v2 + 1) as -> by (pose proof (jget_tgt_version cu None e' ts' (v2 + 1)) as X; rewrite e0, jget_tgt_version in X; congruence). clear e0 T4 P4.
  change (k_dir k) with (side_of Director k) in F. destruct (read_published E HE Director k _ _ _ _ _ rt F G Pt) as (_ & R). destruct (R _ Tt) as (V & _).
  pose proof (plain_jget "targets" _ _ P (jget_tgt_targets _ _ _ _ _)) as Pts.
  destruct (put_members name c ts ts' _ _ G3 G4 Pts J L3 L4) as (x & X & M). assert (x = y) as -> by congruence.
  exists tc, y. split; [exact Tc|]. split; [lia|]. split; [exact As|]. split; [|congruence]. intros z. rewrite M. now rewrite (target_name _ _ _ Y).
Qed.
(** ** emptytargets, oldtargets *)
Lemma empty_inv I s s' cu de e ts v : empty_targets E I s = (s', Ok tt) -> staged_ok E Director (g_side s) -> tfile E (g_side s) (tgt_shape cu de e ts v) -> 0 <= v <= max_int -> time_ok (n_expires I) -> ascii_text (n_corr I) = true ->
  exists cu' e', to_sign (g_side s') (tgt_shape cu' None e' (JObj []) (v + 1)) /\ aget "targets.json" (f_files (g_side s')) = aget "targets.json" (f_files (g_side s)).
Proof.
  intros H Sg F V Te Ac. unfold empty_targets in H.
  apply gbind_ok in H as (s1 & sj & H0 & H). apply read_inv in H0 as (-> & H0). rewrite (tfile_signed E HE _ _ F) in H0. injection H0 as <-.
  apply gbind_ok in H as (s1 & st & H0 & H). assert (s1 = s /\ file_json E staging (g_side s) = st) as (-> & Hst) by (unfold read_json in H0; split; congruence). clear H0.
  apply gbind_ok in H as (s1 & a & H1 & H). apply lift_inv in H1 as (-> & H1). apply gbind_ok in H as (s1 & b & H2 & H). apply lift_inv in H2 as (-> & H2).
  apply gbind_ok in H as (s1 & vj & H3 & H). apply lift_inv in H3 as (-> & H3). rewrite jget_tgt_version in H3. injection H3 as <-.
  apply gbind_ok in H as (s1 & vv & H3 & H). apply lift_inv in H3 as (-> & H3). rewrite jas_uint_ok in H3 by exact V. injection H3 as <-. rewrite (proj1 (next_small v V)) in H.
  apply gbind_ok in H as (s1 & c & H4 & H). apply lift_inv in H4 as (-> & H4). apply gbind_ok in H as (s1 & dd & H5 & H). apply lift_inv in H5 as (-> & H5).
  apply gbind_ok in H as (s1 & ee & H6 & H). apply lift_inv in H6 as (-> & H6).
  assert (Pi : plain (JInt (v + 1)) = true) by (apply plain_int; unfold max_int, max_uint64 in *; lia).
  assert (exists cu1, dd = tgt_shape cu1 None (n_expires I) (JObj []) (v + 1) /\ plain dd = true /\ custom_ok cu1) as (cu1 & -> & P1 & G1).
  { unfold staged_ok in Sg. unfold file_json in Hst. destruct (aget staging (f_files (g_side s))) as [x|].
    - destruct Sg as (cu' & e' & ts' & w & -> & P & (F1 & _) & _). rewrite (eo_round E HE _ P) in Hst. subst st.
      assert (a = tgt_shape cu' None e' ts' w) as -> by (destruct cu'; injection H1 as <-; reflexivity). rewrite jset_tgt_expires in H2. injection H2 as <-. rewrite jset_tgt_version in H4. injection H4 as <-.
      rewrite jset_tgt_targets in H5. injection H5 as <-. exists cu'. split; [reflexivity|]. split; [|exact F1].
      refine (plain_jset "targets" (JObj []) (tgt_shape cu' None (n_expires I) ts' (v + 1)) _ eq_refl eq_refl _ (jset_tgt_targets _ _ _ _ _ _)).
      refine (plain_jset "version" (JInt (v + 1)) (tgt_shape cu' None (n_expires I) ts' w) _ eq_refl Pi _ (jset_tgt_version _ _ _ _ _ _)).
      refine (plain_jset "expires" (JStr (n_expires I)) (tgt_shape cu' None e' ts' w) _ eq_refl (proj2 Te) P (jset_tgt_expires _ _ _ _ _ _)).
    - rewrite (eo_empty E HE) in Hst. subst st. injection H1 as <-. injection H2 as <-. injection H4 as <-. injection H5 as <-. exists None. split; [reflexivity|]. split; [|exact Logic.I].
      cbn [plain] in Pi. cbn. rewrite (proj2 Te). cbn [plain] in Pi. unfold min_int64, max_uint64 in *. rewrite Pi. reflexivity. }
  destruct (corr_shape I _ _ _ _ _ Ac P1 G1 H6) as (cu' & -> & P2 & _). injection H as <-. exists cu', (n_expires I). split; [|reflexivity].
  apply to_sign_staged; [reflexivity|exact P2].
Qed.
Theorem emptied visible k d ok I2 I3 kb lb kc lc t raw : follows E keyid depth fnm staged_first visible k d ok -> invocation_ok E keyid I2 k -> invocation_ok E keyid I3 kb ->
  run_command E keyid depth fnm I2 CEmptyTargets k = (kb, lb, Ok tt) -> Forall (bounded_disk E) lb -> run_command E keyid depth fnm I3 CSignTargets kb = (kc, lc, Ok tt) -> Forall (bounded_disk E) lc ->
  published E Director k t -> publish kc Director "targets" (-1) = Ok raw ->
  exists tc, targets_doc E "targets" (parse E raw) tc /\ tg_version tc = tg_version t + 1 /\ tg_targets tc = [] /\ k_img kc = k_img k.
Proof.
  intros F Iv2 Iv3 Hb Bb Hc Bc (rt & Pt & Tt) Pn. apply director_core in F as (KD & KI & HD & HK & CD & CI).
  destruct (director_step E keyid depth fnm HE KD KI I2 CEmptyTargets k kb lb _ HD CD CI eq_refl Logic.I Iv2 Logic.I Hb Bb) as ((CDb & _) & _).
  cbn [run_command] in Hb. apply on_side_run in Hb as (s & H1 & Hs & -> & _).
  destruct (core_tfile E keyid _ _ _ CD) as (cu & de & e & ts & v & F & G & P).
  destruct (empty_inv I2 (start (k_dir k)) s cu de e ts v H1) as (cu' & e' & T & _); try apply Iv2; try apply G; try exact F.
  { destruct CD as (_ & _ & _ & _ & _ & (_ & X) & _). now apply X. }
  destruct (sign_content KD KI I3 _ kc lc raw HD CDb CI Iv3 Hc Bc Pn) as (cu4 & e4 & ts4 & v4 & T4 & P4 & _ & G4 & _ & Im4 & (tc & Tc) & R4). destruct (R4 _ Tc) as (V4 & L4).
  change (k_dir (set_side Director (g_side s) k)) with (g_side s) in T4. pose proof (to_sign_fun _ _ _ T T4) as e0. assert (ts4 = JObj []) as -> by (pose proof (jget_tgt_targets cu' None e' (JObj []) (v + 1)) as X; rewrite e0, jget_tgt_targets in X; congruence).
  assert (v4 = v + 1) as -> by (pose proof (jget_tgt_version cu' None e' (JObj []) (v + 1)) as X; rewrite e0, jget_tgt_version in X; congruence).
  change (k_dir k) with (side_of Director k) in F. destruct (read_published E HE Director k _ _ _ _ _ rt F G Pt) as (_ & R). destruct (R _ Tt) as (V & _).
  exists tc. split; [exact Tc|]. split; [lia|]. split; [cbn in L4; congruence|exact Im4].
Qed.
Theorem renewed visible k d ok I2 I3 kb lb kc lc t raw : follows E keyid depth fnm staged_first visible k d ok -> invocation_ok E keyid I2 k -> invocation_ok E keyid I3 kb ->
  run_command E keyid depth fnm I2 COldTargets k = (kb, lb, Ok tt) -> Forall (bounded_disk E) lb -> run_command E keyid depth fnm I3 CSignTargets kb = (kc, lc, Ok tt) -> Forall (bounded_disk E) lc ->
  published E Director k t -> publish kc Director "targets" (-1) = Ok raw ->
  exists tc, targets_doc E "targets" (parse E raw) tc /\ tg_version tc = tg_version t /\ tg_targets tc = tg_targets t /\ k_img kc = k_img k.
Proof.
  intros F Iv2 Iv3 Hb Bb Hc Bc (rt & Pt & Tt) Pn. apply director_core in F as (KD & KI & HD & HK & CD & CI).
  destruct (director_step E keyid depth fnm HE KD KI I2 COldTargets k kb lb _ HD CD CI eq_refl Logic.I Iv2 Logic.I Hb Bb) as ((CDb & _) & _).
  cbn [run_command] in Hb. apply on_side_run in Hb as (s & H1 & Hs & -> & _).
  destruct (core_tfile E keyid _ _ _ CD) as (cu & de & e & ts & v & F & G & P). pose proof G as (_ & _ & _ & _ & _ & Gd). rewrite (Gd eq_refl) in *.
  assert (T : to_sign (g_side s) (tgt_shape cu None e ts v)).
  { unfold old_targets in H1. apply gbind_ok in H1 as (s1 & b & H0 & H1). assert (s1 = start (k_dir k)) as -> by (cbv beta in H0; inversion H0; reflexivity). destruct (negb b); [discriminate H1|].
    apply gbind_ok in H1 as (s1 & sj & H2 & H1). apply read_inv in H2 as (-> & H2). change (g_side (start (k_dir k))) with (k_dir k) in H2. rewrite (tfile_signed E HE _ _ F) in H2. injection H2 as <-. injection H1 as <-.
    apply to_sign_staged; [reflexivity|exact P]. }
  destruct (sign_content KD KI I3 _ kc lc raw HD CDb CI Iv3 Hc Bc Pn) as (cu4 & e4 & ts4 & v4 & T4 & P4 & _ & G4 & _ & Im4 & (tc & Tc) & R4). destruct (R4 _ Tc) as (V4 & L4).
  change (k_dir (set_side Director (g_side s) k)) with (g_side s) in T4. pose proof (to_sign_fun _ _ _ T T4) as e0. assert (ts4 = ts) as -> by (pose proof (jget_tgt_targets cu None e ts v) as X; rewrite e0, jget_tgt_targets in X; congruence).
  assert (v4 = v) as -> by (pose proof (jget_tgt_version cu None e ts v) as X; rewrite e0, jget_tgt_version in X; congruence).
  change (k_dir k) with (side_of Director k) in F. destruct (read_published E HE Director k _ _ _ _ _ rt F G Pt) as (_ & R). destruct (R _ Tt) as (V & L & _).
  exists tc. split; [exact Tc|]. split; [lia|]. split; [congruence|exact Im4].
Qed.
End Content.
