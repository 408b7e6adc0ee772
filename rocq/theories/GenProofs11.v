(** Every command of the generator keeps the repositories in order: whole commands. *)
From Verif Require Import Base Json TufModel TufSpec TufProofs MetaStore RepoModel RepoSpec RepoProofs RepoProofs4 GenModel GenSpec GenProofs GenProofs2 GenProofs3 GenProofs4 GenProofs5 GenProofs6 GenProofs7 GenProofs8 GenProofs9 GenProofs10.

Section Cmd.
Context (E : Env) (keyid : pubkey -> string) (depth : nat) (fnm : string -> string -> bool) (HE : env_ok E).

(** ** The first command *)
Lemma gbind_ok {A B} (m : G A) (k : A -> G B) s s' b : gbind m k s = (s', Ok b) -> exists s1 a, m s = (s1, Ok a) /\ k a s1 = (s', Ok b).
Proof. unfold gbind. destruct (m s) as (s1, [a|e]); [eauto|discriminate]. Qed.
Lemma write_signed_ok I rn p j s s' text : write_signed E keyid I rn p j s = (s', Ok text) -> s' = with_side (put_file p text (g_side s)) s /\ exists doc, sign_tuf E keyid I (g_mem s) rn j = Ok doc /\ text = canon E doc.
Proof.
  intros H. unfold write_signed in H. apply gbind_ok in H as (s1 & t & H1 & H). unfold sign in H1. injection H1 as <- H1. apply bind_ok in H1 as (doc & H1 & H2). injection H2 as <-.
  apply gbind_ok in H as (s2 & u & H2 & H). injection H2 as <- _. injection H as <- <-. eauto.
Qed.
Lemma lift_inv {A} (x : res A) s s' a : glift x s = (s', Ok a) -> s' = s /\ x = Ok a. Proof. intros H. injection H as <- ->. auto. Qed.

Lemma generate_core rp K I s : keys_ok E keyid K -> (forall kp, In kp (keys_of K) -> signs E I kp) -> time_ok (n_expires I) -> ascii_text (n_corr I) = true ->
  generate_repo E keyid I rp K (start side_empty) = (s, Ok tt) -> bounded E (g_side s) -> core E keyid rp K (g_side s) /\ consistent E keyid K (g_side s).
Proof.
  intros HK HS Te Ac H B. unfold generate_repo in H.
  apply gbind_ok in H as (s1 & a1 & H1 & H). injection H1 as <- _. apply gbind_ok in H as (s1 & a2 & H1 & H). injection H1 as <- _.
  apply gbind_ok in H as (s1 & a3 & H1 & H). injection H1 as <- _. apply gbind_ok in H as (s1 & a4 & H1 & H). injection H1 as <- _. cbn [g_side g_mem g_log start side_empty f_files f_keys] in H.
  set (mem := aset "timestamp" _ _) in H. 
  assert (Km : forall rn, In rn ["root"; "snapshot"; "targets"; "timestamp"] -> aget rn mem = repo_key K rn) by (intros rn [<-|[<-|[<-|[<-|[]]]]]; reflexivity).
  assert (TX : forall r j ty doc, In r [role_root; role_snapshot; role_targets; role_timestamp] -> jget "_type" j = Ok (JStr ty) -> role_of_string ty = r -> plain j = true ->
     sign_tuf E keyid I mem (r_name r) j = Ok doc -> text_ok E keyid K r (canon E doc) j).
  { intros r j ty doc R T Y P S. destruct (sign_accepted E keyid I K mem (r_name r) r j ty doc HK HS) as (kid & m & sg & -> & Pd & Ad); auto; [|exists kid, m, sg; auto].
    symmetry. apply Km. destruct R as [<-|[<-|[<-|[<-|[]]]]]; cbn; tauto. }
  apply gbind_ok in H as (s1 & rt & H1 & H). apply write_signed_ok in H1 as (-> & rdoc & S1 & ->). cbn [with_side g_side g_mem] in S1.
  apply gbind_ok in H as (s1 & a5 & H1 & H). injection H1 as <- _. apply gbind_ok in H as (s1 & tj & H1 & H). apply lift_inv in H1 as (-> & Htj).
  apply gbind_ok in H as (s1 & tt1 & H1 & H). apply write_signed_ok in H1 as (-> & tdoc & S2 & ->). cbn [with_side g_side g_mem] in S2.
  apply gbind_ok in H as (s1 & st & H1 & H). apply write_signed_ok in H1 as (-> & sdoc & S3 & ->). cbn [with_side g_side g_mem] in S3.
  apply gbind_ok in H as (s1 & tsj & H1 & H). apply lift_inv in H1 as (-> & Hts). apply gbind_ok in H as (s1 & ut & H1 & H). apply write_signed_ok in H1 as (-> & udoc & S4 & ->). cbn [with_side g_side g_mem] in S4.
  injection H as <-. cbn [with_side g_side g_mem g_log] in B |- *.
  set (D := put_file "timestamp.json" _ _) in *.
  rewrite root_json_shape in S1. pose proof (TX role_root (root_doc_json keyid K (n_expires I) 1) "Root" rdoc ltac:(cbn; tauto) eq_refl eq_refl (plain_root E keyid K (n_expires I) 1 HK (proj2 Te) ltac:(unfold max_uint64; lia)) S1) as T1.
  assert (exists cu, tj = tgt_shape cu None (n_expires I) (JObj []) 1 /\ plain tj = true /\ custom_ok cu) as (cu & -> & Pt & Gc).
  { assert (P0 : plain (tgt_shape None None (n_expires I) (JObj []) 1) = true) by (cbn; now rewrite (proj2 Te)). change (fresh_targets I) with (tgt_shape None None (n_expires I) (JObj []) 1) in Htj.
    destruct rp; [exact (corr_shape I None _ _ _ _ Ac P0 Logic.I Htj)|]. injection Htj as <-. exists None. split; [reflexivity|]. split; [exact P0|exact Logic.I]. }
  pose proof (TX role_targets _ "Targets" tdoc ltac:(cbn; tauto) (jget_tgt_type _ _ _ _ _) eq_refl Pt S2) as T2.
  set (ml := [("root.json", _); ("targets.json", _)]) in S3.
  destruct (uint_small (Z.of_nat (String.length (canon E rdoc)))) as (U1 & _). apply plain_int in U1.
  assert (Ps : plain (snap_shape (n_expires I) ml 1) = true).
  { unfold snap_shape, ml. cbn [plain increasing forallb fst snd]. rewrite (proj2 Te). cbn [plain] in U1. rewrite U1. unfold lower_hex. rewrite !ascii_lower by (apply (eo_sha256 E HE) || apply (eo_sha512 E HE)). reflexivity. }
  pose proof (TX role_snapshot (snap_shape (n_expires I) ml 1) "Snapshot" sdoc ltac:(cbn; tauto) eq_refl eq_refl Ps S3) as T3.
  assert (tsj = ts_shape (n_expires I) (lower_hex (sha256hex E (canon E sdoc))) (lower_hex (sha512hex E (canon E sdoc))) (Z.of_nat (String.length (canon E sdoc)) mod uint_mod) 1 1) as -> by (injection Hts as <-; reflexivity).
  destruct (uint_small (Z.of_nat (String.length (canon E sdoc)))) as (U2 & _). apply plain_int in U2.
  assert (Pu : plain (ts_shape (n_expires I) (lower_hex (sha256hex E (canon E sdoc))) (lower_hex (sha512hex E (canon E sdoc))) (Z.of_nat (String.length (canon E sdoc)) mod uint_mod) 1 1) = true).
  { unfold ts_shape. cbn [plain increasing forallb fst snd]. rewrite (proj2 Te). cbn [plain] in U2. rewrite U2. unfold lower_hex. rewrite !ascii_lower by (apply (eo_sha256 E HE) || apply (eo_sha512 E HE)). reflexivity. }
  pose proof (TX role_timestamp (ts_shape (n_expires I) (lower_hex (sha256hex E (canon E sdoc))) (lower_hex (sha512hex E (canon E sdoc))) (Z.of_nat (String.length (canon E sdoc)) mod uint_mod) 1 1) "Timestamp" udoc ltac:(cbn; tauto) eq_refl eq_refl Pu S4) as T4.
  assert (Kd : keys_there K (f_keys D)) by (intros rn i; exact (Km rn i)).
  assert (Gr : aget "root.json" (f_files D) = Some (canon E rdoc)) by reflexivity.
  assert (G1 : aget (root_file 1) (f_files D) = Some (canon E rdoc)) by reflexivity.
  assert (Gt : aget "targets.json" (f_files D) = Some (canon E tdoc)) by reflexivity.
  assert (Gs : aget "snapshot.json" (f_files D) = Some (canon E sdoc)) by reflexivity.
  assert (Gu : aget "timestamp.json" (f_files D) = Some (canon E udoc)) by reflexivity.
  assert (Gn : forall p, p <> "root.json" -> p <> root_file 1 -> p <> "targets.json" -> p <> "snapshot.json" -> p <> "timestamp.json" -> aget p (f_files D) = None).
  { intros p N1 N2 N3 N4 N5. unfold D. now rewrite !aget_put_other by assumption. }
  assert (Nn : forall v, 0 <= v -> v <> 1 -> aget (root_file v) (f_files D) = None).
  { intros v Hv Hn. apply Gn; try neq. intros X. apply Hn. apply root_file_inj; [exact Hv|lia|exact X]. }
  assert (Dt : doc_at E keyid K D "targets.json" role_targets (tgt_shape cu None (n_expires I) (JObj []) 1)) by (exists (canon E tdoc); auto).
  assert (Vt : ver E "targets.json" D = 1) by (apply (ver_doc E keyid HE K _ _ _ _ 1 Dt (jget_tgt_version _ _ _ _ _)); unfold uint_mod; lia).
  clearbody D. split.
  - split; [exact Kd|]. split.
    { exists 1, 1, (n_expires I). split; [lia|]. split; [unfold max_int; lia|]. split; [exact Te|]. split; [exists (canon E rdoc); auto|].
      split; [intros v Hv; assert (v = 1) as -> by lia; exists (n_expires I); split; [exact Te|exists (canon E rdoc); auto]|]. split; [apply Nn; lia|].
      intros v Hv X. destruct (Z.eq_dec v 1) as [->|Hn]; [lia|]. rewrite (Nn v Hv Hn) in X. contradiction. }
    split.
    { exists cu, None, (n_expires I), (JObj []), 1. split; [|exact Dt]. split; [exact Gc|]. split; [exact Logic.I|]. split; [right; exists []; split; [reflexivity|intros ? ? []]|]. split; [exact Te|]. split; [unfold max_int; lia|reflexivity]. }
    split; [exists (n_expires I), ml, 1; split; [exact Te|]; split; [unfold max_int; lia|]; exists (canon E sdoc); auto|].
    split; [do 6 eexists; split; [exact Te|]; split; [|exists (canon E udoc); split; [exact Gu|exact T4]]; unfold max_int; lia|]. split; [|exact B]. split.
    + intros n. unfold file_json. rewrite Gn by neq. rewrite (eo_empty E HE). apply file_ok_null.
    + intros _. unfold staged_ok. rewrite Gn by neq. exact Logic.I.
  - exists (canon E sdoc), (n_expires I), ml, 1, (n_expires I), 1. split; [exact Gs|]. split; [exact Te|]. split; [unfold max_int; lia|]. split; [exact T3|]. split.
    { split; [reflexivity|]. intros k j [h|[h|[]]]; injection h as <- <-.
      - exists "root". split; [reflexivity|]. split; [now left|]. exists 1. split; [unfold max_int; lia|]. right. split; [reflexivity|]. do 3 eexists. reflexivity.
      - exists "targets". split; [reflexivity|]. split; [right; now left|]. exists 1. split; [unfold max_int; lia|]. now left. }
    split; [rewrite Vt; reflexivity|]. split; [exact Te|]. split; [unfold max_int; lia|]. exists (canon E udoc). auto.
Qed.

(** ** Targets of the Image repository *)
Lemma tlist_get ts name t : plain ts = true -> tlist_ok ts -> jget name ts = Ok t -> jmember name ts = Ok true -> plain t = true /\ good_target t.
Proof.
  intros P [->|(l & -> & G)] H M; [discriminate|]. cbn in M. cbn in H. destruct (aget name l) as [x|] eqn:A; [|discriminate]. injection H as <-. apply aget_in in A. apply plain_obj in P as (_ & P).
  split; [now apply (P name x)|eauto].
Qed.
Lemma get_target_good K d names name t : core E keyid Image K d -> get_target E names name d = Ok t -> t = JNull \/ (plain t = true /\ good_target t).
Proof.
  intros (_ & _ & (cu & de & e & ts & v & (_ & _ & G3 & _) & Dt) & _ & _ & (X & _) & _) H. unfold get_target in H. rewrite (signed_file E keyid HE K _ _ _ _ Dt) in H. cbn [bind] in H. rewrite jget_tgt_targets in H. cbn [bind] in H.
  apply bind_ok in H as (there & H1 & H). destruct there.
  - right. apply file_doc in Dt as (kid & m & sg & _ & P); [|exact HE]. pose proof (plain_jget "targets" _ _ P (jget_tgt_targets _ _ _ _ _)) as Pt. exact (tlist_get _ _ _ Pt G3 H H1).
  - clear H1. induction names as [|n names IH]; cbn [target_in_files] in H; [injection H as <-; now left|]. destruct (is_reserved n); [auto|].
    apply bind_ok in H as (sg & H1 & H). apply bind_ok in H as (tl & H2 & H). apply bind_ok in H as (there & H3 & H). destruct there; [|auto]. right.
    destruct (X n) as (Px & Tx). refine (tlist_get tl name t _ (Tx _ _ H1 H2) H H3). exact (plain_jget _ _ _ (plain_jget _ _ _ Px H1) H2).
Qed.

(** ** One command *)
Definition stays (rp : repo) (K : repo_keys) (d d' : side) : Prop := core E keyid rp K d' /\ later E rp d d'.
Lemma on_side_tri rp K I m k k' l r Q : (forall rn kp, aget rn (f_keys (side_of rp k)) = Some kp -> key_ok E keyid kp /\ signs E I kp) -> core E keyid rp K (side_of rp k) ->
  (inv E keyid rp K I (side_of rp k) (start (side_of rp k)) -> tri E keyid rp K I (side_of rp k) (start (side_of rp k)) m Q) ->
  on_side rp m k = (k', l, r) -> Forall (bounded_disk E) l ->
  stays rp K (side_of rp k) (side_of rp k') /\ Forall (fun k2 => stays rp K (side_of rp k) (side_of rp k2)) l /\ (forall a, r = Ok a -> exists s, Q a s /\ g_side s = side_of rp k').
Proof.
  intros Hk C T H B. unfold on_side in H. destruct (m (start (side_of rp k))) as (s, r0) eqn:M. injection H as <- <- <-.
  assert (V0 : inv E keyid rp K I (side_of rp k) (start (side_of rp k))).
  { split; [split; [exact C|apply later_refl]|]. split; [|constructor]. split; [apply C|exact Hk]. }
  assert (Sd : forall d k0, side_of rp (set_side rp d k0) = d) by (intros; destruct rp; reflexivity).
  destruct (T V0 s r0 V0 M) as (V1 & V2).
  { apply Forall_forall. intros d i. rewrite Forall_forall in B. specialize (B (set_side rp d k)). destruct B as (B1 & B2); [apply in_map_iff; eauto|]. destruct rp; assumption. }
  rewrite Sd. split; [exact (proj1 V1)|]. split.
  - apply Forall_forall. intros k2 i. apply in_map_iff in i as (d & <- & i). rewrite Sd. destruct V1 as (_ & _ & F). rewrite Forall_forall in F. exact (F d i).
  - intros a e. exists s. split; [now apply V2|reflexivity].
Qed.
Lemma on_side_other rp m k k' l r : on_side rp m k = (k', l, r) -> forall rp', rp' <> rp -> side_of rp' k' = side_of rp' k /\ Forall (fun k2 => side_of rp' k2 = side_of rp' k) l.
Proof.
  intros H rp' N. unfold on_side in H. destruct (m (start (side_of rp k))) as (s, r0). injection H as <- <- <-. split; [now destruct rp, rp'|]. apply Forall_forall. intros k2 i. apply in_map_iff in i as (d & <- & _). now destruct rp, rp'.
Qed.
Lemma set_side_id rp k : set_side rp (side_of rp k) k = k. Proof. destruct rp, k; reflexivity. Qed.

Lemma stays_refl rp K d : core E keyid rp K d -> stays rp K d d. Proof. intros H. split; [exact H|apply later_refl]. Qed.
Lemma Forall_side rp K d (l : list disk) : core E keyid rp K d -> Forall (fun k2 => side_of rp k2 = d) l -> Forall (fun k2 => stays rp K d (side_of rp k2)) l.
Proof. intros C. apply Forall_impl. intros k2 ->. now apply stays_refl. Qed.

(** The Image repository, whatever the Director is like. *)
Lemma image_step KI I c k k' l r : keys_ok E keyid KI -> core E keyid Image KI (k_img k) -> is_generate c = false -> invocation_ok E keyid I k -> arguments_ok E keyid I c ->
  run_command E keyid depth fnm I c k = (k', l, r) -> Forall (bounded_disk E) l ->
  stays Image KI (k_img k) (k_img k') /\ Forall (fun k2 => stays Image KI (k_img k) (k_img k2)) l /\
  (if concerns Image c then r = Ok tt -> consistent E keyid KI (k_img k') else k_img k' = k_img k /\ Forall (fun k2 => k_img k2 = k_img k) l).
Proof.
  intros HK C Ng (Te & Tr & Ac & Hks) Ha H B.
  assert (Hi : forall rn kp, aget rn (f_keys (k_img k)) = Some kp -> key_ok E keyid kp /\ signs E I kp) by (intros rn kp X; exact (Hks Image rn kp X)).
  assert (Dir : forall m k1 l1 r1, on_side Director m k = (k1, l1, r1) -> k_img k1 = k_img k /\ Forall (fun k2 => k_img k2 = k_img k) l1).
  { intros m k1 l1 r1 X. exact (on_side_other Director m k k1 l1 r1 X Image ltac:(discriminate)). }
  assert (Dir' : forall m k1 l1 r1, on_side Director m k = (k1, l1, r1) -> stays Image KI (k_img k) (k_img k1) /\ Forall (fun k2 => stays Image KI (k_img k) (k_img k2)) l1 /\ k_img k1 = k_img k /\ Forall (fun k2 => k_img k2 = k_img k) l1).
  { intros m k1 l1 r1 X. destruct (Dir m k1 l1 r1 X) as (A1 & A2). split; [rewrite A1; now apply stays_refl|]. split; [exact (Forall_side Image KI (k_img k) l1 C A2)|auto]. }
  assert (Img : forall m k0 k1 l1 r1, k_img k0 = k_img k -> (inv E keyid Image KI I (k_img k) (start (k_img k)) -> tri E keyid Image KI I (k_img k) (start (k_img k)) m (fun _ s' => consistent E keyid KI (g_side s'))) ->
     on_side Image m k0 = (k1, l1, r1) -> Forall (bounded_disk E) l1 -> stays Image KI (k_img k) (k_img k1) /\ Forall (fun k2 => stays Image KI (k_img k) (k_img k2)) l1 /\ (r1 = Ok tt -> consistent E keyid KI (k_img k1))).
  { intros m k0 k1 l1 r1 Hk0 T X Bx. destruct (on_side_tri Image KI I m k0 k1 l1 r1 (fun _ s' => consistent E keyid KI (g_side s'))) as (A1 & A2 & A3); cbn [side_of]; rewrite ?Hk0; auto.
    cbn [side_of] in *. rewrite Hk0 in *. split; [exact A1|]. split; [exact A2|]. intros e. destruct (A3 tt e) as (s & A4 & A5). now rewrite A5 in A4. }
  destruct c as [KD' KI'|im name hw url dname|name hw serial url expires names|name parent path te kp|name| | | |rp r0]; cbn [run_command arguments_ok concerns] in *; try discriminate Ng.
  - destruct Ha as (Hi' & An & Hw & Au). refine (Img _ k k' l r eq_refl _ H B). intros _. eapply tri_bind; [apply tri_pure|destruct im; gr2; unfold add_image; gr2|]. intros dn s1 _ (-> & _). destruct im as [content|h len custom].
    + apply tri_add_image; auto; [apply plain_binary; auto|now apply good_binary].
    + destruct Hi' as (Hh & Pc & _ & Rc). eapply tri_bind; [apply tri_lift|unfold add_image; gr2|]. intros t s1 _ (-> & Ht). apply tri_add_image; auto; [exact (plain_custom_target _ _ _ _ _ Hh Au Pc Ht)|]. refine (good_custom_target _ _ _ _ _ _ Ht). apply (custom_iff "" custom). exact Rc.
  - destruct (get_target E names name (k_img k)) as [t|e] eqn:G; [|injection H as <- <- <-; split; [now apply stays_refl|]; split; [constructor|split; [reflexivity|constructor]]].
    assert (k' = k /\ l = [] \/ on_side Director (add_target E keyid depth I name t hw serial url expires) k = (k', l, r)) as [(-> & ->)|X].
    { destruct t as [|b|z|a b c|s|la|lo]; try (right; exact H); [left; injection H as <- <- _; auto|destruct la; [left; injection H as <- <- _; auto|right; exact H]|destruct lo; [left; injection H as <- <- _; auto|right; exact H]]. }
    + split; [now apply stays_refl|]. split; [constructor|split; [reflexivity|constructor]].
    + exact (Dir' _ _ _ _ X).
  - destruct Ha as (An & Ap & Hk & Hs). refine (Img _ k k' l r eq_refl _ H B). intros _. now apply tri_add_delegation.
  - destruct (do _r <- role_delegation name; delegation_targets E name (k_img k)) as [names|e]; [|injection H as <- <- <-; split; [now apply stays_refl|]; split; [constructor|discriminate]].
    destruct (on_side Director (revoke_targets E keyid depth I names) k) as ((k1, l1), r1) eqn:D1. destruct (Dir' _ _ _ _ D1) as (A1 & A2 & A3 & A4).
    destruct r1 as [u|e]; [|injection H as <- <- <-; split; [exact A1|]; split; [exact A2|discriminate]].
    destruct (on_side Image (revoke_delegation E keyid depth I name) k1) as ((k2, l2), r2) eqn:D2. injection H as <- <- <-.
    apply Forall_app in B as (B2 & B1). destruct (Img _ k1 k2 l2 r2 A3 (fun _ => tri_revoke_delegation E keyid depth HE KI HK I (k_img k) _ name) D2 B2) as (F1 & F2 & F3).
    split; [exact F1|]. split; [apply Forall_app; auto|exact F3].
  - exact (Dir' _ _ _ _ H).
  - exact (Dir' _ _ _ _ H).
  - exact (Dir' _ _ _ _ H).
  - destruct rp; cbn [repo_eqb].
    + exact (Dir' _ _ _ _ H).
    + refine (Img _ k k' l r eq_refl _ H B). intros _. destruct Ha as [R|[R|R]]; [unfold refresh; rewrite R; apply tri_throw|unfold refresh; rewrite R; apply tri_throw|]. apply tri_refresh; auto. discriminate.
Qed.

(** The Director, as long as nothing is staged when its Targets are changed in another way. *)
Lemma director_step KD KI I c k k' l r : keys_ok E keyid KD -> core E keyid Director KD (k_dir k) -> core E keyid Image KI (k_img k) -> is_generate c = false -> staged_first k c -> invocation_ok E keyid I k -> arguments_ok E keyid I c ->
  run_command E keyid depth fnm I c k = (k', l, r) -> Forall (bounded_disk E) l ->
  stays Director KD (k_dir k) (k_dir k') /\ Forall (fun k2 => stays Director KD (k_dir k) (k_dir k2)) l.
Proof.
  intros HK C CI Ng Al (Te & Tr & Ac & Hks) Ha H B.
  assert (Hi : forall rn kp, aget rn (f_keys (k_dir k)) = Some kp -> key_ok E keyid kp /\ signs E I kp) by (intros rn kp X; exact (Hks Director rn kp X)).
  assert (Img : forall m k0 k1 l1 r1, on_side Image m k0 = (k1, l1, r1) -> k_dir k1 = k_dir k0 /\ Forall (fun k2 => k_dir k2 = k_dir k0) l1).
  { intros m k0 k1 l1 r1 X. exact (on_side_other Image m k0 k1 l1 r1 X Director ltac:(discriminate)). }
  assert (Img' : forall m k1 l1 r1, on_side Image m k = (k1, l1, r1) -> stays Director KD (k_dir k) (k_dir k1) /\ Forall (fun k2 => stays Director KD (k_dir k) (k_dir k2)) l1).
  { intros m k1 l1 r1 X. destruct (Img m k k1 l1 r1 X) as (A1 & A2). split; [rewrite A1; now apply stays_refl|]. exact (Forall_side Director KD (k_dir k) l1 C A2). }
  assert (Dir : forall m k1 l1 r1, (inv E keyid Director KD I (k_dir k) (start (k_dir k)) -> tri E keyid Director KD I (k_dir k) (start (k_dir k)) m (fun _ _ => True)) ->
     on_side Director m k = (k1, l1, r1) -> Forall (bounded_disk E) l1 -> stays Director KD (k_dir k) (k_dir k1) /\ Forall (fun k2 => stays Director KD (k_dir k) (k_dir k2)) l1).
  { intros m k1 l1 r1 T X Bx. destruct (on_side_tri Director KD I m k k1 l1 r1 (fun _ _ => True) Hi C T X Bx) as (A1 & A2 & _). auto. }
  assert (Ns : nothing_staged k -> aget staging (f_files (k_dir k)) = None) by (unfold nothing_staged, exists_file; destruct (aget staging (f_files (k_dir k))); [discriminate|reflexivity]).
  destruct c as [KD' KI'|im name hw url dname|name hw serial url expires names|name parent path te kp|name| | | |rp r0]; cbn [run_command arguments_ok staged_first] in *; try discriminate Ng.
  - exact (Img' _ _ _ _ H).
  - destruct (get_target E names name (k_img k)) as [t|e] eqn:G; [|injection H as <- <- <-; split; [now apply stays_refl|constructor]].
    destruct (get_target_good KI _ _ _ _ CI G) as [->|(Pt & Gt)]; [injection H as <- <- <-; split; [now apply stays_refl|constructor]|]. destruct Ha as (An & Hw & Hs & Au & He).
    assert (k' = k /\ l = [] \/ on_side Director (add_target E keyid depth I name t hw serial url expires) k = (k', l, r)) as [(-> & ->)|X].
    { destruct t as [|b|z|a b c|s|la|lo]; try (right; exact H); [left; injection H as <- <- _; auto|destruct la; [left; injection H as <- <- _; auto|right; exact H]|destruct lo; [left; injection H as <- <- _; auto|right; exact H]]. }
    + split; [now apply stays_refl|constructor].
    + refine (Dir _ _ _ _ _ X B). intros _. now apply tri_add_target.
  - exact (Img' _ _ _ _ H).
  - destruct (do _r <- role_delegation name; delegation_targets E name (k_img k)) as [names|e]; [|injection H as <- <- <-; split; [now apply stays_refl|constructor]].
    destruct (on_side Director (revoke_targets E keyid depth I names) k) as ((k1, l1), r1) eqn:D1.
    assert (T1 : inv E keyid Director KD I (k_dir k) (start (k_dir k)) -> tri E keyid Director KD I (k_dir k) (start (k_dir k)) (revoke_targets E keyid depth I names) (fun _ _ => True)) by (intros _; apply tri_revoke_targets; auto).
    destruct r1 as [u|e]; [|injection H as <- <- <-; exact (Dir _ _ _ _ T1 D1 B)].
    destruct (on_side Image (revoke_delegation E keyid depth I name) k1) as ((k2, l2), r2) eqn:D2. injection H as <- <- <-. apply Forall_app in B as (B2 & B1).
    destruct (Dir _ _ _ _ T1 D1 B1) as (A1 & A2). destruct (Img _ _ _ _ _ D2) as (F1 & F2). split; [now rewrite F1|]. apply Forall_app. split; [|exact A2].
    revert F2. apply Forall_impl. intros k3 ->. exact A1.
  - refine (Dir _ _ _ _ _ H B). intros _. now apply tri_sign_targets.
  - refine (Dir _ _ _ _ _ H B). intros _. now apply tri_empty_targets.
  - refine (Dir _ _ _ _ _ H B). intros _. now apply tri_old_targets.
  - destruct rp.
    + refine (Dir _ _ _ _ _ H B). intros _. destruct Ha as [R|[R|R]]; [unfold refresh; rewrite R; apply tri_throw|unfold refresh; rewrite R; apply tri_throw|].
      eapply tri_weaken; [apply tri_refresh; auto|auto]. intros _ ->. auto.
    + exact (Img' _ _ _ _ H).
Qed.
End Cmd.
