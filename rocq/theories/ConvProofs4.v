(** Import of credentials. *)
From Verif Require Import Base Json TufModel TufProofs MetaStore RepoModel RepoSpec RepoProofs CodecModel InstModel InstSpec InstProofs InstProofs2 ConvModel ConvSpec ConvProofs.

Section Import.
Context (E : Env) (savec : json -> string) (loadc : string -> option json) (cn : string -> res string).
Notation write := (write savec).
Notation run := (import_run savec).
Notation step := (sql -> res (option wr)).

(** ** An import that is repeated *)
Section Repeat.
Context (Inv : sql -> Prop).
Definition stable (f : step) : Prop := forall q w q', Inv q -> f q = Ok (Some w) -> write w q = Some q' -> f q' = Ok None.
Definition keeps_of (f g : step) : Prop := forall q w q', Inv q -> g q = Ok (Some w) -> write w q = Some q' -> f q' = f q.
Definition inv_of (f : step) : Prop := forall q w q', Inv q -> f q = Ok (Some w) -> write w q = Some q' -> Inv q'.
Fixpoint sound_steps (l : list step) : Prop :=
  match l with [] => True | f :: l' => stable f /\ inv_of f /\ Forall (keeps_of f) l' /\ sound_steps l' end.
Lemma run_keeps f l : Forall (keeps_of f) l -> Forall inv_of l -> forall q, Inv q -> f (fst (run l q)) = f q.
Proof.
  induction l as [|g l IH]; intros K J q I; cbn [import_run]; [reflexivity|]. inversion K as [|? ? K1 K2]; subst. inversion J as [|? ? J1 J2]; subst.
  destruct (g q) as [[w|]|e] eqn:G; [|apply IH; auto|reflexivity]. destruct (write w q) as [q'|] eqn:W; [|reflexivity].
  rewrite (IH K2 J2 q' (J1 q w q' I G W)). exact (K1 q w q' I G W).
Qed.
Lemma sound_inv l : sound_steps l -> Forall inv_of l.
Proof. induction l as [|f l IH]; cbn; [constructor|]. intros (_ & H & _ & K). constructor; auto. Qed.
Lemma sound_app l k : sound_steps (l ++ k) -> sound_steps l.
Proof. induction l as [|f l IH]; cbn; [auto|]. intros (A & B & C & D). apply Forall_app in C. destruct C as (C & _). repeat split; auto. Qed.
Lemma run_repeat l k : sound_steps (l ++ k) -> forall q, Inv q -> run (l ++ k) (fst (run l q)) = run (l ++ k) q.
Proof.
  induction l as [|f l IH]; intros Sd q I; [reflexivity|]. cbn [app] in *. destruct Sd as (A & B & C & D). apply Forall_app in C. destruct C as (C & _).
  assert (J : Forall inv_of l) by (apply sound_inv; eapply sound_app; eauto).
  cbn [import_run]. destruct (f q) as [[w|]|e] eqn:F.
  - destruct (write w q) as [q'|] eqn:W.
    + assert (I' : Inv q') by exact (B q w q' I F W). assert (F' : f q' = Ok None) by exact (A q w q' I F W). rewrite (run_keeps f l C J q' I'), F'. exact (IH D q' I').
    + cbn [fst]. rewrite F, W. reflexivity.
  - rewrite (run_keeps f l C J q I), F. exact (IH D q I).
  - cbn [fst]. rewrite F. reflexivity.
Qed.
End Repeat.

Lemma differs_refl s : differs E s s = false.
Proof. unfold differs. now rewrite String.eqb_refl. Qed.
Lemma text_again prev f s : import_text E prev f = Some s -> import_text E (Some s) f = None.
Proof. unfold import_text. destruct f as [| |x]; try discriminate. destruct prev as [p|]; [destruct (differs E (src_read (Text x)) p)|]; try discriminate; intros H; injection H as <-; cbn; now rewrite differs_refl. Qed.

(** An empty log of the Primary, and then one version. *)
Lemma log_empty d s l : read_log loadc d s false l = Ok [] -> Forall (fun r => String.eqb (i_ecu r) s = false) l.
Proof.
  induction l as [|r l IH]; cbn [read_log]; [constructor|]. destruct (String.eqb (i_ecu r) s) eqn:Q; cbn [andb negb orb].
  - intros H. apply bind_ok in H. destruct H as (t & _ & H). apply bind_ok in H. destruct H as (k & _ & H). discriminate.
  - intros H. constructor; auto.
Qed.
Lemma log_skip d s l k : Forall (fun r => String.eqb (i_ecu r) s = false) l -> read_log loadc d s false (l ++ k) = read_log loadc d s false k.
Proof. induction 1 as [|r l H _ IH]; cbn [app read_log]; [reflexivity|]. now rewrite H. Qed.
Lemma find_skip {A} (P : A -> bool) l k : Forall (fun r => P r = false) l -> find P (l ++ k) = find P k.
Proof. induction 1 as [|r l H _ IH]; cbn [app find]; [reflexivity|]. now rewrite H. Qed.
Lemma first_version d t : wf savec (good_target savec loadc) d -> good_target savec loadc t -> load_log loadc "" false d = Ok [] ->
  exists x, load_log loadc "" false (save_installed savec "" t ModeCurrent d) = Ok [x].
Proof.
  intros W G H. unfold load_log in H. apply log_empty in H. destruct (current_reported savec loadc d "" t W G) as (x & L & _). exists x.
  set (s := real_serial d "") in *. set (d' := save_installed savec "" t ModeCurrent d) in *.
  assert (S : real_serial d' "" = s) by reflexivity.
  set (l := map (reset_flags ModeCurrent s) (il_log d)).
  assert (Hl : Forall (fun r => String.eqb (i_ecu r) s = false) l).
  { subst l. apply Forall_forall. intros r I. apply in_map_iff in I. destruct I as (r0 & <- & I). rewrite Forall_forall in H. specialize (H r0 I). unfold reset_flags. rewrite H. exact H. }
  assert (Lg : il_log d' = l ++ [new_row savec ModeCurrent t s (next_id l)]).
  { subst d'. unfold save_installed. fold s. cbn [il_log].
    assert (N : last_row s (il_log d) = None). { clearbody s. clear - H. induction H as [|r k H _ IH]; [reflexivity|]. cbn [last_row]. cbn beta in H. rewrite IH, H. reflexivity. }
    rewrite N. reflexivity. }
  unfold load_installed in L. rewrite S in L. unfold load_log. rewrite S, Lg, log_skip by exact Hl.
  assert (C : cur_row s (il_log d') = Some (new_row savec ModeCurrent t s (next_id l))).
  { rewrite Lg. unfold cur_row. rewrite find_skip; [cbn [find new_row i_ecu i_cur is_cur]; now rewrite String.eqb_refl|]. apply Forall_impl with (2 := Hl). intros r Q. cbv beta. rewrite Q. reflexivity. }
  rewrite C in L. cbn [read_opt] in L. apply bind_ok in L. destruct L as (c & L & K). apply bind_ok in L. destruct L as (t' & L & Q). injection Q as <-.
  apply bind_ok in K. destruct K as (p & _ & K). injection K as -> _.
  cbn [read_log]. replace (i_ecu (new_row savec ModeCurrent t s (next_id l))) with s by reflexivity. rewrite String.eqb_refl. cbn [andb negb orb]. rewrite L. reflexivity.
Qed.

Notation ready := (ready E savec loadc).
Notation versions_after := (versions_after E savec loadc).
Lemma steps_sound m : sound_steps (ready m) (import_steps E loadc cn m).
Proof.
  assert (St : forall f q w q', f = import_versions E loadc (m_vers m) -> ready m q -> f q = Ok (Some w) -> write w q = Some q' ->
     exists t, good_target savec loadc t /\ load_log loadc "" false (q_inst q) = Ok [] /\ w = WVersion t ModeCurrent /\ q' = set_inst (save_installed savec "" t ModeCurrent (q_inst q)) q).
  { intros f q w q' -> (I1 & I2) F W. unfold import_versions in F. apply bind_ok in F. destruct F as (l & L & F). destruct l; [|discriminate]. fold (file_of (m_vers m)) in F.
    destruct (fs_versions E (file_of (m_vers m))) as (ts, cur) eqn:V. injection F as F. destruct cur as [k|]; [|discriminate]. destruct (nth_error ts k) as [t|] eqn:Nt; [|discriminate].
    injection F as <-. cbn in W. injection W as <-. exists t. eauto. }
  unfold import_steps. cbn [sound_steps]. repeat match goal with |- _ /\ _ => split | |- Forall _ _ => constructor end; auto; intros q w q' I F W;
  try (unfold import_keys in F; destruct (q_keys q) eqn:Q; try discriminate; destruct (m_pub m) eqn:Mp; try discriminate; destruct (m_priv m) eqn:Mq; try discriminate; injection F as <-; cbn in W; injection W as <-; try exact I; unfold import_keys; cbn; rewrite ?Mp, ?Mq; reflexivity);
  try (unfold import_cert in F; destruct (import_text E (q_cert q) (m_cert m)) as [x|] eqn:T; [|discriminate]; apply bind_ok in F; destruct F as (y & Y & F); injection F as <-; cbn in W; injection W as <-; try exact I; try reflexivity; unfold import_cert; cbn; rewrite (text_again _ _ _ T); reflexivity);
  try (unfold import_ca in F; destruct (import_text E (q_ca q) (m_ca m)) as [x|] eqn:T; [|discriminate]; injection F as <-; cbn in W; injection W as <-; try exact I; try reflexivity; unfold import_ca; cbn; rewrite (text_again _ _ _ T); reflexivity);
  try (unfold import_pkey in F; destruct (import_text E (q_pkey q) (m_pkey m)) as [x|] eqn:T; [|discriminate]; injection F as <-; cbn in W; injection W as <-; try exact I; try reflexivity; unfold import_pkey; cbn; rewrite (text_again _ _ _ T); reflexivity);
  destruct (St _ q w q' eq_refl I F W) as (t & G & L & -> & ->); try reflexivity.
  - unfold import_versions. cbn [set_inst q_inst]. destruct (first_version (q_inst q) t (reach_wf _ _ _ (proj1 I)) G L) as (x & X). rewrite X. reflexivity.
  - destruct I as (I1 & I2). split; [|exact I2]. cbn [set_inst q_inst]. exact (ireach_S savec _ _ (OpSave "" t ModeCurrent) I1 G).
Qed.
(** Killed before step [n]; the next import comes to the same end as one that was not killed. *)
Lemma import_again m n q : ready m q -> (n <= 5)%nat -> import_data E savec loadc cn 5 m (fst (import_data E savec loadc cn n m q)) = import_data E savec loadc cn 5 m q.
Proof.
  intros I Hn. unfold import_data. change (firstn 5 (import_steps E loadc cn m)) with (import_steps E loadc cn m).
  pose proof (run_repeat (ready m) (firstn n (import_steps E loadc cn m)) (skipn n (import_steps E loadc cn m))) as K. rewrite firstn_skipn in K. apply K; [apply steps_sound|exact I].
Qed.

(** ** What an import leaves *)
Lemma text_imported prev f : imported E prev f (match import_text E prev f with Some s => Some s | None => prev end).
Proof.
  unfold import_text, imported. destruct f as [| |s]; try (destruct prev; reflexivity). destruct prev as [p|]; [|auto]. cbn [src_read].
  unfold differs. destruct (String.eqb_spec (sha256hex E s) (sha256hex E p)) as [Q|]; cbn [negb]; [|auto]. right. exists p. auto.
Qed.
Definition stepto (f : step) (q q1 : sql) : Prop := (f q = Ok None /\ q1 = q) \/ exists w, f q = Ok (Some w) /\ write w q = Some q1.
Lemma run_cons f l q q' : run (f :: l) q = (q', true) -> exists q1, stepto f q q1 /\ run l q1 = (q', true).
Proof.
  cbn [import_run]. destruct (f q) as [[w|]|e] eqn:F; [| |discriminate]; intros H.
  - destruct (write w q) as [q1|] eqn:W; [|discriminate]. exists q1. split; [right; eauto|exact H].
  - exists q. split; [left; auto|exact H].
Qed.
Lemma st_keys m q q1 : stepto (import_keys (m_pub m) (m_priv m)) q q1 -> exists k, k = keys_after m (q_keys q) /\ q1 = set_creds k (q_ca q) (q_cert q) (q_pkey q) q.
Proof.
  unfold keys_after. intros [(F & ->)|(w & F & W)]; unfold import_keys in F.
  - exists (q_keys q). split; [|destruct q; reflexivity]. destruct (q_keys q); [reflexivity|]. destruct (m_pub m); auto. destruct (m_priv m); auto. discriminate.
  - destruct (q_keys q); [discriminate|]. destruct (m_pub m) as [| |a]; try discriminate. destruct (m_priv m) as [| |b]; try discriminate. injection F as <-. cbn in W. injection W as <-. eauto.
Qed.
Lemma st_cert m q q1 : stepto (import_cert E cn (m_cert m)) q q1 -> exists k, imported E (q_cert q) (m_cert m) k /\ q1 = set_creds (q_keys q) (q_ca q) k (q_pkey q) q.
Proof.
  pose proof (text_imported (q_cert q) (m_cert m)) as T. intros [(F & ->)|(w & F & W)]; unfold import_cert in F; destruct (import_text E (q_cert q) (m_cert m)) as [s|]; try discriminate.
  - apply bind_ok in F. destruct F as (? & _ & F). discriminate.
  - eexists. split; [exact T|]. destruct q; reflexivity.
  - apply bind_ok in F. destruct F as (? & _ & F). injection F as <-. cbn in W. injection W as <-. eauto.
Qed.
Lemma st_ca m q q1 : stepto (import_ca E (m_ca m)) q q1 -> exists k, imported E (q_ca q) (m_ca m) k /\ q1 = set_creds (q_keys q) k (q_cert q) (q_pkey q) q.
Proof.
  pose proof (text_imported (q_ca q) (m_ca m)) as T. intros [(F & ->)|(w & F & W)]; unfold import_ca in F; destruct (import_text E (q_ca q) (m_ca m)) as [s|]; try discriminate.
  - eexists. split; [exact T|]. destruct q; reflexivity.
  - injection F as <-. cbn in W. injection W as <-. eauto.
Qed.
Lemma st_pkey m q q1 : stepto (import_pkey E (m_pkey m)) q q1 -> exists k, imported E (q_pkey q) (m_pkey m) k /\ q1 = set_creds (q_keys q) (q_ca q) (q_cert q) k q.
Proof.
  pose proof (text_imported (q_pkey q) (m_pkey m)) as T. intros [(F & ->)|(w & F & W)]; unfold import_pkey in F; destruct (import_text E (q_pkey q) (m_pkey m)) as [s|]; try discriminate.
  - eexists. split; [exact T|]. destruct q; reflexivity.
  - injection F as <-. cbn in W. injection W as <-. eauto.
Qed.
Lemma st_versions m q q1 : stepto (import_versions E loadc (m_vers m)) q q1 -> exists k, versions_after m (q_inst q) k /\ q1 = set_inst k q.
Proof.
  intros H. assert (L : exists l, load_log loadc "" false (q_inst q) = Ok l).
  { destruct H as [(F & _)|(w & F & _)]; unfold import_versions in F; apply bind_ok in F; destruct F as (l & L & _); eauto. }
  destruct L as ([|x l] & L).
  - assert (Cur : forall text t ts, m_vers m = Text text -> versions_file E text ts -> Forall (fun e => exists b, entry_marked e b) (jiter (parse E text)) -> current_of E text t ->
       import_versions E loadc (m_vers m) q = Ok (Some (WVersion t ModeCurrent))).
    { intros text t ts Mt Vf Mk (pre & e & post & Eq & Et & Em & Ep). unfold import_versions. rewrite L, Mt. cbn [bind fs_versions].
      destruct (read_versions_ok _ _ Vf Mk 0%nat None) as (c & Rd & _ & C2 & _). specialize (C2 pre e post Eq Em Ep). cbn in C2. subst c. rewrite Rd.
      unfold versions_file in Vf. rewrite Eq in Vf. apply Forall2_app_inv_l in Vf. destruct Vf as (t1 & t2 & F1 & F2 & ->). inversion F2 as [|? y ? t3 Fy F3]; subst.
      assert (Ln : List.length pre = List.length t1) by (clear - F1; induction F1; cbn; congruence).
      rewrite nth_error_app2 by lia. rewrite Ln, Nat.sub_diag. cbn [nth_error]. do 3 f_equal.
      clear - Fy Et. unfold entry_target in *. destruct (snd e); try congruence; destruct Fy as (n1 & A & B), Et as (n2 & A' & B'); congruence. }
    destruct H as [(F & ->)|(w & F & W)].
    + exists (q_inst q). split; [|destruct q; reflexivity]. right. split; [exact L|]. split; [reflexivity|]. split; [auto|]. intros text t ts A B C D. rewrite (Cur text t ts A B C D) in F. discriminate.
    + pose proof F as F0. unfold import_versions in F. rewrite L in F. cbn [bind] in F. destruct (fs_versions E _) as (ts, [k|]); [|discriminate]. destruct (nth_error ts k) as [t|]; [|discriminate].
      injection F as <-. cbn in W. injection W as <-. exists (save_installed savec "" t ModeCurrent (q_inst q)). split; [|reflexivity]. right. split; [exact L|]. split; [reflexivity|]. split; [eauto|].
      intros text t' ts' A B C D. rewrite (Cur text t' ts' A B C D) in F0. injection F0 as <-. reflexivity.
  - exists (q_inst q). split; [left; eauto|]. destruct H as [(F & ->)|(w & F & W)]; [destruct q; reflexivity|]. unfold import_versions in F. rewrite L in F. discriminate.
Qed.
Theorem import_exact m q q' : import_data E savec loadc cn 5 m q = (q', true) ->
  q_keys q' = keys_after m (q_keys q) /\ imported E (q_cert q) (m_cert m) (q_cert q') /\ imported E (q_ca q) (m_ca m) (q_ca q') /\ imported E (q_pkey q) (m_pkey m) (q_pkey q') /\
  q_dev q' = q_dev q /\ q_meta q' = q_meta q /\ versions_after m (q_inst q) (q_inst q').
Proof.
  unfold import_data. change (firstn 5 (import_steps E loadc cn m)) with (import_steps E loadc cn m). unfold import_steps. intros H.
  apply run_cons in H. destruct H as (q1 & S1 & H). apply run_cons in H. destruct H as (q2 & S2 & H). apply run_cons in H. destruct H as (q3 & S3 & H).
  apply run_cons in H. destruct H as (q4 & S4 & H). apply run_cons in H. destruct H as (q5 & S5 & H). cbn in H. injection H as <-.
  destruct (st_keys _ _ _ S1) as (k1 & A1 & ->). destruct (st_cert _ _ _ S2) as (k2 & A2 & ->). destruct (st_ca _ _ _ S3) as (k3 & A3 & ->).
  destruct (st_pkey _ _ _ S4) as (k4 & A4 & ->). destruct (st_versions _ _ _ S5) as (k5 & A5 & ->). cbn in *. auto 10.
Qed.
(** A certificate whose device cannot be read is not stored, nor anything after it. *)
Lemma run_cert n m q : q_cert (fst (import_data E savec loadc cn n m q)) <> q_cert q -> exists s x, m_cert m = Text s /\ cn s = Ok x /\ q_cert (fst (import_data E savec loadc cn n m q)) = Some s.
Proof.
  assert (G : forall l, Forall (fun f => forall q w q', f q = Ok (Some w) -> write w q = Some q' -> q_cert q' = q_cert q \/ exists s x, m_cert m = Text s /\ cn s = Ok x /\ q_cert q' = Some s) l ->
     forall q0 c, (q_cert q0 = c \/ exists s x, m_cert m = Text s /\ cn s = Ok x /\ q_cert q0 = Some s) -> q_cert (fst (run l q0)) = c \/ exists s x, m_cert m = Text s /\ cn s = Ok x /\ q_cert (fst (run l q0)) = Some s).
  { induction l as [|f l IH]; intros F q0 c H; cbn [import_run]; [exact H|]. inversion F as [|? ? F1 F2]; subst. destruct (f q0) as [[w|]|] eqn:Q; [|apply IH; auto|exact H].
    destruct (write w q0) as [q1|] eqn:W; [|exact H]. apply IH; auto. destruct (F1 q0 w q1 Q W) as [K|K]; [rewrite K; exact H|right; exact K]. }
  intros N. unfold import_data in *. destruct (G (firstn n (import_steps E loadc cn m))) with (q0 := q) (c := q_cert q) as [K|K]; auto; [|contradiction].
  assert (A : Forall (fun f => forall q w q', f q = Ok (Some w) -> write w q = Some q' -> q_cert q' = q_cert q \/ exists s x, m_cert m = Text s /\ cn s = Ok x /\ q_cert q' = Some s) (import_steps E loadc cn m)).
  2:{ rewrite Forall_forall in *. intros x Ix. apply A. rewrite <- (firstn_skipn n (import_steps E loadc cn m)). apply in_or_app. auto. }
  clear. unfold import_steps. repeat (constructor; [intros q w q' F W|]); [| | | | |constructor].
  - left. unfold import_keys in F. destruct (q_keys q), (m_pub m), (m_priv m); try discriminate. injection F as <-. injection W as <-. reflexivity.
  - unfold import_cert, import_text in F. destruct (m_cert m) as [| |s]; try discriminate. right. exists s. destruct (match q_cert q with Some p => _ | None => true end); [|discriminate].
    apply bind_ok in F. destruct F as (x & X & F). injection F as <-. injection W as <-. exists x. auto.
  - left. unfold import_ca in F. destruct (import_text E (q_ca q) (m_ca m)); [|discriminate]. injection F as <-. injection W as <-. reflexivity.
  - left. unfold import_pkey in F. destruct (import_text E (q_pkey q) (m_pkey m)); [|discriminate]. injection F as <-. injection W as <-. reflexivity.
  - left. unfold import_versions in F. apply bind_ok in F. destruct F as ([|] & _ & F); [|discriminate]. destruct (fs_versions E _) as (ts, [k|]); [|discriminate]. destruct (nth_error ts k); [|discriminate]. injection F as <-. injection W as <-. reflexivity.
Qed.
End Import.
