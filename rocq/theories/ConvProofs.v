(** Proofs about the start of the storage. *)
From Verif Require Import Base Json TufModel TufProofs MetaStore RepoModel RepoSpec RepoProofs CodecModel InstModel InstSpec InstProofs InstProofs2 ConvModel ConvSpec.

Section P.
Context (E : Env) (savec : json -> string) (loadc : string -> option json) (host : string).
Notation write := (write savec).
Notation do_step := (do_step savec).
Notation exec := (exec savec).
Notation writes := (writes E host).
Notation plan := (plan E host).

(** ** Writes *)
Fixpoint runw (l : list wr) (q : sql) : option sql :=
  match l with [] => Some q | w :: l' => match write w q with Some q' => runw l' q' | None => None end end.
Lemma runw_app a b q : runw (a ++ b) q = match runw a q with Some q' => runw b q' | None => None end.
Proof. revert q. induction a as [|w a IH]; intros q; cbn [app runw]; [reflexivity|]. destruct (write w q); auto. Qed.
Lemma proj_run {A} (p : sql -> A) (f : A -> wr -> A) : (forall w q q', write w q = Some q' -> p q' = f (p q) w) ->
  forall l q q', runw l q = Some q' -> p q' = fold_left f l (p q).
Proof.
  intros H. induction l as [|w l IH]; intros q q' R; cbn [runw] in R; [injection R as <-; reflexivity|].
  destruct (write w q) as [q1|] eqn:W; [|discriminate]. apply IH in R. rewrite R. cbn [fold_left]. f_equal. eauto.
Qed.
Lemma fold_id {A} (f : A -> wr -> A) l : (forall w a, In w l -> f a w = a) -> forall a, fold_left f l a = a.
Proof. induction l as [|w l IH]; intros H a; cbn [fold_left]; [reflexivity|]. rewrite H; [|now left]. apply IH. intros; apply H; now right. Qed.

Definition f_keys (a : option (string * string)) (w : wr) := match w with WKeys x y => Some (x, y) | _ => a end.
Definition f_ca (a : option string) (w : wr) := match w with WCa x => Some x | _ => a end.
Definition f_cert (a : option string) (w : wr) := match w with WCert x => Some x | _ => a end.
Definition f_pkey (a : option string) (w : wr) := match w with WPkey x => Some x | _ => a end.
Definition f_dev (a : option (string * bool)) (w : wr) := match w with WDev x => Some (x, false) | WReg => match a with Some (x, _) => Some (x, true) | None => None end | _ => a end.
Definition f_inst (a : idb) (w : wr) := match w with WEcus l => store_ecu_serials l a | WVersion t m => save_installed savec "" t m a | _ => a end.
Definition f_meta (a : db) (w : wr) := match w with WNonRoot raw rp ty => store_nonroot raw rp ty a | WRoot raw rp v => store_root raw rp v a | _ => a end.
Ltac wcase := let w := fresh in let q0 := fresh in let q1 := fresh in let H := fresh in intros w q0 q1 H; destruct w; cbn in H; try (injection H as <-; reflexivity); cbn [f_dev]; destruct (q_dev q0) as [[? ?]|]; try discriminate; injection H as <-; cbn; try reflexivity.
Lemma p_keys l q q' : runw l q = Some q' -> q_keys q' = fold_left f_keys l (q_keys q). Proof. apply proj_run. wcase. Qed.
Lemma p_ca l q q' : runw l q = Some q' -> q_ca q' = fold_left f_ca l (q_ca q). Proof. apply proj_run. wcase. Qed.
Lemma p_cert l q q' : runw l q = Some q' -> q_cert q' = fold_left f_cert l (q_cert q). Proof. apply proj_run. wcase. Qed.
Lemma p_pkey l q q' : runw l q = Some q' -> q_pkey q' = fold_left f_pkey l (q_pkey q). Proof. apply proj_run. wcase. Qed.
Lemma p_dev l q q' : runw l q = Some q' -> q_dev q' = fold_left f_dev l (q_dev q). Proof. apply proj_run. wcase. Qed.
Lemma p_inst l q q' : runw l q = Some q' -> q_inst q' = fold_left f_inst l (q_inst q). Proof. apply proj_run. wcase. Qed.
Lemma p_meta l q q' : runw l q = Some q' -> q_meta q' = fold_left f_meta l (q_meta q). Proof. apply proj_run. wcase. Qed.

(** The sorts of writes in each part. *)
Lemma in_opt o f w : In w (opt_write o f) -> exists x, o = Some x /\ w = f x.
Proof. destruct o; cbn; [|tauto]. intros [<-|[]]. eauto. Qed.
Lemma in_versions l : forall k cur w, In w (version_writes k cur l) -> exists t m, w = WVersion t m.
Proof. induction l as [|t l IH]; intros k cur w; cbn; [tauto|]. intros [<-|H]; eauto. Qed.
Lemma in_nonroot fs w : In w (nonroot_writes fs) <-> exists raw rp ty, top_role ty /\ o_meta fs rp ty = Some raw /\ w = WNonRoot raw rp ty.
Proof.
  unfold nonroot_writes. rewrite in_flat_map. split.
  - intros (ty & Ty & H). apply in_flat_map in H. destruct H as (rp & _ & H). apply in_opt in H. destruct H as (x & H & ->). exists x, rp, ty.
    split; [|auto]. unfold top_role. destruct Ty as [<-|[<-|[<-|[]]]]; auto.
  - intros (raw & rp & ty & N & M & ->). exists ty. split; [destruct N as [->|[->| ->]]; cbn; auto|]. apply in_flat_map. exists rp.
    split; [destruct rp; cbn; auto|]. rewrite M. now left.
Qed.
Lemma in_roots fs rp v w : In w (root_writes fs rp v) <-> exists n raw, 0 <= n <= v /\ o_roots fs rp n = Some raw /\ w = WRoot raw rp n.
Proof.
  unfold root_writes. rewrite in_flat_map. split.
  - intros (n & Hn & H). apply in_opt in H. destruct H as (x & H & ->). apply in_seq in Hn. exists (Z.of_nat n), x. split; [lia|].
    unfold fs_load_root in H. replace (Z.of_nat n <? 0) with false in H by (symmetry; apply Z.ltb_ge; lia). cbv zeta in H.
    replace (Z.of_nat n <? 0) with false in H by (symmetry; apply Z.ltb_ge; lia). auto.
  - intros (n & raw & Hn & R & ->). exists (Z.to_nat n). split; [apply in_seq; lia|]. rewrite Z2Nat.id by lia.
    unfold fs_load_root. replace (n <? 0) with false by (symmetry; apply Z.ltb_ge; lia). cbv zeta. replace (n <? 0) with false by (symmetry; apply Z.ltb_ge; lia). rewrite R. now left.
Qed.

(** ** Metadata: the last write of a place counts *)
Definition mop (w : wr) : list store_op := match w with WNonRoot raw rp ty => [SNonRoot raw rp ty] | WRoot raw rp v => [SRoot raw rp v] | _ => [] end.
Lemma meta_ops l : forall d, fold_left f_meta l d = fold_left (fun d o => db_store o d) (flat_map mop l) d.
Proof. induction l as [|w l IH]; intros d; [reflexivity|]. cbn [flat_map fold_left]. rewrite fold_left_app. rewrite <- IH. f_equal. destruct w; reflexivity. Qed.
Definition mm (l : list wr) : meta_map := fold_left (fun m o => mm_step o m) (flat_map mop l) mm_empty.
Lemma mm_snoc l w : mm (l ++ [w]) = fold_left (fun m o => mm_step o m) (mop w) (mm l).
Proof. unfold mm. rewrite flat_map_app, fold_left_app. cbn. now rewrite app_nil_r. Qed.
Lemma repo_eqb_eq a b : repo_eqb a b = true <-> a = b.
Proof. destruct a, b; cbn; split; congruence. Qed.
Lemma rkind_eqb_eq a b : rkind_eqb a b = true <-> a = b.
Proof. destruct a, b; cbn; split; congruence. Qed.
Lemma mm_root_in l rp v raw : In (WRoot raw rp v) l -> (forall raw', In (WRoot raw' rp v) l -> raw' = raw) -> mm_root (mm l) rp v = Some raw.
Proof.
  induction l as [|w l IH] using rev_ind; [intros []|]. intros H U. rewrite mm_snoc.
  assert (Hl : In (WRoot raw rp v) l -> mm_root (mm l) rp v = Some raw) by (intros Q; apply IH; auto; intros; apply U, in_or_app; auto).
  destruct w; cbn [mop fold_left mm_step mm_root]; try (apply Hl; apply in_app_or in H; destruct H as [H|[H|[]]]; [exact H|discriminate]).
  destruct (repo_eqb rp rp0 && (v =? v0)) eqn:Q.
  - apply andb_true_iff in Q. destruct Q as (A & B). apply repo_eqb_eq in A. apply Z.eqb_eq in B. subst. f_equal. apply U, in_or_app. right; now left.
  - apply Hl. apply in_app_or in H. destruct H as [H|[H|[]]]; [exact H|]. injection H as -> -> ->. rewrite Z.eqb_refl, (proj2 (repo_eqb_eq rp rp) eq_refl) in Q. discriminate.
Qed.
Lemma mm_meta_in l rp ty raw : In (WNonRoot raw rp ty) l -> (forall raw', In (WNonRoot raw' rp ty) l -> raw' = raw) -> mm_meta (mm l) rp ty = Some raw.
Proof.
  induction l as [|w l IH] using rev_ind; [intros []|]. intros H U. rewrite mm_snoc.
  assert (Hl : In (WNonRoot raw rp ty) l -> mm_meta (mm l) rp ty = Some raw) by (intros Q; apply IH; auto; intros; apply U, in_or_app; auto).
  destruct w; cbn [mop fold_left mm_step mm_meta]; try (apply Hl; apply in_app_or in H; destruct H as [H|[H|[]]]; [exact H|discriminate]).
  destruct (repo_eqb rp rp0 && rkind_eqb ty ty0) eqn:Q.
  - apply andb_true_iff in Q. destruct Q as (A & B). apply repo_eqb_eq in A. apply rkind_eqb_eq in B. subst. f_equal. apply U, in_or_app. right; now left.
  - apply Hl. apply in_app_or in H. destruct H as [H|[H|[]]]; [exact H|]. injection H as -> -> ->. rewrite (proj2 (rkind_eqb_eq ty ty) eq_refl), (proj2 (repo_eqb_eq rp rp) eq_refl) in Q. discriminate.
Qed.

(** ** ECUs *)
Lemma cut_tab_app a b : no_tab a -> cut_tab (append a (String "009" b)) = Some (a, b).
Proof.
  induction a as [|c a IH]; cbn; [reflexivity|]. intros (N & H). destruct (Ascii.eqb_spec c "009"); [contradiction|]. now rewrite (IH H).
Qed.
Lemma ecu_pairs_ok l k : ecu_pairs l = Ok k -> k = l /\ Forall (fun p => fst p <> "") l.
Proof.
  revert k. induction l as [|(a, b) l IH]; intros k H; cbn [ecu_pairs] in H; [injection H as <-; auto|].
  apply bind_ok in H. destruct H as (x & X & H). apply bind_ok in H. destruct H as (k' & K & H). injection H as <-. destruct (IH _ K) as (-> & F).
  unfold ecu_pair in X. cbn in X. apply bind_ok in X. destruct X as (a' & A & X). apply bind_ok in X. destruct X as (b' & B & X). injection X as <-.
  unfold ecu_serial in A. destruct (Nat.ltb (String.length a) 1) eqn:L; [discriminate|]. destruct (Nat.ltb 64 _); [discriminate|]. injection A as <-.
  unfold hw_id in B. destruct (Nat.ltb 200 _); [discriminate|]. injection B as <-. split; [reflexivity|]. constructor; auto. cbn. intros ->. discriminate.
Qed.
Lemma serials_ok fs l o : ecus_of host fs l -> fs_serials host fs = Ok o -> o = Some l /\ Forall (fun p => fst p <> "") l.
Proof.
  intros (s & secs & S & -> & N & M) H. unfold fs_serials in H. rewrite S in H. apply bind_ok in H. destruct H as (k & K & H). injection H as <-.
  replace (match o_secs fs with Some l => map ecu_line l | None => [] end) with secs in K.
  - apply ecu_pairs_ok in K. destruct K as (-> & F). auto.
  - destruct (o_secs fs) as [lines|]; [|auto]. subst lines. rewrite map_map. symmetry. clear K. induction N as [|(a, b) secs Na _ IH]; [reflexivity|].
    cbn [map]. rewrite IH. f_equal. unfold ecu_line, tab. cbn [fst snd append]. now rewrite cut_tab_app.
Qed.
Lemma nodupb_ok l : NoDup l -> nodupb l = true.
Proof.
  induction 1 as [|x l N _ IH]; [reflexivity|]. cbn. rewrite IH, andb_true_r. apply negb_true_iff. destruct (mem_str x l) eqn:M; auto.
  destruct N. unfold mem_str in M. apply existsb_exists in M. destruct M as (y & Y & Q). apply String.eqb_eq in Q. now subst.
Qed.

(** ** Versions *)
Lemma read_versions_ok l ts : Forall2 entry_target l ts -> Forall (fun e => exists b, entry_marked e b) l ->
  forall k cur, exists c, read_versions k cur l = Ok (ts, c) /\
    (forall i, c = Some i -> cur = Some i \/ (k <= i < k + List.length l)%nat) /\
    (forall pre e post, l = pre ++ e :: post -> entry_marked e true -> Forall (fun x => entry_marked x false) post -> c = Some (k + List.length pre)%nat) /\
    (Forall (fun x => entry_marked x false) l -> c = cur).
Proof.
  assert (D : forall x b1 b2, entry_marked x b1 -> entry_marked x b2 -> b1 = b2).
  { intros (n, j) b1 b2. unfold entry_marked. cbn [snd]. destruct j; try congruence. intros (c1 & A & B) (c2 & A' & B'). congruence. }
  induction 1 as [|e t l ts He _ IH]; intros Hm k cur.
  - exists cur. cbn. split; [reflexivity|]. split; [auto|]. split; [intros [|] ? ? ?; discriminate|auto].
  - inversion Hm as [|? ? (b & Hb) Hm']; subst. destruct e as (key, j). cbn [read_versions].
    assert (Step : exists c', (c' = if b then Some k else cur) /\ forall X, read_versions (S k) c' l = Ok X ->
      read_versions k cur ((key, j) :: l) = Ok (t :: fst X, snd X)).
    { cbn [read_versions]. unfold entry_target, entry_marked in *. cbn [fst snd] in *.
      destruct j as [| | | | |a|o]; cbn [jis_object negb].
      1-6: destruct He as (name & N & T); subst b; exists (Some k); split; [reflexivity|]; intros X HX; rewrite N; cbn [bind]; rewrite T; cbn [bind]; rewrite HX; reflexivity.
      destruct Hb as (cj & J & B). exists (if b then Some k else cur). split; [reflexivity|]. intros X HX. rewrite J. cbn [bind]. rewrite B. cbn [bind]. rewrite He. cbn [bind]. rewrite HX. reflexivity. }
    destruct Step as (c' & Hc' & Step). destruct (IH Hm' (S k) c') as (c & R & C1 & C2 & C3). exists c.
    change (if negb (jis_object j) then _ else _) with (read_versions k cur ((key, j) :: l)). rewrite (Step _ R). split; [reflexivity|]. split; [|split].
    + intros i Hi. apply C1 in Hi. cbn [List.length]. destruct Hi as [Hi|Hi]; [|right; lia]. rewrite Hc' in Hi. destruct b; [injection Hi as <-; right; lia|auto].
    + intros [|p pre] e post Heq Em Ep; cbn [app] in Heq; injection Heq as <- ->.
      * rewrite (C3 Ep). assert (b = true) by (eapply D; eauto). subst b. rewrite Hc'. cbn. f_equal. lia.
      * rewrite (C2 pre e post eq_refl Em Ep). cbn [List.length]. f_equal. lia.
    + intros F. inversion F as [|? ? F1 F2]; subst. assert (b = false) by (eapply D; eauto). subst b. rewrite (C3 F2). reflexivity.
Qed.

Lemma key_pair a b : same_key a b <-> (sha256_hash a, t_filename a) = (sha256_hash b, t_filename b).
Proof. unfold same_key. split; [intros (-> & ->); reflexivity|intros H; injection H as -> ->; auto]. Qed.
(** After the entries the marked one is current. *)
Lemma versions_other ts : forall k c d, ireach savec (good_target savec loadc) d -> Forall (good_target savec loadc) ts -> (c < k)%nat ->
  forall x p, load_installed loadc "" d = Ok (Some x, p) -> (forall t, In t ts -> ~ same_key x t) ->
  exists p', load_installed loadc "" (fold_left f_inst (version_writes k (Some c) ts) d) = Ok (Some x, p').
Proof.
  induction ts as [|t ts IH]; intros k c d R G L x p H N; cbn [version_writes fold_left]; [eauto|].
  inversion G as [|? ? G1 G2]; subst. replace (Nat.eqb k c) with false by (symmetry; apply Nat.eqb_neq; lia). cbn [f_inst].
  destruct (failure_keeps_current savec loadc d "" t (Some x) p (reach_wf _ _ d R) G1 H) as (p' & H' & _).
  { intros c0 p0 Q. rewrite H in Q. injection Q as <- _. apply N. now left. }
  eapply IH; [|exact G2|lia|exact H'|intros; apply N; now right].
  exact (ireach_S savec _ d (OpSave "" t ModeNone) R G1).
Qed.
Lemma versions_current ts : forall k c d t, ireach savec (good_target savec loadc) d -> Forall (good_target savec loadc) ts ->
  NoDup (map (fun t => (sha256_hash t, t_filename t)) ts) -> (k <= c)%nat -> nth_error ts (c - k) = Some t ->
  exists x p, load_installed loadc "" (fold_left f_inst (version_writes k (Some c) ts) d) = Ok (Some x, p) /\ same_key x t.
Proof.
  induction ts as [|t0 ts IH]; intros k c d t R G ND L N; [destruct (c - k)%nat; discriminate|].
  inversion G as [|? ? G1 G2]; subst. inversion ND as [|? ? N1 N2]; subst. cbn [version_writes fold_left f_inst].
  destruct (Nat.eqb_spec k c) as [<-|Ne].
  - rewrite Nat.sub_diag in N. injection N as <-.
    destruct (current_reported savec loadc d "" t0 (reach_wf _ _ d R) G1) as (x & H & (Sk & _) & _).
    destruct (versions_other ts (S k) k (save_installed savec "" t0 ModeCurrent d) (ireach_S savec _ d (OpSave "" t0 ModeCurrent) R G1) G2 ltac:(lia) x None H) as (p' & H').
    + intros t It K. apply N1. apply in_map_iff. exists t. split; auto. symmetry. rewrite <- (proj1 (key_pair x t0) Sk). now apply key_pair.
    + exists x, p'. split; auto.
  - apply IH with (c := c); auto; [|lia|].
    + exact (ireach_S savec _ d (OpSave "" t0 ModeNone) R G1).
    + replace (c - S k)%nat with (c - k - 1)%nat by lia. destruct (c - k)%nat as [|m] eqn:Q; [lia|]. cbn in *. now rewrite Nat.sub_0_r.
Qed.

(** ** The unversioned Roots *)
Definition renamed (fs fs1 : files) : Prop :=
  exists m r n, fs1 = fs_meta m r n fs /\ (forall rp ty, top_role ty -> m rp ty = o_meta fs rp ty) /\ (forall rp v raw, r rp v = Some raw <-> root_of E fs rp v raw) /\
    (forall rp v, In v (n rp) <-> r rp v <> None).
Lemma repo_eqb_refl rp : repo_eqb rp rp = true. Proof. destruct rp; reflexivity. Qed.
(** What one repository's files become. *)
Definition ren1 (fs : files) (rp : repo) (fs1 : files) : Prop :=
  exists m r n, fs1 = fs_meta m r n fs /\ (forall rp' ty, rp' <> rp \/ ty <> RRoot -> m rp' ty = o_meta fs rp' ty) /\
    (forall rp' v, rp' <> rp -> r rp' v = o_roots fs rp' v) /\ (forall rp', rp' <> rp -> n rp' = o_rootnums fs rp') /\
    (forall v raw, r rp v = Some raw <-> root_of E fs rp v raw) /\ (forall v, In v (n rp) <-> r rp v <> None).
Lemma rename_one fs rp l : 
  (forall v raw, o_roots fs rp v = Some raw -> 0 <= v) -> (forall v, In v (o_rootnums fs rp) <-> o_roots fs rp v <> None) ->
  (forall raw, o_meta fs rp RRoot = Some raw -> exists v, 0 <= v /\ extract_version_untrusted E raw = Ok v) ->
  rename_steps E fs rp = Ok l -> ren1 fs rp (fold_left (fun f x => do_files x f) l fs).
Proof.
  intros G Gn Gr H. unfold rename_steps in H. destruct (o_meta fs rp RRoot) as [raw|] eqn:M.
  - destruct (Gr raw eq_refl) as (v & V & X). rewrite X in H. cbn [bind] in H. replace (0 <=? v) with true in H by (symmetry; apply Z.leb_le; lia). injection H as <-.
    cbn [fold_left do_files]. unfold fs_put, fs_drop, ren1. eexists. eexists. eexists. split; [reflexivity|]. cbn [fs_meta o_meta o_roots o_rootnums].
    split; [|split; [|split; [|split]]].
    + intros rp' ty Ne. unfold upd_meta. destruct (repo_eqb rp' rp && rkind_eqb ty RRoot) eqn:Q; auto. apply andb_true_iff in Q. destruct Q as (A & B).
      apply repo_eqb_eq in A. apply rkind_eqb_eq in B. subst. destruct Ne as [Ne|Ne]; destruct Ne; reflexivity.
    + intros rp' w Ne. destruct (repo_eqb rp' rp) eqn:Q; auto. apply repo_eqb_eq in Q. contradiction.
    + intros rp' Ne. destruct (repo_eqb rp' rp) eqn:Q; auto. apply repo_eqb_eq in Q. contradiction.
    + intros w raw'. rewrite repo_eqb_refl. cbn [andb]. unfold root_of. rewrite M. destruct (Z.eqb_spec w v) as [->|Ne]; split.
      * intros K. injection K as <-. auto.
      * intros (_ & [(K & _)|(K & N)]); [injection K as <-; reflexivity|]. destruct (N raw eq_refl X).
      * intros K. split; [eauto|]. right. split; auto. intros r' Q. injection Q as <-. rewrite X. intros Q. injection Q as ->. now destruct Ne.
      * intros (_ & [(K & N)|(K & _)]); [|auto]. injection K as <-. rewrite X in N. injection N as ->. now destruct Ne.
    + intros w. rewrite repo_eqb_refl. cbn [andb]. destruct (Z.eqb_spec w v) as [->|Ne].
      * split; [discriminate|]. intros _. destruct (existsb (Z.eqb v) (o_rootnums fs rp)) eqn:Q; [|apply in_or_app; right; now left].
        apply existsb_exists in Q. destruct Q as (y & Y & Q). apply Z.eqb_eq in Q. now subst.
      * rewrite <- Gn. destruct (existsb (Z.eqb v) (o_rootnums fs rp)); [tauto|]. rewrite in_app_iff. cbn. split; [intros [A|[A|[]]]; [auto|subst; now destruct Ne]|auto].
  - injection H as <-. cbn [fold_left]. exists (o_meta fs), (o_roots fs), (o_rootnums fs). split; [destruct fs; reflexivity|]. split; [auto|]. split; [auto|]. split; [auto|]. split; [|auto].
    intros w raw'. unfold root_of. rewrite M. split; [intros K; split; [eauto|right; split; [auto|discriminate]]|intros (_ & [(K & _)|(K & _)]); [discriminate|auto]].
Qed.

Section G.
Context (fs : files) (Gf : good_files E savec loadc host fs).
Lemma root_of_facts rp v raw : root_of E fs rp v raw -> nul_free raw /\ 0 <= v /\ extract_version_untrusted E raw = Ok v.
Proof.
  intros (V & [(M & X)|(R & _)]).
  - split; [exact (gf_meta _ _ _ _ fs Gf _ _ _ M)|auto].
  - exact (gf_roots _ _ _ _ fs Gf _ _ _ R).
Qed.
Lemma root_of_fun rp v a b : root_of E fs rp v a -> root_of E fs rp v b -> a = b.
Proof.
  intros (_ & [(M & X)|(R & N)]) (_ & [(M' & X')|(R' & N')]); try congruence; [destruct (N' _ M X)|destruct (N _ M' X')].
Qed.
Lemma rename_both r1 r2 : rename_steps E fs Director = Ok r1 -> rename_steps E fs Image = Ok r2 ->
  renamed fs (fold_left (fun f x => do_files x f) (r1 ++ r2) fs).
Proof.
  intros H1 H2. rewrite fold_left_app.
  pose proof (rename_one fs Director r1 (fun v raw H => proj1 (proj2 (gf_roots _ _ _ _ fs Gf _ _ _ H))) (gf_nums _ _ _ _ fs Gf Director) (gf_root _ _ _ _ fs Gf Director) H1) as (m & r & n & F & A1 & A2 & A3 & A4 & A5).
  set (fs' := fold_left (fun f x => do_files x f) r1 fs) in *.
  assert (M : o_meta fs' Image RRoot = o_meta fs Image RRoot) by (rewrite F; cbn; apply A1; left; discriminate).
  assert (R : forall v, o_roots fs' Image v = o_roots fs Image v) by (intros v; rewrite F; cbn; apply A2; discriminate).
  assert (Nm : o_rootnums fs' Image = o_rootnums fs Image) by (rewrite F; cbn; apply A3; discriminate).
  assert (Ro : forall v raw, root_of E fs' Image v raw <-> root_of E fs Image v raw) by (intros v raw; unfold root_of; rewrite M, R; tauto).
  assert (H2' : rename_steps E fs' Image = Ok r2) by (unfold rename_steps in *; rewrite M; exact H2).
  pose proof (rename_one fs' Image r2) as Q. rewrite Nm in Q.
  assert (Q1 : forall v raw, o_roots fs' Image v = Some raw -> 0 <= v) by (intros v raw K; rewrite R in K; exact (proj1 (proj2 (gf_roots _ _ _ _ fs Gf _ _ _ K)))).
  assert (Q2 : forall v, In v (o_rootnums fs Image) <-> o_roots fs' Image v <> None) by (intros v; rewrite R; apply (gf_nums _ _ _ _ fs Gf)).
  assert (Q3 : forall raw, o_meta fs' Image RRoot = Some raw -> exists v, 0 <= v /\ extract_version_untrusted E raw = Ok v) by (intros raw K; rewrite M in K; exact (gf_root _ _ _ _ fs Gf _ _ K)).
  specialize (Q Q1 Q2 Q3 H2'). destruct Q as (m2 & r2' & n2 & F2 & B1 & B2 & B3 & B4 & B5).
  exists m2, r2', n2. split; [rewrite F2, F; reflexivity|]. split; [|split].
  - intros rp ty T. assert (ty <> RRoot) by (destruct T as [->|[->| ->]]; discriminate). rewrite B1 by auto. rewrite F. cbn. apply A1. auto.
  - intros [] v raw.
    + rewrite B2 by discriminate. rewrite F. cbn. apply A4.
    + rewrite B4. apply Ro.
  - intros [] v.
    + rewrite B3, B2 by discriminate. rewrite F. cbn. apply A5.
    + apply B5.
Qed.

Lemma max_version_gen l : forall m, -1 <= m -> let x := fold_left (fun m v => if m <? v then v else m) l m in m <= x /\ (forall v, In v l -> v <= x) /\ (x = m \/ In x l).
Proof.
  induction l as [|v l IH]; intros m Hm x; cbn in x; [subst x; split; [lia|]; split; [intros ? []|auto]|].
  assert (H : -1 <= (if m <? v then v else m)) by (destruct (Z.ltb_spec m v); lia).
  destruct (IH _ H) as (A & B & C). fold x in A, B, C. split; [destruct (Z.ltb_spec m v); lia|]. split.
  - intros w [<-|W]; [destruct (Z.ltb_spec m v); lia|auto].
  - destruct C as [C|C]; [|right; right; exact C]. rewrite C. destruct (Z.ltb_spec m v); [right; left; reflexivity|left; reflexivity].
Qed.

Definition tailish (w : wr) : Prop := match w with WVersion _ _ | WNonRoot _ _ _ | WRoot _ _ _ => True | _ => False end.
(** The writes of a conversion. *)
Lemma writes_shape fs1 w : renamed fs fs1 -> writes fs1 = (w, true) -> image_not_ahead E fs ->
  exists sers vers rest,
    fs_serials host fs = Ok sers /\ vers = (let (ts, cur) := fs_versions E (o_vers fs) in version_writes 0 cur ts) /\
    w = (match o_pub fs, o_priv fs with Some a, Some b => [WKeys a b] | _, _ => [] end ++
        opt_write (o_ca fs) WCa ++ opt_write (o_cert fs) WCert ++ opt_write (o_pkey fs) WPkey ++ opt_write (o_dev fs) WDev) ++
        match sers with Some l => [WEcus l] | None => [] end ++ (if o_reg fs then [WReg] else []) ++ vers ++ rest /\
    (forall x, In x rest <-> (exists raw rp ty, top_role ty /\ o_meta fs rp ty = Some raw /\ x = WNonRoot raw rp ty) \/
                             (exists raw rp v, root_of E fs rp v raw /\ x = WRoot raw rp v)).
Proof.
  intros (m & r & n & -> & Hm & Hr & Hn) H Ha. unfold ConvModel.writes in H. change (fs_serials host (fs_meta m r n fs)) with (fs_serials host fs) in H.
  cbn [fs_meta o_pub o_priv o_ca o_cert o_pkey o_dev o_reg o_vers] in H.
  destruct (fs_serials host fs) as [sers|]; [|discriminate]. set (fs1 := fs_meta m r n fs) in *.
  assert (Non : forall x, In x (nonroot_writes fs1) <-> (exists raw rp ty, top_role ty /\ o_meta fs rp ty = Some raw /\ x = WNonRoot raw rp ty)).
  { intros x. rewrite in_nonroot. split; intros (raw & rp & ty & T & M & X); exists raw, rp, ty; (split; [auto|]; split; [|auto]); cbn in *; [rewrite <- Hm by auto|rewrite Hm by auto]; exact M. }
  destruct (max_version_gen (n Director) (-1) ltac:(lia)) as (M1 & M2 & M3). set (mx := fold_left _ (n Director) (-1)) in *.
  assert (Latest : fs_load_root fs1 Director (-1) = if mx <? 0 then None else r Director mx) by reflexivity.
  rewrite Latest in H. destruct (Z.ltb_spec mx 0) as [L|L].
  - injection H as <-. exists sers, (let (ts, cur) := fs_versions E (o_vers fs) in version_writes 0 cur ts), (nonroot_writes fs1). split; [reflexivity|]. split; [reflexivity|].
    split; [rewrite <- !app_assoc; reflexivity|]. intros x. rewrite Non. split; [auto|]. intros [Q|(raw & rp & v & Q & _)]; [auto|]. exfalso.
    assert (D : forall w raw', root_of E fs Director w raw' -> False).
    { intros w' raw' K. destruct (root_of_facts _ _ _ K) as (_ & V & _). apply Hr in K. assert (In w' (n Director)) by (apply Hn; congruence). apply M2 in H. lia. }
    destruct rp; [eauto|]. destruct (Ha _ _ Q) as (w' & raw' & _ & K). eauto.
  - assert (In mx (n Director)) by (destruct M3 as [M3|M3]; [lia|auto]). destruct (r Director mx) as [latest|] eqn:RL; [|apply Hn in H0; contradiction].
    pose proof (proj1 (Hr _ _ _) RL) as RO. destruct (root_of_facts _ _ _ RO) as (_ & _ & X). rewrite X in H. injection H as <-.
    exists sers, (let (ts, cur) := fs_versions E (o_vers fs) in version_writes 0 cur ts), (nonroot_writes fs1 ++ root_writes fs1 Director mx ++ root_writes fs1 Image mx).
    split; [reflexivity|]. split; [reflexivity|]. split; [rewrite <- !app_assoc; reflexivity|].
    assert (B : forall rp v raw, root_of E fs rp v raw -> 0 <= v <= mx).
    { intros rp v raw K. destruct (root_of_facts _ _ _ K) as (_ & V & _). split; [exact V|]. destruct rp.
      - apply M2. apply Hn. apply Hr in K. congruence.
      - destruct (Ha _ _ K) as (w' & raw' & Lw & K'). apply Z.le_trans with w'; [auto|]. apply M2. apply Hn. apply Hr in K'. congruence. }
    intros x. rewrite !in_app_iff, Non, !in_roots. split.
    + intros [Q|[(v & raw & Q1 & Q2 & ->)|(v & raw & Q1 & Q2 & ->)]]; [auto| |]; right; exists raw; [exists Director, v|exists Image, v]; (split; [|reflexivity]); apply Hr; exact Q2.
    + intros [Q|(raw & rp & v & Q & ->)]; [auto|]. right. pose proof (B _ _ _ Q). apply Hr in Q. destruct rp; [left|right]; exists v, raw; auto.
Qed.
End G.
End P.
