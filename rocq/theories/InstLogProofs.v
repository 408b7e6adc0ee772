(** The list of pending ECUs and the installation log. *)
From Verif Require Import Base Json TufModel CodecModel CodecSpec CodecProofs InstModel InstSpec InstProofs InstProofs2.

Section P.
Context (savec : json -> string) (loadc : string -> option json).
Notation good := (good_target savec loadc).
Notation wf := (wf savec good).

(** ** No version under the empty serial once ECUs are registered *)
Definition registered (d : idb) : Prop := il_ecus d <> [] -> real_serial d "" <> "" /\ forall r, In r (il_log d) -> i_ecu r <> "".
Lemma save_registered s t m d : wf d -> registered d -> registered (save_installed savec s t m d).
Proof.
  intros W R. unfold registered. change (real_serial (save_installed savec s t m d) "") with (real_serial d ""). intros E.
  destruct (R E) as (P & H). split; auto. intros r Hr.
  destruct (save_rows savec good s t m d W) as (x & _ & X1 & _ & _ & _ & _ & _ & _ & Hrows). apply Hrows in Hr.
  destruct Hr as [->|(r0 & Hr0 & -> & _)].
  - rewrite X1. unfold real_serial in *. destruct (String.eqb_spec s ""); auto.
  - destruct (reset_id m (real_serial d s) r0) as (_ & -> & _). auto.
Qed.
Lemma reach_registered d : ireach savec good d -> registered d.
Proof.
  induction 1 as [|d o H IH S]; [intros E; now elim E|]. pose proof (reach_wf _ _ _ H) as W. destruct o as [s t m|l| |]; simpl.
  - now apply save_registered.
  - destruct l as [|(p, hw) l]; auto. simpl. destruct (_ && _); auto. destruct S as (Hp & _). intros _. split; [exact Hp|].
    simpl. intros r Hr. apply in_map_iff in Hr. destruct Hr as (r0 & <- & _). unfold rekey. destruct (String.eqb_spec (i_ecu r0) ""); auto.
  - intros E. now elim E.
  - intros E. destruct (IH E) as (P & _). split; [exact P|intros r []].
Qed.

(** ** Pending *)
Lemma pend_row_in d r : wf d -> In r (il_log d) -> i_pend r = true -> pend_row (i_ecu r) (il_log d) = Some r.
Proof.
  intros W Hr Pr. apply find_unique; auto; [now rewrite String.eqb_refl, Pr|].
  intros y Hy Py. apply andb_prop in Py. destruct Py as (Py & Cy). apply String.eqb_eq in Py. apply (wf_pend _ _ d W); auto.
Qed.
(** The pending row of an ECU is what is loaded for it. *)
Lemma load_pending d s : wf d -> (forall x c, load_installed loadc s d = Ok (c, Some x) ->
    exists r, In r (il_log d) /\ i_pend r = true /\ i_ecu r = real_serial d s /\ sha256_hash x = i_sha r) /\
  (forall r, In r (il_log d) -> i_pend r = true -> i_ecu r = real_serial d s ->
    exists c x, load_installed loadc s d = Ok (c, Some x) /\ sha256_hash x = i_sha r).
Proof.
  intros W. split.
  - intros x c H. unfold load_installed in H. apply bind_ok in H. destruct H as (c0 & _ & H). apply bind_ok in H. destruct H as (p0 & Hp & H).
    injection H as -> ->. destruct (pend_row (real_serial d s) (il_log d)) as [r|] eqn:Er; [|discriminate]. apply pend_row_spec in Er.
    destruct Er as (Hr & Ek & Pr). exists r. split; auto. split; auto. split; auto. cbn [read_opt] in Hp.
    destruct (read_ok savec loadc d (real_serial d s) r W Hr) as (v & Hv & V1 & V2 & V3). rewrite Hv in Hp. cbn [bind] in Hp. injection Hp as <-. exact V2.
  - intros r Hr Pr Ek. destruct (load_total savec loadc d s W) as (c & p & Hl). pose proof Hl as Hl'. unfold load_installed in Hl'.
    apply bind_ok in Hl'. destruct Hl' as (c0 & _ & Hl'). apply bind_ok in Hl'. destruct Hl' as (p0 & Hp & Hl').
    injection Hl' as -> ->. rewrite <- Ek in Hp. rewrite (pend_row_in d r W Hr Pr) in Hp. cbn [read_opt] in Hp.
    destruct (read_ok savec loadc d (i_ecu r) r W Hr) as (v & Hv & V1 & V2 & V3). rewrite Hv in Hp. cbn [bind] in Hp. injection Hp as <-.
    exists c, v. auto.
Qed.
Lemma has_pending_iff d : ireach savec good d ->
  has_pending d = true <-> exists s c x, load_installed loadc s d = Ok (c, Some x).
Proof.
  intros R. pose proof (reach_wf _ _ _ R) as W. unfold has_pending. rewrite existsb_exists. split.
  - intros (r & Hr & Pr). exists (i_ecu r). destruct (load_pending d (i_ecu r) W) as (_ & H).
    destruct (H r Hr Pr) as (c & x & Hx & _); [|eauto].
    unfold real_serial. destruct (String.eqb_spec (i_ecu r) "") as [E|]; auto.
    destruct (il_ecus d) as [|(p, hw) l] eqn:El; auto. exfalso. apply (reach_registered d R) in E; auto. rewrite El. discriminate.
  - intros (s & c & x & Hx). destruct (load_pending d s W) as (H & _). destruct (H x c Hx) as (r & Hr & Pr & _). eauto.
Qed.
Lemma pending_ecus_in : forall l k, pending_ecus l = Ok k ->
  forall e h, In (e, h) k <-> exists r, In r l /\ i_pend r = true /\ i_ecu r = e /\ h = mk_hash_t Sha256 (i_sha r).
Proof.
  induction l as [|r l IH]; intros k H e h; cbn [pending_ecus] in H.
  - injection H as <-. split; [intros []|intros (r & [] & _)].
  - destruct (i_pend r) eqn:Pr.
    + apply bind_ok in H. destruct H as (e0 & He & H). apply bind_ok in H. destruct H as (k0 & Hk & H). injection H as <-.
      assert (e0 = i_ecu r). { unfold ecu_serial in He. destruct (Nat.ltb _ _); [discriminate|]. destruct (Nat.ltb _ _); [discriminate|]. congruence. }
      subst e0. simpl. rewrite (IH _ Hk). split.
      * intros [Heq|(r0 & A & B & C & D)]; [injection Heq as <- <-; exists r; auto|exists r0; auto].
      * intros (r0 & [<-|A] & B & C & D); [left; congruence|right; exists r0; auto].
    + rewrite (IH _ H). split; intros (r0 & A & B & C & D); exists r0.
      * simpl; auto.
      * destruct A as [<-|A]; [congruence|auto].
Qed.
Lemma pending_ecus_list d l : ireach savec good d -> pending_ecus (il_log d) = Ok l ->
  NoDup (map fst l) /\
  forall e h, In (e, h) l <-> e <> "" /\ h_type h = Sha256 /\ exists c x, load_installed loadc e d = Ok (c, Some x) /\ h_val h = to_upper (sha256_hash x).
Proof.
  intros R Hl. pose proof (reach_wf _ _ _ R) as W.
  assert (Hne : forall k l', pending_ecus l' = Ok k -> forall e h, In (e, h) k -> e <> "").
  { intros k l'. revert k. induction l' as [|r l' IH]; intros k H e h Hin; cbn [pending_ecus] in H; [injection H as <-; destruct Hin|].
    destruct (i_pend r); [|eauto]. apply bind_ok in H. destruct H as (e0 & He & H). apply bind_ok in H. destruct H as (k0 & Hk & H). injection H as <-.
    destruct Hin as [Heq|Hin]; [|eauto]. injection Heq as <- <-. intros ->. unfold ecu_serial in He.
    destruct (Nat.ltb_spec (String.length (i_ecu r)) 1); [discriminate|]. destruct (Nat.ltb _ _); [discriminate|].
    injection He as He. rewrite He in *. simpl in *. lia. }
  split.
  - clear Hne. assert (forall l', NoDup (ids l') -> (forall a b, In a l' -> In b l' -> i_ecu a = i_ecu b -> i_pend a = true -> i_pend b = true -> a = b) ->
      forall k, pending_ecus l' = Ok k -> NoDup (map fst k)) as H; [|eapply H; eauto; apply W].
    induction l' as [|r l' IH]; intros Hn Hu k H; cbn [pending_ecus] in H; [injection H as <-; constructor|].
    simpl in Hn. inversion Hn as [|? ? Hni Hn']; subst.
    assert (IH' : forall k0, pending_ecus l' = Ok k0 -> NoDup (map fst k0)) by (apply IH; auto; intros; apply Hu; auto; now right).
    destruct (i_pend r) eqn:Pr; [|auto]. apply bind_ok in H. destruct H as (e0 & He & H). apply bind_ok in H. destruct H as (k0 & Hk & H). injection H as <-.
    simpl. constructor; [|auto]. intros Hin. apply in_map_iff in Hin. destruct Hin as ((e, h) & Heq & Hin). simpl in Heq. subst e.
    apply (pending_ecus_in _ _ Hk) in Hin. destruct Hin as (r0 & A & B & C & D).
    assert (e0 = i_ecu r). { unfold ecu_serial in He. destruct (Nat.ltb _ _); [discriminate|]. destruct (Nat.ltb _ _); [discriminate|]. congruence. }
    assert (r0 = r) by (apply Hu; auto; [now right|now left|congruence]). subst r0. apply Hni. now apply in_map.
  - intros e h. rewrite (pending_ecus_in _ _ Hl). split.
    + intros (r & Hr & Pr & Er & ->). assert (Hin : In (e, mk_hash_t Sha256 (i_sha r)) l) by (apply (pending_ecus_in _ _ Hl); eauto).
      pose proof (Hne _ _ Hl _ _ Hin) as E0. split; auto. split; [reflexivity|]. destruct (load_pending d e W) as (_ & H).
      destruct (H r Hr Pr) as (c & x & Hx & Hsha).
      { unfold real_serial. apply String.eqb_neq in E0. now rewrite E0. }
      exists c, x. split; auto. simpl. now rewrite Hsha.
    + intros (E0 & Ht & c & x & Hx & Hv). destruct (load_pending d e W) as (H & _). destruct (H x c Hx) as (r & Hr & Pr & Er & Hs).
      exists r. split; auto. split; auto. split.
      * rewrite Er. unfold real_serial. apply String.eqb_neq in E0. now rewrite E0.
      * destruct h as [ht hv]. simpl in *. unfold mk_hash_t. now rewrite Ht, Hv, Hs.
Qed.
Lemma pending_ecus_ok d : ireach savec good d -> (forall r, In r (il_log d) -> i_pend r = true -> (1 <= String.length (i_ecu r) <= 64)%nat) ->
  exists l, pending_ecus (il_log d) = Ok l.
Proof.
  intros _. induction (il_log d) as [|r l IH]; intros H; [eexists; reflexivity|]. cbn [pending_ecus].
  destruct IH as (k & Hk); [intros; apply H; auto; now right|]. rewrite Hk. destruct (i_pend r) eqn:Pr; [|eauto].
  specialize (H r (or_introl eq_refl) Pr). unfold ecu_serial.
  destruct (Nat.ltb_spec (String.length (i_ecu r)) 1); [lia|]. destruct (Nat.ltb_spec 64 (String.length (i_ecu r))); [lia|].
  cbn [bind]. eauto.
Qed.

(** ** The installation log *)
Definition only_saves (Good : target -> Prop) (ops : list iop) : Prop := forall o, In o ops -> exists s t m, o = OpSave s t m /\ Good t.
Lemma save_was s t m d : wf d -> forall k name sha,
  (exists r, In r (il_log (save_installed savec s t m d)) /\ i_ecu r = k /\ i_name r = name /\ i_sha r = sha /\ i_was r = true) <->
  (exists r, In r (il_log d) /\ i_ecu r = k /\ i_name r = name /\ i_sha r = sha /\ i_was r = true) \/
  (m = ModeCurrent /\ k = real_serial d s /\ name = t_filename t /\ sha = sha256_hash t).
Proof.
  intros W k name sha. rewrite save_log. set (serial := real_serial d s).
  assert (Hres : forall r, i_was (reset_flags m serial r) = i_was r) by (intros r; unfold reset_flags; destruct (String.eqb _ _), m; reflexivity).
  destruct (old_of serial t d) as [o|] eqn:Eo.
  - destruct (old_of_in _ _ _ _ Eo) as (Ho & He & Hs & Hn).
    split.
    + intros (r & Hr & A & B & C & D). rewrite map_map in Hr. apply in_map_iff in Hr. destruct Hr as (r0 & <- & Hr0).
      destruct (update_id m t o (reset_flags m serial r0)) as (_ & U2 & U3 & U4 & _). destruct (reset_id m serial r0) as (Q1 & Q2 & Q3 & Q4 & _).
      rewrite U2, Q2 in A. rewrite U4, Q4 in B. rewrite U3, Q3 in C.
      unfold update_row in D. rewrite Q1 in D. destruct (Z.eqb_spec (i_id r0) (i_id o)) as [E|E]; simpl in D.
      * assert (r0 = o) by (eapply ids_inj; [apply W|auto|auto|auto]). subst r0. apply orb_true_iff in D. destruct D as [D|D].
        -- right. destruct m; try discriminate. split; auto. split; [congruence|]. split; congruence.
        -- left. exists o. auto.
      * left. exists r0. rewrite Hres in D. auto.
    + intros [(r & Hr & A & B & C & D)|(-> & -> & -> & ->)].
      * exists (update_row m t o (reset_flags m serial r)). split; [apply in_map, in_map, Hr|].
        destruct (update_id m t o (reset_flags m serial r)) as (_ & U2 & U3 & U4 & _). destruct (reset_id m serial r) as (Q1 & Q2 & Q3 & Q4 & _).
        rewrite U2, U3, U4, Q2, Q3, Q4. repeat (split; [auto|]). unfold update_row. rewrite Q1.
        destruct (Z.eqb_spec (i_id r) (i_id o)) as [E|E]; simpl; [|now rewrite Hres].
        assert (r = o) by (eapply ids_inj; [apply W|auto|auto|auto]). subst r. rewrite D. apply orb_true_r.
      * exists (update_row ModeCurrent t o (reset_flags ModeCurrent serial o)). split; [apply in_map, in_map, Ho|].
        destruct (update_id ModeCurrent t o (reset_flags ModeCurrent serial o)) as (_ & U2 & U3 & U4 & _). destruct (reset_id ModeCurrent serial o) as (Q1 & Q2 & Q3 & Q4 & _).
        rewrite U2, U3, U4, Q2, Q3, Q4. repeat (split; [auto|]). unfold update_row. rewrite Q1, Z.eqb_refl. reflexivity.
  - split.
    + intros (r & Hr & A & B & C & D). apply in_app_or in Hr. destruct Hr as [Hr|[<-|[]]].
      * left. apply in_map_iff in Hr. destruct Hr as (r0 & <- & Hr0). destruct (reset_id m serial r0) as (Q1 & Q2 & Q3 & Q4 & _).
        exists r0. rewrite Hres in D. repeat split; congruence.
      * right. simpl in *. destruct m; try discriminate. auto.
    + intros [(r & Hr & A & B & C & D)|(-> & -> & -> & ->)].
      * exists (reset_flags m serial r). destruct (reset_id m serial r) as (Q1 & Q2 & Q3 & Q4 & _). rewrite Hres, Q2, Q3, Q4.
        split; [apply in_or_app; left; now apply in_map|auto].
      * eexists. split; [apply in_or_app; right; now left|]. simpl. auto.
Qed.
Lemma save_any s t m d : wf d -> forall k name sha,
  (exists r, In r (il_log (save_installed savec s t m d)) /\ i_ecu r = k /\ i_name r = name /\ i_sha r = sha) <->
  (exists r, In r (il_log d) /\ i_ecu r = k /\ i_name r = name /\ i_sha r = sha) \/
  (k = real_serial d s /\ name = t_filename t /\ sha = sha256_hash t).
Proof.
  intros W k name sha. destruct (save_rows savec good s t m d W) as (x & Hx & X1 & _ & _ & X4 & X5 & _ & _ & Hrows). split.
  - intros (r & Hr & A & B & C). apply Hrows in Hr. destruct Hr as [->|(r0 & Hr0 & -> & _)]; [right; repeat split; congruence|].
    destruct (reset_id m (real_serial d s) r0) as (Q1 & Q2 & Q3 & Q4 & _). left. exists r0. repeat split; congruence.
  - intros [(r & Hr & A & B & C)|(-> & -> & ->)]; [|exists x; repeat split; congruence].
    destruct (old_of (real_serial d s) t d) as [o|] eqn:Eo.
    + destruct (old_of_in _ _ _ _ Eo) as (Ho & He & Hs & Hn). destruct (Z.eq_dec (i_id r) (i_id o)) as [E|E].
      * assert (r = o) by (eapply ids_inj; [apply W|auto|auto|auto]). subst r. exists x. repeat split; congruence.
      * exists (reset_flags m (real_serial d s) r). destruct (reset_id m (real_serial d s) r) as (Q1 & Q2 & Q3 & Q4 & _).
        split; [|repeat split; congruence]. apply Hrows. right. exists r. split; auto. split; auto. intros X. apply E. congruence.
    + exists (reset_flags m (real_serial d s) r). destruct (reset_id m (real_serial d s) r) as (Q1 & Q2 & Q3 & Q4 & _).
      split; [|repeat split; congruence]. apply Hrows. right. exists r. split; auto. split; auto. discriminate.
Qed.
Lemma irun_real ops d : only_saves good ops -> il_ecus (irun savec d ops) = il_ecus d.
Proof.
  revert d. induction ops as [|o ops IH]; intros d H; simpl; auto. unfold irun in *. simpl. rewrite IH by (intros ? ?; apply H; now right).
  destruct (H o (or_introl eq_refl)) as (s & t & m & -> & _). reflexivity.
Qed.
Lemma irun_wf ops d : only_saves good ops -> wf d -> wf (irun savec d ops).
Proof.
  revert d. induction ops as [|o ops IH]; intros d H W; simpl; auto. unfold irun in *. simpl. apply IH; [intros ? ?; apply H; now right|].
  destruct (H o (or_introl eq_refl)) as (s & t & m & -> & G). simpl. now apply save_wf.
Qed.
Lemma real_ecus d d' s : il_ecus d = il_ecus d' -> real_serial d s = real_serial d' s.
Proof. unfold real_serial. now intros ->. Qed.
Lemma log_rows ops d : only_saves good ops -> wf d -> forall k name sha,
  ((exists r, In r (il_log (irun savec d ops)) /\ i_ecu r = k /\ i_name r = name /\ i_sha r = sha /\ i_was r = true) <->
   (exists r, In r (il_log d) /\ i_ecu r = k /\ i_name r = name /\ i_sha r = sha /\ i_was r = true) \/
   exists s t, In (OpSave s t ModeCurrent) ops /\ k = real_serial d s /\ name = t_filename t /\ sha = sha256_hash t) /\
  ((exists r, In r (il_log (irun savec d ops)) /\ i_ecu r = k /\ i_name r = name /\ i_sha r = sha) <->
   (exists r, In r (il_log d) /\ i_ecu r = k /\ i_name r = name /\ i_sha r = sha) \/
   exists s t m, In (OpSave s t m) ops /\ k = real_serial d s /\ name = t_filename t /\ sha = sha256_hash t).
Proof.
  revert d. induction ops as [|o ops IH]; intros d H W k name sha.
  - simpl. split; (split; [auto|intros [?|X]; auto]); [destruct X as (? & ? & [] & _)|destruct X as (? & ? & ? & [] & _)].
  - destruct (H o (or_introl eq_refl)) as (s & t & m & -> & G). unfold irun. simpl fold_left. cbn [istep].
    specialize (IH (save_installed savec s t m d) (fun o' Ho => H o' (or_intror Ho)) (save_wf _ _ _ _ _ _ G W) k name sha).
    unfold irun in IH. destruct IH as (I1 & I2). rewrite I1, I2, (save_was s t m d W), (save_any s t m d W).
    change (forall s0, real_serial (save_installed savec s t m d) s0 = real_serial d s0) with (forall s0, real_serial d s0 = real_serial d s0).
    split; split.
    + intros [[?|(-> & E)]|(s' & t' & Hin & E)]; auto; right; [exists s, t; simpl; auto|exists s', t'; simpl; auto].
    + intros [?|(s' & t' & [Heq|Hin] & E)]; auto; [injection Heq as -> -> ->; left; right; auto|right; exists s', t'; auto].
    + intros [[?|E]|(s' & t' & m' & Hin & E)]; auto; right; [exists s, t, m; simpl; auto|exists s', t', m'; simpl; auto].
    + intros [?|(s' & t' & m' & [Heq|Hin] & E)]; auto; [injection Heq as -> -> ->; left; right; auto|right; exists s', t', m'; auto].
Qed.
Lemma read_log_spec d k only : wf d -> forall l, (forall r, In r l -> In r (il_log d)) -> exists ts, read_log loadc d k only l = Ok ts /\
  Forall2 (fun r x => t_filename x = i_name r /\ sha256_hash x = i_sha r /\ t_corr x = i_corr r) (filter (fun r => String.eqb (i_ecu r) k && (negb only || i_was r)) l) ts.
Proof.
  intros W. induction l as [|r l IH]; intros Hl; [exists []; split; [reflexivity|constructor]|].
  destruct IH as (ts & E & H); [intros; apply Hl; now right|]. cbn [read_log filter]. rewrite E.
  destruct (String.eqb (i_ecu r) k && (negb only || i_was r)); [|eauto].
  destruct (read_ok savec loadc d k r W (Hl r (or_introl eq_refl))) as (x & -> & X1 & X2 & X3). cbn [bind]. exists (x :: ts). split; auto.
Qed.
Lemma Forall2_in_l {A B} (P : A -> B -> Prop) l m a : Forall2 P l m -> In a l -> exists b, In b m /\ P a b.
Proof. induction 1; simpl; [intros []|]. intros [<-|Hin]; [eauto|]. destruct (IHForall2 Hin) as (b & ? & ?). eauto. Qed.
Lemma Forall2_in_r {A B} (P : A -> B -> Prop) l m b : Forall2 P l m -> In b m -> exists a, In a l /\ P a b.
Proof. induction 1; simpl; [intros []|]. intros [<-|Hin]; [eauto|]. destruct (IHForall2 Hin) as (a & ? & ?). eauto. Qed.
Lemma empty_wf ecus : wf {| il_ecus := ecus; il_log := [] |}.
Proof. split; simpl; try (intros ? ? []); [constructor|intros r []]. Qed.
Theorem log_complete ecus ops s only : only_saves good ops ->
  let d0 := {| il_ecus := ecus; il_log := [] |} in
  exists l, load_log loadc s only (irun savec d0 ops) = Ok l /\
  forall t, (exists x, In x l /\ same_key x t) <->
    exists s' t' m, In (OpSave s' t' m) ops /\ (only = true -> m = ModeCurrent) /\ real_serial d0 s' = real_serial d0 s /\ same_key t' t.
Proof.
  intros H d0. pose proof (irun_wf ops d0 H (empty_wf ecus)) as W. set (d := irun savec d0 ops) in *.
  assert (Er : real_serial d s = real_serial d0 s) by (apply real_ecus; now apply irun_real).
  destruct (read_log_spec d (real_serial d s) only W (il_log d) (fun r Hr => Hr)) as (l & Hl & HF).
  exists l. split; [exact Hl|]. intros t.
  assert (Hkey : (exists x, In x l /\ same_key x t) <->
    exists r, In r (il_log d) /\ i_ecu r = real_serial d0 s /\ i_name r = t_filename t /\ i_sha r = sha256_hash t /\ (only = true -> i_was r = true)).
  { split.
    - intros (x & Hx & (K1 & K2)). destruct (Forall2_in_r _ _ _ _ HF Hx) as (r & Hr & (A & B & _)). apply filter_In in Hr. destruct Hr as (Hr & Hc).
      apply andb_true_iff in Hc. destruct Hc as (Hc & Ho). apply String.eqb_eq in Hc. exists r. rewrite <- Er. repeat (split; [congruence||auto|]).
      intros ->. exact Ho.
    - intros (r & Hr & A & B & C & D). destruct (Forall2_in_l _ _ _ r HF) as (x & Hx & (X1 & X2 & _)).
      { apply filter_In. split; auto. rewrite A, Er, String.eqb_refl. destruct only; simpl; auto. }
      exists x. split; auto. split; congruence. }
  rewrite Hkey. clear Hkey. destruct (log_rows ops d0 H (empty_wf ecus) (real_serial d0 s) (t_filename t) (sha256_hash t)) as (L1 & L2).
  fold d in L1, L2. unfold same_key. destruct only.
  - split.
    + intros (r & Hr & A & B & C & D). pose proof (proj1 L1 (ex_intro _ r (conj Hr (conj A (conj B (conj C (D eq_refl))))))) as [(r0 & [] & _)|(s' & t' & Hin & X & Y & Z)].
      exists s', t', ModeCurrent. auto.
    + intros (s' & t' & m & Hin & Hm & X & Y & Z). specialize (Hm eq_refl). subst m.
      destruct (proj2 L1) as (r & Hr & A & B & C & D); [right; exists s', t'; auto|]. exists r. auto.
  - split.
    + intros (r & Hr & A & B & C & D). pose proof (proj1 L2 (ex_intro _ r (conj Hr (conj A (conj B C))))) as [(r0 & [] & _)|(s' & t' & m & Hin & X & Y & Z)].
      exists s', t', m. split; auto. split; [discriminate|auto].
    + intros (s' & t' & m & Hin & _ & X & Y & Z).
      destruct (proj2 L2) as (r & Hr & A & B & C); [right; exists s', t', m; auto|]. exists r. repeat (split; [auto|]). discriminate.
Qed.

(** ** The last entry of the log *)
Fixpoint increasing (l : list irow) : Prop := match l with [] => True | r :: l' => (forall x, In x l' -> i_id r < i_id x) /\ increasing l' end.
Lemma increasing_map f l : (forall r, i_id (f r) = i_id r) -> increasing l -> increasing (map f l).
Proof.
  intros Hf. induction l as [|r l IH]; simpl; auto. intros (A & B). split; auto. intros x Hx. apply in_map_iff in Hx.
  destruct Hx as (y & <- & Hy). rewrite !Hf. auto.
Qed.
Lemma increasing_app l x : increasing l -> (forall r, In r l -> i_id r < i_id x) -> increasing (l ++ [x]).
Proof.
  induction l as [|r l IH]; simpl; intros A B; [split; [intros ? []|exact I]|]. destruct A as (A & C). split; [|apply IH; auto].
  intros y Hy. apply in_app_or in Hy. destruct Hy as [Hy|[<-|[]]]; auto.
Qed.
Lemma save_increasing s t m d : increasing (il_log d) -> increasing (il_log (save_installed savec s t m d)).
Proof.
  intros H. rewrite save_log. destruct (old_of _ t d) as [o|].
  - repeat apply increasing_map; auto; intros; [apply update_id|apply reset_id].
  - apply increasing_app; [apply increasing_map; auto; intros; apply reset_id|]. intros r Hr. simpl. now apply next_id_gt.
Qed.
Lemma irun_increasing ops d : only_saves good ops -> increasing (il_log d) -> increasing (il_log (irun savec d ops)).
Proof.
  revert d. induction ops as [|o ops IH]; intros d H W; simpl; auto. unfold irun in *. simpl. apply IH; [intros ? ?; apply H; now right|].
  destruct (H o (or_introl eq_refl)) as (s & t & m & -> & G). simpl. now apply save_increasing.
Qed.
Definition mine (k : string) (l : list irow) : list irow := filter (fun r => String.eqb (i_ecu r) k) l.
Lemma last_row_last k : forall l, increasing l -> match last_row k l with
  | Some r => exists l1, mine k l = l1 ++ [r] | None => mine k l = [] end.
Proof.
  induction l as [|x l IH]; [reflexivity|]. intros (A & B). specialize (IH B). simpl.
  destruct (last_row k l) as [y|] eqn:E.
  - destruct IH as (l1 & Hl). apply last_row_in in E. destruct E as (E & _). specialize (A y E).
    destruct (Z.ltb_spec (i_id y) (i_id x)); [lia|]. rewrite andb_false_r. unfold mine in *. simpl. rewrite Hl.
    destruct (String.eqb (i_ecu x) k); [exists (x :: l1)|exists l1]; reflexivity.
  - unfold mine in *. simpl. rewrite IH. destruct (String.eqb (i_ecu x) k); [exists []; reflexivity|reflexivity].
Qed.
Lemma mine_map k f l : (forall r, i_ecu (f r) = i_ecu r) -> mine k (map f l) = map f (mine k l).
Proof. intros Hf. unfold mine. induction l as [|r l IH]; simpl; auto. rewrite Hf, IH. destruct (String.eqb (i_ecu r) k); reflexivity. Qed.
Lemma save_last s t m d : wf d -> increasing (il_log d) -> exists l1 x,
  mine (real_serial d s) (il_log (save_installed savec s t m d)) = l1 ++ [x] /\
  i_name x = t_filename t /\ i_sha x = sha256_hash t /\ i_corr x = t_corr t.
Proof.
  intros W Hi. rewrite save_log. set (k := real_serial d s). pose proof (last_row_last k (il_log d) Hi) as HL.
  destruct (old_of k t d) as [o|] eqn:Eo.
  - destruct (old_of_in _ _ _ _ Eo) as (Ho & He & Hs & Hn). unfold old_of in Eo.
    destruct (last_row k (il_log d)) as [y|]; [|discriminate]. destruct (same_version t y); [|discriminate]. injection Eo as ->.
    destruct HL as (l1 & HL). rewrite !mine_map by (intros; first [apply update_id|apply reset_id]). rewrite HL, !map_app. simpl.
    eexists; eexists. split; [reflexivity|]. destruct (update_id m t o (reset_flags m k o)) as (_ & U2 & U3 & U4 & _).
    destruct (reset_id m k o) as (Q1 & Q2 & Q3 & Q4 & _). rewrite U3, U4, Q3, Q4. repeat (split; [auto|]). unfold update_row. now rewrite Q1, Z.eqb_refl.
  - unfold mine. rewrite filter_app. simpl. rewrite String.eqb_refl. eexists; eexists. split; [reflexivity|]. simpl. auto.
Qed.
Theorem log_last ecus ops s t m : only_saves good (ops ++ [OpSave s t m]) ->
  exists l x, load_log loadc s false (irun savec {| il_ecus := ecus; il_log := [] |} (ops ++ [OpSave s t m])) = Ok (l ++ [x]) /\ reported x t.
Proof.
  intros H. set (d0 := {| il_ecus := ecus; il_log := [] |}). unfold irun. rewrite fold_left_app. simpl. fold (irun savec d0 ops).
  assert (H1 : only_saves good ops) by (intros o Ho; apply H; apply in_or_app; auto).
  assert (G : good t). { destruct (H (OpSave s t m)) as (? & ? & ? & E & G); [apply in_or_app; right; now left|]. injection E as -> -> ->. exact G. }
  pose proof (irun_wf ops d0 H1 (empty_wf ecus)) as W. pose proof (irun_increasing ops d0 H1 I) as Hi. set (d := irun savec d0 ops) in *.
  destruct (save_last s t m d W Hi) as (l1 & r & Hl & A & B & C).
  pose proof (save_wf savec good s t m d G W) as W'. set (d' := save_installed savec s t m d) in *.
  destruct (read_log_spec d' (real_serial d' s) false W' (il_log d') (fun r Hr => Hr)) as (ts & Hts & HF). unfold load_log. rewrite Hts.
  change (real_serial d' s) with (real_serial d s) in HF.
  assert (Hf : filter (fun r => String.eqb (i_ecu r) (real_serial d s) && (negb false || i_was r)) (il_log d') = l1 ++ [r]).
  { rewrite <- Hl. unfold mine. apply filter_ext. intros a. simpl. now rewrite andb_true_r. }
  rewrite Hf in HF. apply Forall2_app_inv_l in HF. destruct HF as (ts1 & ts2 & _ & H2 & ->). inversion H2 as [|? x ? ? Hx Hnil]; subst. inversion Hnil; subst.
  exists ts1, x. split; auto. destruct Hx as (X1 & X2 & X3). split; [split; congruence|congruence].
Qed.
End P.
