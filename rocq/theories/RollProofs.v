(** Proofs about the rollback. *)
From Verif Require Import Base Json TufModel CodecModel CodecProofs InstModel InstSpec InstProofs InstProofs2 InstLogProofs RollModel RollSpec.

Definition quiet_list (f : list bool) : Prop := forall b, In b f -> b = false.
Lemma quiet_hd f : quiet_list f -> hd false f = false.
Proof. destruct f; simpl; auto. intros H. apply H. now left. Qed.
Lemma quiet_tl f : quiet_list f -> quiet_list (tl f).
Proof. destruct f; simpl; auto. intros H x Hx. apply H. now right. Qed.
Lemma ucmds_quiet l : forall f e, quiet_list f -> ucmds_run f l e = fold_left (fun e c => ucmd_run c e) l e.
Proof. induction l as [|c l IH]; intros f e H; simpl; auto. rewrite quiet_hd by auto. apply IH. now apply quiet_tl. Qed.

Section R.
Context (works : string -> bool) (m : rmode) (limit : Z).
Hypothesis Hm : m <> RNone.
Hypothesis Hl : 0 <= limit.

(** The state of the list: the rollback image works, and an image that does not is watched or has been given up. *)
Definition safe (d : rdev) : Prop :=
  0 <= u_count (r_env d) /\
  match r_deps d with
  | [a] => works a = true /\ r_booted d = 0%nat
  | [a; b] => works b = true /\ (works a = false -> u_rollback (r_env d) = true \/ counting m (r_env d) = true) /\
              (r_booted d = 0%nat /\ u_rollback (r_env d) = false \/ r_booted d = 1%nat)
  | _ => False
  end /\
  (r_running d = true -> works (booted_commit d) = true).

Lemma factory_safe c : works c = true -> safe (factory c).
Proof. intros H. split; [simpl; lia|]. split; [split; auto|]. discriminate. Qed.

Lemma uboot_deps d : r_deps (uboot m limit d) = r_deps d.
Proof. clear Hm Hl. unfold uboot. destruct m; auto; destruct (u_rollback _); auto; destruct (counting _ _); auto; destruct (_ <? _); auto. Qed.
Lemma uboot_safe d : safe d -> safe (uboot m limit d).
Proof.
  intros (C & D & R). unfold safe. rewrite uboot_deps. unfold uboot.
  destruct (r_deps d) as [|a [|b [|]]] eqn:E; try contradiction.
  - destruct D as (D1 & D2).
    destruct m; [contradiction| |]; destruct (u_rollback _); try destruct (counting _ _); try destruct (_ <? _) eqn:L; simpl; repeat split; auto; try lia; discriminate.
  - destruct D as (D1 & D2 & D3).
    destruct m; [contradiction| |]; destruct (u_rollback (r_env d)) eqn:Er; try destruct (counting _ _) eqn:Ec; try destruct (_ <? _) eqn:L; simpl in *; rewrite ?Er in *;
      repeat split; auto; try lia; try discriminate.
    all: intros W; specialize (D2 W); destruct D2; discriminate.
Qed.
Lemma ok_prefix k e : exists e', fold_left (fun e c => ucmd_run c e) (firstn k (ok_cmds m)) e = e' /\ (0 <= u_count e -> 0 <= u_count e') /\ u_rollback e' = u_rollback e.
Proof. eexists; split; [reflexivity|]. destruct m; destruct k as [|[|k]]; simpl; auto; try (rewrite firstn_nil); simpl; split; auto; lia. Qed.
Lemma rstart_safe k f d : quiet_list f -> works (booted_commit d) = true -> safe d -> safe (rstart m k f d).
Proof.
  intros Q W (C & D & R). unfold rstart. rewrite ucmds_quiet by auto. destruct (ok_prefix k (r_env d)) as (e' & -> & E1 & E2).
  unfold safe. cbn [r_env r_deps r_booted r_running]. unfold image_updated in *.
  destruct (Nat.eqb_spec (r_booted d) 0) as [B|B].
  - split; [auto|]. split; [|intros _; exact W]. unfold booted_commit in W. rewrite B in W. destruct (r_deps d) as [|a [|b [|]]]; auto.
    simpl in W. destruct D as (D1 & D2 & D3). rewrite W, E2. split; [auto|]. split; [discriminate|]. auto.
  - split; [auto|]. split; [exact D|]. intros _. exact W.
Qed.
Lemma notify_prefix k e : 0 <= u_count e ->
  let e' := fold_left (fun e c => ucmd_run c e) (firstn k (notify_cmds m)) e in
  0 <= u_count e' /\ (u_rollback e = true \/ counting m e = true -> u_rollback e' = true \/ counting m e' = true) /\
  (u_rollback e = false -> u_rollback e' = false) /\
  ((List.length (notify_cmds m) < k)%nat -> counting m e' = true /\ u_rollback e' = false /\ u_count e' = 0).
Proof.
  intros C. destruct m; [contradiction| |]; destruct k as [|[|[|k]]]; cbn; rewrite ?firstn_nil; cbn; repeat split; auto; try lia.
  all: intros H; destruct H; auto.
Qed.
Lemma rinstall_safe new k f ok d : quiet_list f -> r_running d = true -> safe d -> safe (rinstall m new k f ok d).
Proof.
  intros Q Run (C & D & R). unfold rinstall. rewrite ucmds_quiet by auto. pose proof (notify_prefix k (r_env d) C) as N. cbn zeta in N.
  set (e' := fold_left _ _ _) in *. destruct N as (N1 & N2 & N3 & N4). destruct (ok && _)%bool eqn:E.
  - apply andb_true_iff in E. destruct E as (_ & E). apply Nat.ltb_lt in E. destruct (N4 E) as (N5 & N6 & N7).
    unfold safe. cbn [r_env r_deps r_booted r_running]. split; [auto|]. split.
    + split; [auto|]. split; [auto|]. now right.
    + intros _. apply R, Run.
  - unfold safe. cbn [r_env r_deps r_booted r_running]. split; [auto|]. split; [|exact R].
    destruct (r_deps d) as [|a [|b [|]]]; auto. destruct D as (D1 & D2 & D3). split; [auto|]. split; [intros W; apply N2, D2, W|].
    destruct D3 as [(B & U)|B]; auto.
Qed.
Lemma rstep_safe d o : no_failure o -> safe d -> safe (rstep works m limit d o).
Proof.
  intros Q S. destruct o as [|k f| |c k f ok]; simpl.
  - now apply uboot_safe.
  - destruct (works (booted_commit d)) eqn:W; auto. now apply rstart_safe.
  - destruct S as (C & D & R). split; [exact C|]. split; [exact D|]. discriminate.
  - destruct (r_running d) eqn:Run; auto. now apply rinstall_safe.
Qed.
Lemma rrun_safe ops : forall d, Forall no_failure ops -> safe d -> safe (rrun works m limit d ops).
Proof. unfold rrun. induction ops as [|o ops IH]; intros d F S; simpl; auto. inversion F; subst. apply IH; auto. now apply rstep_safe. Qed.

(** ** Recovery *)
Lemma boots_deps n d : r_deps (after_boots m limit n d) = r_deps d.
Proof. induction n; simpl; auto. fold (after_boots m limit n d). now rewrite uboot_deps. Qed.
(** An image that is watched and not confirmed is given up after the limit is exceeded. *)
Lemma watched n d : 0 <= u_count (r_env d) -> u_rollback (r_env d) = false -> counting m (r_env d) = true ->
  let d' := after_boots m limit n d in
  (u_rollback (r_env d') = false /\ counting m (r_env d') = true /\ u_count (r_env d') = u_count (r_env d) + Z.of_nat n) \/
  (u_rollback (r_env d') = true /\ r_booted d' = second (r_deps d)).
Proof.
  intros C U K. induction n as [|n IH]; [left; simpl; repeat split; auto; lia|].
  cbn zeta in *. change (after_boots m limit (Datatypes.S n) d) with (uboot m limit (after_boots m limit n d)).
  pose proof (boots_deps n d) as Hd. set (x := after_boots m limit n d) in *. unfold uboot. rewrite Hd. destruct IH as [(I1 & I2 & I3)|(I1 & I2)].
  - rewrite I1, I2. destruct m; [contradiction| |]; destruct (_ <? _); cbn [r_env u_rollback u_count u_upgrade r_booted counting]; auto; left; repeat split; auto; lia.
  - rewrite I1. destruct m; [contradiction| |]; cbn [r_env r_booted]; auto.
Qed.
Lemma recover d : safe d -> exists n, (1 <= n <= Z.to_nat limit + 1)%nat /\ works (booted_commit (after_boots m limit n d)) = true.
Proof.
  intros Sd. pose proof Sd as (C & D & R).
  destruct (r_deps d) as [|a [|b [|]]] eqn:E; try contradiction.
  - exists 1%nat. split; [lia|]. destruct (uboot_safe d Sd) as (_ & D' & _). change (after_boots m limit 1 d) with (uboot m limit d). unfold booted_commit. rewrite uboot_deps, E in *.
    destruct D' as (D1 & ->). exact D1.
  - destruct D as (D1 & D2 & D3). destruct (works a) eqn:Wa.
    { exists 1%nat. split; [lia|]. destruct (uboot_safe d Sd) as (_ & D' & _). change (after_boots m limit 1 d) with (uboot m limit d). unfold booted_commit. rewrite uboot_deps, E in *.
      destruct D' as (_ & _ & [(-> & _)| ->]); simpl; auto. }
    specialize (D2 eq_refl). destruct (u_rollback (r_env d)) eqn:U.
    { exists 1%nat. split; [lia|]. change (after_boots m limit 1 d) with (uboot m limit d). unfold booted_commit. rewrite uboot_deps, E. unfold uboot. rewrite U, E.
      destruct m; [contradiction| |]; simpl; auto. }
    destruct D2 as [D2|D2]; [discriminate|].
    set (n := Z.to_nat limit). exists (Datatypes.S n). split; [lia|].
    pose proof (watched n d C U D2) as W. cbn zeta in W. pose proof (watched (Datatypes.S n) d C U D2) as W'. cbn zeta in W'.
    unfold booted_commit. rewrite boots_deps, E.
    assert (B : r_booted (after_boots m limit (Datatypes.S n) d) = 1%nat).
    { change (after_boots m limit (Datatypes.S n) d) with (uboot m limit (after_boots m limit n d)).
      pose proof (boots_deps n d) as Hd. rewrite E in Hd. set (x := after_boots m limit n d) in *. unfold uboot. rewrite Hd. cbn [second].
      destruct W as [(W1 & W2 & W3)|(W1 & W2)].
      - rewrite W1, W2. replace (limit <? u_count (r_env x) + 1) with true by (symmetry; apply Z.ltb_lt; unfold n in W3; lia).
        destruct m; [contradiction| |]; reflexivity.
      - rewrite W1. destruct m; [contradiction| |]; reflexivity. }
    rewrite B. exact D1.
Qed.

(** ** A bad image is undone *)
(** [new] was installed from [old]: not yet given up after [n] boots, or given up. *)
Definition undone (new old : string) (n : Z) (d : rdev) : Prop :=
  r_deps d = [new; old] /\
  ((u_rollback (r_env d) = true /\ r_booted d = 1%nat) \/
   (u_rollback (r_env d) = false /\ counting m (r_env d) = true /\ u_count (r_env d) = n /\ n <= limit /\ (n = 0 /\ r_booted d = 1%nat \/ 0 < n /\ r_booted d = 0%nat))).
Lemma undone_step new old n d o : works new = false -> no_update o -> 0 <= n -> undone new old n d ->
  undone new old (n + boots_in [o]) (rstep works m limit d o).
Proof.
  intros W Q Hn (Hd & St). destruct o as [|k f| |c k f ok]; [| | |contradiction].
  - simpl boots_in. unfold rstep. split; [now rewrite uboot_deps|]. unfold uboot. rewrite Hd. cbn [second].
    destruct St as [(S1 & S2)|(S1 & S2 & S3 & S4 & S5)].
    + rewrite S1. left. destruct m; [contradiction| |]; simpl; auto.
    + rewrite S1, S2, S3. destruct m; [contradiction| |].
      all: destruct (limit <? n + 1) eqn:L; [apply Z.ltb_lt in L; left; simpl; auto|apply Z.ltb_ge in L; right; simpl; simpl in S2; repeat split; auto; try lia; right; split; auto; lia].
  - simpl boots_in. rewrite Z.add_0_r. simpl. destruct (works (booted_commit d)) eqn:Wb; [|split; auto].
    assert (B : r_booted d = 1%nat).
    { destruct St as [(S1 & S2)|(S1 & S2 & S3 & S4 & [S5|(S5 & S6)])]; auto; [apply S5|].
      unfold booted_commit in Wb. rewrite Hd, S6 in Wb. simpl in Wb. congruence. }
    unfold rstart, image_updated. rewrite B. cbn [Nat.eqb]. split; [exact Hd|]. rewrite B in St. exact St.
  - simpl boots_in. rewrite Z.add_0_r. split; [exact Hd|exact St].
Qed.
Lemma boots_nonneg ops : 0 <= boots_in ops.
Proof. induction ops as [|o ops IH]; [reflexivity|]. destruct o; cbn [boots_in]; lia. Qed.
Lemma undone_run new old ops : forall n d, works new = false -> Forall no_update ops -> 0 <= n -> undone new old n d ->
  undone new old (n + boots_in ops) (rrun works m limit d ops).
Proof.
  induction ops as [|o ops IH]; intros n d W F Hn U.
  - simpl boots_in. now rewrite Z.add_0_r.
  - inversion F; subst. unfold rrun. simpl fold_left. fold (rrun works m limit (rstep works m limit d o) ops).
    replace (n + boots_in (o :: ops)) with ((n + boots_in [o]) + boots_in ops) by (destruct o; cbn [boots_in]; lia).
    apply IH; auto; [pose proof (boots_nonneg [o]); lia|]. now apply undone_step.
Qed.
Lemma installed_undone new d k f : safe d -> r_running d = true -> quiet_list f -> (List.length (notify_cmds m) < k)%nat ->
  undone new (booted_commit d) 0 (rstep works m limit d (RInstall new k f true)).
Proof.
  intros (C & D & R) Run Q K. simpl. rewrite Run. unfold rinstall. rewrite ucmds_quiet by auto.
  pose proof (notify_prefix k (r_env d) C) as N. cbn zeta in N. set (e' := fold_left _ _ _) in *. destruct N as (N1 & N2 & N3 & N4).
  apply Nat.ltb_lt in K. rewrite K. cbn [andb]. apply Nat.ltb_lt in K. destruct (N4 K) as (N5 & N6 & N7).
  split; [reflexivity|]. right. cbn [r_env r_booted]. repeat split; auto.
Qed.
Theorem bad_undone new d k f ops : safe d -> r_running d = true -> quiet_list f -> (List.length (notify_cmds m) < k)%nat ->
  works new = false -> Forall no_update ops -> limit < boots_in ops ->
  booted_commit (rrun works m limit (rstep works m limit d (RInstall new k f true)) ops) = booted_commit d.
Proof.
  intros Sd Run Q K W F B. pose proof (undone_run new (booted_commit d) ops 0 _ W F (Z.le_refl 0) (installed_undone new d k f Sd Run Q K)) as (U1 & U2).
  unfold booted_commit at 1. rewrite U1. destruct U2 as [(_ & ->)|(_ & _ & _ & L & _)]; [reflexivity|lia].
Qed.
(** ** A new image is given its chance *)
Theorem new_booted new d k f n : safe d -> r_running d = true -> quiet_list f -> (List.length (notify_cmds m) < k)%nat ->
  (1 <= n)%nat -> Z.of_nat n <= limit -> booted_commit (after_boots m limit n (rstep works m limit d (RInstall new k f true))) = new.
Proof.
  intros Sd Run Q K N1 N2. pose proof (installed_undone new d k f Sd Run Q K) as (U1 & U2).
  set (x := rstep _ _ _ _ _) in *. unfold booted_commit at 1. rewrite boots_deps, U1.
  destruct U2 as [(U2 & _)|(U2 & U3 & U4 & _)].
  { exfalso. unfold x in U2. simpl in U2. rewrite Run in U2. unfold rinstall in U2. rewrite ucmds_quiet in U2 by auto.
    destruct Sd as (C & _ & _). pose proof (notify_prefix k (r_env d) C) as N. cbn zeta in N. destruct N as (_ & _ & _ & N). specialize (N K).
    pose proof K as K'. apply Nat.ltb_lt in K'. rewrite K' in U2. simpl in U2. destruct N as (_ & N & _). congruence. }
  assert (G : forall j, Z.of_nat j <= limit -> u_rollback (r_env (after_boots m limit j x)) = false /\ counting m (r_env (after_boots m limit j x)) = true /\ u_count (r_env (after_boots m limit j x)) = Z.of_nat j /\ ((1 <= j)%nat -> r_booted (after_boots m limit j x) = 0%nat)).
  { induction j as [|j IH]; intros J; [simpl; repeat split; auto; lia|]. destruct IH as (I1 & I2 & I3 & _); [lia|].
    change (after_boots m limit (Datatypes.S j) x) with (uboot m limit (after_boots m limit j x)). set (y := after_boots m limit j x) in *.
    unfold uboot. rewrite I1, I2, I3. replace (limit <? Z.of_nat j + 1) with false by (symmetry; apply Z.ltb_ge; lia).
    destruct m; [contradiction| |]; cbn [r_env u_rollback u_count u_upgrade r_booted counting]; repeat split; auto; lia. }
  destruct (G n N2) as (_ & _ & _ & G4). rewrite (G4 N1). reflexivity.
Qed.
End R.

(** ** A confirmed image stays *)
Section C.
Context (works : string -> bool) (limit : Z).
Definition settled (c : string) (d : rdev) : Prop :=
  u_upgrade (r_env d) = false /\ booted_commit d = c /\ r_booted d = 0%nat /\ (u_rollback (r_env d) = false \/ List.length (r_deps d) = 1%nat).
Lemma ok_settled k f e : u_upgrade e = false -> u_upgrade (ucmds_run f (firstn k (ok_cmds RMasked)) e) = false /\ u_rollback (ucmds_run f (firstn k (ok_cmds RMasked)) e) = u_rollback e.
Proof. intros H. destruct k as [|[|k]]; simpl; auto; [|rewrite firstn_nil; simpl]; destruct (hd false f); simpl; auto; destruct (hd false (tl f)); simpl; auto. Qed.
Lemma settled_step c d o : no_update o -> settled c d -> settled c (rstep works RMasked limit d o).
Proof.
  intros Q (S1 & S2 & S3 & S4). destruct o as [|k f| |n k f ok]; [| | |contradiction].
  - cbn [rstep]. unfold settled, booted_commit. rewrite uboot_deps. unfold booted_commit in S2. rewrite S3 in S2. unfold uboot, counting. rewrite S1.
    destruct (u_rollback (r_env d)) eqn:U.
    + destruct S4 as [S4|S4]; [discriminate|]. destruct (r_deps d) as [|a [|]] eqn:E; try discriminate. cbn [r_env r_booted second nth]. simpl in S2. repeat split; auto; right; reflexivity.
    + cbn [r_env r_booted]. rewrite U. repeat split; auto.
  - simpl. destruct (works _); [|repeat split; auto]. unfold rstart, settled, booted_commit in *. cbn [r_env r_deps r_booted].
    destruct (ok_settled k f (r_env d) S1) as (O1 & O2). destruct (image_updated d); rewrite ?O1, ?O2; repeat split; auto.
  - simpl. repeat split; auto.
Qed.
Lemma settled_run c ops : forall d, Forall no_update ops -> settled c d -> settled c (rrun works RMasked limit d ops).
Proof. unfold rrun. induction ops as [|o ops IH]; intros d F S; simpl; auto. inversion F; subst. apply IH; auto. now apply settled_step. Qed.
Theorem confirmed_stays d k f ops : safe works RMasked d -> r_booted d = 0%nat -> works (booted_commit d) = true -> quiet_list f -> (2 <= k)%nat ->
  Forall no_update ops ->
  booted_commit (rrun works RMasked limit d (RStart k f :: ops)) = booted_commit d.
Proof.
  intros (C & D & R) B W Q K F. assert (S0 : settled (booted_commit d) (rstep works RMasked limit d (RStart k f))).
  { simpl. rewrite W. unfold rstart, image_updated, settled. rewrite B. cbn [Nat.eqb r_env r_booted]. rewrite ucmds_quiet by auto.
    destruct k as [|[|k]]; try lia. simpl. rewrite firstn_nil. simpl. repeat split; auto; [unfold booted_commit; simpl; now rewrite B|].
    destruct (r_deps d) as [|a [|b [|]]]; try contradiction; [right; reflexivity|]. destruct D as (_ & _ & [(_ & D)|D]); [left; exact D|congruence]. }
  change (RStart k f :: ops) with ([RStart k f] ++ ops). unfold rrun. rewrite fold_left_app. simpl fold_left.
  apply (settled_run (booted_commit d) ops _ F S0).
Qed.

(** In mode generic a confirmed image stays as long as every boot is confirmed. *)
Definition settled_g (c : string) (d : rdev) : Prop :=
  u_count (r_env d) = 0 /\ booted_commit d = c /\ r_booted d = 0%nat /\ (u_rollback (r_env d) = false \/ List.length (r_deps d) = 1%nat).
Lemma generic_start c d k f : works c = true -> quiet_list f -> (1 <= k)%nat ->
  booted_commit d = c -> r_booted d = 0%nat -> (u_rollback (r_env d) = false \/ List.length (r_deps d) = 1%nat) ->
  settled_g c (rstep works RGeneric limit d (RStart k f)).
Proof.
  intros W Q K Bc B U. simpl. rewrite Bc, W. unfold rstart, image_updated, settled_g. rewrite B. cbn [Nat.eqb r_env r_booted]. rewrite ucmds_quiet by auto.
  destruct k as [|k]; [lia|]. simpl. rewrite firstn_nil. simpl. repeat split; auto. unfold booted_commit in *. simpl. now rewrite B in Bc.
Qed.
Lemma generic_attended c ops : attended ops -> forall d, Forall no_failure ops -> 1 <= limit -> works c = true -> settled_g c d ->
  settled_g c (rrun works RGeneric limit d ops).
Proof.
  induction 1 as [|k f ops K A IH|k f ops A IH|ops A IH]; intros d F L W S0; auto.
  - inversion F as [|? ? F1 F2]; subst. inversion F2 as [|? ? F3 F4]; subst.
    change (rrun works RGeneric limit d (RBoot :: RStart k f :: ops)) with (rrun works RGeneric limit (rstep works RGeneric limit (uboot RGeneric limit d) (RStart k f)) ops).
    apply IH; auto. destruct S0 as (S1 & S2 & S3 & S4). unfold booted_commit in S2. rewrite S3 in S2.
    apply generic_start; auto.
    + unfold booted_commit. rewrite uboot_deps. unfold uboot, counting. rewrite S1. destruct (u_rollback (r_env d)) eqn:U.
      * destruct S4 as [S4|S4]; [discriminate|]. destruct (r_deps d) as [|a [|]]; try discriminate. exact S2.
      * replace (limit <? 0 + 1) with false by (symmetry; apply Z.ltb_ge; lia). exact S2.
    + unfold uboot, counting. rewrite S1. destruct (u_rollback (r_env d)) eqn:U.
      * destruct S4 as [S4|S4]; [discriminate|]. destruct (r_deps d) as [|a [|]]; try discriminate. reflexivity.
      * replace (limit <? 0 + 1) with false by (symmetry; apply Z.ltb_ge; lia). reflexivity.
    + rewrite uboot_deps. unfold uboot, counting. rewrite S1. destruct (u_rollback (r_env d)) eqn:U.
      * destruct S4 as [S4|S4]; [discriminate|]. now right.
      * replace (limit <? 0 + 1) with false by (symmetry; apply Z.ltb_ge; lia). now left.
  - inversion F as [|? ? F1 F2]; subst.
    change (rrun works RGeneric limit d (RStart k f :: ops)) with (rrun works RGeneric limit (rstep works RGeneric limit d (RStart k f)) ops).
    apply IH; auto. destruct S0 as (S1 & S2 & S3 & S4). destruct k as [|k]; [|apply generic_start; auto; lia].
    simpl. rewrite S2, W. unfold rstart, image_updated, settled_g. rewrite S3. simpl. repeat split; auto. unfold booted_commit in *. simpl. now rewrite S3 in S2.
  - inversion F as [|? ? F1 F2]; subst. apply IH; auto.
Qed.
Theorem generic_stays d k f ops : safe works RGeneric d -> r_booted d = 0%nat -> works (booted_commit d) = true -> quiet_list f -> (1 <= k)%nat ->
  1 <= limit -> Forall no_failure ops -> attended ops ->
  booted_commit (rrun works RGeneric limit d (RStart k f :: ops)) = booted_commit d.
Proof.
  intros (C & D & R) B W Q K L F A.
  assert (U : u_rollback (r_env d) = false \/ List.length (r_deps d) = 1%nat).
  { destruct (r_deps d) as [|a [|b [|]]]; try contradiction; [right; reflexivity|]. destruct D as (_ & _ & [(_ & D)|D]); [left; exact D|congruence]. }
  change (rrun works RGeneric limit d (RStart k f :: ops)) with (rrun works RGeneric limit (rstep works RGeneric limit d (RStart k f)) ops).
  apply (generic_attended (booted_commit d) ops A); auto. now apply generic_start.
Qed.
End C.

(** ** Kernel arguments *)
Lemma split_join s : spaced (split_all " " s) = s.
Proof.
  induction s as [|a s IH]; auto. cbn [split_all]. destruct (Ascii.eqb_spec a " ") as [->|N].
  - destruct (split_all " " s) as [|x l] eqn:E; [destruct s as [|b s]; simpl in E; [discriminate|destruct (Ascii.eqb b " "); [discriminate|destruct (split_all " " s); discriminate]]|].
    simpl spaced in *. destruct l; simpl in *; now rewrite IH.
  - destruct (split_all " " s) as [|x l] eqn:E; [simpl in IH; now subst|]. destruct l; simpl in *; now rewrite IH.
Qed.
Lemma read_strv_args l : read_strv (map CStr l ++ [CNull]) = KArgs l.
Proof. induction l as [|x l IH]; simpl; auto. now rewrite IH. Qed.
Lemma set_nth_last x y : forall l, set_nth (List.length l) x (map CStr l ++ [y]) = map CStr l ++ [x].
Proof. induction l as [|a l IH]; simpl; auto. now rewrite IH. Qed.
Theorem kargs_kept s : exists l, install_kargs false (Some s) = KArgs l /\ spaced l = s.
Proof.
  unfold install_kargs. exists (split_all " " s). split; [|apply split_join]. cbn zeta. rewrite set_nth_last. apply read_strv_args.
Qed.

(** ** The reported version *)
Lemma find_rev_last {A} (P : A -> bool) l x : find P (rev l) = Some x -> exists a b, l = a ++ x :: b /\ P x = true /\ forall y, In y b -> P y = false.
Proof.
  induction l as [|y l' IH] using rev_ind; [discriminate|]. rewrite rev_app_distr. simpl. destruct (P y) eqn:E.
  - intros H. injection H as ->. exists l', []. repeat split; auto. intros ? [].
  - intros H. destruct IH as (a & b & -> & H1 & H2); [exact H|]. exists a, (b ++ [y]). split; [now rewrite <- List.app_assoc|]. split; auto.
    intros z Hz. apply in_app_or in Hz. destruct Hz as [Hz|[<-|[]]]; auto.
Qed.
Theorem current_booted savec loadc ecus ops booted :
  (forall o, In o ops -> exists s t m, o = OpSave s t m /\ good_target savec loadc t) ->
  let d0 := {| il_ecus := ecus; il_log := [] |} in
  let d := irun savec d0 ops in
  exists r c p l, ostree_current loadc booted d = Ok r /\ load_installed loadc "" d = Ok (c, p) /\ load_log loadc "" false d = Ok l /\
  match r with
  | Some x => sha256_hash x = booted /\
              (exists s t m, In (OpSave s t m) ops /\ real_serial d0 s = real_serial d0 "" /\ same_key t x) /\
              (c = Some x \/
               (forall y, c = Some y -> sha256_hash y <> booted) /\ exists a b, l = a ++ x :: b /\ forall y, In y b -> sha256_hash y <> booted)
  | None => forall s t m, In (OpSave s t m) ops -> real_serial d0 s = real_serial d0 "" -> sha256_hash t <> booted
  end.
Proof.
  intros H d0 d. destruct (log_complete savec loadc ecus ops "" false H) as (l & Hlog & Hl). fold d0 in Hlog, Hl. fold d in Hlog.
  assert (W : wf savec (good_target savec loadc) d) by (apply irun_wf; [exact H|apply empty_wf]).
  destruct (load_total savec loadc _ "" W) as (c & p & Hload).
  assert (Hfind : (forall y, c = Some y -> sha256_hash y <> booted) -> 
    match find (fun t => String.eqb (sha256_hash t) booted) (rev l) with
    | Some x => sha256_hash x = booted /\
              (exists s t m, In (OpSave s t m) ops /\ real_serial d0 s = real_serial d0 "" /\ same_key t x) /\
              (c = Some x \/
               (forall y, c = Some y -> sha256_hash y <> booted) /\ exists a b, l = a ++ x :: b /\ forall y, In y b -> sha256_hash y <> booted)
    | None => forall s t m, In (OpSave s t m) ops -> real_serial d0 s = real_serial d0 "" -> sha256_hash t <> booted
    end).
  { intros Nc. destruct (find _ _) as [x|] eqn:F.
    - pose proof (find_rev_last _ _ _ F) as (a & b & Fl & Fx & Fb). apply String.eqb_eq in Fx. split; [exact Fx|]. split.
      + destruct (proj1 (Hl x)) as (s' & t' & m' & A1 & _ & A2 & A3); [exists x; split; [rewrite Fl; apply in_or_app; right; now left|split; reflexivity]|]. exists s', t', m'. auto.
      + right. split; [exact Nc|]. exists a, b. split; [exact Fl|]. intros y Hy. apply String.eqb_neq. exact (Fb y Hy).
    - intros s t m Hin Hp E. destruct (proj2 (Hl t)) as (x & X1 & X2 & X3).
      { exists s, t, m. repeat split; auto. discriminate. }
      apply in_rev in X1. pose proof (find_none _ _ F _ X1) as N. cbv beta in N. apply String.eqb_neq in N. congruence. }
  unfold ostree_current. rewrite Hload. cbn [bind fst]. rewrite Hlog. cbn [bind].
  destruct c as [x|]; [|do 4 eexists; repeat split; apply Hfind; discriminate].
  destruct (String.eqb_spec (sha256_hash x) booted) as [E|E]; [|do 4 eexists; repeat split; apply Hfind; intros y Hy; injection Hy as <-; exact E].
  do 4 eexists. split; [reflexivity|]. split; [reflexivity|]. split; [reflexivity|]. split; [exact E|]. split; [|left; reflexivity]. clear Hfind.
  unfold load_installed in Hload. apply bind_ok in Hload. destruct Hload as (c' & Hc & Hload). apply bind_ok in Hload. destruct Hload as (p' & _ & Hload).
  injection Hload as -> ->. unfold read_opt in Hc. destruct (cur_row _ _) as [r|] eqn:Er; [|discriminate].
  apply bind_ok in Hc. destruct Hc as (x' & Hx & Hc). injection Hc as ->.
  apply cur_row_spec in Er. destruct Er as (R1 & R2 & R3).
  destruct (read_ok savec loadc _ (real_serial d "") r W R1) as (y & Y1 & Y2 & Y3 & Y4). rewrite Hx in Y1. injection Y1 as <-.
  destruct (log_rows savec loadc ops d0 H (empty_wf savec loadc ecus) (i_ecu r) (i_name r) (i_sha r)) as (_ & L2). fold d in L2.
  destruct (proj1 L2) as [(r0 & [] & _)|(s & t & m & I1 & I2 & I3 & I4)]; [now exists r|].
  exists s, t, m. split; [exact I1|]. split; [|split; congruence].
  rewrite R2 in I2. rewrite <- I2. symmetry. apply real_ecus. unfold d. symmetry. apply (irun_real savec loadc ops d0 H).
Qed.
