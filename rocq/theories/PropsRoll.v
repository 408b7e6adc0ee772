(** C123-C128: rollback, kernel arguments and the reported version of an OSTree device. *)
From Verif Require Import Base Json TufModel CodecModel CodecSpec InstModel InstSpec PropsInst PropsInstLog RollModel RollSpec RollProofs.

(** ** C123 *)
(** Whatever updates were installed, interrupted or failed, and however often the machine was switched off: after at most
    one boot more than the limit it is in an image in which the client works. *)
Definition C123_statement : Prop := forall works m limit c ops, m <> RNone -> 0 <= limit -> works c = true ->
  exists n, (1 <= n <= Z.to_nat limit + 1)%nat /\
  works (booted_commit (after_boots m limit n (rrun works m limit (factory c) ops))) = true.
(** It holds if the variables of U-Boot can be set. *)
Theorem C123_partial works m limit c ops : m <> RNone -> 0 <= limit -> works c = true -> Forall no_failure ops ->
  exists n, (1 <= n <= Z.to_nat limit + 1)%nat /\
  works (booted_commit (after_boots m limit n (rrun works m limit (factory c) ops))) = true.
Proof. intros Hm Hl W F. apply recover; auto. apply rrun_safe; auto. now apply factory_safe. Qed.
Print Assumptions C123_partial.
(** If upgrade_available cannot be set, the update is installed nevertheless and nothing watches it. *)
Definition good_only (c : string) : bool := negb (String.eqb c "bad").
Definition unwatched : list rop := [RBoot; RStart 2 []; RInstall "bad" 4 [false; true; false] true].
Lemma unwatched_stays n : r_env (after_boots RMasked 3 (S n) (rrun good_only RMasked 3 (factory "v1") unwatched)) = {| u_count := 0; u_upgrade := false; u_rollback := false |} /\
  r_booted (after_boots RMasked 3 (S n) (rrun good_only RMasked 3 (factory "v1") unwatched)) = 0%nat.
Proof.
  induction n as [|n IH]; [split; reflexivity|].
  set (d := rrun _ _ _ _ _) in *. change (after_boots RMasked 3 (S (S n)) d) with (uboot RMasked 3 (after_boots RMasked 3 (S n) d)).
  destruct IH as (E & _). unfold uboot. rewrite E. split; reflexivity.
Qed.
Theorem C123_refuted : ~ C123_statement.
Proof.
  intros H. destruct (H good_only RMasked 3 "v1" unwatched) as (n & (N & _) & E); [discriminate|lia|reflexivity|].
  destruct n as [|n]; [lia|]. destruct (unwatched_stays n) as (_ & B). unfold booted_commit in E. rewrite B, boots_deps in E. discriminate.
Qed.
Print Assumptions C123_refuted.
(** A bad update, interrupted while it is announced, then installed, and the power cut once. *)
Definition rough : list rop :=
  [RBoot; RStart 2 []; RInstall "bad" 2 [] true; RBoot; RStart 1 []; RKill; RStart 2 []; RInstall "bad" 4 [] true; RKill; RBoot; RBoot].
Example C123_nonvacuous : Forall no_failure rough /\ good_only "v1" = true /\
  booted_commit (rrun good_only RMasked 3 (factory "v1") rough) = "bad" /\
  booted_commit (after_boots RMasked 3 2 (rrun good_only RMasked 3 (factory "v1") rough)) = "v1" /\
  booted_commit (rrun good_only RGeneric 3 (factory "v1") rough) = "bad" /\
  booted_commit (after_boots RGeneric 3 2 (rrun good_only RGeneric 3 (factory "v1") rough)) = "v1".
Proof. split; [|repeat split]. repeat constructor; intros ? []. Qed.

(** ** C124 *)
(** An update whose image does not start the client is undone: after more boots than the limit the image from which it was
    installed is booted, and remains booted as long as no other image is installed. *)
Definition C124_statement : Prop := forall works m limit c ops0 new k f ops, m <> RNone -> 0 <= limit -> works c = true ->
  Forall no_failure ops0 -> let d := rrun works m limit (factory c) ops0 in r_running d = true ->
  no_failure (RInstall new k f true) -> (List.length (notify_cmds m) < k)%nat -> works new = false ->
  Forall no_failure ops -> Forall no_new_image ops -> limit < boots_in ops ->
  booted_commit (rrun works m limit (rstep works m limit d (RInstall new k f true)) ops) = booted_commit d.
(** It holds as long as no other update is attempted. *)
Theorem C124_partial works m limit c ops0 new k f ops : m <> RNone -> 0 <= limit -> works c = true ->
  Forall no_failure ops0 -> let d := rrun works m limit (factory c) ops0 in r_running d = true ->
  no_failure (RInstall new k f true) -> (List.length (notify_cmds m) < k)%nat -> works new = false ->
  Forall no_update ops -> limit < boots_in ops ->
  booted_commit (rrun works m limit (rstep works m limit d (RInstall new k f true)) ops) = booted_commit d.
Proof.
  intros Hm Hl W F d Run Q K Wn N B. apply (bad_undone works m limit Hm Hl); auto. apply rrun_safe; auto. now apply factory_safe.
Qed.
Print Assumptions C124_partial.
(** The announcement of an update whose installation fails resets the rollback: the bad image is booted again. *)
Theorem C124_refuted : ~ C124_statement.
Proof.
  intros H.
  specialize (H good_only RMasked 1 "v1" [RBoot; RStart 2 []] "bad" 4%nat [] [RBoot; RBoot; RStart 2 []; RInstall "v2" 4 [] false; RBoot]).
  assert (X : booted_commit (rrun good_only RMasked 1 (factory "v1") [RBoot; RStart 2 []; RInstall "bad" 4 [] true; RBoot; RBoot; RStart 2 []; RInstall "v2" 4 [] false; RBoot]) = "v1").
  { apply H; try reflexivity; try discriminate; try lia; try (repeat constructor; fail).
    all: try (repeat constructor; intros ? []; fail); try (intros ? []; fail); cbn; lia. }
  vm_compute in X. discriminate.
Qed.
Print Assumptions C124_refuted.
Example C124_nonvacuous :
  let d := rrun good_only RMasked 3 (factory "v1") [RBoot; RStart 2 []; RInstall "v2" 4 [] true; RBoot; RStart 2 []] in
  r_running d = true /\ booted_commit d = "v2" /\
  let ops := [RKill; RStart 2 []; RBoot; RBoot; RStart 2 []; RBoot; RBoot; RStart 2 []; RBoot] in
  boots_in ops = 5 /\
  map (fun n => booted_commit (rrun good_only RMasked 3 (rstep good_only RMasked 3 d (RInstall "bad" 4 [] true)) (firstn n ops))) (seq 0 10) =
  ["v2"; "v2"; "v2"; "bad"; "bad"; "bad"; "bad"; "v2"; "v2"; "v2"].
Proof. repeat split. Qed.

(** ** C125 *)
(** An image that was confirmed, because the client started in it, stays booted as long as no other image is installed. *)
Definition C125_statement (m : rmode) (may : rop -> Prop) : Prop := forall works limit c ops0 k f ops, 1 <= limit -> works c = true ->
  Forall no_failure ops0 -> let d := rrun works m limit (factory c) ops0 in r_booted d = 0%nat -> works (booted_commit d) = true ->
  no_failure (RStart k f) -> (2 <= k)%nat -> Forall no_failure ops -> Forall may ops ->
  booted_commit (rrun works m limit d (RStart k f :: ops)) = booted_commit d.
(** In mode masked, as long as no update is attempted. *)
Theorem C125_partial : C125_statement RMasked no_update.
Proof.
  intros works limit c ops0 k f ops L W F0 d B Wd Q K _ N. apply confirmed_stays; auto.
  apply (rrun_safe works RMasked limit); [discriminate|auto|now apply factory_safe].
Qed.
Print Assumptions C125_partial.
(** In mode generic, as long as the client is started after each boot. *)
Theorem C125_generic works limit c ops0 k f ops : 1 <= limit -> works c = true ->
  Forall no_failure ops0 -> let d := rrun works RGeneric limit (factory c) ops0 in r_booted d = 0%nat -> works (booted_commit d) = true ->
  no_failure (RStart k f) -> (1 <= k)%nat -> Forall no_failure ops -> attended ops ->
  booted_commit (rrun works RGeneric limit d (RStart k f :: ops)) = booted_commit d.
Proof.
  intros L W F0 d B Wd Q K F A. apply generic_stays; auto.
  apply (rrun_safe works RGeneric limit); [discriminate|auto|now apply factory_safe].
Qed.
Print Assumptions C125_generic.
Definition updated : list rop := [RBoot; RStart 2 []; RInstall "v2" 4 [] true; RBoot].
(** An update that is announced and fails makes the confirmed image be watched again. *)
Theorem C125_refuted : ~ C125_statement RMasked no_new_image.
Proof.
  intros H. specialize (H (fun _ => true) 1 "v1" updated 2%nat [] [RInstall "v3" 4 [] false; RBoot; RBoot]).
  assert (X : booted_commit (rrun (fun _ => true) RMasked 1 (rrun (fun _ => true) RMasked 1 (factory "v1") updated) [RStart 2 []; RInstall "v3" 4 [] false; RBoot; RBoot]) = "v2").
  { apply H; try reflexivity; try lia; repeat constructor; intros ? []. }
  vm_compute in X. discriminate.
Qed.
Print Assumptions C125_refuted.
(** In mode generic, switching the machine on and off some times is enough. *)
Theorem C125_generic_refuted : ~ C125_statement RGeneric no_update.
Proof.
  intros H. specialize (H (fun _ => true) 1 "v1" updated 2%nat [] [RBoot; RBoot]).
  assert (X : booted_commit (rrun (fun _ => true) RGeneric 1 (rrun (fun _ => true) RGeneric 1 (factory "v1") updated) [RStart 2 []; RBoot; RBoot]) = "v2").
  { apply H; try reflexivity; try lia; repeat constructor; intros ? []. }
  vm_compute in X. discriminate.
Qed.
Print Assumptions C125_generic_refuted.
Example C125_nonvacuous : Forall no_failure updated /\
  r_booted (rrun good_only RMasked 2 (factory "v1") updated) = 0%nat /\ booted_commit (rrun good_only RMasked 2 (factory "v1") updated) = "v2" /\
  booted_commit (rrun good_only RMasked 2 (factory "v1") (updated ++ [RStart 2 []; RBoot; RBoot; RBoot; RBoot; RStart 1 []])) = "v2" /\
  attended [RKill; RBoot; RStart 1 []; RBoot; RStart 2 []] /\
  booted_commit (rrun good_only RGeneric 1 (factory "v1") (updated ++ [RStart 2 []] ++ [RKill; RBoot; RStart 1 []; RBoot; RStart 2 []])) = "v2".
Proof. split; [repeat constructor; intros ? []|]. repeat split. repeat constructor. Qed.

(** ** C126 *)
(** The new deployment is given the kernel arguments of the current one, unchanged. *)
Definition C126_statement : Prop := forall checked s, exists l, install_kargs checked (Some s) = KArgs l /\ spaced l = s.
(** It holds where the unchecked write behind the last element of the vector goes to the reserved cell. *)
Theorem C126_partial s : exists l, install_kargs false (Some s) = KArgs l /\ spaced l = s.
Proof. exact (kargs_kept s). Qed.
Print Assumptions C126_partial.
(** The write is out of range for every argument list. *)
Theorem C126_refuted : ~ C126_statement.
Proof. intros H. destruct (H true "quiet") as (l & E & _). discriminate. Qed.
Print Assumptions C126_refuted.
Theorem C126_always_undefined s : install_kargs true s = KUndefined.
Proof. destruct s; reflexivity. Qed.
Print Assumptions C126_always_undefined.
Example C126_nonvacuous : install_kargs false (Some "quiet  root=/dev/sda") = KArgs ["quiet"; ""; "root=/dev/sda"].
Proof. reflexivity. Qed.

(** ** C127 *)
(** The version reported as current is one that was recorded for the Primary and has the hash of the booted image: the
    recorded current one if that has it, else the last one listed that has it. Unknown is reported only if no recorded
    version has that hash. *)
Theorem C127 savec loadc ecus ops booted :
  (forall o, In o ops -> exists s t m, o = OpSave s t m /\ good_target savec loadc t) ->
  let d0 := {| il_ecus := ecus; il_log := [] |} in
  let d := irun savec d0 ops in
  exists r c p l, ostree_current loadc booted d = Ok r /\ load_installed loadc "" d = Ok (c, p) /\ load_log loadc "" false d = Ok l /\
  match r with
  | Some x => sha256_hash x = booted /\
              (exists s t m, In (OpSave s t m) ops /\ real_serial d0 s = real_serial d0 "" /\ same_key t x) /\
              (c = Some x \/
               (forall y, c = Some y -> sha256_hash y <> booted) /\ exists a b, l = a ++ x :: b /\ forall y, In y b -> sha256_hash y <> booted)
  | None => forall s t m, In (OpSave s t m) ops -> real_serial d0 s = real_serial d0 "" -> sha256_hash t <> booted
  end.
Proof. exact (current_booted savec loadc ecus ops booted). Qed.
Print Assumptions C127.
(** After a rollback: B was installed last, A is booted. *)
Definition rolled_back : list iop := [OpSave "p" tA ModeCurrent; OpSave "s" tB ModeCurrent; OpSave "" tB ModePending; OpSave "" tB ModeNone].
Example C127_nonvacuous : (forall o, In o rolled_back -> exists s t m, o = OpSave s t m /\ good_target sv ld t) /\
  (exists x, ostree_current ld (sha256_hash tA) (irun sv {| il_ecus := [("p", "hw")]; il_log := [] |} rolled_back) = Ok (Some x) /\ same_key x tA) /\
  (exists x, ostree_current ld (sha256_hash tB) (irun sv {| il_ecus := [("p", "hw")]; il_log := [] |} rolled_back) = Ok (Some x) /\ same_key x tB) /\
  ostree_current ld "00" (irun sv {| il_ecus := [("p", "hw")]; il_log := [] |} rolled_back) = Ok None.
Proof.
  split; [|split; [|split]].
  - intros o H. simpl in H. repeat destruct H as [<-|H]; [..|destruct H]; do 3 eexists; split; try reflexivity; first [exact good_A|exact good_B].
  - eexists. split; [reflexivity|]. split; reflexivity.
  - eexists. split; [reflexivity|]. split; reflexivity.
  - reflexivity.
Qed.

(** ** C128 *)
(** An installed update takes effect: the machine boots it next, and again until it booted as often as the limit says. *)
Theorem C128 works m limit c ops0 new k f n : m <> RNone -> works c = true ->
  Forall no_failure ops0 -> let d := rrun works m limit (factory c) ops0 in r_running d = true ->
  no_failure (RInstall new k f true) -> (List.length (notify_cmds m) < k)%nat -> (1 <= n)%nat -> Z.of_nat n <= limit ->
  booted_commit (after_boots m limit n (rstep works m limit d (RInstall new k f true))) = new.
Proof.
  intros Hm W F d Run Q K N1 N2. assert (Hl : 0 <= limit) by lia. apply (new_booted works m limit Hm Hl); auto.
  apply rrun_safe; auto. now apply factory_safe.
Qed.
Print Assumptions C128.
(** After a rollback another update is installed. *)
Example C128_nonvacuous :
  let ops := [RBoot; RStart 2 []; RInstall "bad" 4 [] true; RBoot; RBoot; RBoot; RStart 2 []] in
  Forall no_failure ops /\ r_running (rrun good_only RMasked 2 (factory "v1") ops) = true /\ u_rollback (r_env (rrun good_only RMasked 2 (factory "v1") ops)) = true /\ booted_commit (rrun good_only RMasked 2 (factory "v1") ops) = "v1" /\ map (fun n => booted_commit (after_boots RMasked 2 n (rstep good_only RMasked 2 (rrun good_only RMasked 2 (factory "v1") ops) (RInstall "v2" 4 [] true)))) (seq 0 4) = ["v1"; "v2"; "v2"; "v1"].
Proof. split; [repeat constructor; intros ? []|]. repeat split. Qed.
