(** Reboots and the completion of updates: properties C39, C40. *)
From Verif Require Import Base BootModel BootSpec BootProofs.

(** ** C40 *)
(** For every sequence of setting and clearing the flag, complete or interrupted by a crash, reboots and restarts: a reboot
    is detected exactly if one happened since the flag was set. *)
Theorem C40_detected_iff h : reboot_detected true (frun true h) = true <-> rebooted_since_set h.
Proof. exact (detected_iff h). Qed.
Print Assumptions C40_detected_iff.
(** Where the directory of the sentinel cannot be created, never. *)
Theorem C40_unsupported h : reboot_detected false (frun false h) = false.
Proof. reflexivity. Qed.
Print Assumptions C40_unsupported.
Example C40_nonvacuous : rebooted_since_set [FSet 2; FRestart; FReboot; FClear 0; FRestart] /\ ~ rebooted_since_set [FSet 2; FReboot; FClear 1] /\
  ~ rebooted_since_set [FReboot; FSet 2; FRestart] /\ ~ rebooted_since_set [FSet 1; FReboot].
Proof. repeat split; try (intros H; apply C40_detected_iff in H; discriminate). apply C40_detected_iff. reflexivity. Qed.

(** ** C39 *)
(** An update that needs a reboot was installed; then come restarts of the process, each of which may crash anywhere, and
    at least one reboot, into whatever version. After the next complete start nothing is pending and the outcome is known. *)
Definition C39_statement : Prop := forall pm t b ops, Forall init_or_reboot ops -> Exists is_reboot ops ->
  done t (krun pm true b (KInstall t full :: ops ++ [KInit full])).
Definition fresh : boot := {| k_flags := {| fl_need := false; fl_sent := false |}; k_booted := "v1"; k_next := "v1"; k_cur := "v1"; k_pend := None; k_ecu := None; k_dev := false |}.
(** A crash after the flag was cleared and before the version is recorded: the update stays pending. *)
Theorem C39_refuted : ~ C39_statement.
Proof.
  intros S. destruct (S PmOstree "v2" fresh [KReboot "v2"; KInit 1]) as [P _].
  - constructor; [right; eexists; reflexivity|constructor; [left; eexists; reflexivity|constructor]].
  - constructor. eexists. reflexivity.
  - vm_compute in P. discriminate.
Qed.
Print Assumptions C39_refuted.
(** And it stays so, whatever restarts and reboots follow. *)
Theorem C39_stuck_forever pm t b v k ops : (1 <= k <= 3)%nat -> Forall init_or_reboot ops ->
  k_pend (krun pm true b ([KInstall t full; KReboot v; KInit k] ++ ops)) = Some t.
Proof.
  intros K F. unfold krun. rewrite fold_left_app. apply (stuck_run pm t ops); [exact F|]. cbn [fold_left].
  pose proof (rebooted_init pm t _ k (waiting_reboot pm t _ v (or_introl (install_waits pm t b)))) as H. cbv zeta in H.
  destruct k as [|[|[|[|k]]]]; try lia; exact (proj1 H).
Qed.
Print Assumptions C39_stuck_forever.
(** Without such a crash the property holds. *)
Theorem C39_partial pm t b ops : Forall init_or_reboot ops -> Forall no_bad_crash ops -> Exists is_reboot ops ->
  done t (krun pm true b (KInstall t full :: ops ++ [KInit full])).
Proof. exact (completes pm t b ops). Qed.
Print Assumptions C39_partial.
(** The version becomes current exactly if it was booted; else the one before stays. *)
Theorem C39_outcome t b v k : (4 <= k)%nat -> let b' := krun PmOstree true b [KInstall t full; KReboot v; KInit k] in
  k_pend b' = None /\ k_cur b' = (if String.eqb v t then t else k_cur b) /\ k_ecu b' = Some (t, String.eqb v t).
Proof.
  intros K. cbn [krun fold_left]. pose proof (rebooted_init PmOstree t _ k (waiting_reboot PmOstree t _ v (or_introl (install_waits PmOstree t b)))) as H. cbv zeta in H.
  destruct k as [|[|[|[|k]]]]; try lia. destruct H as (A & B & C & _). rewrite A, B, C. split; [reflexivity|]. split; reflexivity.
Qed.
Print Assumptions C39_outcome.
(** Before a reboot a start changes nothing. *)
Theorem C39_not_before_reboot pm t b ops : Forall (fun o => exists k, o = KInit k) ops -> k_pend (krun pm true b (KInstall t full :: ops)) = Some t.
Proof. intros F. apply (waiting_stays pm t ops _ F (install_waits pm t b)). Qed.
Print Assumptions C39_not_before_reboot.
(** Without reboot detection an update is never completed. *)
Theorem C39_unsupported pm t b ops : Forall init_or_reboot ops -> k_pend (krun pm false b (KInstall t full :: ops)) = Some t.
Proof.
  intros F. cbn [krun fold_left]. assert (H : k_pend (kstep pm false b (KInstall t full)) = Some t) by (destruct pm; reflexivity). revert H.
  generalize (kstep pm false b (KInstall t full)). induction F as [|o ops I F IH]; intros b' P; [exact P|]. cbn [fold_left]. apply IH.
  destruct I as [(k & ->)|(v & ->)]; [|exact P]. cbn [kstep]. unfold finalize_steps, reboot_detected. rewrite P. cbn [andb negb]. rewrite crash_nil. exact P.
Qed.
Print Assumptions C39_unsupported.
Example C39_nonvacuous : Forall no_bad_crash [KInit 0; KReboot "v2"; KInit 0] /\
  k_cur (krun PmOstree true fresh (KInstall "v2" full :: [KInit 0; KReboot "v2"; KInit 0] ++ [KInit full])) = "v2" /\
  k_cur (krun PmOstree true fresh (KInstall "v2" full :: [KReboot "v1"] ++ [KInit full])) = "v1".
Proof. split; [|split; reflexivity]. repeat (apply Forall_cons; [intros k E; try discriminate; injection E as <-; auto|]). apply Forall_nil. Qed.
