(** Installation results and manifests: properties C32, C42, C43, C58-C60. *)
From Verif Require Import Base Json CodecModel CodecSpec CodecProofs DevModel DevSpec DevProofs DevProofs2 DevProofs3.

(** Histories: any sequence of stored ECU results, stored device results, manifests (accepted, rejected, lost, with a crash
    before the results are cleared) and changes of the pending flag, from a device with no results. *)
Definition history sc lc vf c ecus cnt ops (d : dev) (h : list dev_ev) : Prop :=
  Forall ints ops /\ drun sc lc vf c (dev_init ecus cnt) ops = (d, h).
Lemma history_inv sc lc vf c ecus cnt ops d h : history sc lc vf c ecus cnt ops d h -> hinv ecus h d /\ faithful ecus h.
Proof. intros [I R]. exact (drun_hinv sc lc vf c ecus ops [] (dev_init ecus cnt) d h I (hinv_init ecus cnt) (faithful_nil ecus) R). Qed.

Ltac ints_ok := repeat (apply Forall_cons || apply Forall_nil); try exact I; (vm_compute; split; discriminate).

(** ** C32 *)
(** What is claimed of the result computed for the device after a history: success exactly if there are results and all of
    them are of known ECUs and successes; otherwise "needs completion" if one is waiting and all are known; otherwise the
    list of all failed ECUs. *)
Definition C32_statement : Prop := forall sc lc vf c ecus cnt ops d h, history sc lc vf c ecus cnt ops d h ->
  let l := outstanding_list ecus h in l <> [] -> Forall (fun e => known c (fst e)) l ->
  exists r raw, device_result c d = Ok (r, raw) /\
    (ir_success r = true <-> Forall (fun e => succeeded (snd e)) l) /\
    (Exists (fun e => waits (snd e)) l -> rc_num (ir_code r) = kNeedCompletion) /\
    (Forall (fun e => ~ waits (snd e)) l -> failures c l <> [] -> ir_code r = {| rc_num := kInstallFailed; rc_text := String.concat "|" (failures c l) |}).
Definition ex_client : client := {| c_primary := "p"; c_hw := "hp"; c_secs := [("s", "hs")] |}.
Definition ex_ecus := [("p", "hp"); ("s", "hs")].
Definition failed := mk_ires (num kInstallFailed) "". Definition waiting := mk_ires (num kNeedCompletion) "".
Theorem C32_refuted : ~ C32_statement.
Proof.
  intros S. destruct (drun (fun _ => "") (fun _ => JNull) (fun _ _ => true) ex_client (dev_init ex_ecus []) [DEcu "p" failed; DEcu "s" waiting]) as [d h] eqn:R.
  assert (H : Forall ints [DEcu "p" failed; DEcu "s" waiting]) by ints_ok.
  specialize (S _ _ _ ex_client ex_ecus [] _ d h (conj H R)). vm_compute in R. injection R as <- <-.
  cbv zeta in S. destruct S as (r & raw & D & _ & W & _).
  - discriminate.
  - vm_compute. repeat constructor; [exists "hp"|exists "hs"]; reflexivity.
  - vm_compute in D. injection D as <- <-. cbn in W. discriminate W. apply Exists_cons_tl, Exists_cons_hd. split; [reflexivity|left; reflexivity].
Qed.
Print Assumptions C32_refuted.
(** The result depends on the order of the ECUs: the same two results, the other way round, give another code. *)
Theorem C32_order : let run ecus := snd (drun (fun _ => "") (fun _ => JNull) (fun _ _ => true) ex_client (dev_init ecus []) [DEcu "p" failed; DEcu "s" waiting; DStoreComputed ""]) in
  (exists a b, outstanding (run [("p", "hp"); ("s", "hs")]) = Some (a, b, "") /\ rc_num (ir_code a) = kInstallFailed) /\
  (exists a b, outstanding (run [("s", "hs"); ("p", "hp")]) = Some (a, b, "") /\ rc_num (ir_code a) = kNeedCompletion).
Proof. split; vm_compute; do 2 eexists; split; reflexivity. Qed.
Print Assumptions C32_order.
(** Success is reported exactly if every outstanding result is of a known ECU and a success (and there is one). *)
Theorem C32_success_iff sc lc vf c ecus cnt ops d h r raw : history sc lc vf c ecus cnt ops d h -> device_result c d = Ok (r, raw) ->
  (ir_success r = true <-> outstanding_list ecus h <> [] /\ Forall (fun e => known c (fst e) /\ succeeded (snd e)) (outstanding_list ecus h)).
Proof. intros H. exact (history_success c ecus h d r raw (proj1 (history_inv _ _ _ _ _ _ _ _ _ H))). Qed.
Print Assumptions C32_success_iff.
(** For results made from a code, as installers report them: success means the code "ok" (0) or "already processed" (1). *)
Theorem C32_success_codes sc lc vf c ecus cnt ops d h r raw : history sc lc vf c ecus cnt ops d h -> device_result c d = Ok (r, raw) ->
  Forall (fun e => exists code text, snd e = mk_ires code text) (outstanding_list ecus h) ->
  (ir_success r = true <-> outstanding_list ecus h <> [] /\
     Forall (fun e => known c (fst e) /\ (rc_num (ir_code (snd e)) = 0 \/ rc_num (ir_code (snd e)) = 1)) (outstanding_list ecus h)).
Proof.
  intros H D M. rewrite (C32_success_iff sc lc vf c ecus cnt ops d h r raw H D).
  assert (X : forall e, In e (outstanding_list ecus h) -> (succeeded (snd e) <-> rc_num (ir_code (snd e)) = 0 \/ rc_num (ir_code (snd e)) = 1)).
  { intros e He. rewrite Forall_forall in M. destruct (M e He) as (code & text & ->). unfold succeeded, waits, mk_ires, kOk, kAlreadyProcessed, kNeedCompletion; cbn.
    rewrite Bool.orb_true_iff, !Z.eqb_eq. split; [tauto|]. intros [Q|Q]; rewrite Q; (split; [auto|intros [? _]; discriminate]). }
  split; intros [N F]; (split; [exact N|]); rewrite Forall_forall in *; intros e He; destruct (F e He) as [K S]; (split; [exact K|]); apply X; assumption.
Qed.
Print Assumptions C32_success_codes.
(** With no waiting ECU every failed one is named, in order. *)
Theorem C32_partial sc lc vf c ecus cnt ops d h : history sc lc vf c ecus cnt ops d h -> outstanding_list ecus h <> [] ->
  Forall (fun e => known c (fst e) /\ ~ waits (snd e)) (outstanding_list ecus h) ->
  exists r raw, device_result c d = Ok (r, raw) /\
    ir_code r = match failures c (outstanding_list ecus h) with [] => num kOk | fs => {| rc_num := kInstallFailed; rc_text := String.concat "|" fs |} end.
Proof. intros H. exact (history_failures c ecus h d (proj1 (history_inv _ _ _ _ _ _ _ _ _ H))). Qed.
Print Assumptions C32_partial.
(** With one: the first ECU that waits or is unknown ends the scan; failures before it decide, else it does. *)
Theorem C32_first_waiting sc lc vf c ecus cnt ops d h pre e post : history sc lc vf c ecus cnt ops d h -> outstanding_list ecus h = pre ++ e :: post ->
  Forall (fun e => known c (fst e) /\ ~ waits (snd e)) pre -> known c (fst e) -> waits (snd e) ->
  exists r raw, device_result c d = Ok (r, raw) /\ ir_success r = false /\
    ir_code r = match failures c pre with [] => num kNeedCompletion | fs => {| rc_num := kInstallFailed; rc_text := String.concat "|" fs |} end.
Proof.
  intros H O A K W. destruct (history_blocked c ecus h d pre e post (proj1 (history_inv _ _ _ _ _ _ _ _ _ H)) O A (or_intror (conj K W))) as (r & raw & D & S & Q).
  exists r, raw. split; [exact D|]. split; [exact S|]. rewrite Q. destruct (failures c pre); [|reflexivity]. destruct K as [hw E]. unfold blocked_code. rewrite E. reflexivity.
Qed.
Print Assumptions C32_first_waiting.
Example C32_nonvacuous : exists d h r raw, history (fun _ => "") (fun _ => JNull) (fun _ _ => true) ex_client ex_ecus [] [DEcu "p" (mk_ires (num kOk) ""); DEcu "s" failed] d h /\
  List.length (outstanding_list ex_ecus h) = 2%nat /\ device_result ex_client d = Ok (r, raw) /\ rc_text (ir_code r) = "hs:INSTALL_FAILED".
Proof. do 4 eexists. split; [split; [ints_ok|vm_compute; reflexivity]|]. split; [vm_compute; reflexivity|]. split; vm_compute; reflexivity. Qed.

(** ** C42 *)
(** Report counters of the manifests sent are strictly increasing, if the new counter can be written. *)
Theorem C42_counter sc lc vf c ecus cnt ops d h h1 m1 ok1 a1 h2 m2 ok2 a2 h3 z1 z2 : drun sc lc vf c (dev_init ecus cnt) ops = (d, h) -> Forall writes_ok ops ->
  h = h1 ++ VSent m1 ok1 a1 :: h2 ++ VSent m2 ok2 a2 :: h3 -> m_counter m1 = Some z1 -> m_counter m2 = Some z2 -> z1 < z2.
Proof.
  intros R W E M1 M2. assert (I : increasing (sent_counters h)).
  { refine (drun_cinv sc lc vf c ops [] (dev_init ecus cnt) d h W _ I R). unfold cinv. destruct (joined _ _) as [|[? ?] ?]; [reflexivity|constructor]. }
  eapply (increasing_split _ (sent_counters h1) z1 (sent_counters h2) z2 (sent_counters h3) I).
  rewrite E, sent_app. f_equal. change (VSent m1 ok1 a1 :: h2 ++ VSent m2 ok2 a2 :: h3) with ([VSent m1 ok1 a1] ++ h2 ++ [VSent m2 ok2 a2] ++ h3).
  rewrite !sent_app. unfold sent_counters at 1 3. cbn [flat_map]. rewrite M1, M2. reflexivity.
Qed.
Print Assumptions C42_counter.
(** If the write fails, which is only logged, the same counter is sent again. *)
Theorem C42_failed_write : exists d m1 m2 a, drun (fun _ => "") (fun _ => JNull) (fun _ _ => true) ex_client (dev_init ex_ecus [("p", 7)]) [DManifest true false false (fun _ => JNull); DManifest true false true (fun _ => JNull)] =
  (d, [VSent m1 true a; VCleared; VSent m2 true a; VCleared]) /\ m_counter m1 = Some 8 /\ m_counter m2 = Some 8.
Proof. do 4 eexists. split; [vm_compute; reflexivity|]. split; reflexivity. Qed.
Print Assumptions C42_failed_write.
Example C42_nonvacuous : exists d m1 m2 a, drun (fun _ => "") (fun _ => JNull) (fun _ _ => true) ex_client (dev_init ex_ecus [("p", 7)]) [DManifest false false true (fun _ => JNull); DManifest true false true (fun _ => JNull)] =
  (d, [VSent m1 false a; VSent m2 true a; VCleared]) /\ m_counter m1 = Some 8 /\ m_counter m2 = Some 9.
Proof. do 4 eexists. split; [vm_compute; reflexivity|]. split; reflexivity. Qed.

(** ** C43 *)
(** Every manifest sent carries exactly the report that is due: the last device result stored and not yet cleared, with the
    outstanding results of the ECUs. *)
Theorem C43_contained sc lc vf c ecus cnt ops d h h1 m ok an h2 : history sc lc vf c ecus cnt ops d h -> h = h1 ++ VSent m ok an :: h2 -> m_report m = due_report ecus h1.
Proof. intros H E. exact (proj1 (proj2 (history_inv _ _ _ _ _ _ _ _ _ H)) h1 m ok an h2 E). Qed.
Print Assumptions C43_contained.
(** Results are cleared only directly after a manifest was accepted, and that manifest carried what was due. *)
Theorem C43_cleared sc lc vf c ecus cnt ops d h h1 h2 : history sc lc vf c ecus cnt ops d h -> h = h1 ++ VCleared :: h2 ->
  exists h0 m an, h1 = h0 ++ [VSent m true an] /\ m_report m = due_report ecus h0 /\ due_report ecus h1 = due_report ecus h0.
Proof.
  intros H E. destruct (history_inv _ _ _ _ _ _ _ _ _ H) as [_ [F1 F2]]. destruct (F2 h1 h2 E) as (h0 & m & an & ->). exists h0, m, an. split; [reflexivity|].
  split; [rewrite <- app_assoc in E; exact (F1 h0 m true an _ E)|].
  assert (X : forall s, outstanding_ecu s (h0 ++ [VSent m true an]) = outstanding_ecu s h0) by (intros s; rewrite oute_snoc; reflexivity).
  unfold due_report. rewrite out_snoc. destruct (outstanding h0) as [[[r raw] corr]|]; [|reflexivity]. f_equal. f_equal. apply flat_map_ext. intros e. rewrite X. reflexivity.
Qed.
Print Assumptions C43_cleared.
(** A manifest can always be assembled when no update is pending, whatever results are stored. *)
Theorem C43_sendable sc lc vf c ecus cnt ops d h ok crash sv an : history sc lc vf c ecus cnt ops d h -> v_pending d = false ->
  exists m rest, snd (dstep sc lc vf c d (DManifest ok crash sv an)) = VSent m ok an :: rest /\ m_report m = due_report ecus h.
Proof.
  intros H P. destruct (assemble_ok sc lc vf c an sv d ecus h (proj1 (history_inv _ _ _ _ _ _ _ _ _ H))) as (m & M & R).
  cbn [dstep]. rewrite P. destruct (assemble sc lc vf c an sv d) as [d1 rm]. cbn [snd] in M. subst rm. destruct (ok && negb crash)%bool; cbn [snd]; eauto.
Qed.
Print Assumptions C43_sendable.
Example C43_nonvacuous : exists d h m1 m2 an, history (fun _ => "") (fun _ => JNull) (fun _ _ => true) ex_client ex_ecus []
    [DEcu "s" failed; DStoreComputed "c1"; DManifest false false true (fun _ => JNull); DManifest true false true (fun _ => JNull); DManifest true false true (fun _ => JNull)] d
    (h ++ [VSent m1 false an; VSent m1 true an; VCleared; VSent m2 true an; VCleared]) /\ m_report m2 = None /\
    m_report m1 = Some {| rp_result := (false, "hs:INSTALL_FAILED", "Installation failed on one or more ECUs"); rp_raw := "Installation failed on one or more ECUs";
                          rp_corr := "c1"; rp_items := [("s", (false, "INSTALL_FAILED", ""))] |}.
Proof. eexists. eexists (_ :: _ :: nil). do 3 eexists. split; [split; [ints_ok|vm_compute; reflexivity]|]. split; vm_compute; reflexivity. Qed.

(** ** C58: an ECU's result is deleted only after it was reported *)
Definition C58_statement : Prop := forall sc lc vf c ecus cnt ops d h h1 h2 s r, history sc lc vf c ecus cnt ops d h -> NoDup (map fst ecus) -> In s (map fst ecus) ->
  h = h1 ++ VCleared :: h2 -> outstanding_ecu s h1 = Some r ->
  exists h0 m an, h1 = h0 ++ [VSent m true an] /\ exists rp, m_report m = Some rp /\ In (s, shown r) (rp_items rp).
(** The process stops after the result of an ECU was stored and before the result of the device is: the next accepted
    manifest carries no report but deletes the ECU's result. *)
Theorem C58_refuted : ~ C58_statement.
Proof.
  intros S. destruct (drun (fun _ => "") (fun _ => JNull) (fun _ _ => true) ex_client (dev_init ex_ecus []) [DEcu "s" failed; DManifest true false true (fun _ => JNull)]) as [d h] eqn:R.
  assert (H : Forall ints [DEcu "s" failed; DManifest true false true (fun _ => JNull)]) by ints_ok.
  specialize (S _ _ _ ex_client ex_ecus [] _ d h [VEcu "s" failed; VSent {| m_counter := None; m_versions := []; m_report := None |} true (fun _ => JNull)] [] "s" failed (conj H R)).
  vm_compute in R. injection R as <- <-.
  destruct S as (h0 & m & an & E & rp & M & _).
  - repeat constructor; cbn; intuition discriminate.
  - right; left; reflexivity.
  - reflexivity.
  - reflexivity.
  - change [VEcu "s" failed; VSent {| m_counter := None; m_versions := []; m_report := None |} true (fun _ => JNull)] with
      ([VEcu "s" failed] ++ [VSent {| m_counter := None; m_versions := []; m_report := None |} true (fun _ => JNull)]) in E.
    apply app_inj_tail in E. destruct E as [_ E]. injection E as <- _. discriminate.
Qed.
Print Assumptions C58_refuted.
(** It holds whenever a device result is outstanding as well. *)
Theorem C58_partial sc lc vf c ecus cnt ops d h h1 h2 s r : history sc lc vf c ecus cnt ops d h -> In s (map fst ecus) ->
  h = h1 ++ VCleared :: h2 -> outstanding_ecu s h1 = Some r -> outstanding h1 <> None ->
  exists h0 m an, h1 = h0 ++ [VSent m true an] /\ exists rp, m_report m = Some rp /\ In (s, shown r) (rp_items rp).
Proof.
  intros H Hs E O D. destruct (C43_cleared _ _ _ _ _ _ _ _ _ _ _ H E) as (h0 & m & an & -> & M & Q). exists h0, m, an. split; [reflexivity|].
  rewrite M, <- Q. unfold due_report. destruct (outstanding (h0 ++ [VSent m true an])) as [[[x raw] corr]|]; [|congruence].
  eexists. split; [reflexivity|]. cbn [rp_items]. apply in_flat_map. apply in_map_iff in Hs. destruct Hs as (e & <- & He). exists e. split; [exact He|]. rewrite O. left. reflexivity.
Qed.
Print Assumptions C58_partial.

(** ** C59: version reports of Secondaries *)
(** Only reports that verify with the Secondary's key are passed on. *)
Theorem C59_verified sc lc vf c ecus cnt ops d h m ok an s j : history sc lc vf c ecus cnt ops d h -> In (VSent m ok an) h -> In (s, j) (m_versions m) -> vf s j = true.
Proof.
  intros [_ R] M J. revert M. generalize dependent h. generalize (dev_init ecus cnt). induction ops as [|o ops IH]; intros d0 h R M; cbn [drun] in R; [injection R as <- <-; contradiction|].
  destruct (dstep sc lc vf c d0 o) as [d1 e1] eqn:S. destruct (drun sc lc vf c d1 ops) as [d2 e2] eqn:R2. injection R as <- <-.
  apply in_app_or in M. destruct M as [M|M]; [|eapply IH; eassumption]. clear IH R2.
  assert (no : forall r raw corr, store_dres r raw corr d0 = (d1, e1) -> vf s j = true).
  { intros r raw corr X. pose proof (store_dres_frame r raw corr d0) as (_ & _ & _ & F). rewrite X in F. cbn [snd] in F. rewrite Forall_forall in F. destruct (F _ M). }
  destruct o as [s0 r|corr|r raw corr|b|ok' crash sv an']; cbn [dstep] in S.
  - destruct (save_eres s0 r d0); injection S as <- <-; [destruct M as [M|[]]; discriminate|contradiction].
  - destruct (device_result c d0) as [[r raw]|]; [exact (no r raw corr S)|injection S as <- <-; contradiction].
  - exact (no r raw corr S).
  - injection S as <- <-. contradiction.
  - destruct (v_pending d0); [injection S as <- <-; contradiction|].
    destruct (assemble sc lc vf c an' sv d0) as [dd [m'|]] eqn:A; [|injection S as <- <-; contradiction].
    assert (m' = m). { destruct (ok' && negb crash)%bool; injection S as <- <-; cbn in M; intuition congruence. } subst m'. clear S M.
    unfold assemble in A. destruct (joined (v_ecus d0) (v_cnt d0)) as [|[s1 n] l]; [|destruct sv]; cbn [v_cache with_cnt] in A;
      pose proof (sec_versions_sound sc lc vf (c_secs c) an' (v_cache d0) s j) as V; destruct (sec_versions sc lc vf (c_secs c) an' (v_cache d0)) as [vs ca]; cbn [fst] in V;
      injection A as _ A; destruct (make_report _) as [r|]; cbn [bind] in A; try discriminate; injection A as <-; exact (V J).
Qed.
Print Assumptions C59_verified.
(** A Secondary that answers with a report that verifies has that report in the manifest; one that does not answer has the
    last one that was sent for it; one whose answer does not verify has none. *)
Theorem C59_contents sc lc vf c ecus cnt ops d h h1 m ok an h2 s : (forall j, lc (sc j) = j) -> NoDup (map fst (c_secs c)) -> history sc lc vf c ecus cnt ops d h ->
  h = h1 ++ VSent m ok an :: h2 -> In s (map fst (c_secs c)) ->
  aget s (m_versions m) = (if is_empty_json (an s) then last_version s h1 else if vf s (an s) then Some (an s) else None).
Proof.
  intros RB ND [I R] E Hs. refine (drun_kinv sc lc vf RB c ecus ops ND [] (dev_init ecus cnt) d h I (hinv_init ecus cnt) (faithful_nil ecus) _ _ R h1 m ok an h2 E s Hs).
  - intros s' _. split; [reflexivity|discriminate].
  - intros g1; intros; destruct g1; discriminate.
Qed.
Print Assumptions C59_contents.
Definition unpack (s : string) : json := JStr s. Definition pack (j : json) : string := match j with JStr s => s | _ => "" end.
Example C59_nonvacuous : exists d m1 m2 m3 a1 a2 a3, drun pack unpack (fun _ j => match j with JStr "bad" => false | _ => true end) ex_client (dev_init ex_ecus [])
    [DManifest true false true (fun _ => JStr "one"); DManifest true false true (fun _ => JNull); DManifest true false true (fun _ => JStr "bad")] =
    (d, [VSent m1 true a1; VCleared; VSent m2 true a2; VCleared; VSent m3 true a3; VCleared]) /\
    m_versions m1 = [("s", JStr "one")] /\ m_versions m2 = [("s", JStr "one")] /\ m_versions m3 = [].
Proof. do 7 eexists. split; [vm_compute; reflexivity|]. repeat split. Qed.

(** ** C60: the result reported for an update is that of the update *)
(** [ops] after an earlier history are the results of the ECUs of one update, followed by the computation of the device's
    result: it is a success if all these are. *)
Definition C60_statement : Prop := forall sc lc vf c ecus cnt ops0 d0 h0 rs corr d h, history sc lc vf c ecus cnt ops0 d0 h0 ->
  rs <> [] -> Forall (fun e => known c (fst e) /\ In (fst e) (map fst ecus) /\ succeeded (snd e)) rs ->
  drun sc lc vf c d0 (map (fun e => DEcu (fst e) (snd e)) rs ++ [DStoreComputed corr]) = (d, h) ->
  forall r raw corr', outstanding (h0 ++ h) = Some (r, raw, corr') -> ir_success r = true.
(** The results of an earlier update whose report could not be sent are still there and counted. *)
Theorem C60_refuted : ~ C60_statement.
Proof.
  intros S. assert (H : Forall ints [DEcu "p" failed; DStoreComputed "first"; DManifest false false true (fun _ => JNull)]) by ints_ok.
  destruct (drun (fun _ => "") (fun _ => JNull) (fun _ _ => true) ex_client (dev_init ex_ecus []) [DEcu "p" failed; DStoreComputed "first"; DManifest false false true (fun _ => JNull)]) as [d0 h0] eqn:R0.
  destruct (drun (fun _ => "") (fun _ => JNull) (fun _ _ => true) ex_client d0 (map (fun e => DEcu (fst e) (snd e)) [("s", mk_ires (num kOk) "")] ++ [DStoreComputed "second"])) as [d h] eqn:R.
  specialize (S (fun _ => "") (fun _ => JNull) (fun _ _ => true) ex_client ex_ecus [] _ d0 h0 [("s", mk_ires (num kOk) "")] "second" d h (conj H R0)).
  vm_compute in R0. injection R0 as <- <-. vm_compute in R. injection R as <- <-.
  specialize (S ltac:(discriminate)). eassert (P : Forall _ _); [|specialize (S P)].
  { constructor; [|constructor]. split; [exists "hs"; reflexivity|]. split; [right; left; reflexivity|]. split; [reflexivity|intros [W _]; discriminate W]. }
  specialize (S ltac:(vm_compute; reflexivity) _ _ _ ltac:(vm_compute; reflexivity)). discriminate S.
Qed.
Print Assumptions C60_refuted.
(** It holds if no results of an earlier update are outstanding. *)
Lemma save_all sc lc vf c rs : forall d, Forall (fun e => exists w, to_row (snd e) = Ok w) rs ->
  exists d', drun sc lc vf c d (map (fun e => DEcu (fst e) (snd e)) rs) = (d', map (fun e => VEcu (fst e) (snd e)) rs).
Proof.
  induction rs as [|[s r] rs IH]; intros d F; [eexists; reflexivity|]. inversion F as [|? ? [w W] F']; subst. cbn [map drun dstep fst snd] in *.
  unfold save_eres. rewrite W. cbn [bind]. destruct (IH {| v_ecus := v_ecus d; v_eres := aset s w (v_eres d); v_dres := v_dres d; v_cnt := v_cnt d; v_cache := v_cache d; v_pending := v_pending d |} F') as (d' & ->).
  eexists. reflexivity.
Qed.
Lemma drun_app sc lc vf c a : forall b d, drun sc lc vf c d (a ++ b) = let '(d1, e1) := drun sc lc vf c d a in let '(d2, e2) := drun sc lc vf c d1 b in (d2, e1 ++ e2).
Proof.
  induction a as [|o a IH]; intros b d; cbn [app drun]; [destruct (drun sc lc vf c d b); reflexivity|].
  destruct (dstep sc lc vf c d o) as [d1 e1]. rewrite IH. destruct (drun sc lc vf c d1 a) as [d2 e2]. destruct (drun sc lc vf c d2 b) as [d3 e3]. now rewrite app_assoc.
Qed.
Lemma out_ecus (P : ires -> Prop) rs : Forall (fun e => P (snd e)) rs -> forall h, (forall s r, outstanding_ecu s h = Some r -> P r) ->
  forall s r, outstanding_ecu s (h ++ map (fun e => VEcu (fst e) (snd e)) rs) = Some r -> P r.
Proof.
  induction 1 as [|[s0 r0] rs H0 H IH]; intros h B s r; cbn [map]; [rewrite app_nil_r; apply B|].
  cbn [fst snd]. change (VEcu s0 r0 :: map (fun e => VEcu (fst e) (snd e)) rs) with ([VEcu s0 r0] ++ map (fun e => VEcu (fst e) (snd e)) rs).
  rewrite app_assoc. apply IH. intros s' r'. rewrite oute_snoc. destruct (String.eqb s' s0); [intros E; injection E as <-; exact H0|apply B].
Qed.
Lemma out_ecus_keys rs : forall h s, outstanding_ecu s (h ++ map (fun e => VEcu (fst e) (snd e)) rs) <> None <-> outstanding_ecu s h <> None \/ In s (map fst rs).
Proof.
  induction rs as [|[s0 r0] rs IH]; intros h s; cbn [map In]; [rewrite app_nil_r; tauto|]. cbn [fst snd].
  change (VEcu s0 r0 :: map (fun e => VEcu (fst e) (snd e)) rs) with ([VEcu s0 r0] ++ map (fun e => VEcu (fst e) (snd e)) rs).
  rewrite app_assoc, IH, oute_snoc. destruct (String.eqb_spec s s0) as [->|N]; [split; [auto|intros _; left; discriminate]|]. split; [tauto|]. intros [A|[A|A]]; [auto|congruence|auto].
Qed.
Theorem C60_partial sc lc vf c ecus cnt ops0 d0 h0 rs corr d h : history sc lc vf c ecus cnt ops0 d0 h0 -> (forall s, outstanding_ecu s h0 = None) ->
  rs <> [] -> Forall (fun e => known c (fst e) /\ In (fst e) (map fst ecus) /\ succeeded (snd e)) rs ->
  Forall (fun e => int32 (rc_num (ir_code (snd e))) /\ exists w, to_row (snd e) = Ok w) rs ->
  drun sc lc vf c d0 (map (fun e => DEcu (fst e) (snd e)) rs ++ [DStoreComputed corr]) = (d, h) ->
  exists r raw, outstanding (h0 ++ h) = Some (r, raw, corr) /\ ir_success r = true.
Proof.
  intros [I0 R0] N NE F G R. rewrite drun_app in R.
  destruct (save_all sc lc vf c rs d0) as (d1 & S1); [eapply Forall_impl; [|exact G]; intros e [_ X]; exact X|]. rewrite S1 in R. cbn [drun dstep] in R.
  assert (H1 : history sc lc vf c ecus cnt (ops0 ++ map (fun e => DEcu (fst e) (snd e)) rs) d1 (h0 ++ map (fun e => VEcu (fst e) (snd e)) rs)).
  { split; [apply Forall_app; split; [exact I0|]|rewrite drun_app, R0, S1; reflexivity].
    rewrite Forall_forall in *. intros o Ho. apply in_map_iff in Ho. destruct Ho as (e & <- & He). apply (G e He). }
  set (h1 := h0 ++ map (fun e => VEcu (fst e) (snd e)) rs) in *. pose proof (proj1 (history_inv _ _ _ _ _ _ _ _ _ H1)) as HI.
  assert (KS : forall s, outstanding_ecu s h1 <> None -> In s (map fst rs)).
  { intros s X. apply out_ecus_keys in X. destruct X as [X|X]; [exfalso; apply X, N|exact X]. }
  assert (OK : Forall (fun e => known c (fst e) /\ succeeded (snd e)) (outstanding_list ecus h1)).
  { rewrite Forall_forall in *. intros [s r] He. unfold outstanding_list in He. apply in_flat_map in He. destruct He as ([s' hw] & _ & He). cbn [fst] in He.
    destruct (outstanding_ecu s' h1) as [r'|] eqn:O; [|contradiction]. destruct He as [He|[]]. injection He as -> ->. cbn [fst snd]. split.
    - assert (X : In s (map fst rs)) by (apply KS; congruence). apply in_map_iff in X. destruct X as (e & <- & He). apply (F e He).
    - refine (out_ecus succeeded rs _ h0 _ s r O); [apply Forall_forall; intros e He; apply (F e He)|intros s1 r1 X; rewrite N in X; discriminate]. }
  assert (NN : outstanding_list ecus h1 <> []).
  { destruct rs as [|e rs']; [congruence|]. inversion F as [|? ? (_ & X & _) _]; subst. apply in_map_iff in X. destruct X as (y & Ey & Hy).
    assert (Z : outstanding_ecu (fst e) h1 <> None) by (apply out_ecus_keys; right; left; reflexivity). destruct (outstanding_ecu (fst e) h1) as [r|] eqn:O; [|congruence].
    intros Q. assert (In (fst y, r) (outstanding_list ecus h1)) by (unfold outstanding_list; apply in_flat_map; exists y; split; [exact Hy|]; rewrite Ey, O; left; reflexivity). rewrite Q in H. contradiction. }
  destruct (history_failures c ecus h1 d1 HI NN) as (r & raw & D & C); [eapply Forall_impl; [|exact OK]; intros e [A [_ B]]; auto|].
  pose proof (proj2 (history_success c ecus h1 d1 r raw HI D) (conj NN OK)) as SR. rewrite D in R.
  assert (FL : failures c (outstanding_list ecus h1) = []) by (apply failures_nil; eapply Forall_impl; [|exact OK]; intros e [_ [X _]]; exact X). rewrite FL in C.
  unfold store_dres, to_row in R. rewrite C in R. change (to_repr (num kOk)) with (@Ok string """OK"":0") in R. cbn [bind app] in R. injection R as _ <-.
  exists r, raw. split; [|exact SR]. rewrite app_assoc. fold h1. rewrite out_snoc. reflexivity.
Qed.
Print Assumptions C60_partial.
