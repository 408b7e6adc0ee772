(** C51, C53, C55: what holds of properties that are false as a whole. *)
From Verif Require Import Base Json TufModel TufSpec TufProofs TufProofs2 MetaStore RepoModel RepoSpec RepoProofs4 ClientModel ClientSpec OrdSpec CodecModel CodecSpec DlModel DlSpec DlProofs DlProofs2 IterProofs2 CrashProofs Toy PropsRepo PropsClient PropsDl PropsOrd.

(** ** C51 *)
(** A crash at any point of a successful update of the Director's metadata: repeating the update against the same server succeeds with the
    same Root and Targets, unless the Targets that are stored at that moment have a higher number than the served ones. (If the served
    Targets are empty, also the stored ones must not list an ECU twice.) *)
Theorem C51_partial E srv clk s s1 d' : director_update E srv clk s = (s1, Ok tt) -> u_log s = [] -> clean_server srv ->
  rt_version (u_droot s1) < 999 -> In d' (u_log s1) ->
  (exists raw v, srv Director "targets" (-1) = Ok raw /\ extract_version_untrusted E raw = Ok v /\ 0 <= v /\ not_newer E Director RTargets d' v) ->
  tg_targets (u_dlatest s1) <> [] \/ stored_targets_sane E d' ->
  forall s', u_db s' = d' -> exists s2, director_update E srv clk s' = (s2, Ok tt) /\ u_droot s2 = u_droot s1 /\ u_dlatest s2 = u_dlatest s1.
Proof. exact (repeat_after_crash E srv clk s s1 d'). Qed.
Print Assumptions C51_partial.
(** In the excluded case the device is stuck: until there is another Root or Targets with a higher number, every update fails and
    leaves the storage as it is. *)
Theorem C51_stuck_partial E srv clk s s1 r lv :
  director_update E srv clk s = (s1, r) -> ~ rotation_offered E srv Director (u_db s) -> (exists raw0, load_latest_root Director (u_db s) = Ok (Some raw0)) ->
  stored_version E Director RTargets (u_db s) lv ->
  (forall raw v, srv Director "targets" (-1) = Ok raw -> extract_version_untrusted E raw = Ok v -> v < lv) ->
  (exists e, r = Throw e) /\ u_db s1 = u_db s /\ u_log s1 = u_log s.
Proof. exact (older_targets_refused E srv clk s s1 r lv). Qed.
Print Assumptions C51_stuck_partial.
(** Root 1 and Targets 5 are stored, Root 2 and Targets 3 are served. A crash after the old metadata was deleted is harmless, one before
    that is not. *)
Definition srv51 : server := serve [(2, "R2")] [("targets", "D3n")].
Definition run51 : ust := fst (director_update W srv51 now2020 (mem0 db_dir)).
Example C51_case : let d' := clear_nonroot Director (store_root "R2" Director 2 db_dir) in
  director_update W srv51 now2020 (mem0 db_dir) = (run51, Ok tt) /\ clean_server srv51 /\ rt_version (u_droot run51) < 999 /\ In d' (u_log run51) /\
  (exists raw v, srv51 Director "targets" (-1) = Ok raw /\ extract_version_untrusted W raw = Ok v /\ 0 <= v /\ not_newer W Director RTargets d' v) /\
  tg_targets (u_dlatest run51) <> [].
Proof.
  cbv zeta. split; [vm_compute; reflexivity|]. split; [clean_serve|]. split; [vm_compute; reflexivity|]. split; [vm_compute; auto|].
  split; [|vm_compute; discriminate]. exists "D3n", 3. split; [reflexivity|]. split; [by_computation|]. split; [lia|]. left. by_computation.
Qed.
Example C51_stuck_case : let d' := store_root "R2" Director 2 db_dir in
  In d' (u_log run51) /\ ~ rotation_offered W srv51 Director d' /\ (exists raw0, load_latest_root Director d' = Ok (Some raw0)) /\ stored_version W Director RTargets d' 5 /\
  (forall raw v, srv51 Director "targets" (-1) = Ok raw -> extract_version_untrusted W raw = Ok v -> v < 5).
Proof.
  cbv zeta. split; [vm_compute; auto|]. split.
  { intros (raw0 & R0 & raw1 & R1 & H1 & (H2 & _) & H3 & _). assert (X : load_latest_root Director (store_root "R2" Director 2 db_dir) = Ok (Some "R2")) by by_computation.
    rewrite X in H1. injection H1 as <-. assert (Y : match root_of_json W (parse W "R2") with Ok R => rt_version R | Throw _ => 0 end = 2) by by_computation. rewrite H2 in Y. rewrite Y in H3. discriminate. }
  split; [eexists; by_computation|]. split; [exists "D5"; split; by_computation|].
  intros raw v H1 H2. injection H1 as <-. assert (Y : extract_version_untrusted W "D3n" = Ok 3) by by_computation. rewrite Y in H2. injection H2 as <-. lia.
Qed.

(** ** C53 *)
(** Proved: the search does not go below a role that was reached by a terminating delegation. So if the only delegation that covers the
    file name is terminating, and no valid document of its role lists the target, then the target is not found. *)
Theorem C53_partial E fnm srv now off q s s' t top name :
  u_itargets s = Some top -> (forall x, In x (tg_targets top) -> ~ same_target x q) ->
  aget name (tg_term top) = Some true ->
  (forall n c, delegated E fnm now (u_isnap s) q top n c -> n = name /\ forall x, In x (tg_targets c) -> ~ same_target x q) ->
  find_target_in_tree E fnm srv now off q s <> (s', Ok (Some t)).
Proof.
  intros T N Tm D H. destruct (C14_search_sound E fnm srv now off q s s' t H) as (top' & T' & n & role & P & _ & I1 & I2). assert (top' = top) by congruence. subst top'.
  inversion P as [? ? |? nm child k ? term Hd Ht Hp]; subst; [exact (N t I1 I2)|].
  destruct (D nm child Hd) as (-> & Nc). rewrite Tm in Ht. injection Ht as <-. inversion Hp; subst. exact (Nc t I1 I2).
Qed.
Print Assumptions C53_partial.

(** "dev" is terminating, lists nothing and delegates to "ops", which lists the target. *)
Definition term_docs : list (string * json) := [
  ("R1", root_j "r1" 1 far 1 k1 k1); ("TS", timestamp_j "ts" 5 far 5 "SN" k1);
  ("SN", doc_j "sn" "Snapshot" 5 far [("meta", JObj [meta_j "targets" 5 "TG"; meta_j "dev" 3 "DEV"; meta_j "ops" 4 "OPS"])] k1);
  ("TG", dtargets_j "tg" 5 far [] [drole_j "dev" "app" true] k1);
  ("DEV", dtargets_j "dev" 3 far [] [drole_j "ops" "app" false] k1); ("OPS", targets_j "ops" 4 far PropsClient.app_t k1)].
Definition TE : Env := toy term_docs.
Definition term_srv : server := serve2 [] [("timestamp", "TS"); ("snapshot", "SN"); ("targets", "TG"); ("delegations/dev", "DEV"); ("delegations/ops", "OPS")].
Definition term_st : ust := fst (image_update TE term_srv now2020 (mem0 db_empty)).
Definition term_top : targets := match u_itargets term_st with Some t => t | None => u_dtargets (mem0 db_empty) end.
Lemma toy_doc_in l raw (f : json -> bool) : f JNull = true -> forallb (fun p => f (snd p)) l = true -> f (parse (toy l) raw) = true.
Proof.
  intros N F. cbn [parse toy]. induction l as [|(a, j) l IH]; [exact N|]. cbn [forallb snd] in F. apply andb_true_iff in F. destruct F as (F1 & F2).
  cbn [aget]. destruct (String.eqb raw a); [exact F1|now apply IH].
Qed.
Definition lists_nothing (r : res targets) : bool := match r with Ok t => nilb (tg_targets t) | Throw _ => true end.
Definition fits_dev (j : json) : bool :=
  negb (String.eqb (to_upper (toy_canon j)) "DEV") || lists_nothing (targets_of_json_signed TE (unpack_signed TE (tg_ks term_top)) {| r_kind := RDelegation; r_name := "dev" |} j).
Example C53_case : u_itargets term_st = Some term_top /\ (forall x, In x (tg_targets term_top) -> ~ same_target x q_app) /\ aget "dev" (tg_term term_top) = Some true /\
  (forall n c, delegated TE eqfnm now1 (u_isnap term_st) q_app term_top n c -> n = "dev" /\ forall x, In x (tg_targets c) -> ~ same_target x q_app) /\
  (exists x, In x (tg_targets (tg_of TE "OPS")) /\ same_target x q_app).
Proof.
  split; [vm_compute; reflexivity|]. split; [intros x H; vm_compute in H; destruct H|]. split; [vm_compute; reflexivity|]. split.
  - intros n c (H1 & _ & (raw & Hh & Ha & Hd & _) & _). assert (D : tg_deleg term_top = ["dev"]) by (vm_compute; reflexivity). rewrite D in H1. destruct H1 as [<-|[]]. split; [reflexivity|].
    assert (F : fits_dev (parse TE raw) = true) by (apply toy_doc_in; vm_compute; reflexivity). unfold fits_dev in F.
    assert (Q : role_hashes (u_isnap term_st) "dev" = [{| h_type := Sha256; h_val := "DEV" |}]) by (vm_compute; reflexivity). rewrite Q in Hh. specialize (Hh _ (or_introl eq_refl)).
    unfold digest_matches in Hh. cbn [h_type h_val] in Hh.
    pose proof (targets_signed_complete TE (tg_ks term_top) {| r_kind := RDelegation; r_name := "dev" |} _ _ (or_intror eq_refl) Ha Hd) as X. rewrite X in F. cbn [lists_nothing] in F.
    change (sha256hex TE (canon TE (parse TE raw))) with (toy_canon (parse TE raw)) in Hh.
    destruct (String.eqb (to_upper (toy_canon (parse TE raw))) "DEV") eqn:K.
    + cbn in F. destruct (tg_targets c); [intros x []|discriminate].
    + exfalso. apply String.eqb_neq in K. apply K. now symmetry.
  - assert (X : existsb (fun i => match_target i q_app) (tg_targets (tg_of TE "OPS")) = true) by by_computation. apply existsb_exists in X. destruct X as (i & I1 & I2). exists i. split; [exact I1|]. now apply match_target_iff.
Qed.

(** ** C55 *)
(** Proved: as long as the disk stores what is written, success means that the file has a listed hash ... *)
Theorem C55_partial E W fuel t s s' log : good_disk W -> 0 < t_length t -> fetch_target E W fuel t s = (FTrue, s', log) ->
  exists c, stored t s' = Some c /\ matches_target E t c.
Proof. intros G L H. destruct (C21_download_verified E W fuel t s FTrue s' log G L H) as (_ & K). destruct (K eq_refl) as (c & K1 & _ & K2). eauto. Qed.
Print Assumptions C55_partial.
(** ... and whatever the disk stored, the check made before the installation finds it good exactly if it has the listed length and hash. *)
Theorem C55_checked_partial E W fuel t s s' log : w_read W = true -> fetch_target E W fuel t s = (FTrue, s', log) ->
  (verify_target E W t s' = Some SGood <-> exists c, stored t s' = Some c /\ size c = t_length t /\ matches_first E t c).
Proof. intros R _. now apply C21_verify_exact. Qed.
Print Assumptions C55_checked_partial.
Example C55_case : good_disk (honest_world "ABCD") /\ (exists s' log, fetch_target idE (honest_world "ABCD") 1 (tgt "f" "ABCD" 4) fresh = (FTrue, s', log)) /\
  exists s' log, fetch_target idE (full_disk (honest_world "ABCD")) 1 (tgt "f" "ABCD" 4) fresh = (FTrue, s', log) /\ verify_target idE (full_disk (honest_world "ABCD")) (tgt "f" "ABCD" 4) s' <> Some SGood.
Proof.
  split; [intros a b; reflexivity|]. split; [eexists; eexists; vm_compute; reflexivity|]. eexists. eexists. split; [vm_compute; reflexivity|vm_compute; discriminate].
Qed.
