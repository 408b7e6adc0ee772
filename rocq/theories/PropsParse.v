(** Metadata as used is the metadata as written (C65). *)
From Verif Require Import Base Json TufModel TufSpec TufProofs MetaStore RepoModel RepoSpec Toy ParseSpec ParseProofs.

(** C65, Root: the trusted keys, the keys of each role and their thresholds are the document's. *)
Theorem C65_root E j R : root_of_json E j = Ok R -> root_says E j R.
Proof. exact (root_parsed E j R). Qed.
Print Assumptions C65_root.
Theorem C65_root_successor E j old R : root_of_json_signed E j old = Ok R -> root_says E j R.
Proof.
  unfold root_of_json_signed. intros H. apply bind_ok in H. destruct H as (R' & HR & H).
  apply bind_ok in H. destruct H as ([] & _ & H). apply bind_ok in H. destruct H as ([] & _ & H). injection H as <-. now apply root_parsed.
Qed.
Print Assumptions C65_root_successor.

(** C65, Targets, both for stored and for newly verified documents. *)
Theorem C65_targets E j T : targets_of_json E j = Ok T -> targets_say E "" j T.
Proof. unfold targets_of_json. intros H. apply bind_ok in H. destruct H as (b & Hb & H). eapply targets_parsed; eauto using base_init_says. Qed.
Print Assumptions C65_targets.
Theorem C65_targets_verified E unpack r j T : targets_of_json_signed E unpack r j = Ok T -> targets_say E (r_name r) j T.
Proof. unfold targets_of_json_signed. intros H. apply bind_ok in H. destruct H as (b & Hb & H). eapply targets_parsed; eauto using base_signed_says. Qed.
Print Assumptions C65_targets_verified.

(** C65, Timestamp. *)
Theorem C65_timestamp unpack j t : timestamp_of_json j = Ok t \/ timestamp_of_json_signed unpack j = Ok t -> timestamp_says j t.
Proof. intros [H|H]; apply bind_ok in H; destruct H as (b & Hb & H); eapply timestamp_parsed; eauto using base_init_says, base_signed_says. Qed.
Print Assumptions C65_timestamp.

(** C65, Snapshot. *)
Theorem C65_snapshot unpack j sn : snapshot_of_json j = Ok sn \/ snapshot_of_json_signed unpack j = Ok sn -> snapshot_says j sn.
Proof. intros [H|H]; apply bind_ok in H; destruct H as (b & Hb & H); eapply snapshot_parsed; eauto using base_init_says, base_signed_says. Qed.
Print Assumptions C65_snapshot.

(** C65, version numbers: the number the rollback checks read from a document before verifying it is the number the
    document's verified form has, whenever it is written as an integer. *)
Theorem C65_version_read E raw b z : base_init (parse E raw) = Ok b -> sel "version" (signed_part (parse E raw)) = JInt z ->
  extract_version_untrusted E raw = Ok (b_version b) /\ b_version b = z.
Proof. intros H. apply version_untrusted_int. now apply base_init_says. Qed.
Print Assumptions C65_version_read.

(** *** Cases *)
Definition deleg_j : json := doc_j "t" "Targets" 4 far
  [("targets", JObj [("app", target_j 7 "aa" (ecu_custom "ecu1" "hw1"));
                     ("lib", JObj [("length", JInt 9); ("hashes", JObj [("sha512", JStr "bb"); ("md5", JStr "cc"); ("sha256", JStr "dd")]); ("custom", JObj (hw_custom "hw2"))])]);
   ("delegations", JObj [("keys", JObj [key_j "k1" "pub1"; key_j "k2" "pub2"]);
      ("roles", JArr [JObj [("name", JStr "tools"); ("threshold", JInt 2); ("keyids", JArr [JStr "k1"; JStr "k2"]); ("paths", JArr [JStr "t/*"])]])])] [].
Example C65_root_case : exists R, root_of_json W (root_j "r" 3 far 2 both both) = Ok R /\
  aget "targets" (ks_thr (rt_ks R)) = Some 2 /\ In ("targets", "k2") (ks_role_keys (rt_ks R)) /\ List.length (ks_keys (rt_ks R)) = 2%nat.
Proof. eexists. split; [vm_compute; reflexivity|]. vm_compute. intuition. Qed.
Example C65_targets_case : exists T, targets_of_json W deleg_j = Ok T /\ tg_deleg T = ["tools"] /\
  map t_length (tg_targets T) = [7; 9] /\ map (fun t => List.length (t_hashes t)) (tg_targets T) = [1%nat; 2%nat] /\
  aget "tools" (ks_thr (tg_ks T)) = Some 2.
Proof. eexists. split; [vm_compute; reflexivity|]. vm_compute. intuition. Qed.
Example C65_timestamp_case : exists t, timestamp_of_json (timestamp_j "t" 5 far 7 "aa" []) = Ok t /\ tm_snap_version t = 7 /\ List.length (tm_hashes t) = 1%nat.
Proof. eexists. split; [vm_compute; reflexivity|]. vm_compute. intuition. Qed.
Example C65_snapshot_case : exists sn, snapshot_of_json (snapshot_j "t" 5 far 7 "aa" []) = Ok sn /\ role_version sn "targets" = 7 /\
  role_version sn "tools" = -1 /\ List.length (role_hashes sn "targets") = 1%nat.
Proof. eexists. split; [vm_compute; reflexivity|]. vm_compute. intuition. Qed.
Example C65_version_case : exists b, base_init (parse W "TS7") = Ok b /\ sel "version" (signed_part (parse W "TS7")) = JInt 7.
Proof. eexists. split; vm_compute; reflexivity. Qed.
