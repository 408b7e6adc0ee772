(** Properties of the update check: delegations and agreement of the two repositories (C14, C16, C17, C52-C54). *)
From Verif Require Import Base Json TufModel TufSpec TufProofs TufProofs2 MetaStore RepoModel RepoSpec RepoProofs4 Toy
  ClientModel ClientSpec ClientProofs ClientProofs2.

(** ** A small world with delegations *)
Definition drole_j (name path : string) (term : bool) : json :=
  JObj [("name", JStr name); ("keyids", JArr [JStr "k1"]); ("threshold", JInt 1); ("paths", JArr [JStr path]); ("terminating", JBool term)].
Definition dtargets_j (tag : string) (v : Z) (exp : string) (ts : list (string * json)) (roles : list json) (sigs : list (string * string)) : json :=
  doc_j tag "Targets" v exp
    [("targets", JObj ts);
     ("delegations", JObj [("keys", JObj [key_j "k1" "pub1"]); ("roles", JArr roles)])] sigs.
Definition meta_j (name : string) (v : Z) (h : string) : string * json :=
  (append name ".json", JObj [("version", JInt v); ("hashes", JObj [("sha256", JStr h)])]).
Definition app_t : list (string * json) := [("app", target_j 7 "aa" (hw_custom "hw1"))].
Definition dworld : list (string * json) := [
  ("R1", root_j "r1" 1 far 1 k1 k1);
  ("DIR", targets_j "dir" 5 far [("app", target_j 7 "aa" (ecu_custom "ecu1" "hw1"))] k1);
  ("TS", timestamp_j "ts" 5 far 5 "SN" k1);
  ("SN", doc_j "sn" "Snapshot" 5 far [("meta", JObj [meta_j "targets" 5 "TG"; meta_j "dev" 3 "DEV"; meta_j "ops" 4 "OPS"])] k1);
  ("TG", dtargets_j "tg" 5 far [] [drole_j "dev" "app" false] k1);
  ("DEV", targets_j "dev" 3 far app_t k1);
  (* forged: right content, wrong signature *)
  ("DEVx", targets_j "dev" 3 far app_t k2);
  (* "dev" is terminating and lists nothing; "ops" lists the target *)
  ("SNt", doc_j "snt" "Snapshot" 5 far [("meta", JObj [meta_j "targets" 5 "TGT"; meta_j "dev" 3 "DEVE"; meta_j "ops" 4 "OPS"])] k1);
  ("TSt", timestamp_j "tst" 5 far 5 "SNT" k1);
  ("TGt", dtargets_j "tgt" 5 far [] [drole_j "dev" "app" true; drole_j "ops" "app" false] k1);
  ("DEVe", targets_j "deve" 3 far [] k1);
  ("OPS", targets_j "ops" 4 far app_t k1);
  (* expired Image Targets *)
  ("SNx", doc_j "snx" "Snapshot" 5 far [("meta", JObj [meta_j "targets" 5 "TGX"])] k1);
  ("TSx", timestamp_j "tsx" 5 far 5 "SNX" k1);
  ("TGx", targets_j "tgx" 5 past app_t k1);
  ("TGok", targets_j "tgok" 5 far app_t k1);
  ("SNok", doc_j "snok" "Snapshot" 5 far [("meta", JObj [meta_j "targets" 5 "TGOK"])] k1);
  ("TSok", timestamp_j "tsok" 5 far 5 "SNOK" k1);
  (* two ECUs *)
  ("DIR2", targets_j "dir2" 5 far [("app", target_j 7 "aa"
      [("ecuIdentifiers", JObj [("ecu1", JObj [("hardwareId", JStr "hw1")]); ("ecu2", JObj [("hardwareId", JStr "hw1")])])])] k1)].
Definition DW : Env := toy dworld.
Definition serve2 (dir img : list (string * string)) : server :=
  fun rp rn v => let docs := match rp with Director => dir | Image => img end in
    if String.eqb rn "root" then (if v =? 1 then Ok "R1" else Throw UFetchFailure)
    else match aget rn docs with Some d => Ok d | None => Throw UFetchFailure end.
Definition vehicle1 : vehicle := {| v_primary := "ecu1"; v_primary_hw := "hw1"; v_secondaries := [("ecu2", "hw1")];
  v_installed := fun _ => Ok (Some None); v_ostree := false; v_pending := false |}.
Definition now1 : string -> string := fun _ => "2020-01-01T00:00:00Z".
Definition img_dev : list (string * string) := [("timestamp", "TS"); ("snapshot", "SN"); ("targets", "TG"); ("delegations/dev", "DEV")].
Definition img_term : list (string * string) :=
  [("timestamp", "TSt"); ("snapshot", "SNt"); ("targets", "TGt"); ("delegations/dev", "DEVe"); ("delegations/ops", "OPS")].
Definition eqfnm : string -> string -> bool := String.eqb.

(** ** C14: delegations *)

(** Whatever delegation documents the server offers: a target the search returns is listed by the top-level Targets or by a
    role reached by at most five delegations, each signed by the keys its delegator names, with matching paths, named by
    the Snapshot and unexpired; and it denotes the same image as the queried one.
    The search is a total function, so it terminates on every (also cyclic) delegation graph. *)
Theorem C14_search_sound E fnm srv now off q s s' t :
  find_target_in_tree E fnm srv now off q s = (s', Ok (Some t)) ->
  exists top, u_itargets s = Some top /\ exists n role,
    delegation_path E fnm now (u_isnap s) q false top n role /\ (n <= 5)%nat /\ In t (tg_targets role) /\ same_target t q.
Proof. intros H. apply (proj2 (find_target_sound E fnm srv now off q s s' _ H)). reflexivity. Qed.
Print Assumptions C14_search_sound.

(** The search changes nothing but the cache of delegations, and a target listed by the top-level Targets is found without
    consulting any delegation. *)
Theorem C14_search_frame E fnm srv now off q s s' r : find_target_in_tree E fnm srv now off q s = (s', r) -> only_deleg s s'.
Proof. intros H. apply (find_target_sound E fnm srv now off q s s' r H). Qed.
Print Assumptions C14_search_frame.
Theorem C14_toplevel_first E fnm srv now off q s top :
  u_itargets s = Some top -> (exists i, In i (tg_targets top) /\ same_target i q) ->
  exists i, find_target_in_tree E fnm srv now off q s = (s, Ok (Some i)) /\ In i (tg_targets top) /\ same_target i q.
Proof. exact (find_target_toplevel E fnm srv now off q s top). Qed.
Print Assumptions C14_toplevel_first.

Definition st_dev := fst (image_update DW (serve2 [] img_dev) now2020 (mem0 db_empty)).
Definition q_app : target := ltac:(let x := eval vm_compute in
  (match target_of_json "app" (target_j 7 "aa" (ecu_custom "ecu1" "hw1")) with Ok t => t | Throw _ => target_blank "" end) in exact x).
Definition found_in (e : res (option target)) : option string := match e with Ok (Some t) => Some (t_filename t) | _ => None end.
(** The delegated target is found, and not when the delegation is signed by another key. *)
Example C14_case :
  found_in (snd (find_target_in_tree DW eqfnm (serve2 [] img_dev) now1 false q_app st_dev)) = Some "app" /\
  snd (find_target_in_tree DW eqfnm (serve2 [] (("delegations/dev", "DEVx") :: img_dev)) now1 false q_app st_dev) = Throw UBadKeyId.
Proof. split; vm_compute; reflexivity. Qed.

(** ** C53: terminating delegations (refuted)
    The Uptane standard (5.4.4.6) says that when a terminating delegation's paths match the target and its subtree does not
    list it, later delegations must not be consulted. *)
Definition C53_statement : Prop :=
  forall E fnm srv now off q s s' t top first rest child,
    u_itargets s = Some top -> (forall x, In x (tg_targets top) -> ~ same_target x q) ->
    tg_deleg top = first :: rest -> aget first (tg_term top) = Some true ->
    delegated E fnm now (u_isnap s) q top first child ->
    (forall x, In x (tg_targets child) -> ~ same_target x q) -> tg_deleg child = [] ->
    find_target_in_tree E fnm srv now off q s <> (s', Ok (Some t)).
Definition st_term := fst (image_update DW (serve2 [] img_term) now2020 (mem0 db_empty)).
Definition top_term : targets := match u_itargets st_term with Some t => t | None => u_dtargets (mem0 db_empty) end.
Definition child_term : targets :=
  match targets_of_json_signed DW (unpack_signed DW (tg_ks top_term)) {| r_kind := RDelegation; r_name := "dev" |} (parse DW "DEVe") with
  | Ok t => t | Throw _ => u_dtargets (mem0 db_empty) end.
Theorem C53_refuted : ~ C53_statement.
Proof.
  intros H.
  destruct (find_target_in_tree DW eqfnm (serve2 [] img_term) now1 false q_app st_term) as (s', r) eqn:Hr.
  assert (Hf : exists t, r = Ok (Some t)).
  { assert (found_in r = Some "app") by (change r with (snd (s', r)); rewrite <- Hr; vm_compute; reflexivity).
    destruct r as [[t|]|]; try discriminate. eauto. }
  destruct Hf as (t & ->).
  refine (H DW eqfnm (serve2 [] img_term) now1 false q_app st_term s' t top_term "dev" ["ops"] child_term _ _ _ _ _ _ _ Hr).
  - vm_compute; reflexivity.
  - intros x Hx. vm_compute in Hx. destruct Hx.
  - vm_compute; reflexivity.
  - vm_compute; reflexivity.
  - split; [vm_compute; auto|]. split; [exists ["app"], "app"; vm_compute; auto|]. split; [|vm_compute; reflexivity].
    exists "DEVe".
    assert (Hs : targets_of_json_signed DW (unpack_signed DW (tg_ks top_term)) {| r_kind := RDelegation; r_name := "dev" |} (parse DW "DEVe")
                 = Ok child_term) by (vm_compute; reflexivity).
    apply targets_signed_ok in Hs; [|now right]. destruct Hs as (Ha & Hd).
    split; [|split; [exact Ha|split; [exact Hd|left; vm_compute; reflexivity]]].
    intros h Hh. vm_compute in Hh. destruct Hh as [<- | []]. vm_compute. auto.
  - intros x Hx. vm_compute in Hx. destruct Hx.
  - vm_compute; reflexivity.
Qed.
Print Assumptions C53_refuted.
(** What the code does guarantee: a role reached by a terminating delegation does not itself delegate ([delegation_path]'s
    index in [C14_search_sound]). *)

(** ** C16: both repositories vouch *)
Theorem C16_both_repositories_vouch E fnm srv clkd clki now v s s' l n :
  check_updates E fnm srv clkd clki now v s = (s', Ok (UcUpdates l n)) -> installed_readable v ->
  (exists raw, verified_targets E (u_droot s') raw (u_dtargets s')) /\
  (exists rawt raws rawg top,
    is_expired (rt_base (u_iroot s')) (clki RRoot) = false /\
    authentic_timestamp E (u_iroot s') rawt (u_itime s') /\ is_expired (tm_base (u_itime s')) (clki RTimestamp) = false /\
    snapshot_named E (u_iroot s') (u_itime s') raws (u_isnap s') /\ is_expired (sn_base (u_isnap s')) (clki RSnapshot) = false /\
    u_itargets s' = Some top /\ targets_named E (u_iroot s') (u_isnap s') rawg top /\ is_expired (tg_base top) (clki RTargets) = false /\
    forall t', In t' l -> exists t i, In t (tg_targets (u_dtargets s')) /\ but_uri t t' /\ fits_vehicle v t /\
      (exists serial hw, In (serial, hw) (t_ecus t) /\ news_for v t serial) /\
      vouched E fnm now (u_isnap s') top t i).
Proof. exact (check_updates_sound E fnm srv clkd clki now v s s' l n). Qed.
Print Assumptions C16_both_repositories_vouch.

Definition uc_files (r : res update_check) : option (list string * Z) :=
  match r with Ok (UcUpdates l n) => Some (map t_filename l, n) | _ => None end.
(** An update through a delegation is offered; without the delegation's document it is not. *)
Example C16_case :
  uc_files (snd (check_updates DW eqfnm (serve2 [("targets", "DIR")] img_dev) now2020 now2020 now1 vehicle1 (mem0 db_empty))) = Some (["app"], 1) /\
  snd (check_updates DW eqfnm (serve2 [("targets", "DIR")] (List.removelast img_dev)) now2020 now2020 now1 vehicle1 (mem0 db_empty)) = Ok UcError.
Proof. split; vm_compute; reflexivity. Qed.

(** The check repeated before download and installation, from stored metadata only: the same, except that nothing is said
    about the expiry of the Image Targets (C52). *)
Theorem C16_offline_check E fnm srv clkd clki now v ts s s' :
  check_updates_offline E fnm srv clkd clki now v ts s = (s', Ok OcAvailable) ->
  director_fresh E clkd s' /\
  exists top, u_itargets s' = Some top /\ image_ok_but_targets E clki s' top /\
  forall t, In t ts ->
    (exists d, In d (tg_targets (u_dtargets s')) /\ same_target d t /\
       (installed_readable v -> fits_vehicle v d /\ exists serial hw, In (serial, hw) (t_ecus d) /\ news_for v d serial)) /\
    exists i, vouched E fnm now (u_isnap s') top t i.
Proof. exact (check_updates_offline_sound E fnm srv clkd clki now v ts s s'). Qed.
Print Assumptions C16_offline_check.
(** The recheck before downloading and installing uses stored metadata only: its outcome and its effects are the same whatever
    the server would answer. *)
Theorem C16_offline_needs_no_server E fnm srv1 srv2 clkd clki now v ts s :
  check_updates_offline E fnm srv1 clkd clki now v ts s = check_updates_offline E fnm srv2 clkd clki now v ts s.
Proof. exact (offline_same E fnm srv1 srv2 clkd clki now v ts s). Qed.
Print Assumptions C16_offline_needs_no_server.

(** ** C17: unknown ECUs and hardware mismatches *)
Theorem C17_absent_ecu E fnm srv clkd clki now v s s1 t serial hw :
  director_update E srv clkd s = (s1, Ok tt) -> installed_readable v -> In t (tg_targets (u_dtargets s1)) ->
  In (serial, hw) (t_ecus t) -> ~ ecu_present v serial hw ->
  check_updates E fnm srv clkd clki now v s = (s1, Ok UcError).
Proof. exact (check_updates_absent E fnm srv clkd clki now v s s1 t serial hw). Qed.
Print Assumptions C17_absent_ecu.
Theorem C17_absent_ecu_offline E fnm srv clkd clki now v ts s s1 t serial hw :
  director_offline E clkd s = (s1, Ok tt) -> installed_readable v -> In t (tg_targets (u_dtargets s1)) ->
  In (serial, hw) (t_ecus t) -> ~ ecu_present v serial hw ->
  forall s' r, check_updates_offline E fnm srv clkd clki now v ts s = (s', r) -> r = Ok OcError \/ exists e, r = Throw e.
Proof. exact (check_updates_offline_absent E fnm srv clkd clki now v ts s s1 t serial hw). Qed.
Print Assumptions C17_absent_ecu_offline.
Definition vehicle_hw2 : vehicle := {| v_primary := "ecu1"; v_primary_hw := "hw2"; v_secondaries := [];
  v_installed := fun _ => Ok (Some None); v_ostree := false; v_pending := false |}.
Example C17_case :
  snd (director_update DW (serve2 [("targets", "DIR")] img_dev) now2020 (mem0 db_empty)) = Ok tt /\
  ~ ecu_present vehicle_hw2 "ecu1" "hw1" /\ ecu_present vehicle1 "ecu1" "hw1" /\
  snd (check_updates DW eqfnm (serve2 [("targets", "DIR")] img_dev) now2020 now2020 now1 vehicle_hw2 (mem0 db_empty)) = Ok UcError.
Proof.
  split; [vm_compute; reflexivity|]. split; [|split; [left; repeat split; discriminate|vm_compute; reflexivity]].
  unfold ecu_present; simpl. intros [(_ & H & _) | (H & _)]; [discriminate|now apply H].
Qed.

(** ** C52: the recheck and stale Image metadata (refuted) *)
Definition C52_statement : Prop :=
  forall E fnm srv clkd clki now v ts s s',
    check_updates_offline E fnm srv clkd clki now v ts s = (s', Ok OcAvailable) ->
    exists top, u_itargets s' = Some top /\ is_expired (tg_base top) (clki RTargets) = false.
Definition clk2000 : clock := fun _ => "2000-01-01T00:00:00Z".
Definition img_x : list (string * string) := [("timestamp", "TSx"); ("snapshot", "SNx"); ("targets", "TGx")].
(** The update check in 2000 succeeds; the Image Targets expire in 2010; the recheck in 2020 still says "available". *)
Definition st_x : ust := fst (check_updates DW eqfnm (serve2 [("targets", "DIR")] img_x) clk2000 clk2000 now1 vehicle1 (mem0 db_empty)).
Theorem C52_refuted : ~ C52_statement.
Proof.
  intros H.
  destruct (check_updates_offline DW eqfnm (serve2 [] []) now2020 now2020 now1 vehicle1 [q_app] st_x) as (s', r) eqn:Hr.
  assert (Hok : r = Ok OcAvailable) by (change r with (snd (s', r)); rewrite <- Hr; vm_compute; reflexivity). subst r.
  destruct (H _ _ _ _ _ _ _ _ _ _ Hr) as (top & Ht & Hx).
  assert (Hs : match u_itargets s' with Some t => is_expired (tg_base t) (now2020 RTargets) | None => false end = true).
  { change s' with (fst (s', Ok OcAvailable)). rewrite <- Hr. vm_compute. reflexivity. }
  rewrite Ht in Hs. congruence.
Qed.
Print Assumptions C52_refuted.
(** What does hold: root, Timestamp and Snapshot are rechecked. *)
Theorem C52_partial E fnm srv clkd clki now v ts s s' :
  check_updates_offline E fnm srv clkd clki now v ts s = (s', Ok OcAvailable) ->
  exists top, u_itargets s' = Some top /\ image_ok_but_targets E clki s' top.
Proof.
  intros H. destruct (check_updates_offline_sound _ _ _ _ _ _ _ _ _ _ H) as (_ & top & H1 & H2 & _). eauto.
Qed.
Print Assumptions C52_partial.

(** ** C54: the number of ECUs to update (refuted) *)
Definition C54_statement : Prop :=
  forall v ts l n, get_new_targets v ts [] 0 = Ok (l, n) -> Forall serials_nonempty ts -> installed_readable v ->
    exists ps : list (target * string), NoDup ps /\ n = Z.of_nat (List.length ps) /\
      forall t serial, In (t, serial) ps <-> In t ts /\ (exists hw, In (serial, hw) (t_ecus t)) /\ news_for v t serial.
Definition t2 : target := {| t_valid := true; t_filename := "app"; t_type := ""; t_ecus := [("ecu1", "hw1"); ("ecu2", "hw1")];
  t_hashes := [{| h_type := Sha256; h_val := "AA" |}]; t_hwids := []; t_custom := JObj []; t_length := 7; t_corr := ""; t_uri := "" |}.
Definition vehicle_half : vehicle := {| v_primary := "ecu1"; v_primary_hw := "hw1"; v_secondaries := [("ecu2", "hw1")];
  v_installed := fun s => Ok (Some (if String.eqb s "ecu2" then Some t2 else None)); v_ostree := false; v_pending := false |}.
Theorem C54_refuted : ~ C54_statement.
Proof.
  intros H. destruct (H vehicle_half [t2] [t2] 2) as (ps & Hnd & Hn & Hin).
  - vm_compute. reflexivity.
  - constructor; [|constructor]. intros s h [Hs | [Hs | []]]; inversion Hs; discriminate.
  - intros s. simpl. destruct (String.eqb s "ecu2"); discriminate.
  - assert (Hall : forall p, In p ps -> p = (t2, "ecu1")).
    { intros (t, s) Hp. apply Hin in Hp. destruct Hp as ([<- | []] & (hw & Hhw) & (cur & Hc & Hnew)).
      destruct Hhw as [Hs | [Hs | []]]; inversion Hs; subst; auto. simpl in Hc. inversion Hc; subst. simpl in Hnew.
      destruct Hnew as (_ & Hnew). now elim Hnew. }
    destruct ps as [|a [|b ps]]; simpl in Hn; try discriminate.
    + inversion Hnd as [|? ? Hni _]; subst. apply Hni. left. rewrite (Hall a), (Hall b); simpl; auto.
Qed.
Print Assumptions C54_refuted.
