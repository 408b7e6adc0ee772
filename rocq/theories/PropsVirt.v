(** C97, C98, C99: the virtual Secondary. *)
From Verif Require Import Base Json TufModel MetaStore RepoModel CodecModel InstModel DevModel ClientModel UpdModel IpModel VirtModel VirtSpec VirtProofs Toy.

(** C97 The image that a virtual Secondary reports is the one whose installation was last reported as a success, whatever failed or
    was killed in between. *)
Definition C97_statement_for (p : fault -> Prop) : Prop :=
  forall E l, faults p l -> v_image E (v_run E l (vs_new None None)) = shown E (told_from None l).
Definition C97_statement : Prop := C97_statement_for (fun _ => True).

(** The disk is full: half an image, reported as a success. *)
Theorem C97_refuted : ~ C97_statement.
Proof.
  intros H. specialize (H W [VInstall "app" (Ok "image") (FShort 2)] ltac:(repeat constructor)). vm_compute in H. discriminate.
Qed.
Print Assumptions C97_refuted.
(** A kill between the image and its name: the old name with the new bytes. *)
Theorem C97_kill_refuted : ~ C97_statement_for (fun f => f = FNone \/ f = FKillName).
Proof.
  intros H. specialize (H W [VInstall "app1" (Ok "old") FNone; VInstall "app2" (Ok "newer") FKillName] ltac:(constructor; [left; reflexivity|constructor; [right; reflexivity|constructor]])). vm_compute in H. discriminate.
Qed.
Print Assumptions C97_kill_refuted.

(** Without such faults (images that the Primary cannot hand over and restarts allowed) it holds; and after any faults whatever it
    holds again from the next undisturbed installation on. *)
Theorem C97_partial : C97_statement_for (fun f => f = FNone).
Proof. intros E l F. apply has_image. apply run_has; auto. split; reflexivity. Qed.
Print Assumptions C97_partial.
Theorem C97_repaired_partial : forall E l1 n c l2, faults (fun f => f = FNone) l2 ->
  v_image E (v_run E (l1 ++ VInstall n (Ok c) FNone :: l2) (vs_new None None)) = shown E (told_from (Some (n, c)) l2).
Proof.
  intros E l1 n c l2 F. apply has_image. unfold v_run. rewrite fold_left_app. cbn [fold_left]. apply (run_has E l2 F (Some (n, c))). split; reflexivity.
Qed.
Print Assumptions C97_repaired_partial.

Example C97_case :
  v_image W (v_run W [VInstall "app1" (Ok "old") FNone; VInstall "app2" (Throw EStd) FNone; VRestart] (vs_new None None)) = ("app1", "old", 3) /\
  v_image W (v_run W [VInstall "app1" (Ok "old") FNone; VInstall "app2" (Ok "newer") FKillName; VInstall "app2" (Ok "newer") (FKill 3); VInstall "app2" (Ok "newer") FNone; VRestart] (vs_new None None)) = ("app2", "newer", 5).
Proof. vm_compute. split; reflexivity. Qed.

(** C98 If an offer of a Root is answered with success, the Secondary uses that Root afterwards; it was the next one. *)
Definition C98_statement : Prop :=
  forall E l fw name raw rp v' r, let v := v_run E l (vs_new fw name) in
  v_put_root E raw rp v = (v', Ok r) -> ir_success r = true -> root_doc E raw (v_root_version rp v + 1) /\ v_root_version rp v' = v_root_version rp v + 1.

Definition db_all : db := store_nonroot "TG5" Image RTargets (store_nonroot "SN5" Image RSnapshot (store_nonroot "TS5" Image RTimestamp (store_root "R1" Image 1 db_dir))).
(** Root 3 offered to a Secondary with Root 1. *)
Theorem C98_refuted : ~ C98_statement.
Proof.
  intros H. specialize (H W [VPutMeta db_all] None None "R3" Director _ _ ltac:(vm_compute; reflexivity) eq_refl). cbv zeta in H. destruct H as (_ & H). vm_compute in H. discriminate.
Qed.
Print Assumptions C98_refuted.

(** An offered Root is used afterwards exactly if it was the next one, whatever the answer; otherwise both Roots stay and, unless the
    offer could not be read or came before any metadata (an exception), the manifest tells of an attack. *)
Theorem C98_partial : forall E raw rp v v' r, v_put_root E raw rp v = (v', r) ->
  (exists new, root_of_json E (parse E raw) = Ok new /\ rt_version new = v_root_version rp v + 1 /\ vs_root rp v' = new /\
               (forall rp', rp <> rp' -> vs_root rp' v' = vs_root rp' v) /\ vs_attack v' = vs_attack v) \/
  ((forall rp', vs_root rp' v' = vs_root rp' v) /\ (root_doc E raw (v_root_version rp v + 1) -> vs_bundle v = false) /\ ((exists e, r = Throw e) \/ vs_attack v' = true)).
Proof.
  intros E raw rp v v' r H. pose proof H as H0. apply put_root_cases in H. destruct H as [(new & R & B & N & ->)|[(new & R & B & N & ->)|(-> & He & Hw)]].
  - left. exists new. split; [auto|]. split; [auto|]. split; [destruct rp; reflexivity|]. split; [|reflexivity]. intros rp' Ne. apply root_set_other; auto.
  - right. split; [intros []; reflexivity|]. split; [|right; reflexivity]. intros (rt & R' & N'). congruence.
  - right. split; [auto|]. split; [|left; exact He]. intros (rt & R' & N'). destruct Hw as [?|(e & ?)]; [auto|congruence].
Qed.
Print Assumptions C98_partial.
Example C98_case :
  let v := v_run W [VPutMeta db_all] (vs_new None None) in
  v_root_version Director v = 1 /\ v_root_version Director (fst (v_put_root W "R2" Director v)) = 2 /\
  v_root_version Director (fst (v_put_root W "R3" Director v)) = 1 /\ vs_attack (fst (v_put_root W "R3" Director v)) = true /\
  is_ok (snd (v_put_root W "R2" Director (vs_new None None))) = false.
Proof. vm_compute. repeat split. Qed.

(** C99 One transfer of metadata brings a virtual Secondary up to date, however many Root versions it has missed, if the Primary's
    metadata is in order and it has all Roots. *)
Definition C99_statement : Prop :=
  forall savec E W srv ecu fw name l t s ld li, let d := u_db (p_ust s) in let v0 := v_run E l (vs_new fw name) in
  in_order E d ld li -> all_roots E d Director ld -> all_roots E d Image li ->
  exists s' r, attempt savec E W srv ecu d v0 t s = (s', Ok r) /\ ir_success r = true.

(** Keys of Director and Targets change with Root 2; the Secondary has Root 1 and Targets of the old key, the Primary has Roots up to
    3 and Targets of the new key. *)
Definition db_new : db :=
  store_nonroot "TG5" Image RTargets (store_nonroot "SN5" Image RSnapshot (store_nonroot "TS5" Image RTimestamp (store_root "R1" Image 1
    (store_nonroot "D3n" Director RTargets (store_root "R3" Director 3 (store_root "R2" Director 2 (store_root "R1" Director 1 db_empty))))))).
Lemma ok_ex {A} (x : res A) : is_ok x = true -> exists a, x = Ok a.
Proof. destruct x; [eauto|discriminate]. Qed.
Lemma in_order_check E d m ld li : get_metadata d = Ok (Some m) ->
  load_latest_root Director d = Ok (Some (m_droot m)) -> load_latest_root Image d = Ok (Some (m_iroot m)) ->
  extract_version_untrusted E (m_droot m) = Ok ld -> extract_version_untrusted E (m_iroot m) = Ok li ->
  match root_of_json E (parse E (m_droot m)) with
  | Ok rt => (rt_version rt =? ld) && is_ok (unpack_signed E (rt_ks rt) role_root (parse E (m_droot m))) &&
             is_ok (targets_of_json_signed E (unpack_signed E (rt_ks rt)) role_targets (parse E (m_dtargets m)))
  | Throw _ => false
  end && is_ok (targets_of_json E (parse E (m_dtargets m))) &&
  match root_of_json E (parse E (m_iroot m)) with Ok rt => rt_version rt =? li | Throw _ => false end &&
  is_ok (timestamp_of_json (parse E (m_itime m))) && is_ok (snapshot_of_json (parse E (m_isnap m))) && is_ok (targets_of_json E (parse E (m_itargets m))) = true ->
  in_order E d ld li.
Proof.
  intros G LD LI XD XI H. repeat (apply andb_true_iff in H; destruct H as (H & ?)).
  destruct (root_of_json E (parse E (m_droot m))) as [rt|] eqn:R; [|discriminate].
  repeat (apply andb_true_iff in H; destruct H as (H & ?)). apply Z.eqb_eq in H.
  destruct (root_of_json E (parse E (m_iroot m))) as [ir|] eqn:IR; [|discriminate].
  repeat match goal with Q : is_ok _ = true |- _ => apply ok_ex in Q; let x := fresh "x" in destruct Q as (x & Q) end.
  match goal with Q : (rt_version ir =? li) = true |- _ => apply Z.eqb_eq in Q end.
  match goal with Q : unpack_signed _ _ _ _ = Ok ?u |- _ => destruct u end.
  exists m, rt. do 6 eexists. repeat split; eauto.
Qed.
Lemma new_in_order : in_order W db_new 3 1.
Proof.
  apply (in_order_check W db_new {| m_droot := "R3"; m_dtargets := "D3n"; m_iroot := "R1"; m_itime := "TS5"; m_isnap := "SN5"; m_itargets := "TG5" |}); vm_compute; reflexivity.
Qed.
Lemma root_doc_check E raw n : match root_of_json E (parse E raw) with Ok rt => rt_version rt =? n | Throw _ => false end = true -> root_doc E raw n.
Proof. intros H. unfold root_doc. destruct (root_of_json E (parse E raw)) as [rt|]; [|discriminate]. exists rt. split; auto. apply Z.eqb_eq; auto. Qed.
Lemma new_roots : all_roots W db_new Director 3 /\ all_roots W db_new Image 1.
Proof.
  split; intros n H.
  - assert (C : n = 1 \/ n = 2 \/ n = 3) by lia. destruct C as [->|[->| ->]]; [exists "R1"|exists "R2"|exists "R3"]; (split; [vm_compute; reflexivity|apply root_doc_check; vm_compute; reflexivity]).
  - assert (n = 1) by lia. subst n. exists "R1"; split; [vm_compute; reflexivity|apply root_doc_check; vm_compute; reflexivity].
Qed.
Definition nobody : UpdModel.world :=
  {| e_verify := fun _ => Ok true; e_pings := []; e_rootver := fun _ _ _ => Throw EStd; e_putroot := fun _ _ _ _ => Throw EStd; e_putmeta := fun _ _ _ => Throw EStd;
     e_pm := fun _ => Throw EStd; e_send := fun _ => Throw EStd; e_install := fun _ => Throw EStd; e_sched := []; e_manifest := fun _ _ => Throw EStd |}.
Definition st_new : pst := {| p_ust := mem0 db_new; p_idb := {| il_ecus := []; il_log := [] |}; p_dev := dev_init [] []; p_tr := [] |}.
Definition app : target := target_blank "app".
Definition nosrv : server := fun _ _ _ => Throw UFetchFailure.
Definition sv (j : json) : string := "".

Theorem C99_refuted : ~ C99_statement.
Proof.
  intros H. specialize (H sv W nobody nosrv "ecu1" None None [VPutMeta db_all] app st_new 3 1 new_in_order (proj1 new_roots) (proj2 new_roots)).
  destruct H as (s' & r & H & S).
  assert (Q : (match attempt sv W nobody nosrv "ecu1" db_new (v_run W [VPutMeta db_all] (vs_new None None)) app st_new with (_, Ok r) => ir_success r | _ => false end) = false) by (vm_compute; reflexivity).
  change (u_db (p_ust st_new)) with db_new in H. rewrite H in Q. congruence.
Qed.
Print Assumptions C99_refuted.

(** Each transfer succeeds, which leaves the Secondary with the Primary's Roots, or it ends with fewer Roots missed; so as many transfers
    as Roots were missed (beyond the next one of each repository), and one more, suffice. *)
Theorem C99_partial :
  forall savec E W srv ecu fw name l t s ld li, let d := u_db (p_ust s) in let v0 := v_run E l (vs_new fw name) in
  in_order E d ld li -> all_roots E d Director ld -> all_roots E d Image li ->
  let now := vs_now E ecu d v0 in
  let missed x := behind ld (v_root_version Director x) + behind li (v_root_version Image x) in
  (exists s' r, attempt savec E W srv ecu d v0 t s = (s', Ok r) /\
    (ir_success r = true /\ v_root_version Director (now s') = ld /\ v_root_version Image (now s') = li \/
     ir_success r = false /\ missed (now s') < missed (now s))) /\
  (forall n, missed (now s) < Z.of_nat n -> succeeds_within savec E W srv ecu d v0 n t s).
Proof.
  intros savec E W srv ecu fw name l t s ld li d v0 Ho Ad Ai now missed.
  assert (B : bundled (now s)) by (apply replay_bundled, run_bundled, bundled_new).
  split.
  - destruct (attempt_virt savec E W srv ecu d v0 ld li t s eq_refl Ho Ad Ai B) as (s' & r & X & _ & _ & S & F). exists s', r. split; [exact X|].
    destruct (ir_success r); [left|right]; auto.
  - intros n Hn. apply (retries_virt savec E W srv ecu d v0 ld li t n s eq_refl Ho Ad Ai B Hn).
Qed.
Print Assumptions C99_partial.

(** If the metadata held is consistent and every later Director Root accepts the Targets held, the first transfer succeeds. *)
Theorem C99_same_keys_partial :
  forall savec E W srv ecu fw name l t s ld li, let d := u_db (p_ust s) in let v0 := v_run E l (vs_new fw name) in
  in_order E d ld li -> all_roots E d Director ld -> all_roots E d Image li ->
  let v := vs_now E ecu d v0 s in
  is_consistent E v = Ok true ->
  (forall w raw, v_root_version Director v < w <= ld -> load_root Director w d = Ok (Some raw) -> suits E raw (vs_dtargets v)) ->
  exists s' r, attempt savec E W srv ecu d v0 t s = (s', Ok r) /\ ir_success r = true.
Proof.
  intros savec E W srv ecu fw name l t s ld li d v0 Ho Ad Ai v Hc Hs.
  assert (B : bundled v) by (apply replay_bundled, run_bundled, bundled_new).
  exact (attempt_ok savec E W srv ecu d v0 ld li t s eq_refl Ho Ad Ai B Hc Hs).
Qed.
Print Assumptions C99_same_keys_partial.

(** In the case above the second transfer succeeds; after a restart of the Primary the first one does. *)
Example C99_case :
  (let at_ v0 s := attempt sv W nobody nosrv "ecu1" db_new v0 app s in
   let good p := match p with (_, Ok r) => ir_success r | _ => false end in
   let v0 := v_run W [VPutMeta db_all] (vs_new None None) in
   good (at_ v0 st_new) = false /\ good (at_ v0 (fst (at_ v0 st_new))) = true /\ good (at_ (v_run W [VPutMeta db_all; VRestart] (vs_new None None)) st_new) = true) /\
  (forall t, succeeds_within sv W nobody nosrv "ecu1" db_new (v_run W [VPutMeta db_all] (vs_new None None)) 2 t st_new).
Proof.
  split; [vm_compute; repeat split|]. intros t.
  apply (proj2 (C99_partial sv W nobody nosrv "ecu1" None None [VPutMeta db_all] t st_new 3 1 new_in_order (proj1 new_roots) (proj2 new_roots))). vm_compute. reflexivity.
Qed.
(** Roots 2 and 3 with the key that signed the Targets the Secondary holds. *)
Definition same_world : Env := toy (("S2", root_j "s2" 2 far 1 k1 k1) :: ("S3", root_j "s3" 3 far 1 k1 k1) :: world).
Definition db_same : db :=
  store_nonroot "TG5" Image RTargets (store_nonroot "SN5" Image RSnapshot (store_nonroot "TS5" Image RTimestamp (store_root "R1" Image 1
    (store_nonroot "D6" Director RTargets (store_root "S3" Director 3 (store_root "S2" Director 2 (store_root "R1" Director 1 db_empty))))))).
Definition st_same : pst := {| p_ust := mem0 db_same; p_idb := {| il_ecus := []; il_log := [] |}; p_dev := dev_init [] []; p_tr := [] |}.
Lemma suits_check E raw j : match root_of_json E (parse E raw) with
  | Ok rt => is_ok (unpack_signed E (rt_ks rt) role_root (parse E raw)) && is_ok (targets_of_json_signed E (unpack_signed E (rt_ks rt)) role_targets j)
  | Throw _ => false end = true -> suits E raw j.
Proof.
  intros H. unfold suits. destruct (root_of_json E (parse E raw)) as [rt|] eqn:R; [|discriminate]. apply andb_true_iff in H. destruct H as (A & B).
  apply ok_ex in A. apply ok_ex in B. destruct A as ([] & A), B as (t & B). exists rt, t. auto.
Qed.
Example C99_same_case :
  let v0 := v_run same_world [VPutMeta db_all] (vs_new None None) in
  in_order same_world db_same 3 1 /\ all_roots same_world db_same Director 3 /\ all_roots same_world db_same Image 1 /\
  is_consistent same_world v0 = Ok true /\ v_root_version Director v0 = 1 /\
  (forall w raw, 1 < w <= 3 -> load_root Director w db_same = Ok (Some raw) -> suits same_world raw (vs_dtargets v0)).
Proof.
  split; [apply (in_order_check same_world db_same {| m_droot := "S3"; m_dtargets := "D6"; m_iroot := "R1"; m_itime := "TS5"; m_isnap := "SN5"; m_itargets := "TG5" |}); vm_compute; reflexivity|]. split; [|split; [|split; [vm_compute; reflexivity|split; [vm_compute; reflexivity|]]]].
  - intros n H. assert (C : n = 1 \/ n = 2 \/ n = 3) by lia. destruct C as [->|[->| ->]]; [exists "R1"|exists "S2"|exists "S3"]; (split; [vm_compute; reflexivity|apply root_doc_check; vm_compute; reflexivity]).
  - intros n H. assert (n = 1) by lia. subst n. exists "R1"; split; [vm_compute; reflexivity|apply root_doc_check; vm_compute; reflexivity].
  - intros w raw H L. assert (C : w = 2 \/ w = 3) by lia. destruct C as [->| ->]; vm_compute in L; injection L as <-; apply suits_check; vm_compute; reflexivity.
Qed.

(** C100 A virtual Secondary answers metadata with success exactly if the Director's Root is signed by its own keys and the Director's
    Targets by those that this Root names; it then holds the Primary's newest Roots and these Targets. *)
Theorem C100_exact : forall E d v v' r, v_put_metadata E d v = (v', Ok r) ->
  (ir_success r = true <-> exists m, get_metadata d = Ok (Some m) /\ suits E (m_droot m) (parse E (m_dtargets m))) /\
  (forall m, get_metadata d = Ok (Some m) -> root_doc E (m_droot m) (v_root_version Director v') /\ root_doc E (m_iroot m) (v_root_version Image v') /\
     vs_dtargets v' = parse E (m_dtargets m)).
Proof. exact put_meta_exact. Qed.
Print Assumptions C100_exact.
(** Documents that can be read are not answered with an exception of Uptane: a wrong signature is answered with a failure. *)
Theorem C100_answers : forall E d v v' e m dr dt ir ts sn tg, get_metadata d = Ok (Some m) ->
  root_of_json E (parse E (m_droot m)) = Ok dr -> targets_of_json E (parse E (m_dtargets m)) = Ok dt -> root_of_json E (parse E (m_iroot m)) = Ok ir ->
  timestamp_of_json (parse E (m_itime m)) = Ok ts -> snapshot_of_json (parse E (m_isnap m)) = Ok sn -> targets_of_json E (parse E (m_itargets m)) = Ok tg ->
  v_put_metadata E d v = (v', Throw e) -> is_uptane e = false.
Proof.
  intros E d v v' e m dr dt ir ts sn tg G A1 A2 A3 A4 A5 A6. unfold v_put_metadata. rewrite G. unfold raw_to_meta. rewrite A1, A2, A3, A4, A5, A6. unfold verdict.
  match goal with |- context [is_consistent E ?x] => destruct (is_consistent E x) as [[]|e'] eqn:K end; intros H; injection H as _ H; try discriminate. subst e'.
  unfold is_consistent in K. match type of K with (match ?b with _ => _ end) = _ => destruct b as [|e'] end; [discriminate|].
  destruct (is_uptane e') eqn:U; [discriminate|]. injection K as <-. exact U.
Qed.
Print Assumptions C100_answers.
(** Targets signed by the old key beside the new Root, and all in order. *)
Definition db_mixed : db := store_nonroot "D6" Director RTargets db_new.
Example C100_case :
  let good d := match v_put_metadata W d (vs_new None None) with (_, Ok r) => Some (ir_success r) | _ => None end in
  good db_mixed = Some false /\ good db_new = Some true /\ good db_empty = Some false /\
  v_root_version Director (fst (v_put_metadata W db_mixed (vs_new None None))) = 3.
Proof. vm_compute. repeat split. Qed.

(** C101 A virtual Secondary does not go back: metadata it answers with success does not have a lower Root version than what it holds. *)
Definition C101_statement : Prop :=
  forall E l fw name d rp r v', let v := v_run E l (vs_new fw name) in
  v_put_metadata E d v = (v', Ok r) -> ir_success r = true -> v_root_version rp v <= v_root_version rp v'.
Theorem C101_refuted : ~ C101_statement.
Proof.
  intros H. specialize (H W [VPutMeta db_new] None None db_all Director (mk_ires (num kOk) "") (fst (v_put_metadata W db_all (v_run W [VPutMeta db_new] (vs_new None None))))).
  cbv zeta in H. assert (Q : v_put_metadata W db_all (v_run W [VPutMeta db_new] (vs_new None None)) = (fst (v_put_metadata W db_all (v_run W [VPutMeta db_new] (vs_new None None))), Ok (mk_ires (num kOk) ""))) by (vm_compute; reflexivity).
  specialize (H Q eq_refl). vm_compute in H. apply H. reflexivity.
Qed.
Print Assumptions C101_refuted.

(** It holds what the Primary holds; so it does not go back as long as the Primary's own newest Root does not. *)
Theorem C101_partial : forall E d1 d2 v1 v1' v2 v2' r1 r2 m1 m2 rp n1 n2,
  let newest m := match rp with Director => m_droot m | Image => m_iroot m end in
  v_put_metadata E d1 v1 = (v1', Ok r1) -> v_put_metadata E d2 v2 = (v2', Ok r2) ->
  get_metadata d1 = Ok (Some m1) -> get_metadata d2 = Ok (Some m2) ->
  root_doc E (newest m1) n1 -> root_doc E (newest m2) n2 -> n1 <= n2 -> v_root_version rp v1' <= v_root_version rp v2'.
Proof.
  intros E d1 d2 v1 v1' v2 v2' r1 r2 m1 m2 rp n1 n2 newest P1 P2 G1 G2 D1 D2 L.
  destruct (put_meta_exact E _ _ _ _ P1) as (_ & K1). destruct (put_meta_exact E _ _ _ _ P2) as (_ & K2).
  destruct (K1 m1 G1) as (A1 & B1 & _). destruct (K2 m2 G2) as (A2 & B2 & _).
  assert (F : forall raw a b, root_doc E raw a -> root_doc E raw b -> a = b) by (intros raw a b (x & X & <-) (y & Y & <-); congruence).
  destruct rp; cbn [newest] in *; [rewrite (F _ _ _ A1 D1), (F _ _ _ A2 D2)|rewrite (F _ _ _ B1 D1), (F _ _ _ B2 D2)]; exact L.
Qed.
Print Assumptions C101_partial.
Example C101_case :
  let v1 := fst (v_put_metadata W db_all (vs_new None None)) in let v2 := fst (v_put_metadata W db_new v1) in
  root_doc W "R1" 1 /\ root_doc W "R3" 3 /\ v_root_version Director v1 = 1 /\ v_root_version Director v2 = 3.
Proof. split; [apply root_doc_check; vm_compute; reflexivity|]. split; [apply root_doc_check; vm_compute; reflexivity|]. vm_compute. split; reflexivity. Qed.
