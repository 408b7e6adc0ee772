(** C102-C105: the start of the storage, conversion of the old files and import of credentials. *)
From Verif Require Import Base Json TufModel TufProofs MetaStore RepoModel RepoSpec RepoProofs CodecModel InstModel InstSpec InstProofs InstProofs2 PropsInst ConvModel ConvSpec ConvProofs ConvProofs2 ConvProofs3 ConvProofs4 Toy.

(** ** Old files of a device with one Secondary: [dj] its unversioned Director Root, [dr], [ir] its versioned Roots *)
Definition v_entry (h : string) (c : bool) : json := JObj [("length", JInt 3); ("hashes", JObj [("sha256", JStr h)]); ("is_current", JBool c)].
Definition cv_docs : list (string * json) := [
  ("R1", root_j "r1" 1 far 1 k1 k1); ("R2", root_j "r2" 2 far 1 k2 both);
  ("D5", targets_j "d5" 5 far [("app", target_j 7 "aa" (ecu_custom "ecu1" "hw1"))] k1);
  ("V", JObj [("app1", v_entry "AA" false); ("app2", v_entry "BB" true); ("app3", v_entry "CC" false)])].
Definition CE : Env := toy cv_docs.
Definition at_version (l : list (Z * string)) (v : Z) : option string := match find (fun p => fst p =? v) l with Some p => Some (snd p) | None => None end.
Definition old (dj : option string) (dr ir : list (Z * string)) : files := {|
  o_pub := Some "pub"; o_priv := Some "priv"; o_ca := Some "ca"; o_cert := Some "cert"; o_pkey := Some "pkey"; o_dev := Some "device"; o_reg := true;
  o_serial := Some "ecu1"; o_hw := Some "hw1"; o_secs := Some [append "ecu2" (append tab "hw2")]; o_vers := Some "V";
  o_meta := fun rp ty => match rp, ty with Director, RTargets => Some "D5" | Director, RRoot => dj | _, _ => None end;
  o_roots := fun rp => at_version (match rp with Director => dr | Image => ir end); o_rootnums := fun rp => map fst (match rp with Director => dr | Image => ir end) |}.
Definition plain : files := old None [(1, "R1"); (2, "R2")] [(1, "R1")].
Definition ahead : files := old None [(1, "R1")] [(1, "R1"); (2, "R2")].
Definition unversioned : files := old (Some "R1") [] [(1, "R1")].

Definition root_good (raw : string) (v : Z) : bool := negb (String.eqb raw "") && String.eqb (cut_nul raw) raw && (0 <=? v) && match extract_version_untrusted CE raw with Ok w => w =? v | Throw _ => false end.
Lemma root_good_ok raw v : root_good raw v = true -> nul_free raw /\ 0 <= v /\ extract_version_untrusted CE raw = Ok v.
Proof.
  unfold root_good. rewrite !andb_true_iff. intros (((A & B) & C) & D). split; [apply nul_free_dec; now rewrite A, B|]. split; [now apply Z.leb_le|].
  destruct (extract_version_untrusted CE raw); [|discriminate]. apply Z.eqb_eq in D. now subst.
Qed.
Lemma at_version_in l v raw : at_version l v = Some raw -> In (v, raw) l.
Proof. unfold at_version. destruct (find _ l) as [(w, x)|] eqn:F; [|discriminate]. apply find_some in F. destruct F as (I & Q). apply Z.eqb_eq in Q. cbn in *. intros H. injection H as <-. now subst. Qed.
Lemma at_version_some l v : In v (map fst l) <-> at_version l v <> None.
Proof.
  unfold at_version. split.
  - intros I. apply in_map_iff in I. destruct I as ((w, x) & Q & I). cbn in Q. subst w. destruct (find _ l) eqn:F; [discriminate|]. apply (find_none _ _ F) in I. cbn in I. now rewrite Z.eqb_refl in I.
  - destruct (find _ l) as [(w, x)|] eqn:F; [|congruence]. intros _. apply find_some in F. destruct F as (I & Q). apply Z.eqb_eq in Q. cbn in Q. subst w. apply in_map_iff. exists (v, x). auto.
Qed.
Lemma old_ecus dj dr ir l : ecus_of "host" (old dj dr ir) l <-> l = [("ecu1", "hw1"); ("ecu2", "hw2")].
Proof.
  split.
  - intros (s & secs & S & -> & N & M). injection S as <-. cbn in M. f_equal. destruct secs as [|(a, b) [|? ?]]; try discriminate M. injection M as M. inversion N as [|? ? N1 _]; subst. cbn [fst snd] in *.
    assert (C : cut_tab (append a (String "009" b)) = Some (a, b)) by now apply cut_tab_app. rewrite <- M in C. vm_compute in C. injection C as <- <-. reflexivity.
  - intros ->. exists "ecu1", [("ecu2", "hw2")]. split; [reflexivity|]. split; [reflexivity|]. split; [|reflexivity]. constructor; [|constructor]. cbn. repeat split; discriminate.
Qed.
Definition vt (name h : string) : target := match target_of_json name (v_entry h true) with Ok t => t | Throw _ => target_blank "" end.
Lemma good_vt name h : has_char ";" (to_upper h) = false -> to_upper (to_upper h) = to_upper h -> to_upper h <> "" -> good_target sv ld (vt name h).
Proof.
  intros H2 H3 H4. split; [|split; [|split; [|split]]].
  - constructor; [|constructor]. repeat split; auto. discriminate.
  - reflexivity.
  - eexists. split; [left; reflexivity|reflexivity].
  - cbn. lia.
  - intros c H. injection H as <-. eexists. reflexivity.
Qed.
Lemma good_old dj dr ir : match dj with Some raw => exists v, root_good raw v = true | None => True end ->
  forallb (fun p => root_good (snd p) (fst p)) dr = true -> forallb (fun p => root_good (snd p) (fst p)) ir = true -> good_files CE sv ld "host" (old dj dr ir).
Proof.
  intros Hj Hd Hi. split.
  - intros [] [] raw H; cbn in H; try discriminate; [subst dj; destruct Hj as (v & Hj); apply root_good_ok in Hj; apply Hj|injection H as <-; apply nul_free_dec; reflexivity].
  - intros rp v raw H. apply root_good_ok. cbn in H. apply at_version_in in H. destruct rp; [rewrite forallb_forall in Hd; exact (Hd _ H)|rewrite forallb_forall in Hi; exact (Hi _ H)].
  - intros rp v. cbn. apply at_version_some.
  - intros [] raw H; cbn in H; [|discriminate]. subst dj. destruct Hj as (v & Hj). apply root_good_ok in Hj. exists v. tauto.
  - intros l H. apply old_ecus in H. subst l. cbn. repeat constructor; cbn; intuition discriminate.
  - intros text H. injection H as <-. exists [vt "app1" "AA"; vt "app2" "BB"; vt "app3" "CC"]. split; [|split; [|split]].
    + repeat constructor.
    + repeat (constructor; [eexists; eexists; split; reflexivity|]). constructor.
    + repeat (constructor; [apply good_vt; try reflexivity; discriminate|]). constructor.
    + repeat constructor; cbn; intuition discriminate.
Qed.
Lemma plain_good : good_files CE sv ld "host" plain. Proof. apply good_old; [exact I|reflexivity|reflexivity]. Qed.
Lemma ahead_good : good_files CE sv ld "host" ahead. Proof. apply good_old; [exact I|reflexivity|reflexivity]. Qed.
Lemma unversioned_good : good_files CE sv ld "host" unversioned. Proof. apply good_old; [exists 1; reflexivity|reflexivity|reflexivity]. Qed.
Lemma plain_valid dj dr ir : ecus_valid "host" (old dj dr ir).
Proof. right. exists [("ecu1", "hw1"); ("ecu2", "hw2")]. split; [now apply old_ecus|]. repeat constructor; cbn; lia. Qed.
Lemma plain_not_ahead : image_not_ahead CE plain.
Proof.
  intros v raw (H & [(M & _)|(M & _)]); [discriminate|]. cbn in M. apply at_version_in in M. destruct M as [M|[]]. injection M as <- <-. exists 2, "R2". split; [lia|]. split; [lia|]. right. split; [reflexivity|]. discriminate.
Qed.

(** ** C102: a conversion keeps everything *)
(** Old files of a registered device: once the storage is open, the database has all that they said. *)
Definition C102_statement : Prop := forall E savec loadc host fs d', good_files E savec loadc host fs -> o_reg fs = true ->
  new_storage E savec host None (old_disk fs) = (d', Opened) -> exists q, k_sql d' = Some q /\ forall i, db_has E loadc host fs q i.
Definition lacks (rp : repo) (v : Z) (d : disk) : bool := match k_sql d with Some q => match load_root rp v (q_meta q) with Ok None => true | _ => false end | None => true end.
Lemma lacks_not E loadc host fs d rp v raw : lacks rp v d = true -> root_of E fs rp v raw -> ~ exists q, k_sql d = Some q /\ db_has E loadc host fs q (IRoot rp v).
Proof. unfold lacks. intros L R (q & Q & H). rewrite Q in L. cbn in H. rewrite (H raw R) in L. discriminate. Qed.
Theorem C102_refuted : ~ C102_statement.
Proof.
  intros H. assert (O : snd (new_storage CE sv "host" None (old_disk ahead)) = Opened) by (vm_compute; reflexivity).
  specialize (H CE sv ld "host" ahead (fst (new_storage CE sv "host" None (old_disk ahead))) ahead_good eq_refl). rewrite <- O in H. specialize (H (surjective_pairing _)).
  destruct H as (q & Q & H). revert Q. generalize (H (IRoot Image 2)). clear H O. intros H Q.
  apply (lacks_not CE ld "host" ahead (fst (new_storage CE sv "host" None (old_disk ahead))) Image 2 "R2"); [vm_compute; reflexivity| |exists q; auto].
  split; [lia|]. right. split; [reflexivity|discriminate].
Qed.
Print Assumptions C102_refuted.
(** It is so unless the Image repository has a newer Root than the Director. *)
Theorem C102_partial : forall E savec loadc host fs d', good_files E savec loadc host fs -> image_not_ahead E fs -> o_reg fs = true ->
  new_storage E savec host None (old_disk fs) = (d', Opened) -> exists q, k_sql d' = Some q /\ forall i, db_has E loadc host fs q i.
Proof. intros E savec loadc host fs d' G A R H. exact (opened_all E savec loadc host fs G d' R A H). Qed.
Print Assumptions C102_partial.
(** The conversion succeeds if there is a device id and the ECU names have a permitted length. *)
Theorem C102_opens : forall E savec loadc host fs, good_files E savec loadc host fs -> o_reg fs = true -> o_dev fs <> None -> ecus_valid host fs ->
  snd (new_storage E savec host None (old_disk fs)) = Opened.
Proof. intros E savec loadc host fs G R D V. exact (opens E savec loadc host fs G R D V). Qed.
Print Assumptions C102_opens.
Example C102_case : good_files CE sv ld "host" plain /\ image_not_ahead CE plain /\ o_reg plain = true /\ o_dev plain <> None /\ ecus_valid "host" plain /\
  (exists text t, o_vers plain = Some text /\ current_of CE text t /\ t_filename t = "app2") /\ root_of CE plain Director 2 "R2" /\
  snd (new_storage CE sv "host" None (old_disk plain)) = Opened.
Proof.
  split; [exact plain_good|]. split; [exact plain_not_ahead|]. split; [reflexivity|]. split; [discriminate|]. split; [apply plain_valid|]. split; [|split; [|vm_compute; reflexivity]].
  - exists "V", (vt "app2" "BB"). split; [reflexivity|]. split; [|reflexivity]. exists [("app1", v_entry "AA" false)], ("app2", v_entry "BB" true), [("app3", v_entry "CC" false)].
    split; [reflexivity|]. split; [reflexivity|]. split; [eexists; split; reflexivity|]. constructor; [eexists; split; reflexivity|constructor].
  - split; [lia|]. right. split; [reflexivity|discriminate].
Qed.

(** ** C103: an interrupted conversion is completed by the next start *)
Definition C103_statement : Prop := forall E savec loadc host fs n, good_files E savec loadc host fs -> image_not_ahead E fs -> o_reg fs = true -> o_dev fs <> None -> ecus_valid host fs ->
  let d1 := fst (new_storage E savec host (Some n) (old_disk fs)) in let d2 := fst (new_storage E savec host None d1) in
  exists q, k_sql d2 = Some q /\ forall i, db_has E loadc host fs q i.
(** Killed when the new database has just been created. *)
Theorem C103_refuted : ~ C103_statement.
Proof.
  intros H. specialize (H CE sv ld "host" plain 1%nat plain_good plain_not_ahead eq_refl ltac:(discriminate) (plain_valid _ _ _)). cbv zeta in H. destruct H as (q & Q & H).
  apply (lacks_not CE ld "host" plain (fst (new_storage CE sv "host" None (fst (new_storage CE sv "host" (Some 1%nat) (old_disk plain))))) Director 2 "R2"); [vm_compute; reflexivity| |exists q; auto].
  split; [lia|]. right. split; [reflexivity|discriminate].
Qed.
Print Assumptions C103_refuted.
(** No later start repairs that: killed between the creation of the database and the first record, the device starts with an empty
    database ever after, however often it is started: without keys, without device id, not registered. *)
Theorem C103_lost_partial : forall E savec host fs n r1 r2 l, o_reg fs = true -> rename_steps E fs Director = Ok r1 -> rename_steps E fs Image = Ok r2 ->
  (1 <= n <= 1 + List.length r1 + List.length r2)%nat ->
  k_sql (starts E savec host l (fst (new_storage E savec host (Some n) (old_disk fs)))) = Some sql_empty.
Proof. intros E savec host fs n r1 r2 l. exact (early_lost E savec host fs n r1 r2 l). Qed.
Print Assumptions C103_lost_partial.
Example C103_lost_case : exists r1 r2, rename_steps CE unversioned Director = Ok r1 /\ rename_steps CE unversioned Image = Ok r2 /\ List.length r1 = 2%nat /\ o_reg unversioned = true.
Proof. eexists. eexists. repeat split; reflexivity. Qed.
(** Killed before the first step, or when all is written and old files are being removed, nothing is missing after the next start. *)
Theorem C103_partial : forall E savec loadc host fs n, good_files E savec loadc host fs -> image_not_ahead E fs -> o_reg fs = true -> o_dev fs <> None -> ecus_valid host fs ->
  n = 0%nat \/ (List.length (fst (plan E host fs)) - List.length cleanup <= n)%nat ->
  let d1 := fst (new_storage E savec host (Some n) (old_disk fs)) in let d2 := fst (new_storage E savec host None d1) in
  exists q, k_sql d2 = Some q /\ forall i, db_has E loadc host fs q i.
Proof.
  intros E savec loadc host fs n G A R D V Hn. cbv zeta. pose proof (opens E savec loadc host fs G R D V) as O.
  destruct (new_storage E savec host None (old_disk fs)) as (d', o) eqn:N. cbn in O. subst o. destruct Hn as [->|Hn].
  - assert (Z : fst (new_storage E savec host (Some 0%nat) (old_disk fs)) = old_disk fs).
    { unfold new_storage. cbn [old_disk k_sql k_fs]. destruct (if o_reg fs then plan E host fs else _). reflexivity. }
    rewrite Z, N. exact (opened_all E savec loadc host fs G d' R A N).
  - assert (K : snd (plan E host fs) = true /\ snd (new_storage E savec host (Some n) (old_disk fs)) = Killed).
    { unfold new_storage in N |- *. cbn [old_disk k_sql k_fs] in *. rewrite R in *. fold (old_disk fs) in *. destruct (plan E host fs) as (steps, ok). destruct (exec savec steps (old_disk fs)) as (x, b) eqn:X. injection N as _ N.
      destruct b; [|discriminate]. destruct ok; [|discriminate]. split; [reflexivity|]. rewrite <- (firstn_skipn n steps), exec_app in X. destruct (exec savec (firstn n steps) (old_disk fs)) as (y, [|]); [reflexivity|discriminate]. }
    destruct K as (K1 & K2). destruct (new_storage E savec host (Some n) (old_disk fs)) as (d1, o1) eqn:N1. cbn in K2. subst o1. cbn [fst].
    destruct (killed_late E savec loadc host fs G n d1 R A Hn K1 N1) as (q & Q & H). rewrite (some_stays E savec host None d1 q Q). eauto.
Qed.
Print Assumptions C103_partial.
Example C103_case : List.length (fst (plan CE "host" plain)) = 28%nat /\ List.length cleanup = 13%nat /\ snd (new_storage CE sv "host" (Some 15%nat) (old_disk plain)) = Killed.
Proof. vm_compute. auto. Qed.

(** ** C104: nothing is lost at any time *)
(** However often the storage is started, and killed after any step: what the old files said is still in them or in the database. *)
Definition C104_statement : Prop := forall E savec loadc host fs l i, good_files E savec loadc host fs -> image_not_ahead E fs ->
  let d := starts E savec host l (old_disk fs) in files_have E fs (k_fs d) i \/ exists q, k_sql d = Some q /\ db_has E loadc host fs q i.
(** An unversioned Root is removed before it is written under its new name. *)
Theorem C104_refuted : ~ C104_statement.
Proof.
  intros H. assert (R : root_of CE unversioned Director 1 "R1") by (split; [lia|]; left; split; reflexivity).
  assert (A : image_not_ahead CE unversioned).
  { intros v raw (Hv & [(M & _)|(M & _)]); [discriminate|]. cbn in M. apply at_version_in in M. destruct M as [M|[]]. injection M as <- <-. exists 1, "R1". split; [lia|exact R]. }
  specialize (H CE sv ld "host" unversioned [Some 2%nat] (IRoot Director 1) unversioned_good A). cbv zeta in H. destruct H as [H|H].
  - cbn [files_have] in H. destruct (H "R1" R) as (_ & [(M & _)|(M & _)]); vm_compute in M; discriminate M.
  - revert H. apply (lacks_not CE ld "host" unversioned _ Director 1 "R1"); [vm_compute; reflexivity|exact R].
Qed.
Print Assumptions C104_refuted.
(** Without an unversioned Root. *)
Theorem C104_partial : forall E savec loadc host fs l i, good_files E savec loadc host fs -> image_not_ahead E fs -> (forall rp, o_meta fs rp RRoot = None) ->
  let d := starts E savec host l (old_disk fs) in files_have E fs (k_fs d) i \/ exists q, k_sql d = Some q /\ db_has E loadc host fs q i.
Proof. intros E savec loadc host fs l i G A N. exact (starts_any E savec loadc host fs G l N A i). Qed.
Print Assumptions C104_partial.
Example C104_case : good_files CE sv ld "host" plain /\ image_not_ahead CE plain /\ (forall rp, o_meta plain rp RRoot = None).
Proof. split; [exact plain_good|]. split; [exact plain_not_ahead|]. intros []; reflexivity. Qed.

(** ** C105: import of credentials *)
(** An import that succeeds: keys are taken over unless there are some, each other credential equals the file's, up to the digest, the
    versions go into an empty log only, and nothing else changes. *)
Theorem C105_exact : forall E savec loadc cn m q q', import_data E savec loadc cn 5 m q = (q', true) ->
  q_keys q' = keys_after m (q_keys q) /\ imported E (q_cert q) (m_cert m) (q_cert q') /\ imported E (q_ca q) (m_ca m) (q_ca q') /\ imported E (q_pkey q) (m_pkey m) (q_pkey q') /\
  q_dev q' = q_dev q /\ q_meta q' = q_meta q /\ versions_after E savec loadc m (q_inst q) (q_inst q').
Proof. intros E savec loadc cn m q q'. exact (import_exact E savec loadc cn m q q'). Qed.
Print Assumptions C105_exact.
(** The version marked as current in the file is then the current one. *)
Theorem C105_current : forall E savec loadc cn m q q' text ts t, import_data E savec loadc cn 5 m q = (q', true) -> ready E savec loadc m q -> load_log loadc "" false (q_inst q) = Ok [] ->
  m_vers m = Text text -> versions_file E text ts -> Forall (fun e => exists b, entry_marked e b) (jiter (parse E text)) -> current_of E text t -> good_target savec loadc t ->
  exists x, load_installed loadc "" (q_inst q') = Ok (Some x, None) /\ same_key x t.
Proof.
  intros E savec loadc cn m q q' text ts t H (Rd & _) L Mt Vf Mk C G. apply import_exact in H. destruct H as (_ & _ & _ & _ & _ & _ & [(x & l & K & _)|(_ & _ & _ & K)]); [congruence|].
  rewrite (K text t ts Mt Vf Mk C). destruct (current_reported savec loadc (q_inst q) "" t (reach_wf _ _ _ Rd) G) as (x & X & (Sk & _) & _). eauto.
Qed.
Print Assumptions C105_current.
(** Killed before any of its steps, then repeated: the same as without the kill. A certificate that cannot be read is never stored. *)
Theorem C105_repeat : forall E savec loadc cn m n q, ready E savec loadc m q -> (n <= 5)%nat ->
  import_data E savec loadc cn 5 m (fst (import_data E savec loadc cn n m q)) = import_data E savec loadc cn 5 m q.
Proof. intros E savec loadc cn m n q. exact (import_again E savec loadc cn m n q). Qed.
Print Assumptions C105_repeat.
Theorem C105_cert : forall E savec loadc cn n m q, let q' := fst (import_data E savec loadc cn n m q) in
  q_cert q' <> q_cert q -> exists s x, m_cert m = Text s /\ cn s = Ok x /\ q_cert q' = Some s.
Proof. intros E savec loadc cn n m q. exact (run_cert E savec loadc cn n m q). Qed.
Print Assumptions C105_cert.
Definition im : imports := {| m_pub := Text "pub"; m_priv := Text "priv"; m_cert := Text "cert2"; m_ca := NoPath; m_pkey := NoFile; m_vers := Text "V" |}.
Definition q_some : sql := set_creds None (Some "ca") (Some "cert") (Some "pkey") sql_empty.
Definition all_cn (s : string) : res string := Ok s.
Example C105_case : ready CE sv ld im q_some /\ snd (import_data CE sv ld all_cn 5 im q_some) = true /\ load_log ld "" false (q_inst q_some) = Ok [] /\
  let q' := fst (import_data CE sv ld all_cn 5 im q_some) in
  q_keys q' = Some ("pub", "priv") /\ q_cert q' = Some "cert2" /\ q_ca q' = Some "ca" /\ q_pkey q' = Some "pkey" /\ List.length (il_log (q_inst q')) = 1%nat /\
  q_cert (fst (import_data CE sv ld (fun _ => Throw EStd) 5 im q_some)) = Some "cert".
Proof.
  split; [|vm_compute; repeat split]. split; [apply ireach_0|]. intros ts k t H N. vm_compute in H. injection H as <- <-. vm_compute in N. injection N as <-. apply (good_vt "app2" "BB"); try reflexivity. discriminate.
Qed.
