(** C18, C19, C20: the log of installed versions. *)
From Verif Require Import Base Json TufModel CodecModel CodecSpec CodecProofs InstModel InstSpec InstProofs InstProofs2.

(** ** Concrete data *)
Definition sv (_ : json) : string := "null".
Definition ld (_ : string) : option json := Some JNull.
Definition tg (name sha corr : string) : target := target_internal name [] [mk_hash_t Sha256 sha] 10 corr.
Definition tA := tg "a" "AA" "1".
Definition tB := tg "b" "BB" "2".
Lemma good_tg name sha corr : sha <> "" -> has_char ";" (to_upper sha) = false -> to_upper (to_upper sha) = to_upper sha -> to_upper sha <> "" -> good_target sv ld (tg name sha corr).
Proof.
  intros H1 H2 H3 H4. split; [|split; [|split; [|split]]].
  - constructor; [|constructor]. repeat split; auto. discriminate.
  - reflexivity.
  - eexists. split; [left; reflexivity|reflexivity].
  - simpl. lia.
  - intros c H. injection H as <-. eexists. reflexivity.
Qed.
Lemma good_A : good_target sv ld tA. Proof. apply good_tg; try reflexivity; discriminate. Qed.
Lemma good_B : good_target sv ld tB. Proof. apply good_tg; try reflexivity; discriminate. Qed.

(** ** C18 *)
(** Every history: recording any targets in any mode for any ECU, registering ECUs, clearing. *)
Theorem C18_one_current_one_pending savec d serial : ireach savec (fun _ => True) d ->
  (currents d serial <= 1)%nat /\ (pendings d serial <= 1)%nat.
Proof. exact (one_current_one_pending savec (fun _ => True) d serial). Qed.
Print Assumptions C18_one_current_one_pending.
Theorem C18_saves_only savec ecus ops serial : (forall o, In o ops -> exists s t m, o = OpSave s t m) ->
  let d := irun savec {| il_ecus := ecus; il_log := [] |} ops in (currents d serial <= 1)%nat /\ (pendings d serial <= 1)%nat.
Proof. exact (saves_only savec ecus ops serial). Qed.
Print Assumptions C18_saves_only.
(** Without the condition of [iop_safe] on the registration of ECUs the property fails: versions recorded for the unnamed
    Primary are handed to a serial that already has some. *)
Definition merging : list iop :=
  [OpSave "" tA ModeCurrent; OpStoreEcus [("p", "hw")]; OpClearEcus; OpSave "" tB ModeCurrent; OpStoreEcus [("p", "hw")]].
Theorem C18_refuted_reregistration : ~ (forall ops serial, (currents (irun sv idb_empty ops) serial <= 1)%nat).
Proof. intros H. specialize (H merging "p"). vm_compute in H. lia. Qed.
Print Assumptions C18_refuted_reregistration.
Example C18_nonvacuous : ireach sv (fun _ => True)
    (irun sv idb_empty [OpSave "" tA ModeCurrent; OpStoreEcus [("p", "hw"); ("s", "hw2")]; OpSave "" tB ModePending; OpSave "s" tA ModeCurrent])
  /\ currents (irun sv idb_empty [OpSave "" tA ModeCurrent; OpStoreEcus [("p", "hw"); ("s", "hw2")]; OpSave "" tB ModePending; OpSave "s" tA ModeCurrent]) "p" = 1%nat.
Proof.
  split; [|reflexivity]. unfold irun. cbn [fold_left]. 
  apply ireach_S; [|exact I]. apply ireach_S; [|exact I]. apply ireach_S; [apply ireach_S; [apply ireach_0|exact I]|].
  simpl. split; [discriminate|]. right. intros r [<- | []]. discriminate.
Qed.

(** ** C19 *)
(** The full property: for every reachable log. *)
Definition C19_statement : Prop := forall d s t, ireach sv (good_target sv ld) d -> good_target sv ld t ->
  (exists x, load_installed ld s (save_installed sv s t ModeCurrent d) = Ok (Some x, None) /\ reported x t) /\
  (forall c p, load_installed ld s d = Ok (c, p) -> exists x, load_installed ld s (save_installed sv s t ModePending d) = Ok (c, Some x) /\ reported x t) /\
  (forall m s2, real_serial d s2 <> real_serial d s -> load_installed ld s2 (save_installed sv s t m d) = load_installed ld s2 d).
(** Recording the current version again, as pending, makes the ECU have no current version. *)
Theorem C19_refuted : ~ C19_statement.
Proof.
  intros H. destruct (H (save_installed sv "s" tA ModeCurrent idb_empty) "s" tA) as (_ & H2 & _).
  - change (save_installed sv "s" tA ModeCurrent idb_empty) with (istep sv idb_empty (OpSave "s" tA ModeCurrent)). apply ireach_S; [apply ireach_0|exact good_A].
  - exact good_A.
  - destruct (H2 _ _ eq_refl) as (x & E & _). vm_compute in E. discriminate.
Qed.
Print Assumptions C19_refuted.
(** Recording as current works always. *)
Theorem C19_current savec loadc d s t : ireach savec (good_target savec loadc) d -> good_target savec loadc t ->
  exists x, load_installed loadc s (save_installed savec s t ModeCurrent d) = Ok (Some x, None) /\ reported x t /\
    (never_recorded loadc d s t -> t_hashes x = t_hashes t /\ t_length x = t_length t).
Proof.
  intros R G. pose proof (reach_wf _ _ d R) as W. destruct (current_reported savec loadc d s t W G) as (x & H1 & H2 & H3). exists x.
  split; [exact H1|]. split; [exact H2|]. intros N. apply H3. now apply (never_old savec loadc).
Qed.
Print Assumptions C19_current.
Theorem C19_others_unaffected savec loadc d s s2 t m : ireach savec (good_target savec loadc) d -> real_serial d s2 <> real_serial d s ->
  load_installed loadc s2 (save_installed savec s t m d) = load_installed loadc s2 d.
Proof. intros R. exact (others_unaffected savec loadc d s s2 t m (reach_wf _ _ d R)). Qed.
Print Assumptions C19_others_unaffected.
(** Recording as pending works unless the version is the current one. *)
Theorem C19_pending_partial savec loadc d s t c p : ireach savec (good_target savec loadc) d -> good_target savec loadc t ->
  load_installed loadc s d = Ok (c, p) -> not_current loadc d s t ->
  exists x, load_installed loadc s (save_installed savec s t ModePending d) = Ok (c, Some x) /\ reported x t /\
    (never_recorded loadc d s t -> t_hashes x = t_hashes t /\ t_length x = t_length t).
Proof.
  intros R G Hl N. pose proof (reach_wf _ _ d R) as W. destruct (pending_reported savec loadc d s t c p W G Hl N) as (x & H1 & H2 & H3). exists x.
  split; [exact H1|]. split; [exact H2|]. intros N'. apply H3. now apply (never_old savec loadc).
Qed.
Print Assumptions C19_pending_partial.
(** Reading a reachable log never fails. *)
Theorem C19_load_total savec loadc d s : ireach savec (good_target savec loadc) d -> exists c p, load_installed loadc s d = Ok (c, p).
Proof. intros R. exact (load_total savec loadc d s (reach_wf _ _ d R)). Qed.
Print Assumptions C19_load_total.
Example C19_nonvacuous : let d := save_installed sv "s" tA ModeCurrent idb_empty in
  ireach sv (good_target sv ld) d /\ not_current ld d "s" tB /\ never_recorded ld d "s" tB /\ exists c, load_installed ld "s" d = Ok (Some c, None).
Proof.
  cbv zeta. split; [|split; [|split]].
  - change (save_installed sv "s" tA ModeCurrent idb_empty) with (istep sv idb_empty (OpSave "s" tA ModeCurrent)). apply ireach_S; [apply ireach_0|exact good_A].
  - intros c p H. vm_compute in H. injection H as <- <-. intros (X & _). vm_compute in X. discriminate.
  - intros l H. vm_compute in H. injection H as <-. intros x [<- | []] (X & _). vm_compute in X. discriminate.
  - eexists. vm_compute. reflexivity.
Qed.

(** The empty serial stands for the Primary, the first registered ECU, in recording and in asking. *)
Theorem C19_empty_is_primary savec loadc d p hw rest t m : il_ecus d = (p, hw) :: rest -> p <> "" ->
  save_installed savec "" t m d = save_installed savec p t m d /\ load_installed loadc "" d = load_installed loadc p d.
Proof.
  intros H N. assert (X : real_serial d "" = p) by (unfold real_serial; cbn; rewrite H; reflexivity).
  assert (Y : real_serial d p = p) by (unfold real_serial; destruct (String.eqb_spec p ""); [contradiction|reflexivity]).
  unfold save_installed, load_installed. rewrite X, Y. split; reflexivity.
Qed.
Print Assumptions C19_empty_is_primary.
Example C19_empty_case : il_ecus (irun sv idb_empty [OpStoreEcus [("p", "hw")]]) = [("p", "hw")].
Proof. reflexivity. Qed.

(** ** C20 *)
Definition C20_statement : Prop := forall d s t c p, ireach sv (good_target sv ld) d -> good_target sv ld t -> load_installed ld s d = Ok (c, p) ->
  exists p', load_installed ld s (save_installed sv s t ModeNone d) = Ok (c, p') /\ (p' = p \/ (p' = None /\ exists x, p = Some x /\ same_key x t)).
(** A failed re-installation of the current version makes the ECU have no current version. *)
Theorem C20_refuted : ~ C20_statement.
Proof.
  intros H. destruct (H (save_installed sv "s" tA ModeCurrent idb_empty) "s" tA _ _
    (ireach_S sv _ idb_empty (OpSave "s" tA ModeCurrent) (ireach_0 sv _) good_A) good_A eq_refl) as (p' & E & _). vm_compute in E. discriminate.
Qed.
Print Assumptions C20_refuted.
Theorem C20_partial savec loadc d s t c p : ireach savec (good_target savec loadc) d -> good_target savec loadc t ->
  load_installed loadc s d = Ok (c, p) -> not_current loadc d s t ->
  exists p', load_installed loadc s (save_installed savec s t ModeNone d) = Ok (c, p') /\ (p' = p \/ (p' = None /\ exists x, p = Some x /\ same_key x t)).
Proof. intros R. exact (failure_keeps_current savec loadc d s t c p (reach_wf _ _ d R)). Qed.
Print Assumptions C20_partial.
(** The hypotheses hold, with a pending version, in the state of [C19_nonvacuous] after recording [tB] as pending. *)
Example C20_nonvacuous : let d := irun sv idb_empty [OpSave "s" tA ModeCurrent; OpSave "s" tB ModePending] in
  ireach sv (good_target sv ld) d /\ not_current ld d "s" tB /\ (exists c x, load_installed ld "s" d = Ok (Some c, Some x)) /\
  exists c, load_installed ld "s" (save_installed sv "s" tB ModeNone d) = Ok (Some c, None).
Proof.
  cbv zeta. split; [|split; [|split]].
  - unfold irun. cbn [fold_left]. apply ireach_S; [apply ireach_S; [apply ireach_0|exact good_A]|exact good_B].
  - intros c p H. vm_compute in H. injection H as <- <-. intros (X & _). vm_compute in X. discriminate.
  - eexists. eexists. vm_compute. reflexivity.
  - eexists. vm_compute. reflexivity.
Qed.
