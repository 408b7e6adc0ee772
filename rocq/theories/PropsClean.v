(** C44: automatic clean-up of stored images. *)
From Verif Require Import Base Json TufModel CodecModel CodecSpec CodecProofs InstModel InstSpec InstProofs InstProofs2 PropsInst DlModel DlSpec DlProofs CleanModel CleanSpec CleanProofs.

(** The full claim. *)
Definition C44_statement : Prop := forall d s t, ireach sv (good_target sv ld) d -> in_use ld d t \/ awaited ld d t ->
  stored t (autoclean ld d s) = stored t s.
Definition two_ecus : iop := OpStoreEcus [("p", "hw")].
Lemma reach_two ops : (forall o, In o ops -> exists s t m, o = OpSave s t m /\ good_target sv ld t) -> ireach sv (good_target sv ld) (irun sv (istep sv idb_empty two_ecus) ops).
Proof.
  intros H. assert (B : ireach sv (good_target sv ld) (istep sv idb_empty two_ecus)).
  { apply ireach_S; [apply ireach_0|]. cbn. split; [discriminate|]. left. easy. }
  revert H B. generalize (istep sv idb_empty two_ecus). induction ops as [|o ops IH]; intros d H B; [exact B|].
  cbn. apply IH; [intros x Hx; apply H; now right|]. apply ireach_S; [exact B|]. destruct (H o (or_introl eq_refl)) as (s & t & m & -> & G). exact G.
Qed.
Definition images : dstate := {| d_names := [("a", "AA"); ("b", "BB")]; d_files := [("AA", "image a"); ("BB", "image b")] |}.
(** The image of the version that waits for a reboot is deleted. *)
Definition pending_log : idb := irun sv (istep sv idb_empty two_ecus) [OpSave "p" tA ModeCurrent; OpSave "p" tB ModePending].
Lemma pending_reach : ireach sv (good_target sv ld) pending_log.
Proof.
  apply reach_two. intros o [<- | [<- | []]].
  - exists "p", tA, ModeCurrent. split; [reflexivity|exact good_A].
  - exists "p", tB, ModePending. split; [reflexivity|exact good_B].
Qed.
Theorem C44_refuted : ~ C44_statement.
Proof.
  intros H. specialize (H pending_log images).
  assert (A : exists t, awaited ld pending_log t /\ stored t (autoclean ld pending_log images) = None /\ stored t images = Some "image b").
  { eexists. split; [exists "p", "hw"; eexists; split; [left; reflexivity|vm_compute; reflexivity]|]. vm_compute. now split. }
  destruct A as (t & A & N & P). rewrite (H t pending_reach (or_intror A)), P in N. discriminate.
Qed.
Print Assumptions C44_refuted.
(** Images are kept in files named after their hash. If an old target has the same content as the current one, deleting it deletes the image of the current one. *)
Definition tB' := tg "b" "AA" "2".
Definition tC := tg "c" "CC" "3".
Definition shared : dstate := {| d_names := [("a", "AA"); ("b", "AA"); ("c", "CC")]; d_files := [("AA", "image"); ("CC", "image c")] |}.
Theorem C44_shared_refuted : exists d s t, ireach sv (good_target sv ld) d /\ in_use ld d t /\ stored t s <> None /\ stored t (autoclean ld d s) = None.
Proof.
  exists (irun sv (istep sv idb_empty two_ecus) [OpSave "p" tA ModeCurrent; OpSave "p" tC ModeCurrent; OpSave "p" tB' ModeCurrent]), shared.
  eexists. split.
  - apply reach_two. intros o [<- | [<- | [<- | []]]].
    + exists "p", tA, ModeCurrent. split; [reflexivity|exact good_A].
    + exists "p", tC, ModeCurrent. split; [reflexivity|]. apply good_tg; try reflexivity; discriminate.
    + exists "p", tB', ModeCurrent. split; [reflexivity|]. apply good_tg; try reflexivity; discriminate.
  - split; [exists "p", "hw"; eexists; split; [left; reflexivity|vm_compute; reflexivity]|]. split; [vm_compute; discriminate|vm_compute; reflexivity].
Qed.
Print Assumptions C44_shared_refuted.
(** The image of a version in use is kept, if its file is not shared. *)
Theorem C44_current_partial savec loadc Good d s t : ireach savec Good d -> in_use loadc d t -> unshared s t ->
  stored t (autoclean loadc d s) = stored t s.
Proof. exact (current_kept loadc savec Good d s t). Qed.
Print Assumptions C44_current_partial.
(** So are the images of the last two versions installed on each ECU. *)
Theorem C44_last_two loadc d s serial hw log k a b : In (serial, hw) (il_ecus d) -> load_log loadc serial true d = Ok log -> log = k ++ [a; b] ->
  (unshared s a -> stored a (autoclean loadc d s) = stored a s) /\ (unshared s b -> stored b (autoclean loadc d s) = stored b s).
Proof.
  intros Hin Hl ->.
  assert (L : last_two (k ++ [a; b]) = [a; b]).
  { unfold last_two. rewrite app_length. cbn [List.length]. rewrite skipn_app. replace (List.length k + 2 - 2)%nat with (List.length k) by lia.
    rewrite skipn_all. now rewrite Nat.sub_diag. }
  split; intros U; apply autoclean_keeps; try exact U; intros lg Hlog; destruct (log_entry loadc d serial hw _ lg Hin Hlog) as (x & Hx & Ix);
    rewrite Hl in Hx; injection Hx as <-; apply (kept_in lg _ _ Ix); rewrite L; cbn; tauto.
Qed.
Print Assumptions C44_last_two.
(** Something is deleted all the same: an image no log mentions. *)
Example C44_met : let d := irun sv (istep sv idb_empty two_ecus) [OpSave "p" tA ModeCurrent] in
  ireach sv (good_target sv ld) d /\ (exists t, in_use ld d t /\ t_filename t = "a" /\ unshared images t) /\
  d_files (autoclean ld d images) = [("AA", "image a")].
Proof.
  split; [apply reach_two; intros o [<- | []]; exists "p", tA, ModeCurrent; split; [reflexivity|exact good_A]|]. split; [|vm_compute; reflexivity].
  eexists. split; [exists "p", "hw"; eexists; split; [left; reflexivity|vm_compute; reflexivity]|]. split; [reflexivity|].
  intros n f. cbn. destruct (String.eqb_spec n "a") as [->|]; [easy|]. destruct (String.eqb_spec n "b") as [->|]; [|discriminate]. intros [= <-]. discriminate.
Qed.
Example C44_last_two_met : let d := irun sv (istep sv idb_empty two_ecus) [OpSave "p" tA ModeCurrent; OpSave "p" tB ModeCurrent] in
  exists k a b, load_log ld "p" true d = Ok (k ++ [a; b]) /\ t_filename a = "a" /\ t_filename b = "b".
Proof. exists []. do 2 eexists. split; [vm_compute; reflexivity|]. split; reflexivity. Qed.
