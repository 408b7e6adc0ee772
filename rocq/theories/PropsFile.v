(** C45: file writes. *)
From Verif Require Import Base DlModel DlSpec DlProofs FileModel FileSpec FileProofs.

(** The full claim, for every way the content is handed to the system, every failing write, every crash. *)
Definition C45_statement : Prop := forall f pieces s s', interrupted f pieces s s' -> old_or_new f s s' (sconcat pieces).
(** A failed write (full disk) is not noticed: the file is replaced by the part that was written. *)
Theorem C45_refuted : ~ C45_statement.
Proof.
  intros H. specialize (H "f" ["new "; "content"] [("f", "old")] _ (int_killed _ _ _ 10 1)). vm_compute in H. destruct H; discriminate.
Qed.
Print Assumptions C45_refuted.
(** A power failure after the rename may leave an empty file, since the data are never synchronised. *)
Theorem C45_power_refuted : exists f pieces s s', power_loss f (write_file f pieces (List.length pieces) s) s' /\
  read_file f s <> "" /\ sconcat pieces <> "" /\ read_file f s' = "".
Proof.
  exists "f", ["new "; "content"], [("f", "old")]. eexists. split; [eapply (pl_renamed _ _ _ ""); reflexivity|].
  vm_compute. repeat split; discriminate.
Qed.
Print Assumptions C45_power_refuted.
(** If the writes work, a process killed at any point leaves the old or the new content, and touches no file but this one and its ".new". *)
Theorem C45_killed_partial : forall k f pieces s, let s' := killed k f pieces (List.length pieces) s in
  old_or_new f s s' (sconcat pieces) /\ forall n, n <> f -> n <> append f ".new" -> aget n s' = aget n s.
Proof. intros k f pieces s s'. split; [apply killed_old_or_new|]. intros n. apply killed_others. Qed.
Print Assumptions C45_killed_partial.
(** Uninterrupted, what is written is what is read, whatever an earlier crash left. *)
Theorem C45_round_trip : forall f pieces s, read_file f (write_file f pieces (List.length pieces) s) = sconcat pieces /\
  aget (append f ".new") (write_file f pieces (List.length pieces) s) = None.
Proof. exact write_read. Qed.
Print Assumptions C45_round_trip.
Example C45_met : exists k, read_file "f" (killed k "f" ["new "; "content"] 2 [("f", "old")]) = "old" /\
  aget "f.new" (killed k "f" ["new "; "content"] 2 [("f", "old")]) = Some "new " /\ read_file "f" (killed (k + 2) "f" ["new "; "content"] 2 [("f", "old")]) = "new content".
Proof. exists 2%nat. vm_compute. now repeat split. Qed.
