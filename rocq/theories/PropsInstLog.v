(** C66, C67: the list of pending ECUs and the installation log. *)
From Verif Require Import Base Json TufModel CodecModel CodecSpec CodecProofs InstModel InstSpec InstProofs InstProofs2 PropsInst InstLogProofs.

(** ** C66 *)
(** An update is said to be pending exactly if some ECU has a pending version. *)
Theorem C66_has_pending savec loadc d : ireach savec (good_target savec loadc) d ->
  (has_pending d = true <-> exists s c x, load_installed loadc s d = Ok (c, Some x)).
Proof. exact (has_pending_iff savec loadc d). Qed.
Print Assumptions C66_has_pending.
(** The list has each ECU once, with the hash of the version pending on it, and every ECU with a pending version. *)
Theorem C66_pending_ecus savec loadc d l : ireach savec (good_target savec loadc) d -> pending_ecus (il_log d) = Ok l ->
  NoDup (map fst l) /\
  forall e h, In (e, h) l <-> e <> "" /\ h_type h = Sha256 /\ exists c x, load_installed loadc e d = Ok (c, Some x) /\ h_val h = to_upper (sha256_hash x).
Proof. exact (pending_ecus_list savec loadc d l). Qed.
Print Assumptions C66_pending_ecus.
(** It is refused only if a version is pending under a serial of no or more than 64 characters. *)
Theorem C66_listed savec loadc d : ireach savec (good_target savec loadc) d ->
  (forall r, In r (il_log d) -> i_pend r = true -> (1 <= String.length (i_ecu r) <= 64)%nat) -> exists l, pending_ecus (il_log d) = Ok l.
Proof. exact (pending_ecus_ok savec loadc d). Qed.
Print Assumptions C66_listed.
(** The full property: the list can always be had, whatever was recorded for whom. A version recorded as pending before
    the Primary has a serial makes the whole list unavailable. *)
Definition C66_statement : Prop := forall d, ireach sv (good_target sv ld) d -> exists l, pending_ecus (il_log d) = Ok l.
Theorem C66_refuted : ~ C66_statement.
Proof.
  intros H. destruct (H (irun sv idb_empty [OpSave "" tA ModePending])) as (l & Hl).
  - unfold irun. cbn [fold_left]. apply ireach_S; [apply ireach_0|exact good_A].
  - vm_compute in Hl. discriminate.
Qed.
Print Assumptions C66_refuted.
Definition two_pending : list iop :=
  [OpStoreEcus [("p", "hw"); ("s", "hw2")]; OpSave "" tA ModeCurrent; OpSave "" tB ModePending; OpSave "s" tA ModePending; OpSave "q" tB ModeCurrent].
Example C66_nonvacuous : ireach sv (good_target sv ld) (irun sv idb_empty two_pending) /\
  pending_ecus (il_log (irun sv idb_empty two_pending)) = Ok [("p", mk_hash_t Sha256 "BB"); ("s", mk_hash_t Sha256 "AA")].
Proof.
  split; [|reflexivity]. unfold irun, two_pending. cbn [fold_left].
  repeat (apply ireach_S; [|first [exact good_A|exact good_B]]).
  apply ireach_S; [apply ireach_0|]. simpl. split; [discriminate|]. left. intros r [].
Qed.

(** ** C67 *)
(** The versions listed for an ECU are those ever recorded for it, or those ever recorded as current. The ECU named by
    the empty serial is the Primary. *)
Theorem C67_log_complete savec loadc ecus ops s only :
  (forall o, In o ops -> exists s t m, o = OpSave s t m /\ good_target savec loadc t) ->
  let d0 := {| il_ecus := ecus; il_log := [] |} in
  exists l, load_log loadc s only (irun savec d0 ops) = Ok l /\
  forall t, (exists x, In x l /\ same_key x t) <->
    exists s' t' m, In (OpSave s' t' m) ops /\ (only = true -> m = ModeCurrent) /\ real_serial d0 s' = real_serial d0 s /\ same_key t' t.
Proof. exact (log_complete savec loadc ecus ops s only). Qed.
Print Assumptions C67_log_complete.
(** The last version listed is the one recorded last, with its correlation id. *)
Theorem C67_last_is_latest savec loadc ecus ops s t m :
  (forall o, In o (ops ++ [OpSave s t m]) -> exists s t m, o = OpSave s t m /\ good_target savec loadc t) ->
  exists l x, load_log loadc s false (irun savec {| il_ecus := ecus; il_log := [] |} (ops ++ [OpSave s t m])) = Ok (l ++ [x]) /\ reported x t.
Proof. exact (log_last savec loadc ecus ops s t m). Qed.
Print Assumptions C67_last_is_latest.
Definition some_saves : list iop := [OpSave "p" tA ModeCurrent; OpSave "s" tB ModeCurrent; OpSave "" tB ModePending; OpSave "p" tA ModeNone].
Example C67_nonvacuous : (forall o, In o some_saves -> exists s t m, o = OpSave s t m /\ good_target sv ld t) /\
  (exists a b c, load_log ld "" false (irun sv {| il_ecus := [("p", "hw")]; il_log := [] |} some_saves) = Ok [a; b; c] /\ same_key a tA /\ same_key b tB /\ same_key c tA) /\
  (exists a, load_log ld "p" true (irun sv {| il_ecus := [("p", "hw")]; il_log := [] |} some_saves) = Ok [a] /\ same_key a tA).
Proof.
  split; [|split].
  - intros o H. simpl in H. repeat destruct H as [<-|H]; [..|destruct H]; do 3 eexists; split; try reflexivity; first [exact good_A|exact good_B].
  - do 3 eexists. split; [reflexivity|]. repeat split.
  - eexists. split; [reflexivity|]. repeat split.
Qed.
