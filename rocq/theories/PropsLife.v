(** Properties C180-C181: when an IP Secondary reboots itself, and what stop() achieves. *)
From Verif Require Import Base BufModel LifeModel.

Local Ltac inv H := inversion H; subst; clear H.

(** Some message was answered with "a reboot is required". *)
Definition asked (s : lst) : Prop := In HReboot (l_log s).
(** An event list of a server on which nothing goes wrong and nobody calls stop(). *)
Definition plain_cev (e : cev) : Prop := match e with VMsg _ _ | VEnd => True | _ => False end.
Definition plain_aev (e : aev) : Prop := match e with LConn c => Forall plain_cev c | _ => False end.
(** A client that does not keep the connection open for ever. *)
Definition closes (c : list cev) : Prop := In VEnd c.

(** ** C180: the Secondary reboots exactly when an update requires it and automatic completion is on *)
Definition C180_statement : Prop := forall rai first listens l s r, secondary_process rai first listens l = (s, r) ->
  (r = PExit true -> rai = true /\ asked s) /\
  (rai = true -> asked s -> r = PExit true).

(** The reason is recorded exactly when some message required a reboot. *)
Definition honest (s : lst) : Prop := l_reboot s = true <-> asked s.
Lemma honest_more h s : honest s -> h <> HReboot -> honest (logged h s).
Proof.
  unfold honest, asked. simpl. intros H N. rewrite in_app_iff, H. simpl. intuition congruence.
Qed.
Lemma honest_reboot s : honest (reboot_needed (logged HReboot s)).
Proof. unfold honest, asked. simpl. rewrite in_app_iff. simpl. intuition. Qed.
Lemma connection_honest rai : forall l s s' r, honest s -> connection rai s l = (s', r) -> honest s'.
Proof.
  induction l as [|e l IH]; simpl; intros s s' r H C; [inv C; exact H|].
  destruct e as [h sent| | |]; try (inv C; exact H).
  - destruct h.
    + assert (G : honest (logged HOk s)) by (apply honest_more; [exact H|discriminate]).
      destruct sent; [eauto|inv C; exact G].
    + pose proof (honest_reboot s) as G. destruct rai; [inv C; exact G|].
      destruct sent; [eauto|inv C; exact G].
    + inv C. apply honest_more; [exact H|discriminate].
  - exact (IH (no_keep s) s' r H C).
Qed.
Lemma honest_nokeep (k : bool) s : honest s -> honest (if k then s else no_keep s).
Proof. destruct k; exact (fun H => H). Qed.
Lemma run_honest rai : forall l s s' r rest, honest s -> run_server rai s l = (s', r, rest) -> honest s'.
Proof.
  induction l as [|e l IH]; simpl; intros s s' r rest H R.
  - destruct (negb (l_keep s)); inv R; exact H.
  - destruct (negb (l_keep s)); [inv R; exact H|].
    destruct e as [|c|q]; [inv R; exact H| |].
    + destruct (connection rai s c) as (s1, cr) eqn:C. pose proof (connection_honest rai c s s1 cr H C) as G.
      destruct cr as [| |k]; [inv R; exact G|inv R; exact G|]. exact (IH _ s' r rest (honest_nokeep k s1 G) R).
    + destruct (connection rai (no_keep s) _) as (s1, cr) eqn:C.
      pose proof (connection_honest rai _ (no_keep s) s1 cr H C) as G.
      destruct cr as [| |k]; [inv R; exact G|inv R; exact G|]. exact (IH _ s' r rest (honest_nokeep k s1 G) R).
Qed.

(** A reboot happens only after a message that required one; and every end of the process without an error reboots
    exactly then. *)
Theorem C180_partial rai first listens l s (b : bool) : secondary_process rai first listens l = (s, PExit b) ->
  (b = true <-> asked s).
Proof.
  unfold secondary_process. intros P.
  assert (H0 : honest lst0) by (unfold honest, asked; simpl; intuition discriminate).
  destruct (match first with Some c => connection rai lst0 c | None => (lst0, REnd true) end) as (s1, cr) eqn:C.
  assert (H1 : honest s1).
  { destruct first as [c|]; [exact (connection_honest rai c lst0 s1 cr H0 C)|inv C; exact H0]. }
  destruct cr as [| |k]; try discriminate. destruct (negb listens); [discriminate|].
  destruct (run_server rai s1 l) as ((s2, rr), rest) eqn:R.
  pose proof (run_honest rai l s1 s2 rr rest H1 R) as H2.
  destruct rr; try discriminate. inv P. exact H2.
Qed.
Print Assumptions C180_partial.

(** With automatic completion a connection ends with the message that requires a reboot. *)
Lemma connection_stops : forall l s s' r, connection true s l = (s', r) -> ~ asked s ->
  (~ asked s' /\ (r = REnd false -> False)) \/ (r = REnd false /\ asked s' /\ exists t, l_log s' = t ++ [HReboot] /\ ~ In HReboot t).
Proof.
  induction l as [|e l IH]; simpl; intros s s' r C N.
  - inv C. left. split; [exact N|discriminate].
  - assert (M : forall h, h <> HReboot -> ~ asked (logged h s)).
    { unfold asked. simpl. intros h D I1. apply in_app_or in I1. destruct I1 as [I1|[I1|[]]]; [exact (N I1)|congruence]. }
    destruct e as [h sent| | |].
    + destruct h.
      * destruct sent; [exact (IH _ s' r C (M HOk ltac:(discriminate)))|]. inv C. left. split; [apply M; discriminate|discriminate].
      * inv C. right. split; [reflexivity|]. split; [unfold asked; simpl; apply in_or_app; simpl; auto|].
        exists (l_log s). split; [reflexivity|exact N].
      * inv C. left. split; [apply M; discriminate|discriminate].
    + inv C. left. split; [exact N|discriminate].
    + inv C. left. split; [exact N|discriminate].
    + exact (IH (no_keep s) s' r C N).
Qed.
Lemma run_stopped rai s l : l_keep s = false -> run_server rai s l = (s, RunBack, l).
Proof. intros K. destruct l; simpl; rewrite K; reflexivity. Qed.
Lemma run_reboots : forall l s s' r rest, run_server true s l = (s', r, rest) -> ~ asked s -> asked s' ->
  r = RunBack /\ exists t, l_log s' = t ++ [HReboot] /\ ~ In HReboot t.
Proof.
  induction l as [|e l IH]; intros s s' r rest R N A.
  - simpl in R. destruct (negb (l_keep s)); inv R; contradiction.
  - simpl in R. destruct (negb (l_keep s)); [inv R; contradiction|].
    assert (G : forall s0 s1 cr c, connection true s0 c = (s1, cr) -> ~ asked s0 ->
      (match cr with RWait => (s1, RunWait, l) | RThrow => (s1, RunThrow, l) | REnd k => run_server true (if k then s1 else no_keep s1) l end) = (s', r, rest) ->
      r = RunBack /\ exists t, l_log s' = t ++ [HReboot] /\ ~ In HReboot t).
    { intros s0 s1 cr c C N0 R1. destruct (connection_stops c s0 s1 cr C N0) as [(N1 & D)|(-> & A1 & t & L & T)].
      - destruct cr as [| |k]; [inv R1; contradiction|inv R1; contradiction|].
        destruct k; [|exfalso; exact (D eq_refl)]. exact (IH s1 s' r rest R1 N1 A).
      - rewrite run_stopped in R1 by reflexivity. inv R1. split; [reflexivity|]. exists t. split; [exact L|exact T]. }
    destruct e as [|c|q]; [inv R; contradiction| |].
    + destruct (connection true s c) as (s1, cr) eqn:C. exact (G s s1 cr c C N R).
    + destruct (connection true (no_keep s) _) as (s1, cr) eqn:C. exact (G (no_keep s) s1 cr _ C N R).
Qed.
(** With automatic completion, an update that comes over an accepted connection and requires a reboot leads to it: it is the
    last message that is handled. *)
Theorem C180_automatic_partial first listens l s r : secondary_process true first listens l = (s, r) ->
  (forall c s1 cr, first = Some c -> connection true lst0 c = (s1, cr) -> ~ asked s1) -> asked s ->
  r = PExit true /\ exists t, l_log s = t ++ [HReboot] /\ ~ In HReboot t.
Proof.
  intros P F A. pose proof P as P0. unfold secondary_process in P.
  destruct (match first with Some c => connection true lst0 c | None => (lst0, REnd true) end) as (s1, cr) eqn:C.
  assert (N1 : ~ asked s1).
  { destruct first as [c|]; [exact (F c s1 cr eq_refl C)|inv C; intros []]. }
  destruct cr as [| |k]; [inv P; contradiction|inv P; contradiction|].
  destruct (negb listens); [inv P; contradiction|].
  destruct (run_server true s1 l) as ((s2, rr), rest) eqn:R.
  destruct rr; [inv P| inv P|].
  - destruct (run_reboots l s1 s RunWait rest R N1 A) as (K & _). discriminate.
  - destruct (run_reboots l s1 s RunThrow rest R N1 A) as (K & _). discriminate.
  - injection P as E1 E2. subst s2. destruct (run_reboots l s1 s RunBack rest R N1 A) as (_ & T).
    split; [|exact T]. destruct r as [| |b]; try discriminate. f_equal. apply (C180_partial true first listens l s b P0). exact A.
Qed.
Print Assumptions C180_automatic_partial.

(** Without automatic completion the server neither ends nor reboots by itself, as long as accept works and nobody stops
    it. *)
Lemma connection_keeps rai : forall l s s' r, Forall plain_cev l -> connection rai s l = (s', r) -> l_keep s' = l_keep s /\ r <> RThrow.
Proof.
  induction l as [|e l IH]; simpl; intros s s' r F C; [inv C; split; [reflexivity|discriminate]|].
  inversion F as [|e0 l0 P F1]; subst. destruct e as [h sent| | |]; try contradiction.
  - destruct h; simpl in C.
    + destruct sent; [exact (IH (logged HOk s) s' r F1 C)|inv C; split; [reflexivity|discriminate]].
    + destruct rai; [inv C; split; [reflexivity|discriminate]|].
      destruct sent; [exact (IH (reboot_needed (logged HReboot s)) s' r F1 C)|inv C; split; [reflexivity|discriminate]].
    + inv C. split; [reflexivity|discriminate].
  - inv C. split; [reflexivity|discriminate].
Qed.
Lemma connection_manual : forall l s s' r, connection false s l = (s', r) -> r <> REnd false.
Proof.
  induction l as [|e l IH]; simpl; intros s s' r C; [inv C; discriminate|].
  destruct e as [h sent| | |]; try (inv C; discriminate).
  - destruct h; [destruct sent; [eauto|inv C; discriminate] | destruct sent; [eauto|inv C; discriminate] | inv C; discriminate].
  - eauto.
Qed.
Theorem C180_manual_partial first listens l s r : secondary_process false first listens l = (s, r) ->
  (forall c, first = Some c -> Forall plain_cev c) -> listens = true -> Forall plain_aev l -> r = PWait.
Proof.
  unfold secondary_process. intros P F -> W.
  destruct (match first with Some c => connection false lst0 c | None => (lst0, REnd true) end) as (s1, cr) eqn:C.
  assert (K : l_keep s1 = true /\ cr <> RThrow).
  { destruct first as [c|]; [exact (connection_keeps false c lst0 s1 cr (F c eq_refl) C)|inv C; split; [reflexivity|discriminate]]. }
  destruct K as (K & NT). destruct cr as [| |k]; [inv P; reflexivity|congruence|]. simpl in P.
  assert (G : forall l s0, l_keep s0 = true -> Forall plain_aev l -> snd (fst (run_server false s0 l)) = RunWait).
  { clear. induction l as [|e l IH]; intros s0 K W; simpl; rewrite K; simpl; [reflexivity|].
    inversion W as [|e0 l0 P0 W1]; subst. destruct e as [|c|q]; try contradiction. simpl in P0.
    destruct (connection false s0 c) as (s1, cr) eqn:C.
    destruct (connection_keeps false c s0 s1 cr P0 C) as (K1 & NT). pose proof (connection_manual c s0 s1 cr C) as NF.
    destruct cr as [| |k]; [reflexivity|congruence|]. destruct k; [|congruence]. apply IH; [congruence|exact W1]. }
  specialize (G l s1 K W). destruct (run_server false s1 l) as ((s2, rr), rest). simpl in G. subst rr. inv P. reflexivity.
Qed.
Print Assumptions C180_manual_partial.

(** False in both directions. Without automatic completion the process reboots the device when accept fails, if an update
    was installed before. With it, an update that the Primary sends over the connection which the Secondary opens at start
    does not lead to a reboot. *)
Theorem C180_refuted : ~ C180_statement.
Proof.
  intros H. destruct (H false None true [LConn [VMsg HReboot true; VEnd]; LFail] _ _ eq_refl) as (H1 & _).
  destruct (H1 eq_refl) as (H2 & _). discriminate H2.
Qed.
Print Assumptions C180_refuted.
Theorem C180_start_refuted : ~ (forall first listens l s r, secondary_process true first listens l = (s, r) -> asked s -> r = PExit true).
Proof.
  intros H. specialize (H (Some [VMsg HOk true; VMsg HReboot true]) true [LConn [VMsg HOk true; VEnd]] _ _ eq_refl).
  assert (K : @eq pres PWait (PExit true)); [|discriminate K]. apply H. unfold asked. simpl. auto.
Qed.
Print Assumptions C180_start_refuted.
Example C180_case : secondary_process true None true [LConn [VMsg HOk true; VEnd]; LConn [VMsg HOk true; VMsg HReboot false; VMsg HOk true]; LConn [VEnd]] =
  ({| l_keep := false; l_reboot := true; l_log := [HOk; HOk; HReboot] |}, PExit true).
Proof. reflexivity. Qed.
Example C180_manual_case : secondary_process false (Some [VEnd]) true [LConn [VMsg HReboot true; VMsg HOk true; VEnd]; LConn [VMsg HUnknown true]] =
  ({| l_keep := true; l_reboot := true; l_log := [HReboot; HOk; HUnknown] |}, PWait).
Proof. reflexivity. Qed.

(** ** C181: after stop() the server ends *)
(** After the event, run() returns, whatever the clients do. *)
Definition C181_statement : Prop := forall rai s l1 q l2, snd (fst (run_server rai s (l1 ++ LStop q :: l2))) <> RunWait.

Lemma connection_closes rai : forall l s, closes l -> snd (connection rai s l) <> RWait.
Proof.
  induction l as [|e l IH]; intros s C; [destruct C|]. simpl. destruct C as [ -> | C]; [discriminate|].
  destruct e as [h sent| | |]; try discriminate; [|apply IH; exact C].
  destruct h; [destruct sent; [apply IH; exact C|discriminate]| |discriminate].
  destruct rai; [discriminate|]. destruct sent; [apply IH; exact C|discriminate].
Qed.
(** If every client closes its connection, then run() returns after stop(), or it had ended before. *)
Theorem C181_partial rai : forall l1 s q l2,
  (forall c, In (LConn c) l1 -> closes c) -> (forall q' c, In (LStop q') l1 -> q' = Some c -> closes c) -> (forall c, q = Some c -> closes c) ->
  snd (fst (run_server rai s (l1 ++ LStop q :: l2))) <> RunWait.
Proof.
  assert (G : forall (s1 : lst) cr c s0 (l : list aev), connection rai s0 c = (s1, cr) -> closes c ->
    (forall s', snd (fst (run_server rai s' l)) <> RunWait) ->
    snd (fst (match cr with RWait => (s1, RunWait, l) | RThrow => (s1, RunThrow, l) | REnd k => run_server rai (if k then s1 else no_keep s1) l end)) <> RunWait).
  { intros s1 cr c s0 l C K W. pose proof (connection_closes rai c s0 K) as N. rewrite C in N. simpl in N.
    destruct cr; [congruence|discriminate|apply W]. }
  induction l1 as [|e l1 IH]; intros s q l2 H1 H2 H3; simpl.
  - destruct (negb (l_keep s)); [discriminate|].
    destruct (connection rai (no_keep s) (match q with Some c => c | None => [VEnd] end)) as (s1, cr) eqn:C.
    assert (K : closes (match q with Some c => c | None => [VEnd] end)) by (destruct q as [c|]; [exact (H3 c eq_refl)|left; reflexivity]).
    pose proof (connection_closes rai _ (no_keep s) K) as N. rewrite C in N. simpl in N.
    assert (L : l_keep s1 = false).
    { clear - C. revert C. generalize (match q with Some c => c | None => [VEnd] end). intros l. generalize (eq_refl : l_keep (no_keep s) = false).
      generalize (no_keep s). induction l as [|e l IH]; simpl; intros s0 K C; [inv C; exact K|].
      destruct e as [h sent| | |]; try (inv C; exact K); [|exact (IH (no_keep s0) eq_refl C)].
      destruct h; [destruct sent; [exact (IH (logged HOk s0) K C)|inv C; exact K]| |inv C; exact K].
      destruct rai; [inv C; exact K|]. destruct sent; [exact (IH (reboot_needed (logged HReboot s0)) K C)|inv C; exact K]. }
    destruct cr as [| |k]; [congruence|discriminate|].
    rewrite run_stopped by (destruct k; [exact L|reflexivity]). discriminate.
  - destruct (negb (l_keep s)); [discriminate|].
    assert (W : forall s', snd (fst (run_server rai s' (l1 ++ LStop q :: l2))) <> RunWait).
    { intros s'. apply IH; [intros c I1; apply H1; right; exact I1|intros q' c I1; apply H2; right; exact I1|exact H3]. }
    destruct e as [|c|q'].
    + discriminate.
    + destruct (connection rai s c) as (s1, cr) eqn:C. exact (G s1 cr c s _ C (H1 c (or_introl eq_refl)) W).
    + destruct (connection rai (no_keep s) (match q' with Some c => c | None => [VEnd] end)) as (s1, cr) eqn:C.
      apply (G s1 cr _ (no_keep s) _ C); [|exact W].
      destruct q' as [c|]; [exact (H2 (Some c) c (or_introl eq_refl) eq_refl)|left; reflexivity].
Qed.
Print Assumptions C181_partial.

(** stop() is never lost: when it is called during a connection, or before run(), no further client is served. *)
Lemma keep_false_stays rai : forall l s s' r, l_keep s = false -> connection rai s l = (s', r) -> l_keep s' = false.
Proof.
  induction l as [|e l IH]; simpl; intros s s' r K C; [inv C; exact K|].
  destruct e as [h sent| | |]; try (inv C; exact K); [|exact (IH (no_keep s) s' r eq_refl C)].
  destruct h; [destruct sent; [exact (IH (logged HOk s) s' r K C)|inv C; exact K]| |inv C; exact K].
  destruct rai; [inv C; exact K|]. destruct sent; [exact (IH (reboot_needed (logged HReboot s)) s' r K C)|inv C; exact K].
Qed.
Lemma connection_app rai : forall pre s c, snd (connection rai s pre) = RWait ->
  connection rai s (pre ++ c) = connection rai (fst (connection rai s pre)) c.
Proof.
  induction pre as [|e pre IH]; simpl; intros s c W; [reflexivity|].
  destruct e as [h sent| | |]; try discriminate; [|exact (IH (no_keep s) c W)].
  destruct h; [destruct sent; [exact (IH (logged HOk s) c W)|discriminate]| |discriminate].
  destruct rai; [discriminate|]. destruct sent; [exact (IH (reboot_needed (logged HReboot s)) c W)|discriminate].
Qed.
Theorem C181_last rai s l : l_keep s = true ->
  (forall pre c rest, l = LConn (pre ++ VStop :: c) :: rest -> snd (connection rai s pre) = RWait (* the connection is open at the call *) ->
     exists r, run_server rai s l = (fst (connection rai s (pre ++ VStop :: c)), r, rest)) /\
  (forall c rest, l = LStop (Some c) :: rest -> exists r, run_server rai s l = (fst (connection rai (no_keep s) c), r, rest)) /\
  (forall rest, l = LStop None :: rest -> run_server rai s l = (no_keep s, RunBack, rest)) /\
  run_server rai (no_keep s) l = (no_keep s, RunBack, l).
Proof.
  intros K.
  assert (G : forall c rest, exists r,
    (match connection rai (no_keep s) c with (s', RWait) => (s', RunWait, rest) | (s', RThrow) => (s', RunThrow, rest)
     | (s', REnd k) => run_server rai (if k then s' else no_keep s') rest end) = (fst (connection rai (no_keep s) c), r, rest)).
  { intros c rest. destruct (connection rai (no_keep s) c) as (s1, cr) eqn:C.
    pose proof (keep_false_stays rai c (no_keep s) s1 cr eq_refl C) as L. simpl.
    destruct cr as [| |k]; [eexists; reflexivity|eexists; reflexivity|].
    assert (Q : (if k then s1 else no_keep s1) = s1) by (destruct k; [reflexivity|destruct s1; unfold no_keep; simpl in *; subst; reflexivity]).
    rewrite Q, run_stopped by exact L. eexists; reflexivity. }
  split; [|split; [|split]].
  - intros pre c rest -> W. simpl. rewrite K. cbn [negb].
    rewrite (connection_app rai pre s (VStop :: c) W). cbn [connection].
    destruct (connection rai (no_keep (fst (connection rai s pre))) c) as (s1, cr) eqn:C. simpl.
    pose proof (keep_false_stays rai c (no_keep (fst (connection rai s pre))) s1 cr eq_refl C) as L.
    destruct cr as [| |k]; [eexists; reflexivity|eexists; reflexivity|].
    assert (Q : (if k then s1 else no_keep s1) = s1) by (destruct k; [reflexivity|destruct s1; unfold no_keep; simpl in *; subst; reflexivity]).
    rewrite Q, run_stopped by exact L. eexists; reflexivity.
  - intros c rest ->. simpl. rewrite K. simpl. exact (G c rest).
  - intros rest ->. simpl. rewrite K. simpl. rewrite run_stopped by reflexivity. reflexivity.
  - apply run_stopped. reflexivity.
Qed.
Print Assumptions C181_last.

(** False in general: a client that stays silent keeps the server, and messages are handled after stop(). *)
Theorem C181_refuted : ~ C181_statement.
Proof. intros H. apply (H false lst0 [] (Some [VMsg HOk true]) []). reflexivity. Qed.
Print Assumptions C181_refuted.
Theorem C181_handled_refuted : ~ (forall rai s c s' r, connection rai s (VStop :: c) = (s', r) -> l_log s' = l_log s).
Proof. intros H. specialize (H false lst0 [VMsg HOk true; VMsg HReboot true; VEnd] _ _ eq_refl). discriminate H. Qed.
Print Assumptions C181_handled_refuted.
Example C181_case : run_server false lst0 [LConn [VMsg HOk true; VEnd]; LStop (Some [VMsg HOk true; VEnd]); LConn [VMsg HOk true]] =
  ({| l_keep := false; l_reboot := false; l_log := [HOk; HOk] |}, RunBack, [LConn [VMsg HOk true]]).
Proof. reflexivity. Qed.
