(** C165: which ECUs are reported as removed, and when the ECUs are registered. *)
From Verif Require Import Base EcuModel.

(** ** Specification *)
(** Registered after some start of the history; missing from the configuration of a later start. *)
Definition was_removed (l : list estart) (e : ecu) : Prop :=
  exists pre s post, l = pre ++ s :: post /\ In e (e_ecus (estarts pre enone)) /\ ~ In e (t_conf s).
(** The ECUs reported as removed are those that were registered once and are not in the configuration of the last start. *)
Definition C165_statement : Prop :=
  forall l s, (forall x, In x (l ++ [s]) -> NoDup (map fst (t_conf x)) /\ (List.length (t_conf x) < t_kill x)%nat) ->
  forall e, In e (e_old (estarts (l ++ [s]) enone)) <->
    (exists pre post, l = pre ++ post /\ In e (e_ecus (estarts pre enone))) /\ ~ In e (t_conf s).

(** ** Proofs *)
Lemma ecu_eqb_eq : forall a b, ecu_eqb a b = true <-> a = b.
Proof.
  intros [a1 a2] [b1 b2]. unfold ecu_eqb. cbn [fst snd]. rewrite andb_true_iff, !String.eqb_eq. split; [intros [-> ->]; reflexivity|intros E; injection E as -> ->; split; reflexivity].
Qed.
Lemma known_in : forall e l, known e l = true <-> In e l.
Proof.
  intros e l. unfold known. rewrite existsb_exists. split.
  - intros (x & Hin & E). apply ecu_eqb_eq in E. subst x. exact Hin.
  - intros Hin. exists e. split; [exact Hin|apply ecu_eqb_eq; reflexivity].
Qed.
Lemma removed_in : forall conf stored e, In e (removed conf stored) <-> In e stored /\ ~ In e conf.
Proof.
  intros conf stored e. unfold removed. rewrite filter_In, negb_true_iff. split; intros [A B]; (split; [exact A|]).
  - intros H. apply known_in in H. congruence.
  - destruct (known e conf) eqn:E; [apply known_in in E; contradiction|reflexivity].
Qed.
Lemma save_old_in : forall e l x, In x (save_old e l) -> x = e \/ In x l.
Proof. intros e l x H. unfold save_old in H. apply in_app_or in H. destruct H as [H|[<-|[]]]; [right; apply filter_In in H; apply H|left; reflexivity]. Qed.
Lemma fold_old_in : forall g l x, In x (fold_left (fun l e => save_old e l) g l) -> In x g \/ In x l.
Proof.
  induction g as [|e g IH]; intros l x H; [right; exact H|]. cbn [fold_left] in H. destruct (IH _ _ H) as [A|A]; [left; right; exact A|].
  destruct (save_old_in _ _ _ A) as [->|B]; [left; left; reflexivity|right; exact B].
Qed.
Lemma save_old_keep : forall e l x, fst x <> fst e -> In x l -> In x (save_old e l).
Proof.
  intros e l x Hne H. unfold save_old. apply in_or_app. left. apply filter_In. split; [exact H|]. destruct (String.eqb_spec (fst x) (fst e)); [contradiction|reflexivity].
Qed.
Lemma fold_old_all : forall g l x, NoDup (map fst g) -> In x g -> In x (fold_left (fun l e => save_old e l) g l).
Proof.
  assert (K : forall g l x, ~ In (fst x) (map fst g) -> In x l -> In x (fold_left (fun l e => save_old e l) g l)).
  { induction g as [|e g IH]; intros l x Hn H; [exact H|]. cbn [fold_left map] in *. apply IH; [intros C; apply Hn; right; exact C|].
    apply save_old_keep; [intros C; apply Hn; left; symmetry; exact C|exact H]. }
  induction g as [|e g IH]; intros l x Hd H; [destruct H|]. cbn [fold_left map] in *. inversion Hd as [|? ? Hn Hd']; subst.
  destruct H as [->|H]; [|apply IH; assumption]. apply K; [exact Hn|]. unfold save_old. apply in_or_app. right. left. reflexivity.
Qed.
Lemma fold_old_serial : forall g l x, In x (map fst l) -> In x (map fst (fold_left (fun l e => save_old e l) g l)).
Proof.
  induction g as [|e g IH]; intros l x H; [exact H|]. cbn [fold_left]. apply IH. apply in_map_iff in H. destruct H as (y & <- & Hy).
  destruct (String.eqb_spec (fst y) (fst e)) as [E|E].
  - rewrite E. unfold save_old. rewrite map_app. apply in_or_app. right. left. reflexivity.
  - apply in_map, save_old_keep; assumption.
Qed.
Lemma estarts_app : forall a b t, estarts (a ++ b) t = estarts b (estarts a t).
Proof. induction a as [|s a IH]; intros b t; [reflexivity|]. cbn [List.app estarts]. apply IH. Qed.
Lemma old_of_start : forall s t, e_old (fst (do_estart s t)) = fold_left (fun l e => save_old e l) (firstn (t_kill s) (removed (t_conf s) (e_ecus t))) (e_old t).
Proof.
  intros s t. unfold do_estart. destruct (must_register _ _); [|reflexivity]. destruct (_ <=? _)%nat; [|reflexivity]. destruct (_ && _); reflexivity.
Qed.
Lemma ecus_of_start : forall s t, e_ecus (fst (do_estart s t)) = e_ecus t \/ e_ecus (fst (do_estart s t)) = t_conf s.
Proof.
  intros s t. unfold do_estart. destruct (must_register _ _); [|left; reflexivity]. destruct (_ <=? _)%nat; [|left; reflexivity]. destruct (_ && _); [right|left]; reflexivity.
Qed.
Lemma firstn_in {A} : forall n (l : list A) x, In x (firstn n l) -> In x l.
Proof. induction n as [|n IH]; intros [|y l] x H; cbn in H; [destruct H|destruct H|destruct H|]. destruct H as [->|H]; [left; reflexivity|right; exact (IH _ _ H)]. Qed.

(** Nothing is reported that was not registered once and then left out of the configuration; whatever was killed or refused. *)
Theorem C165_partial : forall l e, In e (e_old (estarts l enone)) -> was_removed l e.
Proof.
  intros l. induction l as [|s l IH] using rev_ind; intros e H; [destruct H|].
  rewrite estarts_app in H. cbn [estarts] in H. rewrite old_of_start in H. destruct (fold_old_in _ _ _ H) as [A|A].
  - apply firstn_in, removed_in in A. destruct A as [A B]. exists l, s, []. split; [reflexivity|]. split; [exact A|exact B].
  - destruct (IH e A) as (pre & s' & post & -> & C & D). exists pre, s', (post ++ [s]). rewrite <- List.app_assoc. split; [reflexivity|]. split; assumption.
Qed.

Lemma stored_nodup : forall l, (forall x, In x l -> NoDup (map fst (t_conf x))) -> NoDup (map fst (e_ecus (estarts l enone))).
Proof.
  intros l. induction l as [|s l IH] using rev_ind; intros H; [constructor|]. rewrite estarts_app. cbn [estarts].
  destruct (ecus_of_start s (estarts l enone)) as [E|E]; rewrite E.
  - apply IH. intros x Hx. apply H, in_or_app. left. exact Hx.
  - apply H, in_or_app. right. left. reflexivity.
Qed.
Lemma nodup_filter : forall (l : list ecu) f, NoDup (map fst l) -> NoDup (map fst (filter f l)).
Proof.
  induction l as [|x l IH]; intros f H; [constructor|]. cbn [map filter] in *. inversion H as [|? ? Hn Hd]; subst. destruct (f x); [|exact (IH f Hd)].
  cbn [map]. constructor; [|exact (IH f Hd)]. intros C. apply Hn. apply in_map_iff in C. destruct C as (y & <- & Hy). apply filter_In in Hy. apply in_map. apply Hy.
Qed.
(** Every registered ECU that a start does not find in its configuration is reported from then on, by its serial for good, unless the
    start was killed while it noted them. *)
Theorem C165_reported : forall l s later e, (forall x, In x l -> NoDup (map fst (t_conf x))) ->
  In e (e_ecus (estarts l enone)) -> ~ In e (t_conf s) -> (List.length (e_ecus (estarts l enone)) <= t_kill s)%nat ->
  In e (e_old (estarts (l ++ [s]) enone)) /\ In (fst e) (map fst (e_old (estarts (l ++ s :: later) enone))).
Proof.
  intros l s later e Hd Hin Hn Hk.
  assert (A : In e (e_old (estarts (l ++ [s]) enone))).
  { rewrite estarts_app. cbn [estarts]. rewrite old_of_start. rewrite firstn_all2.
    - apply fold_old_all; [apply nodup_filter, stored_nodup, Hd|apply removed_in; split; assumption].
    - assert (Hlen : forall (l : list ecu) f, (List.length (filter f l) <= List.length l)%nat).
      { induction l0 as [|x l0 IH]; intros f; [cbn; lia|]. cbn [filter]. specialize (IH f). destruct (f x); cbn [List.length]; lia. }
      specialize (Hlen (e_ecus (estarts l enone)) (fun x => negb (known x (t_conf s)))). unfold removed. lia. }
  split; [exact A|]. replace (l ++ s :: later) with ((l ++ [s]) ++ later) by (rewrite <- List.app_assoc; reflexivity). rewrite estarts_app.
  apply (in_map fst) in A. revert A. generalize (estarts (l ++ [s]) enone). clear. induction later as [|x later IH]; intros t A; [exact A|].
  cbn [estarts]. apply IH. rewrite old_of_start. apply fold_old_serial. exact A.
Qed.

(** A registration is asked for exactly if the configured ECUs are not the registered ones (or none are registered). *)
Theorem C165_register : forall s t, (List.length (e_ecus t) <= t_kill s)%nat ->
  snd (do_estart s t) = true <-> (e_ecus t = [] \/ ~ (forall e, In e (t_conf s) <-> In e (e_ecus t))).
Proof.
  intros s t Hk. assert (Hlen : (List.length (removed (t_conf s) (e_ecus t)) <= t_kill s)%nat).
  { assert (L : forall (l : list ecu) f, (List.length (filter f l) <= List.length l)%nat).
    { induction l as [|x l IH]; intros f; [cbn; lia|]. cbn [filter]. specialize (IH f). destruct (f x); cbn [List.length]; lia. }
    specialize (L (e_ecus t) (fun x => negb (known x (t_conf s)))). unfold removed. lia. }
  assert (E : snd (do_estart s t) = must_register (t_conf s) (e_ecus t)).
  { unfold do_estart. destruct (must_register _ _); [|reflexivity]. apply Nat.leb_le in Hlen. rewrite Hlen. destruct (_ && _); reflexivity. }
  rewrite E. unfold must_register. destruct (e_ecus t) as [|x r] eqn:Ee; [split; [intros _; left; reflexivity|reflexivity]|].
  rewrite <- Ee in *. destruct (forallb (fun e => known e (e_ecus t)) (t_conf s)) eqn:Ef; cbn [negb orb].
  - rewrite forallb_forall in Ef. destruct (removed (t_conf s) (e_ecus t)) as [|y q] eqn:Er; cbn [negb].
    + split; [discriminate|]. intros [C|C]; [congruence|]. exfalso. apply C. intros e. split; intros H; [apply known_in, Ef, H|].
      destruct (known e (t_conf s)) eqn:K; [apply known_in, K|]. exfalso.
      assert (X : In e (removed (t_conf s) (e_ecus t))) by (apply removed_in; split; [exact H|intros Z; apply known_in in Z; congruence]). rewrite Er in X. destruct X.
    + split; [intros _; right|reflexivity]. intros C. assert (X : In y (removed (t_conf s) (e_ecus t))) by (rewrite Er; left; reflexivity).
      apply removed_in in X. destruct X as [X1 X2]. apply X2, C, X1.
  - split; [intros _; right|reflexivity]. intros C. assert (Z : forallb (fun e => known e (e_ecus t)) (t_conf s) = true); [|congruence].
    apply forallb_forall. intros e He. apply known_in, C, He.
Qed.
(** After an accepted registration a start with the same ECUs asks for none and reports none as removed. *)
Theorem C165_settled : forall s t s', snd (do_estart s t) = true -> t_accept s = true -> (List.length (e_ecus t) < t_kill s)%nat ->
  t_conf s <> [] -> (forall e, In e (t_conf s') <-> In e (t_conf s)) ->
  do_estart s' (fst (do_estart s t)) = (fst (do_estart s t), false).
Proof.
  intros s t s' Hr Ha Hk Hne Hsame.
  assert (Hlen : (List.length (removed (t_conf s) (e_ecus t)) < t_kill s)%nat).
  { assert (L : forall (l : list ecu) f, (List.length (filter f l) <= List.length l)%nat).
    { induction l as [|x l IH]; intros f; [cbn; lia|]. cbn [filter]. specialize (IH f). destruct (f x); cbn [List.length]; lia. }
    specialize (L (e_ecus t) (fun x => negb (known x (t_conf s)))). unfold removed. lia. }
  assert (E : e_ecus (fst (do_estart s t)) = t_conf s).
  { unfold do_estart in *. destruct (must_register _ _); [|discriminate]. assert (L1 : (List.length (removed (t_conf s) (e_ecus t)) <=? t_kill s)%nat = true) by (apply Nat.leb_le; lia).
    assert (L2 : (List.length (removed (t_conf s) (e_ecus t)) <? t_kill s)%nat = true) by (apply Nat.ltb_lt; lia). rewrite L1, L2, Ha. reflexivity. }
  set (t1 := fst (do_estart s t)) in *. unfold do_estart. rewrite E.
  assert (R : removed (t_conf s') (t_conf s) = []).
  { destruct (removed (t_conf s') (t_conf s)) as [|y q] eqn:Er; [reflexivity|]. exfalso. assert (X : In y (removed (t_conf s') (t_conf s))) by (rewrite Er; left; reflexivity).
    apply removed_in in X. destruct X as [X1 X2]. apply X2, Hsame, X1. }
  assert (M : must_register (t_conf s') (t_conf s) = false).
  { unfold must_register. destruct (t_conf s) as [|x r] eqn:Ec; [contradiction|]. rewrite <- Ec in *. rewrite R. cbn [negb]. rewrite orb_false_r, negb_false_iff.
    apply forallb_forall. intros e He. apply known_in, Hsame, He. }
  rewrite M, R, firstn_nil. cbn [fold_left]. rewrite <- E. destruct t1; reflexivity.
Qed.

(** A Secondary that was taken out and put back is registered, runs, and is still reported as removed. *)
Definition p1 : ecu := ("primary", "hw"). Definition s1 : ecu := ("sec", "hw2").
Definition go (l : list ecu) : estart := {| t_conf := l; t_accept := true; t_kill := 9 |}.
Theorem C165_refuted : ~ C165_statement.
Proof.
  intros H. destruct (H [go [p1; s1]; go [p1]] (go [p1; s1])) with (e := s1) as [A _].
  - intros x Hin. cbn in Hin. destruct Hin as [<-|[<-|[<-|[]]]]; (split; [|cbn; lia]); cbn; repeat constructor; cbn; intuition discriminate.
  - destruct A as [_ A]; [vm_compute; left; reflexivity|]. apply A. right. left. reflexivity.
Qed.

(** ** The hypotheses are met *)
Example C165_reported_case : In s1 (e_ecus (estarts [go [p1; s1]] enone)) /\ ~ In s1 (t_conf (go [p1])) /\ e_old (estarts [go [p1; s1]; go [p1]] enone) = [s1].
Proof. split; [vm_compute; right; left; reflexivity|]. split; [cbn; intros [E|[]]; discriminate|vm_compute; reflexivity]. Qed.
Example C165_register_case : snd (do_estart (go [p1]) (estarts [go [p1; s1]] enone)) = true /\ snd (do_estart (go [s1; p1]) (estarts [go [p1; s1]] enone)) = false.
Proof. split; vm_compute; reflexivity. Qed.
(** A start whose registration is refused, or that is killed before it stores, has to ask again. *)
Example C165_again : let t := estarts [go [p1; s1]; {| t_conf := [p1]; t_accept := false; t_kill := 9 |}] enone in snd (do_estart (go [p1]) t) = true /\ e_old t = [s1].
Proof. split; vm_compute; reflexivity. Qed.

Print Assumptions C165_partial.
Print Assumptions C165_reported.
Print Assumptions C165_register.
Print Assumptions C165_settled.
Print Assumptions C165_refuted.
