(** C48: upload rate control. *)
From Verif Require Import Base RateModel RateSpec.
From Coq Require Import Lia.

(** Failures in a row at limit one, at the end. *)
Fixpoint tail_fails (cap c : Z) (t : nat) (rs : list bool) : nat :=
  match rs with
  | [] => t
  | ok :: rs' => tail_fails cap (next_limit cap c ok) (if ok then O else if c =? 1 then S t else O) rs'
  end.
Definition sleep_of (t : nat) : Z := match t with O => 0 | S n => 2 ^ Z.of_nat n * second end.

Lemma run_gen cap h : 0 < cap -> forall last c t, 1 <= c <= cap -> (t <> O -> c = 1) ->
  exists l, fold_left (fun r e => let '(s, f, ok) := e in request_completed s f ok r) h {| r_cap := cap; r_last := last; r_max := c; r_sleep := sleep_of t |} =
   {| r_cap := cap; r_last := l; r_max := fold_left (next_limit cap) (counted last h) c; r_sleep := sleep_of (tail_fails cap c t (counted last h)) |}.
Proof.
  intros P. induction h as [|[[s f] ok] h IH]; intros last c t C T; [eexists; reflexivity|].
  cbn [fold_left counted]. unfold request_completed at 2. cbn [r_last r_max r_sleep r_cap].
  destruct (last <? s); [|apply IH; auto]. cbn [fold_left tail_fails].
  destruct ok; cbn [next_limit].
  - apply (IH f (Z.min (c + 1) cap) O); [lia|congruence].
  - destruct (2 <=? c) eqn:Q.
    + apply Z.leb_le in Q. assert (t = O) by (destruct t; auto; specialize (T ltac:(discriminate)); lia). subst t.
      destruct (Z.eqb_spec c 1); [lia|]. assert (D : 1 <= c / 2 <= c) by (split; [apply Z.div_le_lower_bound; lia|apply Z.div_le_upper_bound; lia]).
      rewrite Z.max_r by lia. apply (IH f (c / 2) O); [lia|congruence].
    + apply Z.leb_gt in Q. assert (c = 1) by lia. subst c. change (1 =? 1) with true. cbv iota.
      change (Z.max 1 (1 / 2)) with 1.
      replace (Z.max (sleep_of t * 2) kInitialSleepTime) with (sleep_of (S t)); [apply IH; auto|].
      destruct t as [|n]; [reflexivity|]. unfold sleep_of, kInitialSleepTime, second.
      rewrite Nat2Z.inj_succ, Z.pow_succ_r by lia.
      assert (0 < 2 ^ Z.of_nat n) by (apply Z.pow_pos_nonneg; lia). lia.
Qed.

Lemma limit_bounds cap rs : 0 < cap -> 1 <= limit cap rs <= cap.
Proof.
  intros P. unfold limit. assert (G : forall c, 1 <= c <= cap -> 1 <= fold_left (next_limit cap) rs c <= cap); [|apply G; lia].
  induction rs as [|b rs IH]; intros c C; cbn [fold_left]; auto. apply IH. unfold next_limit.
  destruct b; [lia|]. assert (c / 2 <= c) by (apply Z.div_le_upper_bound; lia). lia.
Qed.

Lemma tail_snoc cap rs b : forall c t, tail_fails cap c t (rs ++ [b]) =
  if b then O else if fold_left (next_limit cap) rs c =? 1 then S (tail_fails cap c t rs) else O.
Proof. induction rs as [|x rs IH]; intros c t; cbn [app tail_fails fold_left]; [reflexivity|apply IH]. Qed.

Lemma limit_app cap a b : limit cap (a ++ b) = fold_left (next_limit cap) b (limit cap a).
Proof. unfold limit. apply fold_left_app. Qed.
Lemma limit_fails cap n : fold_left (next_limit cap) (repeat false n) 1 = 1.
Proof. induction n as [|n IH]; cbn [repeat fold_left]; auto. Qed.
Lemma repeat_snoc n : repeat false (S n) = repeat false n ++ [false].
Proof. induction n as [|n IH]; cbn; auto. cbn in IH. rewrite IH at 1. reflexivity. Qed.

Lemma tail_spec cap rs : forall n, (n <= tail_fails cap 1 O rs)%nat <-> n = O \/ ends_with_failures cap n rs.
Proof.
  induction rs as [|b rs IH] using rev_ind; intros n.
  - cbn. split; [lia|]. intros [->|(p & E & _)]; [lia|]. destruct n; [lia|]. destruct p; discriminate.
  - rewrite tail_snoc. change (fold_left (next_limit cap) rs 1) with (limit cap rs). destruct n as [|n]; [split; [auto|lia]|]. destruct b.
    + split; [lia|]. intros [?|(p & E & _)]; [discriminate|]. rewrite repeat_snoc, app_assoc in E. apply app_inj_tail in E. destruct E; discriminate.
    + destruct (Z.eqb_spec (limit cap rs) 1) as [L|L].
      * split.
        -- intros H. right. assert (H' : (n <= tail_fails cap 1 O rs)%nat) by lia. apply IH in H'. destruct H' as [->|(p & E & Q)].
           ++ exists rs. auto.
           ++ exists p. split; auto. rewrite repeat_snoc, app_assoc, <- E. reflexivity.
        -- intros [?|(p & E & Q)]; [discriminate|]. rewrite repeat_snoc, app_assoc in E. apply app_inj_tail in E. destruct E as [E _].
           assert (n <= tail_fails cap 1 O rs)%nat; [|lia]. apply IH. right. exists p. auto.
      * split; [lia|]. intros [?|(p & E & Q)]; [discriminate|]. rewrite repeat_snoc, app_assoc in E. apply app_inj_tail in E. destruct E as [E _].
        exfalso. apply L. subst rs. rewrite limit_app, Q. apply limit_fails.
Qed.

Lemma sleep_fail t : kMaxSleepTime <? sleep_of t = Nat.leb 6 t.
Proof.
  do 6 (destruct t as [|t]; [reflexivity|]).
  change (Nat.leb 6 (S (S (S (S (S (S t))))))) with true. apply Z.ltb_lt. unfold sleep_of, kMaxSleepTime, second.
  assert (H : 2 ^ 5 <= 2 ^ Z.of_nat (S (S (S (S (S t)))))) by (apply Z.pow_le_mono_r; lia). lia.
Qed.

(** For every sequence of completions, with any times: the concurrency limit is the additive-increase, halving one over the completions that count,
    it is between 1 and the cap; sleeping only happens at limit one; and the server is declared failed exactly if the last six
    completions that count are failures at limit one. The assertions of the code hold. *)
Theorem C48_rate_control : forall cap h, 0 < cap ->
  let r := run_rate cap h in
  max_concurrency r = limit cap (counted 0 h) /\
  1 <= max_concurrency r <= cap /\
  (get_sleep_time r <> 0 -> max_concurrency r = 1) /\
  (server_has_failed r = true <-> ends_with_failures cap 6 (counted 0 h)) /\
  check_invariants r = true.
Proof.
  intros cap h P. destruct (run_gen cap h P 0 1 O ltac:(lia) ltac:(congruence)) as (l & E).
  assert (ER : run_rate cap h = {| r_cap := cap; r_last := l; r_max := limit cap (counted 0 h); r_sleep := sleep_of (tail_fails cap 1 0 (counted 0 h)) |}) by exact E.
  cbv zeta. rewrite ER. clear ER E. unfold max_concurrency, get_sleep_time, server_has_failed, check_invariants. cbn [r_max r_sleep r_cap].
  pose proof (limit_bounds cap (counted 0 h) P) as B.
  assert (S1 : sleep_of (tail_fails cap 1 0 (counted 0 h)) <> 0 -> limit cap (counted 0 h) = 1).
  { intros N. assert (K : (1 <= tail_fails cap 1 0 (counted 0 h))%nat) by (destruct (tail_fails _ _ _ _); [contradiction|lia]).
    apply tail_spec in K. destruct K as [?|(p & E & Q)]; [discriminate|]. rewrite E, limit_app, Q. reflexivity. }
  split; [reflexivity|]. split; [exact B|]. split; [exact S1|]. split.
  - rewrite sleep_fail, Nat.leb_le, tail_spec. split; [intros [?|?]; [discriminate|auto]|auto].
  - apply andb_true_iff. split; [apply andb_true_iff; split|].
    + apply orb_true_iff. destruct (Z.eqb_spec (sleep_of (tail_fails cap 1 0 (counted 0 h))) 0); [auto|right; apply Z.eqb_eq; auto].
    + apply Z.ltb_lt; lia.
    + apply Z.leb_le; lia.
Qed.

(** While the server is not declared failed the sleep time is at most 30 seconds, and right when it is first declared failed it is 32. *)
Theorem C48_sleep_bounded : forall cap h e, 0 < cap -> server_has_failed (run_rate cap h) = false -> get_sleep_time (run_rate cap (h ++ [e])) <= 32 * second.
Proof.
  intros cap h [[s f] ok] P F. unfold server_has_failed in F. apply Z.ltb_ge in F.
  destruct (run_gen cap h P 0 1 O ltac:(lia) ltac:(congruence)) as (l & E).
  assert (E2 : run_rate cap h = {| r_cap := cap; r_last := l; r_max := limit cap (counted 0 h); r_sleep := sleep_of (tail_fails cap 1 0 (counted 0 h)) |}) by exact E.
  assert (E3 : run_rate cap (h ++ @cons event (s, f, ok) nil) = request_completed s f ok (run_rate cap h)) by (unfold run_rate; rewrite fold_left_app; reflexivity).
  rewrite E3, E2. rewrite E2 in F. clear E E2 E3. cbn [r_sleep] in F.
  set (t := tail_fails cap 1 0 (counted 0 h)) in *. set (c := limit cap (counted 0 h)).
  assert (T : (t <= 5)%nat). { destruct (Nat.leb 6 t) eqn:Q; [|apply Nat.leb_gt in Q; lia]. rewrite <- sleep_fail in Q. apply Z.ltb_lt in Q. lia. }
  assert (S0 : sleep_of t <= 16 * second) by (clearbody t; clear - T; do 6 (destruct t as [|t]; [vm_compute; discriminate|]); lia).
  unfold request_completed, get_sleep_time, kInitialSleepTime. cbn [r_last r_max r_sleep].
  assert (Hs : second = 1000000000) by reflexivity.
  destruct (l <? s); [destruct ok; [|destruct (2 <=? c)]|]; cbn [r_sleep]; rewrite ?Hs in *; lia.
Qed.

(** Not vacuous: three successes raise the limit to 4, two failures bring it back to 1, six more failures declare the server failed; overlapping requests do not count. *)
Definition ev (n : Z) (ok : bool) : event := (10 * n + 1, 10 * n + 9, ok).
Definition demo : list event := [ev 0 true; ev 1 true; (5, 100, false); ev 2 true; ev 3 false; ev 4 false; ev 5 false; ev 6 false; ev 7 false; ev 8 false; ev 9 false].
Example C48_demo : max_concurrency (run_rate 30 (firstn 4 demo)) = 4 /\ max_concurrency (run_rate 30 demo) = 1 /\
  get_sleep_time (run_rate 30 demo) = 16 * second /\ server_has_failed (run_rate 30 demo) = false /\ server_has_failed (run_rate 30 (demo ++ [ev 10 false])) = true.
Proof. vm_compute. auto. Qed.
Print Assumptions C48_rate_control.
Print Assumptions C48_sleep_bounded.
