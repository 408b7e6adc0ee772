(** Property C192: storage calls of several threads happen one after the other, each entirely or not at all. *)
From Verif Require Import Base GuardModel.

(** ** Specification *)
(** A call on its own. *)
Fixpoint run_body {D} (l : list (D -> option D)) (d : D) : option D :=
  match l with [] => Some d | f :: l' => match f d with Some d' => run_body l' d' | None => None end end.
Definition alone {D O} (c : @call D O) (d : D) : option (D * O) :=
  match run_body (c_body c) d with Some d' => Some (d', c_out c d') | None => None end.
(** From [d], the calls one after the other with these answers lead to [d']: successes have their whole effect, failures none. *)
Fixpoint one_by_one {D O} (d : D) (l : list (@entry D O)) (d' : D) : Prop :=
  match l with
  | [] => d = d'
  | (_, c, Some o) :: l' => exists d1, alone c d = Some (d1, o) /\ one_by_one d1 l' d'
  | (_, c, None) :: l' => one_by_one d l' d'
  end.
(** And calls only fail that would have failed alone. *)
Fixpoint honest {D O} (d : D) (l : list (@entry D O)) : Prop :=
  match l with
  | [] => True
  | (_, c, Some o) :: l' => exists d1, alone c d = Some (d1, o) /\ honest d1 l'
  | (_, c, None) :: l' => alone c d = None /\ honest d l'
  end.
Definition of_thread {D O} (i : nat) (l : list (@entry D O)) : list call := map (fun e => snd (fst e)) (filter (fun e => Nat.eqb (fst (fst e)) i) l).
Definition ok_entry {D O} (e : @entry D O) : Prop := match snd e with Some _ => True | None => False end.

Definition C192_safe : Prop := forall D O (d : D) (progs : list (list (@call D O))) sched, let k := exec sched (start d progs) in
  (* one after the other, in the order in which they end *)
  one_by_one d (rev (k_log k)) (k_db k) /\
  (* each thread's calls in its order *)
  (forall i p, nth_error progs i = Some p -> exists later, of_thread i (rev (k_log k)) ++ later = p) /\
  (* never stuck *)
  ((exists i, step i false k <> None) \/ Forall (fun x => th_todo x = []) (k_threads k)).
Definition C192_statement : Prop := C192_safe /\
  forall D O (d : D) (progs : list (list (@call D O))) sched, honest d (rev (k_log (exec sched (start d progs)))).

(** ** Proofs *)
Section P.
Context {D O : Type}.
Notation call := (@call D O). Notation conc := (@conc D O). Notation thr := (@thr D O). Notation entry := (@entry D O).

Lemma upd_length i (x : thr) l : (i < List.length l)%nat -> List.length (upd i x l) = List.length l.
Proof. intros H. unfold upd. rewrite app_length, firstn_length_le by lia. cbn [List.length]. rewrite skipn_length. lia. Qed.
Lemma upd_nth i (x : thr) l j : (i < List.length l)%nat -> nth_error (upd i x l) j = if Nat.eqb j i then Some x else nth_error l j.
Proof.
  intros H. unfold upd. destruct (Nat.eqb_spec j i) as [->|N].
  - rewrite nth_error_app2; rewrite firstn_length_le by lia; [|lia]. rewrite Nat.sub_diag. reflexivity.
  - destruct (Nat.lt_ge_cases j i) as [L|L].
    + rewrite nth_error_app1 by (rewrite firstn_length_le; lia). clear - L. revert l j L. induction i as [|i IH]; intros l j L; [lia|]. destruct l as [|y l]; [destruct j; reflexivity|].
      destruct j as [|j]; [reflexivity|]. cbn [firstn nth_error]. apply IH. lia.
    + rewrite nth_error_app2; rewrite firstn_length_le by lia; [|lia]. destruct (j - i)%nat as [|m] eqn:Q; [lia|]. cbn [nth_error].
      replace j with (S i + m)%nat by lia. clear. generalize (S i) as n. intros n. revert l. induction n as [|n IH]; intros l; [reflexivity|]. destruct l as [|y l]; [destruct m; reflexivity|]. cbn [skipn plus nth_error]. apply IH.
Qed.

Definition holds (p : @phase D) : Prop := match p with Locked | InTx _ _ => True | _ => False end.
Definition pending (x : thr) : list call := match th_phase x with Closing _ => tl (th_todo x) | _ => th_todo x end.
Record Inv (d0 : D) (progs : list (list call)) (k : conc) : Prop := {
  I_seq : one_by_one d0 (rev (k_log k)) (k_db k);
  I_len : List.length (k_threads k) = List.length progs;
  I_hold : forall i x, nth_error (k_threads k) i = Some x -> holds (th_phase x) -> k_mutex k = Some i;
  I_mut : forall i, k_mutex k = Some i -> exists x, nth_error (k_threads k) i = Some x /\ holds (th_phase x);
  I_busy : forall i x, nth_error (k_threads k) i = Some x -> th_phase x <> Idle -> th_todo x <> [];
  I_tx : forall i x v rest, nth_error (k_threads k) i = Some x -> th_phase x = InTx v rest ->
           exists c todo done, th_todo x = c :: todo /\ c_body c = done ++ rest /\ run_body done (k_db k) = Some v;
  I_prog : forall i p, nth_error progs i = Some p -> exists x, nth_error (k_threads k) i = Some x /\ of_thread i (rev (k_log k)) ++ pending x = p;
  I_idx : Forall (fun e : entry => (fst (fst e) < List.length progs)%nat) (k_log k);
  I_open : some_open (k_threads k) = true -> ~ Forall ok_entry (k_log k);
  I_first : forall l1 i c l2, rev (k_log k) = l1 ++ (i, c, None) :: l2 -> Forall ok_entry l1 -> exists d1, one_by_one d0 l1 d1 /\ alone c d1 = None }.

Lemma run_body_app l1 : forall l2 (d : D), run_body (l1 ++ l2) d = match run_body l1 d with Some d' => run_body l2 d' | None => None end.
Proof. induction l1 as [|f l1 IH]; intros l2 d; [reflexivity|]. cbn. destruct (f d); [apply IH|reflexivity]. Qed.
Lemma obo_app : forall l1 l2 (d d1 d2 : D), one_by_one d l1 d1 -> one_by_one d1 l2 d2 -> one_by_one d (l1 ++ l2 : list entry) d2.
Proof.
  induction l1 as [|((i, c), [o|]) l1 IH]; intros l2 d d1 d2 A B; cbn in *; [subst; exact B| |exact (IH _ _ _ _ A B)].
  destruct A as (x & A1 & A2). exists x. split; [exact A1|exact (IH _ _ _ _ A2 B)].
Qed.
Lemma of_thread_app i (l1 l2 : list entry) : of_thread i (l1 ++ l2) = of_thread i l1 ++ of_thread i l2.
Proof. unfold of_thread. rewrite filter_app, map_app. reflexivity. Qed.

Lemma inv_start d0 progs : Inv d0 progs (start d0 progs).
Proof.
  assert (Idle_all : forall i x, nth_error (k_threads (start d0 progs)) i = Some x -> th_phase x = Idle).
  { intros i x H. cbn in H. apply nth_error_In, in_map_iff in H. destruct H as (p & <- & _). reflexivity. }
  constructor; cbn [start k_log k_db k_mutex k_threads rev].
  - reflexivity.
  - apply map_length.
  - intros i x H Hh. rewrite (Idle_all i x H) in Hh. destruct Hh.
  - discriminate.
  - intros i x H N. destruct (N (Idle_all i x H)).
  - intros i x v r H P. rewrite (Idle_all i x H) in P. discriminate.
  - intros i p H. exists {| th_phase := Idle; th_todo := p |}. split; [|reflexivity]. rewrite nth_error_map, H. reflexivity.
  - constructor.
  - intros H. apply existsb_exists in H. destruct H as (x & I1 & Q). apply in_map_iff in I1. destruct I1 as (p & <- & _). discriminate Q.
  - intros l1 i c l2 H. destruct l1; discriminate H.
Qed.
(** A thread changes its phase but neither the log nor the database. *)
Lemma inv_move d0 progs k i x x' m' : Inv d0 progs k -> nth_error (k_threads k) i = Some x ->
  pending x' = pending x -> (th_phase x' <> Idle -> th_todo x' <> []) -> is_open x' = false ->
  (holds (th_phase x') -> m' = Some i) -> (m' = Some i -> holds (th_phase x')) -> (forall j, j <> i -> m' = Some j <-> k_mutex k = Some j) ->
  (forall v rest, th_phase x' = InTx v rest -> exists c todo done, th_todo x' = c :: todo /\ c_body c = done ++ rest /\ run_body done (k_db k) = Some v) ->
  Inv d0 progs {| k_db := k_db k; k_mutex := m'; k_threads := upd i x' (k_threads k); k_log := k_log k |}.
Proof.
  intros V Hx P T Op H1 H2 H3 X. assert (L : (i < List.length (k_threads k))%nat) by (apply nth_error_Some; congruence).
  constructor; cbn [k_log k_db k_mutex k_threads].
  - exact (I_seq _ _ _ V).
  - rewrite upd_length by exact L. exact (I_len _ _ _ V).
  - intros j y Hj Hh. rewrite upd_nth in Hj by exact L. destruct (Nat.eqb_spec j i) as [->|N]; [injection Hj as <-; exact (H1 Hh)|]. apply H3; [exact N|]. exact (I_hold _ _ _ V j y Hj Hh).
  - intros j Hj. destruct (Nat.eq_dec j i) as [->|N].
    + exists x'. split; [rewrite upd_nth, Nat.eqb_refl by exact L; reflexivity|exact (H2 Hj)].
    + apply H3 in Hj; [|exact N]. destruct (I_mut _ _ _ V j Hj) as (y & A & B). exists y. split; [|exact B]. rewrite upd_nth by exact L. destruct (Nat.eqb_spec j i); [contradiction|exact A].
  - intros j y Hj. rewrite upd_nth in Hj by exact L. destruct (Nat.eqb_spec j i) as [->|N]; [injection Hj as <-; exact T|exact (I_busy _ _ _ V j y Hj)].
  - intros j y v r Hj. rewrite upd_nth in Hj by exact L. destruct (Nat.eqb_spec j i) as [->|N]; [injection Hj as <-; exact (X v r)|exact (I_tx _ _ _ V j y v r Hj)].
  - intros j p Hj. destruct (I_prog _ _ _ V j p Hj) as (y & A & B). destruct (Nat.eq_dec j i) as [->|N].
    + exists x'. split; [rewrite upd_nth, Nat.eqb_refl by exact L; reflexivity|]. rewrite Hx in A. injection A as <-. rewrite P. exact B.
    + exists y. split; [|exact B]. rewrite upd_nth by exact L. destruct (Nat.eqb_spec j i); [contradiction|exact A].
  - exact (I_idx _ _ _ V).
  - intros H. apply (I_open _ _ _ V). apply existsb_exists in H. destruct H as (y & I1 & Q). apply In_nth_error in I1. destruct I1 as (j & Hj). rewrite upd_nth in Hj by exact L.
    apply existsb_exists. exists y. split; [|exact Q]. destruct (Nat.eqb j i); [injection Hj as <-; congruence|exact (nth_error_In _ _ Hj)].
  - exact (I_first _ _ _ V).
Qed.
(** A thread ends its call. *)
Lemma inv_end d0 progs k i x c todo (b : bool) (o : option O) d' : Inv d0 progs k -> nth_error (k_threads k) i = Some x -> th_todo x = c :: todo -> holds (th_phase x) ->
  match o with Some o' => alone c (k_db k) = Some (d', o') /\ b = false | None => d' = k_db k /\ (alone c (k_db k) = None \/ ~ Forall ok_entry (k_log k)) end ->
  Inv d0 progs {| k_db := d'; k_mutex := None; k_threads := upd i {| th_phase := Closing b; th_todo := th_todo x |} (k_threads k); k_log := (i, c, o) :: k_log k |}.
Proof.
  intros V Hx T Hh E. assert (L : (i < List.length (k_threads k))%nat) by (apply nth_error_Some; congruence).
  pose proof (I_hold _ _ _ V i x Hx Hh) as M.
  assert (Others : forall j y, nth_error (k_threads k) j = Some y -> j <> i -> ~ holds (th_phase y)).
  { intros j y Hj N Hy. pose proof (I_hold _ _ _ V j y Hj Hy). congruence. }
  constructor; cbn [k_log k_db k_mutex k_threads].
  - cbn [rev]. apply obo_app with (d1 := k_db k); [exact (I_seq _ _ _ V)|]. destruct o as [o|]; cbn; [exists d'; split; [exact (proj1 E)|reflexivity]|symmetry; exact (proj1 E)].
  - rewrite upd_length by exact L. exact (I_len _ _ _ V).
  - intros j y Hj Hy. rewrite upd_nth in Hj by exact L. destruct (Nat.eqb_spec j i) as [->|N]; [injection Hj as <-; destruct Hy|]. destruct (Others j y Hj N Hy).
  - discriminate.
  - intros j y Hj N1. rewrite upd_nth in Hj by exact L. destruct (Nat.eqb_spec j i) as [->|N]; [injection Hj as <-; cbn; rewrite T; discriminate|exact (I_busy _ _ _ V j y Hj N1)].
  - intros j y v r Hj Hp. rewrite upd_nth in Hj by exact L. destruct (Nat.eqb_spec j i) as [->|N]; [injection Hj as <-; discriminate Hp|]. destruct (Others j y Hj N). rewrite Hp. exact I.
  - intros j p Hj. destruct (I_prog _ _ _ V j p Hj) as (y & A & B). cbn [rev]. rewrite of_thread_app. destruct (Nat.eq_dec j i) as [->|N].
    + eexists. split; [rewrite upd_nth, Nat.eqb_refl by exact L; reflexivity|]. rewrite Hx in A. injection A as <-.
      assert (One : of_thread i (@cons entry (i, c, o) nil) = [c]) by (unfold of_thread; cbn; rewrite Nat.eqb_refl; reflexivity). rewrite One.
      rewrite <- List.app_assoc, <- B. f_equal. unfold pending. cbn [th_phase th_todo]. rewrite T. destruct (th_phase x); try destruct Hh; reflexivity.
    + exists y. split; [rewrite upd_nth by exact L; destruct (Nat.eqb_spec j i); [contradiction|exact A]|].
      replace (of_thread j (@cons entry (i, c, o) nil)) with (@nil call); [rewrite app_nil_r; exact B|]. unfold of_thread. cbn. destruct (Nat.eqb_spec i j); [congruence|reflexivity].
  - constructor; [cbn; rewrite <- (I_len _ _ _ V); exact L|exact (I_idx _ _ _ V)].
  - intros H F. inversion F as [|a l F1 F2]; subst. destruct o as [o|]; [|destruct F1]. destruct E as (_ & ->). apply (I_open _ _ _ V); [|exact F2].
    apply existsb_exists in H. destruct H as (y & I1 & Q). apply In_nth_error in I1. destruct I1 as (j & Hj). rewrite upd_nth in Hj by exact L.
    apply existsb_exists. exists y. split; [|exact Q]. destruct (Nat.eqb j i); [injection Hj as <-; discriminate Q|exact (nth_error_In _ _ Hj)].
  - intros l1 j c' l2 H F. cbn [rev] in H. destruct (exists_last (l := (j, c', None) :: l2) ltac:(discriminate)) as (l3 & z & Q). rewrite Q in H. rewrite List.app_assoc in H.
    apply app_inj_tail in H. destruct H as (H & <-). destruct l3 as [|w l3].
    + injection Q as Q1 Q2. subst. rewrite app_nil_r in H. subst l1. exists (k_db k). split; [exact (I_seq _ _ _ V)|]. destruct E as (_ & [E|E]); [exact E|].
      destruct E. apply Forall_rev in F. rewrite rev_involutive in F. exact F.
    + injection Q as Q1 Q2. subst w. exact (I_first _ _ _ V l1 j c' l3 H F).
Qed.
Lemma inv_step d0 progs i b k k' : Inv d0 progs k -> step i b k = Some k' -> Inv d0 progs k'.
Proof.
  intros V H. unfold step in H. destruct (nth_error (k_threads k) i) as [x|] eqn:Hx; [|discriminate]. destruct (th_phase x) as [| |v rest|o] eqn:P.
  - destruct (th_todo x) as [|c todo] eqn:T; [discriminate|]. destruct (k_mutex k) eqn:M; [discriminate|]. injection H as <-. rewrite <- T.
    apply (inv_move d0 progs k i x _ (Some i) V Hx); cbn [th_phase th_todo].
    + unfold pending. cbn. rewrite P. reflexivity.
    + intros _. rewrite T. discriminate.
    + reflexivity.
    + reflexivity.
    + intros _. exact I.
    + intros j N. rewrite M. split; intros Q; congruence.
    + discriminate.
  - destruct (th_todo x) as [|c todo] eqn:T; [discriminate|]. injection H as <-. rewrite <- T. assert (M : k_mutex k = Some i) by (apply (I_hold _ _ _ V i x Hx); rewrite P; exact I).
    apply (inv_move d0 progs k i x _ (k_mutex k) V Hx); cbn [th_phase th_todo].
    + unfold pending. cbn. rewrite P. reflexivity.
    + intros _. rewrite T. discriminate.
    + reflexivity.
    + intros _. exact M.
    + intros _. exact I.
    + intros j N. tauto.
    + intros v r Q. injection Q as <- <-. exists c, todo, []. split; [exact T|split; reflexivity].
  - destruct (th_todo x) as [|c todo] eqn:T; [discriminate|]. assert (Hh : holds (th_phase x)) by (rewrite P; exact I). pose proof (I_hold _ _ _ V i x Hx Hh) as M.
    destruct (I_tx _ _ _ V i x v rest Hx P) as (c0 & todo0 & done & T0 & B & R). rewrite T in T0. injection T0 as <- <-.
    destruct (b && some_open (k_threads k)) eqn:Bz.
    + injection H as <-. rewrite <- T. apply (inv_end d0 progs k i x c todo true None (k_db k) V Hx T Hh). split; [reflexivity|right]. apply (I_open _ _ _ V). apply andb_prop in Bz. exact (proj2 Bz).
    + destruct rest as [|f r].
      * injection H as <-. rewrite <- T. apply (inv_end d0 progs k i x c todo false (Some (c_out c v)) v V Hx T Hh). split; [|reflexivity]. unfold alone. rewrite B, app_nil_r, R. reflexivity.
      * destruct (f v) as [v'|] eqn:Fv; injection H as <-; rewrite <- T.
        -- apply (inv_move d0 progs k i x _ (k_mutex k) V Hx); cbn [th_phase th_todo].
           ++ unfold pending. cbn. rewrite P. reflexivity.
           ++ intros _. rewrite T. discriminate.
           ++ reflexivity.
           ++ intros _. exact M.
           ++ intros _. exact I.
           ++ intros j N. tauto.
           ++ intros w r' Q. injection Q as <- <-. exists c, todo, (done ++ [f]). split; [exact T|]. split; [rewrite B, <- List.app_assoc; reflexivity|]. rewrite run_body_app, R. cbn. rewrite Fv. reflexivity.
        -- apply (inv_end d0 progs k i x c todo true None (k_db k) V Hx T Hh). split; [reflexivity|left]. unfold alone. rewrite B, run_body_app, R. cbn. rewrite Fv. reflexivity.
  - destruct (th_todo x) as [|c todo] eqn:T; [discriminate|]. injection H as <-.
    assert (M : k_mutex k <> Some i).
    { intros M. destruct (I_mut _ _ _ V i M) as (y & A & Hy). rewrite Hx in A. injection A as <-. rewrite P in Hy. exact Hy. }
    apply (inv_move d0 progs k i x _ (k_mutex k) V Hx); cbn [th_phase th_todo].
    + unfold pending. cbn. rewrite P, T. reflexivity.
    + congruence.
    + reflexivity.
    + intros [].
    + intros Q. contradiction.
    + intros j N. tauto.
    + discriminate.
Qed.
Lemma inv_exec d0 progs : forall l k, Inv d0 progs k -> Inv d0 progs (exec l k).
Proof.
  induction l as [|(i, b) l IH]; intros k V; [exact V|]. cbn [exec]. apply IH. destruct (step i b k) as [k'|] eqn:Q; [exact (inv_step d0 progs i b k k' V Q)|exact V].
Qed.
Lemma inv_moves d0 progs k : Inv d0 progs k -> (exists i, step i false k <> None) \/ Forall (fun x => th_todo x = []) (k_threads k).
Proof.
  intros V. destruct (k_mutex k) as [i|] eqn:M.
  - left. exists i. destruct (I_mut _ _ _ V i M) as (x & Hx & Hh). unfold step. rewrite Hx. assert (N : th_todo x <> []) by (apply (I_busy _ _ _ V i x Hx); destruct (th_phase x); [destruct Hh|discriminate..]).
    destruct (th_phase x) as [| |v rest|o]; try destruct Hh; destruct (th_todo x) as [|c todo]; try congruence. cbn [andb]. destruct rest as [|f r]; [discriminate|]. destruct (f v); discriminate.
  - assert (E : Forall (fun x : thr => th_todo x = []) (k_threads k) \/ exists x, In x (k_threads k) /\ th_todo x <> []).
    { clear. induction (k_threads k) as [|x l [F|(y & I1 & N)]]; [left; constructor| |right; exists y; split; [right; exact I1|exact N]].
      destruct (th_todo x) as [|c t] eqn:Q; [left; constructor; assumption|right; exists x; split; [left; reflexivity|rewrite Q; discriminate]]. }
    destruct E as [F|(x & I1 & N)]; [right; exact F|left]. apply In_nth_error in I1. destruct I1 as (i & Hx). exists i. unfold step. rewrite Hx.
    assert (Hn : ~ holds (th_phase x)) by (intros Hh; pose proof (I_hold _ _ _ V i x Hx Hh); congruence).
    destruct (th_phase x) as [| |v rest|o]; try (destruct Hn; exact I); destruct (th_todo x) as [|c todo]; try congruence; try discriminate. rewrite M. discriminate.
Qed.
End P.

Theorem C192_safe_partial : C192_safe.
Proof.
  intros D O d progs sched k. assert (V : Inv d progs k) by (apply inv_exec, inv_start). split; [exact (I_seq _ _ _ V)|]. split; [|exact (inv_moves _ _ _ V)].
  intros i p H. destruct (I_prog _ _ _ V i p H) as (x & _ & E). exists (pending x). exact E.
Qed.
Print Assumptions C192_safe_partial.
(** The first call that fails would have failed alone. *)
Theorem C192_first_partial : forall D O (d : D) (progs : list (list (@call D O))) sched l1 i c l2,
  rev (k_log (exec sched (start d progs))) = l1 ++ (i, c, None) :: l2 -> Forall ok_entry l1 -> exists d1, one_by_one d l1 d1 /\ alone c d1 = None.
Proof. intros D O d progs sched. exact (I_first _ _ _ (inv_exec d progs sched _ (inv_start d progs))). Qed.
Print Assumptions C192_first_partial.
(** So calls that cannot fail alone do not fail together. *)
Theorem C192_no_failures : forall D O (d : D) (progs : list (list (@call D O))) sched,
  (forall p c d1, In p progs -> In c p -> alone c d1 <> None) -> Forall ok_entry (k_log (exec sched (start d progs))).
Proof.
  intros D O d progs sched H. pose proof (inv_exec d progs sched _ (inv_start d progs)) as V. set (k := exec sched (start d progs)) in *. clearbody k.
  assert (Split : forall l : list (@entry D O), Forall ok_entry l \/ exists l1 i c l2, l = l1 ++ (i, c, None) :: l2 /\ Forall ok_entry l1).
  { induction l as [|((i, c), [o|]) l [F|(l1 & j & c' & l2 & -> & F)]]; [left; constructor|left; constructor; [exact I|exact F]|right| |].
    - exists ((i, c, Some o) :: l1), j, c', l2. split; [reflexivity|constructor; [exact I|exact F]].
    - right. exists [], i, c, l. split; [reflexivity|constructor].
    - right. eexists [], i, c, _. split; [reflexivity|constructor]. }
  destruct (Split (rev (k_log k))) as [F|(l1 & i & c & l2 & E & F)]; [apply Forall_rev in F; rewrite rev_involutive in F; exact F|exfalso].
  destruct (I_first _ _ _ V l1 i c l2 E F) as (d1 & _ & A).
  assert (I1 : In (i, c, None) (rev (k_log k))) by (rewrite E; apply in_or_app; right; left; reflexivity).
  assert (L : (i < List.length progs)%nat).
  { pose proof (I_idx _ _ _ V) as X. rewrite Forall_forall in X. apply (X (i, c, None)). apply in_rev. exact I1. }
  destruct (nth_error progs i) as [p|] eqn:Q; [|apply nth_error_None in Q; lia]. apply (H p c d1); [exact (nth_error_In _ _ Q)| |exact A].
  destruct (I_prog _ _ _ V i p Q) as (x & _ & <-). apply in_or_app. left. apply in_map_iff. exists (i, c, None). split; [reflexivity|]. apply filter_In. split; [exact I1|apply Nat.eqb_refl].
Qed.
Print Assumptions C192_no_failures.

(** The database is a number.  The first thread's call writes and then fails; the second's only writes.  The first releases the mutex before it closes its
    connection; the second meets its open transaction for two seconds and fails. *)
Definition w_fail : @call Z Z := {| c_body := [fun d => Some (d + 1); fun _ => None]; c_out := fun d => d |}.
Definition w_add : @call Z Z := {| c_body := [fun d => Some (d + 10)]; c_out := fun d => d |}.
Theorem C192_refuted : ~ C192_statement.
Proof.
  intros (_ & H). specialize (H Z Z 0 [[w_fail]; [w_add]] [(0, false); (0, false); (0, false); (0, false); (1, false); (1, false); (1, true)]%nat).
  cbn in H. destruct H as (_ & H & _). discriminate H.
Qed.
Print Assumptions C192_refuted.
(** Two threads that both succeed, interleaved. *)
Example C192_example : let k := exec [(0, false); (1, false); (0, true); (0, false); (1, true); (0, true); (1, false); (1, true); (0, false); (1, true); (1, true)]%nat (start 0 [[w_add]; [w_add]]) in
  k_db k = 20 /\ List.length (k_log k) = 2%nat /\ (forall c d, c = w_add -> alone c d <> None).
Proof. split; [reflexivity|]. split; [reflexivity|]. intros c d -> Q. discriminate Q. Qed.
