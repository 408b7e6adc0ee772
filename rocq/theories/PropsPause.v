(** Properties C186 and C187: the server can tell from the reports whether the device is paused; pausing twice. *)
From Coq Require Import Permutation.
From Verif Require Import Base PauseModel.

(** ** Specification *)
Definition preport_eqb (a b : preport) : bool := match a, b with RPaused, RPaused => true | RResumed, RResumed => true | _, _ => false end.
Definition count (r : preport) (l : list preport) : Z := Z.of_nat (List.length (filter (preport_eqb r) l)).
(** The threads have no call left. *)
Definition quiet (v : pdev) : Prop := forall h, In h (v_threads v) -> h_owes h = None /\ h_todo h = [].
(** What a server concludes from the last report. *)
Definition told (l : list preport) : bool := match rev l with RPaused :: _ => true | _ => false end.
(** The reports are paused, resumed, paused, ... *)
Fixpoint alternate (next : preport) (l : list preport) : Prop :=
  match l with [] => True | r :: l' => r = next /\ alternate (match r with RPaused => RResumed | RResumed => RPaused end) l' end.

(** ** C186 *)
Definition C186_statement : Prop := forall progs sched,
  let v := run_sched sched (pdev0 progs) in quiet v -> told (v_sent v) = v_paused v /\ alternate RPaused (v_sent v).

Lemma count_app r a b : count r (a ++ b) = count r a + count r b.
Proof. unfold count. rewrite filter_app, app_length. lia. Qed.
Definition owed (v : pdev) : list preport := List.concat (map (fun h => olist (h_owes h)) (v_threads v)).
Definition bal (l : list preport) : Z := count RPaused l - count RResumed l.
Lemma bal_app a b : bal (a ++ b) = bal a + bal b. Proof. unfold bal. rewrite !count_app. lia. Qed.
Definition oz (h : pthread) : Z := bal (olist (h_owes h)).
Fixpoint sumz (l : list Z) : Z := match l with [] => 0 | x :: l' => x + sumz l' end.
Lemma owed_sum : forall l, bal (List.concat (map (fun h => olist (h_owes h)) l)) = sumz (map oz l).
Proof. induction l as [|h l IH]; [reflexivity|]. cbn [map List.concat sumz]. rewrite bal_app, IH. reflexivity. Qed.
Lemma sum_setn : forall l n h h', nth_error l n = Some h -> sumz (map oz (setn n h' l)) = sumz (map oz l) - oz h + oz h'.
Proof.
  induction l as [|a l IH]; intros [|n] h h' H; cbn in H; try discriminate.
  - injection H as <-. cbn [setn map sumz]. lia.
  - cbn [setn map sumz]. rewrite (IH n h h' H). lia.
Qed.
Definition b2z (b : bool) : Z := if b then 1 else 0.
(** Sent and owed reports together give the state. *)
Definition balanced (v : pdev) : Prop := bal (v_sent v) + sumz (map oz (v_threads v)) = b2z (v_paused v).
Lemma pstep_balance p h p' r s h' : pstep p h = Some (p', r, s, h') -> bal (olist r) + oz h' + b2z p = oz h + b2z p'.
Proof.
  destruct h as [ow todo]. unfold pstep. cbn [h_owes h_todo]. destruct ow as [x|].
  - intros Q. injection Q as <- <- <- <-. unfold oz. cbn [h_owes]. destruct x, p; reflexivity.
  - destruct todo as [|[|] l]; [discriminate| |]; destruct p; cbn; intros Q; injection Q as <- <- <- <-; reflexivity.
Qed.
Lemma sched1_balanced n v : balanced v -> balanced (sched1 n v).
Proof.
  unfold balanced, sched1. intros H. destruct (nth_error (v_threads v) n) as [h|] eqn:E; [|exact H].
  destruct (pstep (v_paused v) h) as [[[[p r] s] h']|] eqn:P; [|exact H]. cbn [v_sent v_threads v_paused].
  rewrite bal_app, (sum_setn _ _ _ _ E). pose proof (pstep_balance _ _ _ _ _ _ P). lia.
Qed.
Lemma run_balanced : forall l v, balanced v -> balanced (run_sched l v).
Proof. induction l as [|n l IH]; intros v H; [exact H|]. cbn [run_sched fold_left]. apply IH, sched1_balanced, H. Qed.
Lemma pdev0_balanced progs : balanced (pdev0 progs).
Proof.
  unfold balanced, pdev0. cbn [v_sent v_threads v_paused]. assert (G : sumz (map oz (map (fun l => {| h_owes := None; h_todo := l |}) progs)) = 0).
  { induction progs as [|a l IH]; [reflexivity|]. cbn [map sumz]. rewrite IH. reflexivity. }
  rewrite G. reflexivity.
Qed.

(** Whatever the threads and their order: once the calls are over, the number of reports gives the state. *)
Theorem C186_count_partial progs sched : let v := run_sched sched (pdev0 progs) in quiet v ->
  count RPaused (v_sent v) - count RResumed (v_sent v) = if v_paused v then 1 else 0.
Proof.
  intros v Q. pose proof (run_balanced sched _ (pdev0_balanced progs)) as B. fold v in B. unfold balanced in B.
  assert (G : sumz (map oz (v_threads v)) = 0).
  { unfold quiet in Q. clear B. induction (v_threads v) as [|h l IH]; [reflexivity|]. cbn [map sumz].
    rewrite IH; [|intros h' I1; apply Q; right; exact I1]. destruct (Q h (or_introl eq_refl)) as (O & _). unfold oz. rewrite O. reflexivity. }
  rewrite G in B. unfold bal, b2z in B. lia.
Qed.
Print Assumptions C186_count_partial.

(** One thread alone: the reports alternate and the last one says the state, at every moment between two calls. *)
Lemma alternate_snoc : forall l next, alternate next l ->
  alternate next (l ++ [match rev l with [] => next | RPaused :: _ => RResumed | RResumed :: _ => RPaused end]).
Proof.
  intros l. induction l as [|r l IH]; intros next H; [split; [reflexivity|exact I]|].
  cbn [alternate] in H. destruct H as (-> & H). cbn [app alternate]. split; [reflexivity|].
  specialize (IH _ H). cbn [rev]. destruct (rev l) as [|x y]; [exact IH|]. cbn [app]. exact IH.
Qed.
Definition single (v : pdev) : Prop := exists h, v_threads v = [h] /\ alternate RPaused (v_sent v ++ olist (h_owes h)) /\
  told (v_sent v ++ olist (h_owes h)) = v_paused v.
Lemma told_snoc l r : told (l ++ [r]) = match r with RPaused => true | RResumed => false end.
Proof. unfold told. rewrite rev_app_distr. destruct r; reflexivity. Qed.
Lemma next_report l p : alternate RPaused l -> told l = p -> alternate RPaused (l ++ [if p then RResumed else RPaused]).
Proof.
  intros A <-. pose proof (alternate_snoc l _ A) as B. unfold told. destruct (rev l) as [|[|] y]; exact B.
Qed.
Lemma single_step n v : single v -> single (sched1 n v).
Proof.
  intros (h & T & A & L). unfold sched1. rewrite T. destruct n as [|n]; cbn [nth_error]; [|exists h; rewrite ?T; destruct n; cbn [nth_error]; auto].
  unfold pstep. destruct h as [[r|] todo]; cbn [h_owes h_todo olist] in *.
  - eexists. cbn [v_threads setn v_sent v_paused]. split; [reflexivity|]. cbn [h_owes olist]. rewrite app_nil_r. split; assumption.
  - rewrite app_nil_r in A, L. destruct todo as [|[|] l].
    + exists {| h_owes := None; h_todo := [] |}. cbn [h_owes olist]. rewrite app_nil_r. auto.
    + pose proof (next_report _ _ A L) as N. revert N L. destruct (v_paused v); intros N L; cbn [queue_pause Bool.eqb negb]; eexists; cbn [v_threads setn v_sent v_paused h_owes olist];
        (split; [reflexivity|]); rewrite ?app_nil_r; split; try assumption; apply told_snoc.
    + pose proof (next_report _ _ A L) as N. revert N L. destruct (v_paused v); intros N L; cbn [queue_pause Bool.eqb negb]; eexists; cbn [v_threads setn v_sent v_paused h_owes olist];
        (split; [reflexivity|]); rewrite ?app_nil_r; split; try assumption; apply told_snoc.
Qed.
Lemma single_run : forall l v, single v -> single (run_sched l v).
Proof. induction l as [|n l IH]; intros w W; [exact W|]. cbn [run_sched fold_left]. apply IH, single_step, W. Qed.
Theorem C186_partial prog sched : let v := run_sched sched (pdev0 [prog]) in
  (forall h, In h (v_threads v) -> h_owes h = None) -> told (v_sent v) = v_paused v /\ alternate RPaused (v_sent v).
Proof.
  intros v Q. pose proof (single_run sched (pdev0 [prog]) (ex_intro _ {| h_owes := None; h_todo := prog |} (conj eq_refl (conj I eq_refl)))) as S0. fold v in S0.
  destruct S0 as (h & T & A & L). rewrite (Q h) in A, L by (rewrite T; left; reflexivity). cbn [olist] in A, L. rewrite app_nil_r in A, L. split; assumption.
Qed.
Print Assumptions C186_partial.

(** Two threads: the device is paused, the server was last told that it runs. *)
Theorem C186_refuted : ~ C186_statement.
Proof.
  intros H. destruct (H [[CPause; CPause]; [CResume]] [0; 0; 1; 0; 0; 1]%nat) as (A & _).
  - intros h I1. vm_compute in I1. destruct I1 as [<-|[<-|[]]]; split; reflexivity.
  - vm_compute in A. discriminate A.
Qed.
Print Assumptions C186_refuted.
Example C186_example : v_sent (run_sched [0;0;0;0;0;0;0]%nat (pdev0 [[CPause; CPause; CResume; CPause]])) = [RPaused; RResumed; RPaused].
Proof. reflexivity. Qed.

(** ** C187: the results: what a call answers, and that every change is answered once *)
(** Every history of the device, seen as the calls in the order in which they took effect: *)
Fixpoint statuses (paused : bool) (l : list pcall) : list pstatus :=
  match l with
  | [] => []
  | CPause :: l' => (if paused then SAlreadyPaused else SSuccess) :: statuses true l'
  | CResume :: l' => (if paused then SSuccess else SAlreadyRunning) :: statuses false l'
  end.
Fixpoint final (paused : bool) (l : list pcall) : bool :=
  match l with [] => paused | CPause :: l' => final true l' | CResume :: l' => final false l' end.
Definition successes (l : list pstatus) : nat := List.length (filter (fun s => match s with SSuccess => true | _ => false end) l).
(** For every interleaving there is an order of the calls (each thread's own order kept) whose results, as a collection, and whose final
    state are those of the interleaving. *)
Definition C187_statement : Prop := forall progs sched,
  let v := run_sched sched (pdev0 progs) in quiet v ->
  exists order : list (nat * pcall),
    (forall n prog, nth_error progs n = Some prog -> map snd (filter (fun x => Nat.eqb (fst x) n) order) = prog) /\
    (forall x, In x order -> (fst x < List.length progs)%nat) /\
    v_paused v = final false (map snd order) /\
    Permutation (v_results v) (statuses false (map snd order)) /\
    successes (v_results v) = List.length (v_sent v).

(** The calls in the order of their critical sections. *)
Definition effect (h : pthread) : list pcall := match h_owes h with Some _ => [] | None => match h_todo h with [] => [] | c :: _ => [c] end end.
Fixpoint trace (l : list nat) (v : pdev) : list (nat * pcall) :=
  match l with
  | [] => []
  | n :: l' => (match nth_error (v_threads v) n with Some h => map (pair n) (effect h) | None => [] end) ++ trace l' (sched1 n v)
  end.
Definition or1 (h : pthread) : list pstatus := match h_owes h with Some _ => [SSuccess] | None => [] end.
Definition ors (l : list pthread) : list pstatus := List.concat (map or1 l).
Lemma ors_setn : forall l n h h', nth_error l n = Some h -> Permutation (or1 h ++ ors (setn n h' l)) (or1 h' ++ ors l).
Proof.
  induction l as [|a l IH]; intros [|n] h h' H; cbn in H; try discriminate.
  - injection H as <-. cbn [setn]. unfold ors. cbn [map List.concat]. apply Permutation_app_swap_app.
  - cbn [setn]. unfold ors in *. cbn [map List.concat]. specialize (IH n h h' H).
    transitivity (or1 a ++ or1 h ++ List.concat (map or1 (setn n h' l))); [apply Permutation_app_swap_app|].
    transitivity (or1 a ++ or1 h' ++ List.concat (map or1 l)); [apply Permutation_app_head, IH|apply Permutation_app_swap_app].
Qed.
Lemma final_app : forall a b p, final p (a ++ b) = final (final p a) b.
Proof. induction a as [|[|] a IH]; intros b p; [reflexivity|apply IH|apply IH]. Qed.
Lemma statuses_app : forall a b p, statuses p (a ++ b) = statuses p a ++ statuses (final p a) b.
Proof. induction a as [|[|] a IH]; intros b p; [reflexivity| |]; cbn [app statuses final]; rewrite IH; reflexivity. Qed.
Lemma pstep_facts p h p' r s h' : pstep p h = Some (p', r, s, h') ->
  p' = final p (effect h) /\ (forall x, Permutation (olist s ++ or1 h' ++ x) (or1 h ++ statuses p (effect h) ++ x)) /\
  successes (olist s) = List.length (olist r) /\ h_todo h = effect h ++ h_todo h'.
Proof.
  destruct h as [ow todo]. unfold pstep, effect, or1. cbn [h_owes h_todo]. destruct ow as [y|].
  - intros Q. injection Q as <- <- <- <-. repeat split; reflexivity.
  - destruct todo as [|[|] l]; [discriminate| |]; destruct p; cbn; intros Q; injection Q as <- <- <- <-; repeat split; reflexivity.
Qed.
Lemma successes_app a b : successes (a ++ b) = (successes a + successes b)%nat.
Proof. unfold successes. rewrite filter_app, app_length. reflexivity. Qed.
Lemma nth_setn_same {A} : forall (l : list A) n x y, nth_error l n = Some y -> nth_error (setn n x l) n = Some x.
Proof. induction l as [|a l IH]; intros [|n] x y H; cbn in *; try discriminate; [reflexivity|exact (IH n x y H)]. Qed.
Lemma nth_setn_other {A} : forall (l : list A) n m x, n <> m -> nth_error (setn n x l) m = nth_error l m.
Proof. induction l as [|a l IH]; intros [|n] [|m] x H; cbn; try reflexivity; [contradiction|]. apply IH. congruence. Qed.
Lemma setn_length {A} : forall (l : list A) n x, List.length (setn n x l) = List.length l.
Proof. induction l as [|a l IH]; intros [|n] x; cbn; try reflexivity. rewrite IH. reflexivity. Qed.

Definition explained (v w : pdev) (o : list (nat * pcall)) : Prop :=
  v_paused w = final (v_paused v) (map snd o) /\
  Permutation (v_results w ++ ors (v_threads w)) (v_results v ++ ors (v_threads v) ++ statuses (v_paused v) (map snd o)) /\
  (successes (v_results w) + List.length (v_sent v) = List.length (v_sent w) + successes (v_results v))%nat /\
  List.length (v_threads w) = List.length (v_threads v) /\
  (forall x, In x o -> (fst x < List.length (v_threads v))%nat) /\
  (forall n h, nth_error (v_threads v) n = Some h -> exists h', nth_error (v_threads w) n = Some h' /\
     h_todo h = map snd (filter (fun x => Nat.eqb (fst x) n) o) ++ h_todo h').
Lemma explained_refl v : explained v v [].
Proof.
  split; [reflexivity|]. split; [rewrite app_nil_r; reflexivity|]. split; [lia|]. split; [reflexivity|]. split; [intros x []|].
  intros n h H. exists h. split; [exact H|reflexivity].
Qed.
Lemma explained_trans a b c o1 o2 : explained a b o1 -> explained b c o2 -> explained a c (o1 ++ o2).
Proof.
  intros (A1 & A2 & A3 & A4 & A5 & A6) (B1 & B2 & B3 & B4 & B5 & B6). split; [|split; [|split; [|split; [|split]]]].
  - rewrite map_app, final_app, <- A1. exact B1.
  - rewrite map_app, statuses_app, <- A1, B2, !app_assoc. apply Permutation_app_tail. rewrite <- app_assoc. exact A2.
  - lia.
  - congruence.
  - intros x I1. apply in_app_or in I1. destruct I1 as [I1|I1]; [exact (A5 x I1)|]. rewrite <- A4. exact (B5 x I1).
  - intros n h H. destruct (A6 n h H) as (h1 & H1 & E1). destruct (B6 n h1 H1) as (h2 & H2 & E2). exists h2. split; [exact H2|].
    rewrite filter_app, map_app, <- app_assoc, <- E2. exact E1.
Qed.
Lemma filter_pair : forall n m (l : list pcall), map snd (filter (fun x : nat * pcall => Nat.eqb (fst x) n) (map (pair m) l)) = if Nat.eqb m n then l else [].
Proof. intros n m. induction l as [|c l IH]; cbn [map filter fst]; [destruct (Nat.eqb m n); reflexivity|]. destruct (Nat.eqb m n); cbn [map snd]; rewrite IH; reflexivity. Qed.
Lemma step_explained n v : explained v (sched1 n v) (match nth_error (v_threads v) n with Some h => map (pair n) (effect h) | None => [] end).
Proof.
  unfold sched1. destruct (nth_error (v_threads v) n) as [h|] eqn:E; [|apply explained_refl].
  destruct (pstep (v_paused v) h) as [[[[p r] s] h']|] eqn:P.
  - destruct (pstep_facts _ _ _ _ _ _ P) as (F1 & F2 & F3 & F4). 
    assert (MS : map snd (map (pair n) (effect h)) = effect h) by (rewrite map_map; apply map_id).
    split; [|split; [|split; [|split; [|split]]]]; cbn [v_paused v_results v_sent v_threads].
    + rewrite MS. exact F1.
    + rewrite MS, <- app_assoc. apply Permutation_app_head.
      apply (Permutation_app_inv_l (or1 h)). 
      transitivity (olist s ++ or1 h ++ ors (setn n h' (v_threads v))); [apply Permutation_app_swap_app|].
      transitivity (olist s ++ or1 h' ++ ors (v_threads v)); [apply Permutation_app_head, ors_setn, E|].
      rewrite F2. apply Permutation_app_head. apply Permutation_app_comm.
    + rewrite successes_app, app_length, F3. lia.
    + apply setn_length.
    + intros x I1. apply in_map_iff in I1. destruct I1 as (c & <- & _). cbn [fst]. apply nth_error_Some. congruence.
    + intros m k H. rewrite filter_pair. destruct (Nat.eqb_spec n m) as [<-|N].
      * rewrite E in H. injection H as <-. exists h'. split; [exact (nth_setn_same _ _ _ _ E)|exact F4].
      * exists k. rewrite nth_setn_other by exact N. split; [exact H|reflexivity].
  - assert (Z0 : effect h = []).
    { unfold effect. unfold pstep in P. destruct (h_owes h); [discriminate|]. destruct (h_todo h) as [|[|] l]; [reflexivity| |]; destruct (v_paused v); discriminate. }
    rewrite Z0. apply explained_refl.
Qed.
Lemma run_explained : forall l v, explained v (run_sched l v) (trace l v).
Proof.
  induction l as [|n l IH]; intros v; [apply explained_refl|]. cbn [run_sched fold_left trace].
  exact (explained_trans _ _ _ _ _ (step_explained n v) (IH (sched1 n v))).
Qed.
Theorem C187 : C187_statement.
Proof.
  intros progs sched v Q. exists (trace sched (pdev0 progs)). destruct (run_explained sched (pdev0 progs)) as (A1 & A2 & A3 & A4 & A5 & A6). fold v in A1, A2, A3, A4, A6.
  assert (O0 : forall l, (forall h, In h l -> h_owes h = None) -> ors l = []).
  { clear. induction l as [|h l IH]; intros H; [reflexivity|]. unfold ors in *. cbn [map List.concat]. rewrite IH by (intros k K; apply H; right; exact K).
    unfold or1. rewrite (H h (or_introl eq_refl)). reflexivity. }
  split; [|split; [|split; [|split]]].
  - intros n prog H. destruct (A6 n {| h_owes := None; h_todo := prog |}) as (h' & H' & E); [cbn; apply map_nth_error; exact H|].
    destruct (Q h' (nth_error_In _ _ H')) as (_ & T). rewrite T, app_nil_r in E. symmetry. exact E.
  - intros x I1. specialize (A5 x I1). cbn in A5. rewrite map_length in A5. exact A5.
  - exact A1.
  - rewrite (O0 (v_threads v)) in A2 by (intros h I1; exact (proj1 (Q h I1))). rewrite app_nil_r in A2. 
    rewrite (O0 (v_threads (pdev0 progs))) in A2 by (intros h I1; cbn in I1; apply in_map_iff in I1; destruct I1 as (l & <- & _); reflexivity). exact A2.
  - cbn [pdev0 v_results v_sent List.length successes filter] in A3. cbn in A3. lia.
Qed.
Print Assumptions C187.
Example C187_example : let v := run_sched [0; 0; 1; 0; 0; 1]%nat (pdev0 [[CPause; CPause]; [CResume]]) in
  quiet v /\ v_paused v = true /\ v_results v = [SSuccess; SSuccess; SSuccess] /\ v_sent v = [RPaused; RPaused; RResumed].
Proof.
  split; [|split; [reflexivity|split; reflexivity]]. intros h I1. vm_compute in I1. destruct I1 as [<-|[<-|[]]]; split; reflexivity.
Qed.
