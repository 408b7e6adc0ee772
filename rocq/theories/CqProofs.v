(** Proofs about the command queue and the token. *)
From Verif Require Import Base CqModel CqSpec.
From Coq Require Import Sorted.

(** ** Traces *)
Lemma taken_app a b : taken (a ++ b) = taken a ++ taken b.
Proof. induction a as [|x a IH]; simpl; auto. destruct x; simpl; rewrite ?IH; auto. Qed.
Lemma begun_app a b : begun (a ++ b) = begun a ++ begun b.
Proof. induction a as [|x a IH]; simpl; auto. destruct x; simpl; rewrite ?IH; auto. Qed.
Lemma submitted_app a b : submitted (a ++ b) = submitted a ++ submitted b.
Proof. induction a as [|x a IH]; simpl; auto. destruct x; simpl; rewrite ?IH; auto. Qed.
Lemma paused_app a b : paused_after (a ++ b) = fold_left (fun b e => match e with EPaused b' => b' | _ => b end) b (paused_after a).
Proof. unfold paused_after. apply fold_left_app. Qed.

Record inv (tr : list cev) (s : cq) : Prop := {
  i_sorted : StronglySorted lt (taken tr ++ q_tasks s);
  i_bound : Forall (fun i => (i < q_next s)%nat) (taken tr ++ q_tasks s);
  i_begun : match q_worker s with WTaken i => taken tr = begun tr ++ [i] | _ => taken tr = begun tr end;
  i_paused : q_paused s = paused_after tr;
  i_submitted : submitted tr = seq 0 (q_next s);
  i_abort : q_shutdown s = q_aborting s }.
Lemma sorted_snoc l x : StronglySorted lt l -> Forall (fun i => (i < x)%nat) l -> StronglySorted lt (l ++ [x]).
Proof.
  induction l as [|y l IH]; intros H F; simpl; [repeat constructor|]. inversion H; subst. inversion F; subst. constructor; [now apply IH|].
  apply Forall_app. split; auto.
Qed.
Lemma sorted_app_l (a b : list nat) : StronglySorted lt (a ++ b) -> StronglySorted lt a.
Proof. induction a as [|x a IH]; intros H; [constructor|]. simpl in H. inversion H; subst. constructor; [now apply IH|]. now apply Forall_app in H3. Qed.
Lemma step_inv tr s o s' e : inv tr s -> cstep s o = Some (s', e) -> inv (tr ++ e) s'.
Proof.
  intros [H1 H2 H3 H4 H5 H6] H. destruct o; cbn [cstep] in H.
  - destruct (q_aborting s) eqn:A; [discriminate|]. destruct (q_worker s) eqn:Wk; injection H as <- <-; rewrite app_nil_r; split; simpl; auto; rewrite ?Wk; auto; congruence.
  - injection H as <- <-. split; simpl.
    + rewrite taken_app. simpl. rewrite app_nil_r, app_assoc. now apply sorted_snoc.
    + rewrite taken_app. simpl. rewrite app_nil_r, app_assoc. apply Forall_app. split; [|constructor; [lia|constructor]]. eapply Forall_impl; [|exact H2]. simpl. lia.
    + rewrite taken_app, begun_app. simpl. rewrite !app_nil_r. exact H3.
    + rewrite paused_app. exact H4.
    + rewrite submitted_app. cbn [submitted]. rewrite H5. now rewrite <- seq_S.
    + exact H6.
  - injection H as <- <-. split; simpl; rewrite ?taken_app, ?begun_app, ?submitted_app, ?paused_app; simpl; rewrite ?app_nil_r; auto.
  - destruct (q_worker s) eqn:Wk; try discriminate. destruct (q_tasks s) as [|id rest] eqn:Q; [discriminate|]. destruct (q_shutdown s || q_paused s); [discriminate|].
    injection H as <- <-. split; simpl; rewrite ?taken_app, ?begun_app, ?submitted_app, ?paused_app; simpl; rewrite ?app_nil_r; auto.
    + now rewrite <- app_assoc.
    + now rewrite <- app_assoc.
    + now rewrite H3.
  - destruct (q_worker s) eqn:Wk; try discriminate. injection H as <- <-.
    split; simpl; rewrite ?taken_app, ?begun_app, ?submitted_app, ?paused_app; simpl; rewrite ?app_nil_r; auto.
  - destruct (q_worker s) eqn:Wk; try discriminate. injection H as <- <-. rewrite app_nil_r. split; simpl; auto.
  - destruct (q_worker s) eqn:Wk; try discriminate. destruct (q_shutdown s) eqn:Sd; [|discriminate]. injection H as <- <-. rewrite app_nil_r. split; simpl; auto. congruence.
  - destruct (q_aborting s) eqn:A; [discriminate|]. injection H as <- <-.
    split; simpl; rewrite ?taken_app, ?begun_app, ?submitted_app, ?paused_app; simpl; rewrite ?app_nil_r; auto.
  - destruct (q_aborting s) eqn:A; [|discriminate].
    destruct (q_worker s) eqn:Wk; try discriminate; injection H as <- <-;
      (split; simpl; rewrite ?taken_app, ?begun_app, ?submitted_app, ?paused_app; simpl; rewrite ?app_nil_r; auto;
       [now apply sorted_app_l in H1|now apply Forall_app in H2]).
Qed.
Lemma run_inv : forall ops tr s s' e, inv tr s -> crun s ops = Some (s', e) -> inv (tr ++ e) s'.
Proof.
  induction ops as [|o ops IH]; intros tr s s' e I H; cbn [crun] in H.
  - injection H as <- <-. now rewrite app_nil_r.
  - destruct (cstep s o) as [(s1, e1)|] eqn:S1; [|discriminate]. destruct (crun s1 ops) as [(s2, e2)|] eqn:R; [|discriminate]. injection H as <- <-.
    rewrite app_assoc. eapply IH; [|exact R]. eapply step_inv; eauto.
Qed.
Lemma init_inv : inv [] cq_init.
Proof. split; simpl; auto; constructor. Qed.

(** ** Splitting a run at an event *)
Lemma step_one s o s' e : cstep s o = Some (s', e) -> e = [] \/ exists x, e = [x].
Proof.
  destruct o; cbn [cstep]; intros H.
  - destruct (q_aborting s); [discriminate|]. destruct (q_worker s); injection H as <- <-; auto.
  - injection H as <- <-; eauto.
  - injection H as <- <-; eauto.
  - destruct (q_worker s); try discriminate. destruct (q_tasks s); try discriminate. destruct (_ || _); [discriminate|]. injection H as <- <-; eauto.
  - destruct (q_worker s); try discriminate. injection H as <- <-; eauto.
  - destruct (q_worker s); try discriminate. injection H as <- <-; eauto.
  - destruct (q_worker s); try discriminate. destruct (q_shutdown s); [|discriminate]. injection H as <- <-; eauto.
  - destruct (q_aborting s); [discriminate|]. injection H as <- <-; eauto.
  - destruct (q_aborting s); [|discriminate]. destruct (q_worker s); try discriminate; injection H as <- <-; eauto.
Qed.
Lemma run_split : forall ops s s' t1 x t2, crun s ops = Some (s', t1 ++ x :: t2) ->
  exists o1 o o2 sa sb, crun s o1 = Some (sa, t1) /\ cstep sa o = Some (sb, [x]) /\ crun sb o2 = Some (s', t2) /\ ops = o1 ++ o :: o2.
Proof.
  induction ops as [|o ops IH]; intros s s' t1 x t2 H; cbn [crun] in H.
  - injection H as _ E. destruct t1; discriminate.
  - destruct (cstep s o) as [(s1, e1)|] eqn:S1; [|discriminate]. destruct (crun s1 ops) as [(s2, e2)|] eqn:R; [|discriminate]. injection H as <- E.
    destruct (step_one _ _ _ _ S1) as [-> | (y & ->)].
    + simpl in E. subst e2. destruct (IH _ _ _ _ _ R) as (o1 & o' & o2 & sa & sb & A & B & C & ->). exists (o :: o1), o', o2, sa, sb.
      repeat split; auto. cbn [crun]. now rewrite S1, A.
    + destruct t1 as [|z t1]; simpl in E; injection E as -> E.
      * subst e2. exists [], o, ops, s, s1. repeat split; auto.
      * subst e2. destruct (IH _ _ _ _ _ R) as (o1 & o' & o2 & sa & sb & A & B & C & ->). exists (o :: o1), o', o2, sa, sb.
        repeat split; auto. cbn [crun]. now rewrite S1, A.
Qed.

(** ** Order, at most once *)
Lemma begun_prefix tr s : inv tr s -> exists k, taken tr = begun tr ++ k.
Proof. intros I. pose proof (i_begun _ _ I) as H. destruct (q_worker s); eauto; exists []; now rewrite app_nil_r. Qed.
Theorem in_order ops s tr : crun cq_init ops = Some (s, tr) -> StronglySorted lt (begun tr) /\ StronglySorted lt (taken tr) /\
  submitted tr = seq 0 (q_next s) /\ (forall i, In i (begun tr) -> In i (taken tr)) /\ (forall i, In i (taken tr) -> In i (submitted tr)).
Proof.
  intros H. pose proof (run_inv _ [] _ _ _ init_inv H) as I. simpl in I. destruct (begun_prefix _ _ I) as (k & K).
  pose proof (sorted_app_l _ _ (i_sorted _ _ I)) as S. split; [rewrite K in S; now apply sorted_app_l in S|]. split; auto. split; [apply I|].
  split; [intros i Hi; rewrite K; apply in_or_app; auto|]. intros i Hi. rewrite (i_submitted _ _ I). apply in_seq.
  pose proof (i_bound _ _ I) as B. rewrite Forall_forall in B. specialize (B i (in_or_app _ _ _ (or_introl Hi))). lia.
Qed.

(** ** Paused *)
Lemma taken_step s o s' i : cstep s o = Some (s', [ETaken i]) -> o = CTake /\ q_paused s = false /\ q_shutdown s = false /\ q_worker s = WWait /\ exists r, q_tasks s = i :: r.
Proof.
  destruct o; cbn [cstep]; intros H; try discriminate.
  - destruct (q_aborting s); [discriminate|]. destruct (q_worker s); discriminate.
  - destruct (q_worker s); try discriminate. destruct (q_tasks s); try discriminate. destruct (q_shutdown s), (q_paused s); try discriminate. injection H as _ <-. eauto 8.
  - destruct (q_worker s); discriminate.
  - destruct (q_worker s); discriminate.
  - destruct (q_worker s); try discriminate. destruct (q_shutdown s); discriminate.
  - destruct (q_aborting s); discriminate.
  - destruct (q_aborting s); [|discriminate]. destruct (q_worker s); discriminate.
Qed.
Theorem not_while_paused ops s t1 i t2 : crun cq_init ops = Some (s, t1 ++ ETaken i :: t2) -> paused_after t1 = false.
Proof.
  intros H. destruct (run_split _ _ _ _ _ _ H) as (o1 & o & o2 & sa & sb & A & B & C & _). apply taken_step in B. destruct B as (_ & B & _).
  pose proof (run_inv _ [] _ _ _ init_inv A) as I. simpl in I. rewrite <- (i_paused _ _ I). exact B.
Qed.
Lemma paused_true_fold l b : (forall e, In e l -> e <> EPaused false) -> b = true -> fold_left (fun b e => match e with EPaused b' => b' | _ => b end) l b = true.
Proof.
  revert b. induction l as [|e l IH]; intros b H ->; simpl; auto. apply IH; [intros; apply H; now right|]. destruct e; auto. destruct b; auto.
  exfalso. now apply (H (EPaused false) (or_introl eq_refl)).
Qed.
Lemma taken_split tr : taken tr <> [] -> exists a i b, tr = a ++ ETaken i :: b.
Proof.
  induction tr as [|e tr IH]; [intros H; now elim H|]. intros H.
  destruct e as [n|n|n|b| |]; try (simpl in H; destruct (IH H) as (a & i & b' & E); rewrite E; eexists (_ :: a), i, b'; reflexivity).
  exists [], n, tr. reflexivity.
Qed.
(** While paused at most one body starts: that of a command taken before. *)
Theorem at_most_one_late ops s t1 t2 t3 : crun cq_init ops = Some (s, t1 ++ EPaused true :: t2 ++ t3) -> (forall e, In e t2 -> e <> EPaused false) ->
  taken t2 = [] /\ (List.length (begun t2) <= 1)%nat /\ (forall i, In i (begun t2) -> In i (taken t1)).
Proof.
  intros H Hp.
  assert (T : taken t2 = []).
  { destruct (taken t2) eqn:E; auto. exfalso. destruct (taken_split t2) as (a & i & b & ->); [congruence|].
    assert (X : crun cq_init ops = Some (s, (t1 ++ EPaused true :: a) ++ ETaken i :: (b ++ t3))).
    { rewrite H. f_equal. f_equal. rewrite <- !app_assoc. reflexivity. }
    apply not_while_paused in X. rewrite paused_app in X. cbn [fold_left] in X. rewrite paused_true_fold in X; auto; [discriminate|].
    intros e He. apply Hp. apply in_or_app. auto. }
  assert (P : exists s2 k1, inv (t1 ++ EPaused true :: t2) s2 /\ inv t1 k1).
  { destruct (run_split _ _ _ t1 (EPaused true) (t2 ++ t3) H) as (o1 & o & o2 & sa & sb & A & B & C & _).
    destruct t3 as [|x t3].
    - rewrite app_nil_r in H. pose proof (run_inv _ [] _ _ _ init_inv H) as I. pose proof (run_inv _ [] _ _ _ init_inv A) as I2. exists s, sa. auto.
    - destruct (run_split _ _ _ _ _ _ C) as (p1 & p & p2 & sc & sd & D & F & G & _). exists sc, sa. split; [|exact (run_inv _ [] _ _ _ init_inv A)].
      pose proof (run_inv _ [] _ _ _ init_inv A) as I. pose proof (step_inv _ _ _ _ _ I B) as I2. pose proof (run_inv _ _ _ _ _ I2 D) as I3. simpl in I3.
      rewrite <- app_assoc in I3. exact I3. }
  destruct P as (s2 & s1 & I2 & I1).
  assert (K : taken t1 = begun t1 \/ exists i, taken t1 = begun t1 ++ [i]) by (pose proof (i_begun _ _ I1) as X; destruct (q_worker s1); eauto).
  assert (L : exists k, taken t1 = begun t1 ++ begun t2 ++ k).
  { destruct (begun_prefix _ _ I2) as (k & X). rewrite taken_app, begun_app in X. cbn [taken begun] in X. rewrite T, app_nil_r in X. exists k. now rewrite X, app_assoc. }
  destruct L as (k & L). split; [exact T|]. split.
  - assert (begun t2 ++ k = [] \/ exists i, begun t2 ++ k = [i]) as [Z | (i & Z)].
    { destruct K as [K | (i & K)]; rewrite K in L; [left|right; exists i].
      - rewrite <- (app_nil_r (begun t1)) in L at 1. now apply app_inv_head in L.
      - now apply app_inv_head in L. }
    + apply app_eq_nil in Z. destruct Z as (-> & _). simpl. lia.
    + destruct (begun t2) as [|a [|b l]]; simpl; try lia. discriminate.
  - intros i Hi. rewrite L. apply in_or_app. right. apply in_or_app. now left.
Qed.

(** ** Abort *)
Lemma later_begun : forall ops s s' e, crun s ops = Some (s', e) -> forall i, In i (begun e) ->
  In i (q_tasks s) \/ q_worker s = WTaken i \/ (q_next s <= i)%nat.
Proof.
  induction ops as [|o ops IH]; intros s s' e H i Hi; cbn [crun] in H; [injection H as <- <-; destruct Hi|].
  destruct (cstep s o) as [(s1, e1)|] eqn:S1; [|discriminate]. destruct (crun s1 ops) as [(s2, e2)|] eqn:R; [|discriminate]. injection H as <- <-.
  rewrite begun_app in Hi. apply in_app_or in Hi. destruct Hi as [Hi | Hi].
  - destruct o; cbn [cstep] in S1; try (injection S1 as <- <-; destruct Hi; fail).
    + destruct (q_aborting s); [discriminate|]. destruct (q_worker s); injection S1 as <- <-; destruct Hi.
    + destruct (q_worker s); try discriminate. destruct (q_tasks s); try discriminate. destruct (_ || _); [discriminate|]. injection S1 as <- <-. destruct Hi.
    + destruct (q_worker s) eqn:Wk; try discriminate. injection S1 as <- <-. destruct Hi as [<- | []]. auto.
    + destruct (q_worker s); try discriminate. injection S1 as <- <-. destruct Hi.
    + destruct (q_worker s); try discriminate. destruct (q_shutdown s); [|discriminate]. injection S1 as <- <-. destruct Hi.
    + destruct (q_aborting s); [discriminate|]. injection S1 as <- <-. destruct Hi.
    + destruct (q_aborting s); [|discriminate]. destruct (q_worker s); try discriminate; injection S1 as <- <-; destruct Hi.
  - specialize (IH _ _ _ R i Hi). destruct o; cbn [cstep] in S1.
    + destruct (q_aborting s); [discriminate|]. destruct (q_worker s) eqn:Wk; injection S1 as <- <-; simpl in IH; try (rewrite Wk in IH); destruct IH as [?|[?|?]]; auto; discriminate.
    + injection S1 as <- <-. simpl in IH. destruct IH as [X|[?|?]]; auto; [|right; right; lia]. apply in_app_or in X. destruct X as [X | [<- | []]]; auto. 
    + injection S1 as <- <-. simpl in IH. exact IH.
    + destruct (q_worker s) eqn:Wk; try discriminate. destruct (q_tasks s) as [|x r] eqn:Q; try discriminate. destruct (_ || _); [discriminate|]. injection S1 as <- <-. simpl in IH.
      destruct IH as [X|[X|X]]; [left; now right|injection X as ->; left; now left|auto].
    + destruct (q_worker s) eqn:Wk; try discriminate. injection S1 as <- <-. simpl in IH. destruct IH as [?|[?|?]]; auto; discriminate.
    + destruct (q_worker s) eqn:Wk; try discriminate. injection S1 as <- <-. simpl in IH. destruct IH as [?|[?|?]]; auto; discriminate.
    + destruct (q_worker s) eqn:Wk; try discriminate. destruct (q_shutdown s); [|discriminate]. injection S1 as <- <-. simpl in IH. destruct IH as [?|[?|?]]; auto; discriminate.
    + destruct (q_aborting s); [discriminate|]. injection S1 as <- <-. exact IH.
    + destruct (q_aborting s); [|discriminate]. destruct (q_worker s) eqn:Wk; try discriminate; injection S1 as <- <-; simpl in IH; destruct IH as [[]|[?|?]]; auto; discriminate.
Qed.
Lemma aborted_step s o s' : cstep s o = Some (s', [EAborted]) -> o = CAbortEnd /\ q_tasks s' = [] /\ q_worker s' = WNone /\ q_next s' = q_next s /\
   q_paused s' = q_paused s /\ q_tok s' = TRunning /\ q_shutdown s' = false /\ q_aborting s' = false.
Proof.
  destruct o; cbn [cstep]; intros H; try discriminate.
  - destruct (q_aborting s); [discriminate|]. destruct (q_worker s); discriminate.
  - destruct (q_worker s); try discriminate. destruct (q_tasks s); try discriminate. destruct (q_shutdown s), (q_paused s); discriminate.
  - destruct (q_worker s); discriminate.
  - destruct (q_worker s); discriminate.
  - destruct (q_worker s); try discriminate. destruct (q_shutdown s); discriminate.
  - destruct (q_aborting s); discriminate.
  - destruct (q_aborting s); [|discriminate]. destruct (q_worker s); try discriminate; injection H as <-; simpl; auto 10.
Qed.
Theorem abort_drops ops s t1 t2 : crun cq_init ops = Some (s, t1 ++ EAborted :: t2) -> forall i, In i (submitted t1) -> ~ In i (begun t2).
Proof.
  intros H i Hi Hb. destruct (run_split _ _ _ _ _ _ H) as (o1 & o & o2 & sa & sb & A & B & C & _).
  pose proof (run_inv _ [] _ _ _ init_inv A) as I. simpl in I. rewrite (i_submitted _ _ I) in Hi. apply in_seq in Hi.
  apply aborted_step in B. destruct B as (_ & B1 & B2 & B3 & _). destruct (later_begun _ _ _ _ C i Hb) as [X | [X | X]]; [rewrite B1 in X; destruct X|congruence|lia].
Qed.
(** No command is taken between the start of an abort and its end. *)
Lemma shutdown_take : forall ops s s' e, crun s ops = Some (s', e) -> q_shutdown s = true -> ~ In EAborted e -> taken e = [].
Proof.
  induction ops as [|o ops IH]; intros s s' e H Sd N; cbn [crun] in H; [injection H as <- <-; reflexivity|].
  destruct (cstep s o) as [(s1, e1)|] eqn:S1; [|discriminate]. destruct (crun s1 ops) as [(s2, e2)|] eqn:R; [|discriminate]. injection H as <- <-.
  rewrite taken_app. assert (N2 : ~ In EAborted e2) by (intros X; apply N; apply in_or_app; auto). assert (N1 : ~ In EAborted e1) by (intros X; apply N; apply in_or_app; auto).
  assert (taken e1 = [] /\ q_shutdown s1 = true) as (-> & Sd1); [|simpl; eapply IH; eauto].
  destruct o; cbn [cstep] in S1.
  - destruct (q_aborting s); [discriminate|]. destruct (q_worker s); injection S1 as <- <-; auto.
  - injection S1 as <- <-. auto.
  - injection S1 as <- <-. auto.
  - destruct (q_worker s); try discriminate. destruct (q_tasks s); try discriminate. rewrite Sd in S1. discriminate.
  - destruct (q_worker s); try discriminate. injection S1 as <- <-. auto.
  - destruct (q_worker s); try discriminate. injection S1 as <- <-. auto.
  - destruct (q_worker s); try discriminate. rewrite Sd in S1. injection S1 as <- <-. auto.
  - destruct (q_aborting s); [discriminate|]. injection S1 as <- <-. auto.
  - destruct (q_aborting s); [|discriminate]. destruct (q_worker s); try discriminate; injection S1 as <- <-; exfalso; apply N1; now left.
Qed.

(** ** After an abort *)
Definition shift_w (n : nat) (w : wstate) : wstate := match w with WTaken i => WTaken (n + i) | WBody i => WBody (n + i) | x => x end.
Definition shift_cq (n : nat) (s : cq) : cq :=
  {| q_tasks := map (Nat.add n) (q_tasks s); q_next := n + q_next s; q_paused := q_paused s; q_shutdown := q_shutdown s; q_tok := q_tok s;
     q_worker := shift_w n (q_worker s); q_aborting := q_aborting s |}.
Lemma shift_step n s o : cstep (shift_cq n s) o = match cstep s o with Some (s', e) => Some (shift_cq n s', map (shift_ev n) e) | None => None end.
Proof.
  destruct s as [ts nx pa sd tk wk ab]. destruct o; cbn [cstep shift_cq q_tasks q_next q_paused q_shutdown q_tok q_worker q_aborting].
  - destruct ab; auto. destruct wk; reflexivity.
  - unfold shift_cq; simpl. rewrite map_app. simpl. now rewrite Nat.add_succ_r.
  - reflexivity.
  - destruct wk; try reflexivity. destruct ts; try reflexivity. simpl. destruct (sd || pa); reflexivity.
  - destruct wk; reflexivity.
  - destruct wk; reflexivity.
  - destruct wk; try reflexivity. simpl. destruct sd; reflexivity.
  - destruct ab; reflexivity.
  - destruct ab; try reflexivity. destruct wk; reflexivity.
Qed.
Lemma shift_run n : forall ops s, crun (shift_cq n s) ops = match crun s ops with Some (s', e) => Some (shift_cq n s', map (shift_ev n) e) | None => None end.
Proof.
  induction ops as [|o ops IH]; intros s; cbn [crun]; [reflexivity|]. rewrite shift_step. destruct (cstep s o) as [(s1, e1)|]; [|reflexivity].
  rewrite IH. destruct (crun s1 ops) as [(s2, e2)|]; [|reflexivity]. now rewrite map_app.
Qed.
Theorem fresh_after_abort ops s tr : crun cq_init ops = Some (s, tr ++ [EAborted]) -> List.last ops CRun = CAbortEnd -> paused_after tr = false -> s = shift_cq (q_next s) cq_init.
Proof.
  intros H L Hp. destruct (run_split _ _ _ _ _ _ H) as (o1 & o & o2 & sa & sb & A & B & C & ->).
  pose proof (run_inv _ [] _ _ _ init_inv A) as I. simpl in I. apply aborted_step in B. destruct B as (-> & B1 & B2 & B3 & B4 & B5 & B6 & B7).
  assert (o2 = []) as ->.
  { destruct o2 as [|x o2]; auto. exfalso. assert (Y : List.last (x :: o2) CRun = CAbortEnd) by (clear - L; induction o1 as [|y o1 IH]; [exact L|]; apply IH; clear - L; destruct o1; exact L).
    clear - C Y B7. assert (G : forall ops s s', crun s ops = Some (s', []) -> ops <> [] -> List.last ops CRun <> CAbortEnd).
    { clear. induction ops as [|o ops IH]; intros s s' H N; [now elim N|]. cbn [crun] in H. destruct (cstep s o) as [(s1, e1)|] eqn:S1; [|discriminate].
      destruct (crun s1 ops) as [(s2, e2)|] eqn:R; [|discriminate]. injection H as <- E. apply app_eq_nil in E. destruct E as (-> & ->).
      destruct ops as [|o' ops]; [|apply (IH _ _ R); discriminate]. simpl. intros ->. cbn [cstep] in S1. destruct (q_aborting s); [|discriminate]. destruct (q_worker s); discriminate. }
    apply (G _ _ _ C); [discriminate|exact Y]. }
  injection C as <-. rewrite <- (i_paused _ _ I) in Hp. rewrite Hp in B4. destruct sb. simpl in *. subst. unfold shift_cq; simpl. f_equal. now rewrite Nat.add_0_r.
Qed.
Theorem behaves_fresh ops s tr : crun cq_init ops = Some (s, tr ++ [EAborted]) -> List.last ops CRun = CAbortEnd -> paused_after tr = false ->
  forall ops', match crun cq_init ops' with
               | Some (_, e) => exists s', crun s ops' = Some (s', map (shift_ev (List.length (submitted tr))) e)
               | None => crun s ops' = None
               end.
Proof.
  intros H L Hp ops'. pose proof (fresh_after_abort _ _ _ H L Hp) as F. pose proof (run_inv _ [] _ _ _ init_inv H) as I. simpl in I.
  pose proof (i_submitted _ _ I) as S. rewrite submitted_app in S. simpl in S. rewrite app_nil_r in S. rewrite S, seq_length.
  pose proof (shift_run (q_next s) ops' cq_init) as R. rewrite <- F in R. rewrite R. destruct (crun cq_init ops') as [(s', e)|]; eauto.
Qed.

(** ** Progress: the head of the queue can always be taken *)
Theorem head_taken s i r : q_worker s = WWait -> q_tasks s = i :: r -> q_paused s = false -> q_shutdown s = false ->
  exists s', crun s [CTake; CBegin] = Some (s', [ETaken i; EBegin i]).
Proof. intros A B C D. cbn [crun cstep]. rewrite A, B, C, D. simpl. eauto. Qed.

(** ** Token *)
Definition spec_state (ops : list top) : bool * bool :=
  fold_left (fun (s : bool * bool) (o : top) => let '(p, a) := s in match o with TReset => (false, false) | TAbort => (p, true) | TPause b => ((if a then p else b), a) | _ => (p, a) end) ops (false, false).
Lemma trun_app a b s : trun s (a ++ b) = trun (trun s a) b.
Proof. unfold trun. apply fold_left_app. Qed.
Lemma tstep_spec (s : token) (o : top) (p a : bool) : tk_state s = (if a then TAborted else if p then TPaused else TRunning) ->
  tk_state (fst (tstep s o)) = let '(p, a) := (match o with TReset => (false, false) | TAbort => (p, true) | TPause b => ((if a then p else b), a) | _ => (p, a) end : bool * bool) in if a then TAborted else if p then TPaused else TRunning.
Proof.
  destruct s as [st w]. simpl. intros ->. destruct o as [b| | | | |]; destruct a, p; try destruct b; try destruct w; reflexivity.
Qed.
Lemma trun_spec ops : tk_state (trun tinit ops) = let '(p, a) := spec_state ops in if a then TAborted else if p then TPaused else TRunning.
Proof.
  induction ops as [|o ops IH] using rev_ind; [reflexivity|]. rewrite trun_app. unfold spec_state in *. rewrite fold_left_app. cbn [fold_left].
  change (trun (trun tinit ops) [o]) with (fst (tstep (trun tinit ops) o)). destruct (fold_left _ ops (false, false)) as (p, a). exact (tstep_spec _ o p a IH).
Qed.
Lemma spec_snd ops : snd (spec_state ops) = aborted_since_reset ops.
Proof.
  unfold spec_state, aborted_since_reset. induction ops as [|o ops IH] using rev_ind; [reflexivity|]. rewrite !fold_left_app. cbn [fold_left]. rewrite <- IH.
  destruct (fold_left _ ops (false, false)) as (p, a). destruct o; reflexivity.
Qed.
Theorem token_state ops : tk_state (trun tinit ops) = if aborted_since_reset ops then TAborted else if pause_wanted ops then TPaused else TRunning.
Proof.
  rewrite trun_spec, <- spec_snd. unfold pause_wanted. fold (spec_state ops). destruct (spec_state ops). reflexivity.
Qed.
Theorem query_value ops : snd (tstep (trun tinit ops) TQuery) = Some (negb (aborted_since_reset ops) && negb (pause_wanted ops)).
Proof. simpl. rewrite token_state. destruct (aborted_since_reset ops), (pause_wanted ops); reflexivity. Qed.
Theorem blocking_value ops o r : o = TWait \/ o = TWake -> snd (tstep (trun tinit ops) o) = Some r -> r = negb (aborted_since_reset ops).
Proof.
  intros Ho H. pose proof (token_state ops) as T. destruct (trun tinit ops) as [st w]. simpl in T. subst st.
  destruct Ho as [-> | ->]; simpl in H; destruct w, (aborted_since_reset ops), (pause_wanted ops); simpl in *; congruence.
Qed.
Theorem aborted_no_effect ops b : aborted_since_reset ops = true -> tstep (trun tinit ops) (TPause b) = (trun tinit ops, Some false).
Proof.
  intros H. pose proof (token_state ops) as T. rewrite H in T. destruct (trun tinit ops) as [st w]. simpl in *. subst. destruct b; reflexivity.
Qed.
(** No lost wake-up: a sleeping task that has not been notified sleeps on a paused token. *)
Lemma idle_app a : forall b s, reset_only_idle s (a ++ b) <-> reset_only_idle s a /\ reset_only_idle (trun s a) b.
Proof. induction a as [|o a IH]; intros b s; simpl; [tauto|]. rewrite IH. unfold trun at 2. simpl. fold (trun (fst (tstep s o)) a). tauto. Qed.
Lemma asleep_paused : forall ops s, reset_only_idle s ops -> (tk_waiter s = Asleep false -> tk_state s = TPaused) ->
  tk_waiter (trun s ops) = Asleep false -> tk_state (trun s ops) = TPaused.
Proof.
  induction ops as [|o ops IH]; intros s R H; [exact H|]. destruct R as (R1 & R2). apply (IH _ R2). clear IH R2. destruct s as [st w].
  destruct o as [b| | | | |]; simpl in *.
  - destruct b, st; simpl; auto; try discriminate; destruct w; simpl; auto; discriminate.
  - destruct st; simpl; auto; try discriminate; destruct w; simpl; auto; discriminate.
  - rewrite (R1 eq_refl). discriminate.
  - exact H.
  - destruct w; simpl; auto. destruct st; simpl; auto; discriminate.
  - destruct w; simpl; auto. destruct st; simpl; auto; discriminate.
Qed.
Theorem wake_returns s : tk_state s <> TPaused -> (exists n, tk_waiter s = Asleep n) -> exists r, tstep s TWake = ({| tk_state := tk_state s; tk_waiter := Outside |}, Some r).
Proof. destruct s as [st w]. simpl. intros H (n & ->). destruct st; try congruence; eauto. Qed.
Theorem released ops o n : reset_only_idle tinit (ops ++ [o]) -> tk_waiter (trun tinit ops) = Asleep n -> o = TAbort \/ (o = TPause false /\ aborted_since_reset ops = false) ->
  tk_waiter (trun tinit (ops ++ [o])) = Asleep true /\ snd (tstep (trun tinit (ops ++ [o])) TWake) = Some (match o with TAbort => false | _ => true end).
Proof.
  intros R W Ho. apply idle_app in R. destruct R as (R & _). pose proof (asleep_paused ops tinit R ltac:(discriminate)) as P. pose proof (token_state ops) as T.
  rewrite trun_app. destruct (trun tinit ops) as [st w]. simpl in *. subst st w.
  destruct Ho as [-> | (-> & A)].
  - destruct n; [|rewrite (P eq_refl) in *]; destruct (aborted_since_reset ops), (pause_wanted ops); simpl; auto; discriminate.
  - rewrite A in *. destruct n; [|rewrite (P eq_refl)]; destruct (pause_wanted ops); simpl; auto.
Qed.
(** The queue resets its token only when its thread has no task. *)
Theorem queue_resets_idle s s' e : cstep s CAbortEnd = Some (s', e) -> q_worker s = WNone \/ q_worker s = WExited.
Proof. cbn [cstep]. destruct (q_aborting s); [|discriminate]. destruct (q_worker s); auto; discriminate. Qed.
(** The queue passes pause, resume and abort on to the token. *)
Lemma token_calls_app a b : token_calls (a ++ b) = token_calls a ++ token_calls b.
Proof. induction a as [|e a IH]; simpl; auto. destruct e; simpl; now rewrite IH. Qed.
Lemma tk_state_indep : forall ops s1 s2, tk_state s1 = tk_state s2 -> (forall o, In o ops -> o <> TWait /\ o <> TWake) -> tk_state (trun s1 ops) = tk_state (trun s2 ops).
Proof.
  induction ops as [|o ops IH]; intros s1 s2 E N; [exact E|]. unfold trun. simpl. apply IH; [|intros; apply N; now right].
  destruct (N o (or_introl eq_refl)) as (N1 & N2). destruct s1 as [a wa], s2 as [b wb]. simpl in E. subst b.
  destruct o; simpl; try congruence; [destruct (set_pause b a)|destruct (set_abort a)]; reflexivity.
Qed.
Lemma token_calls_plain l o : In o (token_calls l) -> o <> TWait /\ o <> TWake.
Proof. induction l as [|e l IH]; simpl; [intros []|]. destruct e; simpl; auto; intros [<-|H]; auto; split; discriminate. Qed.
Lemma queue_token_from : forall ops s s' tr, crun s ops = Some (s', tr) -> q_tok s' = tk_state (trun {| tk_state := q_tok s; tk_waiter := Outside |} (token_calls tr)).
Proof.
  induction ops as [|o ops IH]; intros s s' tr H; cbn [crun] in H; [injection H as <- <-; reflexivity|].
  destruct (cstep s o) as [[s1 e1]|] eqn:C; [|discriminate]. destruct (crun s1 ops) as [[s2 e2]|] eqn:R; [|discriminate]. injection H as <- <-.
  rewrite (IH _ _ _ R), token_calls_app, trun_app. apply tk_state_indep; [|apply token_calls_plain]. simpl. clear IH R.
  destruct o; cbn [cstep] in C; repeat match type of C with
    | (if ?x then _ else _) = _ => destruct x
    | match ?x with _ => _ end = _ => destruct x
    end; try discriminate; injection C as <- <-; try reflexivity; destruct (q_tok s); try destruct b; reflexivity.
Qed.
Theorem queue_token ops s tr : crun cq_init ops = Some (s, tr) ->
  q_tok s = (let c := token_calls tr in if aborted_since_reset c then TAborted else if pause_wanted c then TPaused else TRunning).
Proof. intros H. rewrite (queue_token_from _ _ _ _ H). exact (token_state (token_calls tr)). Qed.
