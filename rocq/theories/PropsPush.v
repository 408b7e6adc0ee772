(** C47, C61, C62, C63: uploading a commit to a treehub server. *)
From Verif Require Import Base RateModel PushModel PushSpec PushProofs PushProofs2 PushProofs3 PushProofs4 PushProofs5 PushProofs6 PushProofs7 PushProofs8.
From Coq Require Import Lia.

(** C47: an object is uploaded only after the server reported everything it refers to, whatever the server answers and in whatever order. *)
Theorem C47_upload_order : forall R m cap root l, m = MDefault \/ m = MPushTree -> ordered R (trace (fst (push_run R m cap root l))).
Proof. intros R m cap root l M. apply (run_T R m cap root l M). Qed.
(** C47: a push that reports success has the server's word for every object it needed: the commit and all that missing objects refer to. *)
Theorem C47_success_complete : forall R m cap root l, m = MDefault \/ m = MPushTree -> push R m cap root l = Some true ->
  forall o, needed R (trace (fst (push_run R m cap root l))) root o -> reported (trace (fst (push_run R m cap root l))) o.
Proof.
  intros R m cap root l M P o N. pose proof (run_T R m cap root l M) as T. unfold push in P. destruct (have R root); [|discriminate].
  destruct (push_run R m cap root l) as [s b]. cbn [fst] in *. destruct b; [|discriminate]. inversion P as [P1].
  assert (Pr : pres (objs s root) = Present) by (unfold is_present in P1; destruct (pres (objs s root)); auto; discriminate).
  induction N as [|o c N IH RM K].
  - now apply (t_present _ _ _ T).
  - assert (Po : In (TPost o) (trace s)).
    { destruct IH as [X|X]; [exfalso; apply (t_once _ _ _ T o); auto|]. apply (t_sent _ _ _ T). left. destruct X as [X|X]; eauto. }
    apply in_split in Po. destruct Po as (l1 & l2 & E). pose proof (t_ord _ _ _ T l1 o l2 E c K) as X. rewrite E. clear - X. unfold reported in *. rewrite !in_app_iff. tauto.
Qed.
(** No undefined behaviour and no failed assertion: no list element is erased twice, no object has two open requests. *)
Theorem C47_no_undefined : forall R m cap root l, bad (fst (push_run R m cap root l)) = false.
Proof. intros. apply (run_S R m cap root l). Qed.

(** C63: as long as an upload in the default mode has not ended, a request is open after the next launch: it never waits for nothing. *)
Theorem C63_progress : forall R cap root l t, acyclic R -> 1 <= cap -> have R root = true -> push R MDefault cap root l = None ->
  exists o, is_open (trace (loop_launch MDefault t (fst (push_run R MDefault cap root l)))) o.
Proof.
  intros R cap root l t AC CP HR P. unfold push in P. rewrite HR in P.
  pose proof (run_G R cap root l CP) as G. pose proof (run_O R cap root l) as O.
  assert (C : check_pool_state MDefault root (fst (push_run R MDefault cap root l)) = true).
  { unfold push_run in *. apply rounds_not_end.
    - unfold check_pool_state, is_present. rewrite pres_add_query, Nat.eqb_refl. reflexivity.
    - destruct (rounds _ _ _ _ _) as [s b]. destruct b; [discriminate|reflexivity]. }
  set (s := fst (push_run R MDefault cap root l)) in *. cbn [check_pool_state] in C. apply andb_true_iff in C. destruct C as [C1 C2].
  assert (NP : pres (objs s root) <> Present) by (unfold is_present in C1; destruct (pres (objs s root)); auto; discriminate).
  assert (NS : stopped s = false) by (destruct (stopped s); auto; discriminate).
  pose proof (progress R root t s AC G NS NP) as X. pose proof (launch_loop_O (Z.to_nat (max_concurrency (rc s) - running s)) t s (g_S _ _ _ G) O) as Y.
  unfold loop_launch in *. destruct (infl (launch_loop _ _ _ s)) as [|o i] eqn:E; [congruence|]. exists o. apply Y. rewrite E. left; auto.
Qed.
(** C63: with a complete repository and a server that answers properly, at most two answers per object are needed, the upload never stops with an error,
    and it reports success when it ends. So an upload whose rounds each bring an answer ends within twice as many rounds as there are objects. *)
Theorem C63_terminates : forall R U cap root l, complete R root U -> well_behaved (trace (fst (push_run R MDefault cap root l))) ->
  (answers (trace (fst (push_run R MDefault cap root l))) <= 2 * List.length U)%nat /\ push R MDefault cap root l <> Some false.
Proof.
  intros R U cap root l C WB. pose proof (run_E R U cap root l C WB) as E. split.
  - pose proof (i_count _ _ _ E). pose proof (total_le U (trace (fst (push_run R MDefault cap root l)))). lia.
  - unfold push. destruct C as (-> & _). pose proof (rounds_end R MDefault root l (add_query root (pool0 cap))) as H. unfold push_run in *.
    destruct (rounds _ _ _ _ _) as [s b]. cbn [fst snd] in *. destruct b; [|discriminate]. specialize (H eq_refl). cbn [check_pool_state] in H.
    pose proof (i_stop _ _ _ E) as NS. rewrite NS in H. cbn [negb] in H. rewrite andb_true_r in H. apply negb_false_iff in H. rewrite H. discriminate.
Qed.
Corollary C63_ends_in_success : forall R U cap root l, complete R root U -> well_behaved (trace (fst (push_run R MDefault cap root l))) ->
  (push R MDefault cap root l = None -> List.length l <= answers (trace (fst (push_run R MDefault cap root l))))%nat ->
  (2 * List.length U < List.length l)%nat -> push R MDefault cap root l = Some true.
Proof.
  intros R U cap root l C WB A L. destruct (C63_terminates R U cap root l C WB) as [B D].
  destruct (push R MDefault cap root l) as [[|]|]; auto; [congruence|]. specialize (A eq_refl). lia.
Qed.

(** C62: dry runs send no upload, whatever the server answers. *)
Theorem C62_dry_run : forall R m cap root l, m = MDryRun \/ m = MWalkTree -> forall o, ~ In (TPost o) (trace (fst (push_run R m cap root l))).
Proof. intros R m cap root l M. apply (run_D R m cap root l). intros [-> | ->]; destruct M; discriminate. Qed.

(** C61: walking the whole tree and pushing: success means that everything reachable was reported. False of the code. *)
Definition C61_statement : Prop := forall R cap root l, acyclic R -> push R MPushTree cap root l = Some true ->
  forall o, reachable R root o -> reported (trace (fst (push_run R MPushTree cap root l))) o.
(** The commit 0 is on the server, the tree 1 is not, the file 2 is: 1 waits for 2, which never tells it. *)
Definition chain : repo := {| kids := fun o => match o with 0%nat => [1%nat] | 1%nat => [2%nat] | _ => [] end; have := fun o => Nat.leb o 2 |}.
Lemma chain_acyclic : acyclic chain.
Proof. exists (fun o => match o with 0%nat => 2%nat | 1%nat => 1%nat | _ => 0%nat end). intros [|[|o]] c; cbn; intros H; try contradiction; destruct H as [<-|[]]; lia. Qed.
Definition half_missing : list round := [(1, [(0%nat, 200, true, 2)]); (3, [(1%nat, 404, true, 4)]); (5, [(2%nat, 200, true, 6)])].
Theorem C61_refuted : ~ C61_statement.
Proof.
  intros H. assert (K : reachable chain 0%nat 1%nat) by (eapply rch_kid; [apply rch_root|left; reflexivity]).
  specialize (H chain 30 0%nat half_missing chain_acyclic eq_refl 1%nat K).
  vm_compute in H. repeat match goal with [ H : _ \/ _ |- _ ] => destruct H as [H|H]; try discriminate H; try contradiction H end.
Qed.
(** Also, an upload that was stopped by an error is reported as a success if the commit itself is on the server. *)
Definition broken : repo := {| kids := kids chain; have := fun o => Nat.eqb o 0 |}.
Theorem C61_stopped_refuted : exists R l, acyclic R /\ stopped (fst (push_run R MPushTree 30 0%nat l)) = true /\ push R MPushTree 30 0%nat l = Some true.
Proof. exists broken, [(1, [(0%nat, 200, true, 2)])]. split; [exact chain_acyclic|]. split; reflexivity. Qed.
(** And a push of a missing commit with a file already there never ends in success. *)
Definition stuck : list round := [(1, [(0%nat, 404, true, 2)]); (3, [(1%nat, 404, true, 4)]); (5, [(2%nat, 200, true, 6)])].
Theorem C61_stuck_refuted : complete chain 0%nat [0%nat; 1%nat; 2%nat] /\ well_behaved (trace (fst (push_run chain MPushTree 30 0%nat stuck))) /\ push chain MPushTree 30 0%nat stuck = Some false.
Proof.
  split; [|split; [|reflexivity]].
  - split; [reflexivity|]. split; [left; auto|]. intros [|[|[|o]]] c I K; cbn in K; try contradiction; destruct K as [<-|[]]; split; cbn; auto.
  - split; intros o c u X; vm_compute in X; repeat destruct X as [X|X]; try discriminate X; try contradiction X; inversion X; auto.
Qed.
(** What holds: it ends only if it was stopped, or if no request is left without an answer and none waits to be sent. *)
Theorem C61_ends_partial : forall R m cap root l s, m = MWalkTree \/ m = MPushTree -> push_run R m cap root l = (s, true) ->
  stopped s = true \/ ((forall o, ~ is_open (trace s) o) /\ qq s = [] /\ uq s = []).
Proof. exact tree_ends. Qed.
Example C61_ends_case : snd (push_run chain MPushTree 30 0%nat half_missing) = true /\ stopped (fst (push_run chain MPushTree 30 0%nat half_missing)) = false /\
  List.length (trace (fst (push_run chain MPushTree 30 0%nat half_missing))) = 6%nat.
Proof. vm_compute. auto. Qed.
(** And unless it was stopped, the server was asked, and gave a proper answer, about everything that is reachable. *)
Theorem C61_walk_partial : forall R m cap root l s, m = MWalkTree \/ m = MPushTree -> push_run R m cap root l = (s, true) -> stopped s = false ->
  forall o, reachable R root o -> (o = root \/ have R o = true) /\ (In (THeadAns o 200 true) (trace s) \/ In (THeadAns o 404 true) (trace s)).
Proof. exact walked. Qed.
(** Also: what is missing and was met is uploaded bottom-up (C47_upload_order, C47_success_complete hold in this mode as well). *)

(** The same graph in the default mode, one failed query in between. *)
Definition good_rounds : list round :=
  [(1, [(0%nat, 404, true, 2)]); (3, [(1%nat, 404, true, 4)]); (5, [(2%nat, 404, true, 6)]); (7, [(2%nat, 204, true, 8)]); (9, [(1%nat, 409, true, 10)]); (11, [(0%nat, 204, true, 12)])].
Example C47_demo : push chain MDefault 30 0%nat good_rounds = Some true /\
  trace (fst (push_run chain MDefault 30 0%nat good_rounds)) = [THead 0%nat; THeadAns 0%nat 404 true; THead 1%nat; THeadAns 1%nat 404 true; THead 2%nat; THeadAns 2%nat 404 true; TPost 2%nat; TPostAns 2%nat 204 true; TPost 1%nat; TPostAns 1%nat 409 true; TPost 0%nat; TPostAns 0%nat 204 true].
Proof. split; vm_compute; reflexivity. Qed.
Example C47_needed_demo : needed chain (trace (fst (push_run chain MDefault 30 0%nat good_rounds))) 0%nat 2%nat.
Proof. eapply need_kid; [eapply need_kid; [apply need_root| |left; reflexivity]| |left; reflexivity]; vm_compute; auto 20. Qed.
Example C63_demo : push chain MDefault 30 0%nat (firstn 4 good_rounds) = None /\ complete chain 0%nat [0%nat; 1%nat; 2%nat] /\
  well_behaved (trace (fst (push_run chain MDefault 30 0%nat good_rounds))) /\ answers (trace (fst (push_run chain MDefault 30 0%nat good_rounds))) = 6%nat.
Proof.
  split; [reflexivity|]. split; [apply C61_stuck_refuted|]. split; [|reflexivity].
  split; intros o c u X; vm_compute in X; repeat destruct X as [X|X]; try discriminate X; try contradiction X; inversion X; auto.
Qed.
(** A dry run of the same push ends well without an upload. *)
Example C62_demo : push chain MDryRun 30 0%nat (firstn 3 good_rounds ++ [(9, []); (9, []); (9, [])]) = Some true.
Proof. vm_compute. reflexivity. Qed.

Print Assumptions C47_upload_order.
Print Assumptions C47_success_complete.
Print Assumptions C61_walk_partial.
Print Assumptions C47_no_undefined.
Print Assumptions C63_progress.
Print Assumptions C63_terminates.
Print Assumptions C63_ends_in_success.
Print Assumptions C62_dry_run.
Print Assumptions C61_refuted.
Print Assumptions C61_stopped_refuted.
Print Assumptions C61_stuck_refuted.
Print Assumptions C61_ends_partial.
