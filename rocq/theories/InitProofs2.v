From Verif Require Import Base InitModel InitSpec InitProofs.

Section P.
Context (names : nat -> string) (newkey : string) (strict : bool) (c : pconf).
Context (names_inj : forall i j, names i = names j -> i = j).
Notation steps := (steps names newkey strict c).
Notation initialise := (initialise names newkey strict c).
Notation irun := (irun names newkey strict c).
Notation Inv := (Inv c).
Notation is_step := (is_step names newkey strict c).
Ltac brk := repeat match goal with
  | |- context [match ?x with _ => _ end] => destruct x eqn:?
  | |- context [if ?x then _ else _] => destruct x eqn:?
  end.
Ltac unf := unfold guard, st_device, st_post, st_store, st_reset, st_check, st_key, st_serials, st_info, st_ecupost, st_ecustore, st_infostore, st_regflag, st_counter.
Ltac flat := cbn [n_id n_reg n_tls n_key n_ecus n_info n_cnt s_dev s_ecu n_seq p_resp p_occ p_reg p_posted p_due p_status
                  upd_id upd_status upd_tls upd_server upd_key upd_preg upd_info upd_ecus upd_regflag upd_cnt boot] in *.

(** What holds as long as no crash falls between a request and the recording of its outcome. *)
Record K (s : ist) : Prop := {
  q_resp : p_resp s = None; q_posted : p_posted s = false; q_due : p_due s = false;
  q_dev : n_tls s = None -> forall id, n_id s = Some id -> ~ In id (s_dev s);
  q_occ : p_occ s = false;
  q_ecu : forall id, n_id s = Some id -> In id (s_ecu s) -> n_ecus s <> [];
  q_reg : n_ecus s <> [] -> n_reg s = true;
  q_mode : g_mode c = DeviceCred -> n_tls s <> None;
  q_cfg : n_id s = None -> g_id c <> "" -> (n_tls s = None -> ~ In (g_id c) (s_dev s)) /\ ~ In (g_id c) (s_ecu s);
  q_cn : n_id s = None -> g_id c = "" -> forall cn, n_tls s = Some cn -> ~ In cn (s_ecu s);
  q_names : g_mode c = Shared -> g_id c = "" -> forall i, (n_seq s <= i)%nat -> ~ In (names i) (s_dev s) /\ ~ In (names i) (s_ecu s) /\ n_id s <> Some (names i) }.
Definition Q (s : ist) : Prop := Inv s /\ K s.

Lemma K_device s : Inv s -> K s -> K (st_device names c s).
Proof.
  intros I [Q1 Q2 Q3 D O E R M F N J]. unfold st_device. destruct (n_id s) as [id|] eqn:Hid; [now constructor; rewrite ?Hid|].
  assert (NE : n_ecus s <> [] -> False). { intros X. destruct (v_posted c s I (or_intror X)) as [Y _]. congruence. }
  destruct (String.eqb (g_id c) "") eqn:G; cbn [negb].
  - apply String.eqb_eq in G. destruct (n_tls s) as [cn|] eqn:T.
    + constructor; flat; try easy; try congruence.
      * intros id [= <-] X. now contradict X; apply N.
      * intros Sh. rewrite (v_cn c s I Sh cn T) in Hid. discriminate.
    + destruct (g_mode c) eqn:Md.
      * constructor; flat; try easy; try congruence.
        -- intros _ id [= <-] X. destruct (J eq_refl G (n_seq s) (le_n _)) as [Y _]. now contradict Y.
        -- intros id [= <-] X. destruct (J eq_refl G (n_seq s) (le_n _)) as [_ [Y _]]. now contradict Y.
        -- intros _ _ i Hi. destruct (J eq_refl G i ltac:(lia)) as [Y1 [Y2 _]]. repeat split; auto. intros [= X]. apply names_inj in X. lia.
      * exfalso; now apply (M eq_refl).
  - apply String.eqb_neq in G. destruct (F eq_refl G) as [F1 F2]. constructor; flat; try easy; try congruence.
    + intros T id [= <-] X. now apply F1 in X.
Qed.
Lemma K_status s x : K s -> K (upd_status x s).
Proof. intros [Q1 Q2 Q3 D O E R M F N J]. now constructor. Qed.
Lemma K_pair n s : n <> NLost -> K s -> K (guard st_store (guard (st_post c n) s)).
Proof.
  intros L H. assert (H' := H). destruct H' as [Q1 Q2 Q3 D O E R M F N J].
  assert (NS : forall x, p_resp x = None -> guard st_store x = x).
  { intros x X. unfold guard, st_store. rewrite X. now destruct (p_status x). }
  unfold guard at 2. destruct (p_status s) eqn:S0; try (rewrite NS; assumption).
  unfold st_post. destruct (n_tls s) as [cn|] eqn:T; [rewrite NS; assumption|].
  destruct (g_mode c) eqn:Md; [|exfalso; now apply (M eq_refl)].
  destruct (n_id s) as [id|] eqn:Hid; [|rewrite NS; [now apply K_status|exact Q1]].
  destruct n; [|easy|rewrite NS; [now apply K_status|exact Q1]].
  destruct (mem id (s_dev s)) eqn:B.
  - apply mem_In in B. now contradict B; apply D.
  - unfold guard. cbn [p_status upd_server]. rewrite S0. unfold st_store. flat. constructor; flat; try easy; try congruence.
    + intros id0 X. rewrite Hid in X. exact (E id0 X).
    + intros _ G i Hi. destruct (J eq_refl G i Hi) as [Y1 [Y2 Y3]]. repeat split; auto.
      * intros [X|X]; [subst id; congruence|auto].
      * rewrite Hid. exact Y3.
Qed.
Lemma K_quad n s : n <> NLost -> Inv s -> K s -> K (guard st_regflag (guard (st_infostore c) (guard (st_ecustore c) (guard (st_ecupost strict n) s)))).
Proof.
  intros L I H. assert (H' := H). destruct H' as [Q1 Q2 Q3 D O E R M F N J].
  assert (NS : forall x, p_posted x = false -> p_due x = false -> guard st_regflag (guard (st_infostore c) (guard (st_ecustore c) x)) = x).
  { intros x X1 X2. unfold guard, st_regflag, st_infostore, st_ecustore. now destruct (p_status x) eqn:EE; rewrite ?EE, ?X1, ?EE, ?X2, ?EE, ?X2. }
  unfold guard at 4. destruct (p_status s) eqn:S0; try (rewrite NS; assumption).
  unfold st_ecupost. destruct (p_reg s) eqn:P; cbn [negb]; [|rewrite NS; assumption].
  destruct (n_id s) as [id|] eqn:Hid; [|rewrite NS; [now apply K_status|exact Q2|exact Q3]].
  destruct (n_tls s) as [cn|] eqn:T; [|rewrite NS; [now apply K_status|exact Q2|exact Q3]].
  destruct (n_key s) as [k|] eqn:Hk; [|rewrite NS; [now apply K_status|exact Q2|exact Q3]].
  destruct n; [|easy|rewrite NS; [now apply K_status|exact Q2|exact Q3]].
  destruct (strict && mem id (s_ecu s)); [rewrite NS; [now apply K_status|exact Q2|exact Q3]|].
  cbn zeta. unfold guard, st_ecustore, st_infostore, st_regflag. flat. rewrite S0. flat. rewrite S0. flat. rewrite S0. flat.
  constructor; flat; try easy; try congruence.
  intros Sh G i Hi. destruct (J Sh G i Hi) as [Y1 [Y2 Y3]]. rewrite Hid. repeat split; auto.
  destruct (mem id (s_ecu s)); [exact Y2|]. intros [X|X]; [subst id; congruence|auto].
Qed.
Inductive single : (ist -> ist) -> Prop :=
| si_device : single (st_device names c) | si_store : single st_store | si_reset : single st_reset | si_check : single st_check
| si_key : single (st_key newkey) | si_serials : single (st_serials c) | si_info : single (st_info c)
| si_infostore : single (st_infostore c) | si_regflag : single st_regflag | si_counter : single st_counter | si_done : single (upd_status Done).
Definition view (s : ist) := (n_id s, n_reg s, n_tls s, n_ecus s, s_dev s, s_ecu s, n_seq s, p_resp s, p_occ s, p_posted s, p_due s).
Lemma K_ext s s' : view s' = view s -> K s -> K s'.
Proof.
  unfold view. intros X [Q1 Q2 Q3 D O E R M F N J]. injection X as X1 X2 X3 X4 X5 X6 X7 X8 X9 X10 X11.
  constructor; rewrite ?X1, ?X2, ?X3, ?X4, ?X5, ?X6, ?X7, ?X8, ?X9, ?X10, ?X11; assumption.
Qed.
Lemma K_single g s : single g -> Inv s -> K s -> K (guard g s).
Proof.
  intros G I H. unfold guard. destruct (p_status s) eqn:S0; try exact H.
  destruct G; [now apply K_device| | | | | | | | | |]; assert (H' := H); destruct H' as [Q1 Q2 Q3 D O E R M F N J];
    clear D O E R M F N J; assert (O := q_occ s H); apply (K_ext s); try exact H; unf; rewrite ?Q1, ?Q2, ?Q3, ?O; brk; reflexivity.
Qed.
Lemma Q_single n g s : is_step n g -> single g -> Q s -> Q (guard g s).
Proof. intros S G [I H]. split; [now apply (Inv_step names newkey strict c n)|now apply K_single]. Qed.
Lemma Q_pair (n : nat -> net) i s : n i <> NLost -> Q s -> Q (guard st_store (guard (st_post c (n i)) s)).
Proof.
  intros L [I H]. split; [|now apply K_pair].
  apply (Inv_step names newkey strict c n); [constructor|]. apply (Inv_step names newkey strict c n); [constructor|exact I].
Qed.
Lemma Q_quad (n : nat -> net) i s : n i <> NLost -> Q s -> Q (guard st_regflag (guard (st_infostore c) (guard (st_ecustore c) (guard (st_ecupost strict (n i)) s)))).
Proof.
  intros L [I H]. split; [|now apply K_quad].
  repeat (apply (Inv_step names newkey strict c n); [constructor|]). exact I.
Qed.
Lemma Q_boot s : Q s -> Q (boot s).
Proof. intros [I [Q1 Q2 Q3 D O E R M F N J]]. split; [now apply Inv_boot|]. constructor; flat; auto. Qed.
Lemma Q_harmless s o : harmless o -> Q s -> Q (initialise s o).
Proof.
  intros [W NL] H. apply Q_boot in H. unfold InitModel.initialise. destruct o as [k n]. cbn [i_crash i_net] in *.
  revert H. generalize (boot s). intros z H.
  assert (C : forall k l, (k < 23)%nat -> l = firstn k (steps n) -> ~ In k [2; 6; 10; 17; 18; 19]%nat -> Q (exec l z)).
  { clear k W. intros k l Hk El W. unfold InitModel.steps, attempt in El. cbn [app map] in El.
    do 23 (destruct k as [|k]; [cbn [firstn] in El; subst l; cbn [exec fold_left];
      first [ solve [exfalso; apply W; cbn; tauto]
            | solve [repeat first [exact H | apply (Q_pair n); [apply NL|] | apply (Q_quad n); [apply NL|] | apply (Q_single n); [constructor|constructor|]]] ]|]).
    lia. }
  destruct (Nat.le_gt_cases 22 k) as [G|G].
  - rewrite firstn_all2 by exact G. apply (C 22%nat); [lia| |].
    + symmetry. apply firstn_all2. apply le_n.
    + cbn. intuition discriminate.
  - apply (C k); [lia|reflexivity|exact W].
Qed.

(** ... and the device id stays. *)
Definition QI (id : string) (s : ist) : Prop := Q s /\ n_id s = Some id.
Lemma guard_id g s : (forall x, n_id (g x) = n_id x) -> n_id (guard g s) = n_id s.
Proof. intros H. unfold guard. destruct (p_status s); auto. Qed.
Lemma QI_single id n g s : is_step n g -> single g -> QI id s -> QI id (guard g s).
Proof.
  intros S G [H E]. split; [now apply (Q_single n)|]. destruct H as [_ H]. unfold guard. destruct (p_status s); try exact E.
  assert (O := q_occ s H). destruct G; unf; rewrite ?E, ?O; brk; flat; congruence.
Qed.
Lemma QI_pair id (n : nat -> net) i s : n i <> NLost -> QI id s -> QI id (guard st_store (guard (st_post c (n i)) s)).
Proof. intros L [H E]. split; [now apply Q_pair|]. rewrite guard_id by (intros; unf; brk; flat; congruence). rewrite guard_id by (intros; unf; brk; flat; congruence). exact E. Qed.
Lemma QI_quad id (n : nat -> net) i s : n i <> NLost -> QI id s -> QI id (guard st_regflag (guard (st_infostore c) (guard (st_ecustore c) (guard (st_ecupost strict (n i)) s)))).
Proof.
  intros L [H E]. split; [now apply Q_quad|].
  rewrite guard_id by (intros; unf; brk; flat; congruence). rewrite guard_id by (intros; unf; brk; flat; congruence).
  rewrite guard_id by (intros; unf; brk; flat; congruence). rewrite guard_id by (intros; unf; brk; flat; congruence). exact E.
Qed.
Lemma QI_harmless id s o : harmless o -> QI id s -> QI id (initialise s o).
Proof.
  intros [W NL] [H E]. apply Q_boot in H. unfold InitModel.initialise. destruct o as [k n]. cbn [i_crash i_net] in *.
  assert (H' : QI id (boot s)) by (split; [exact H|exact E]). clear H E.
  revert H'. generalize (boot s). intros z H.
  assert (C : forall k l, (k < 23)%nat -> l = firstn k (steps n) -> ~ In k [2; 6; 10; 17; 18; 19]%nat -> QI id (exec l z)).
  { clear k W. intros k l Hk El W. unfold InitModel.steps, attempt in El. cbn [app map] in El.
    do 23 (destruct k as [|k]; [cbn [firstn] in El; subst l; cbn [exec fold_left];
      first [ solve [exfalso; apply W; cbn; tauto]
            | solve [repeat first [exact H | apply (QI_pair id n); [apply NL|] | apply (QI_quad id n); [apply NL|] | apply (QI_single id n); [constructor|constructor|]]] ]|]).
    lia. }
  destruct (Nat.le_gt_cases 22 k) as [G|G].
  - rewrite firstn_all2 by exact G. apply (C 22%nat); [lia| |].
    + symmetry. apply firstn_all2. apply le_n.
    + cbn. intuition discriminate.
  - apply (C k); [lia|reflexivity|exact W].
Qed.
Lemma QI_irun id ops s : Forall harmless ops -> QI id s -> QI id (irun s ops).
Proof. intros F. revert s. induction F as [|o ops Ho F IH]; intros s H; [exact H|]. cbn. apply IH. now apply QI_harmless. Qed.

(** With the server reachable, initialisation completes. *)
Definition A1 (s : ist) := n_id s <> None.
Definition A2 (s : ist) := n_id s <> None /\ n_tls s <> None.
Definition A3 (s : ist) := A2 s /\ n_key s <> None.
Definition A4 (s : ist) := A3 s /\ (if p_reg s then n_ecus s = [] else n_ecus s <> []).
Definition A5 (s : ist) := n_ecus s <> [].
Definition go (P : ist -> Prop) (s : ist) : Prop := Q s /\ p_status s = Running /\ P s.
Lemma go_device P s : go P s -> go A1 (guard (st_device names c) s).
Proof.
  intros [[I H] [R _]]. split; [apply (Q_single online); [constructor|constructor|now split]|].
  unfold guard, A1. rewrite R. unfold st_device. destruct (n_id s) as [id|] eqn:Hid; [now rewrite Hid|].
  destruct (negb _); [now split|]. destruct (n_tls s) eqn:T; [now split|]. destruct (g_mode c) eqn:M; [now split|].
  now contradict T; apply (q_mode s H).
Qed.
Lemma go_pair s : go A1 s -> go A2 (guard st_store (guard (st_post c NOk) s)).
Proof.
  intros [[I H] [R A]]. split; [apply (Q_pair online 0%nat); [discriminate|now split]|].
  unfold guard at 2 4. rewrite R. unfold st_post. destruct (n_tls s) as [cn|] eqn:T.
  - unfold guard. rewrite R. unfold st_store, A2. rewrite (q_resp s H). split; [exact R|]. split; [exact A|congruence].
  - destruct (g_mode c) eqn:M; [|now contradict T; apply (q_mode s H)].
    unfold A1 in A. destruct (n_id s) as [id|] eqn:Hid; [|easy].
    destruct (mem id (s_dev s)) eqn:B.
    + apply mem_In in B. now contradict B; apply (q_dev s H T).
    + unfold guard. flat. rewrite R. unfold st_store, A2. flat. split; [exact R|]. split; [congruence|discriminate].
Qed.
Lemma go_keep (P : ist -> Prop) f n s : is_step n f -> single f -> (Q s -> p_status s = Running -> P s -> p_status (f s) = Running /\ P (f s)) ->
  go P s -> go P (guard f s).
Proof. intros F G HF [HQ [R A]]. split; [now apply (Q_single n)|]. unfold guard. rewrite R. now apply HF. Qed.
Lemma go_reset s : go A2 s -> go A2 (guard st_reset s).
Proof. apply (go_keep A2 st_reset online); [constructor|constructor|]. intros [I H] R A. unfold st_reset. now rewrite (q_occ s H). Qed.
Lemma go_device2 s : go A2 s -> go A2 (guard (st_device names c) s).
Proof. apply (go_keep A2 (st_device names c) online); [constructor|constructor|]. intros _ R [A B]. unfold st_device. destruct (n_id s) eqn:E; [|easy]. split; [exact R|]. split; [congruence|exact B]. Qed.
Lemma go_attempt s : go A2 s -> go A2 (guard st_reset (guard st_store (guard (st_post c NOk) (guard (st_device names c) s)))).
Proof. intros H. apply go_reset. apply go_pair. apply go_device2 in H. destruct H as [X [Y [Z _]]]. split; [exact X|]. split; [exact Y|exact Z]. Qed.
Lemma go_check s : go A2 s -> go A2 (guard st_check s).
Proof. apply (go_keep A2 st_check online); [constructor|constructor|]. intros _ R [A B]. unfold st_check. destruct (n_tls s) eqn:E; [|easy]. split; [exact R|]. split; [exact A|congruence]. Qed.
Lemma go_key s : go A2 s -> go A3 (guard (st_key newkey) s).
Proof.
  intros [H [R A]]. split; [apply (Q_single online); [constructor|constructor|exact H]|]. unfold guard. rewrite R. unfold st_key.
  destruct (n_key s) eqn:E; [split; [exact R|split; [exact A|congruence]]|]. split; [exact R|]. split; [exact A|discriminate].
Qed.
Lemma go_serials s : go A3 s -> go A4 (guard (st_serials c) s).
Proof.
  intros [H [R A]]. split; [apply (Q_single online); [constructor|constructor|exact H]|]. unfold guard. rewrite R. unfold st_serials. flat. split; [exact R|].
  split; [exact A|]. flat. destruct (n_ecus s) as [|e l] eqn:E; [easy|].
  assert (N : n_ecus s <> []) by congruence. destruct (v_ecus c s (proj1 H) N) as [k [Hk X]]. unfold key_of. rewrite Hk, <- E, X, same_ecus_refl. cbn. discriminate.
Qed.
Lemma go_info s : go A4 s -> go A4 (guard (st_info c) s).
Proof. apply (go_keep A4 (st_info c) online); [constructor|constructor|]. intros _ R A. unfold st_info. destruct (p_reg s) eqn:P; [now split|]. split; [exact R|]. exact A. Qed.
Lemma go_quad s : go A4 s -> go A5 (guard st_regflag (guard (st_infostore c) (guard (st_ecustore c) (guard (st_ecupost strict NOk) s)))).
Proof.
  intros [[I H] [R [[[A1' A2'] A3'] A]]]. split; [apply (Q_quad online 3%nat); [discriminate|now split]|].
  assert (NS : forall x, p_posted x = false -> p_due x = false -> guard st_regflag (guard (st_infostore c) (guard (st_ecustore c) x)) = x).
  { intros x X1 X2. unfold guard, st_regflag, st_infostore, st_ecustore. now destruct (p_status x) eqn:EE; rewrite ?EE, ?X1, ?EE, ?X2, ?EE, ?X2. }
  unfold guard at 4 8. rewrite R. unfold st_ecupost. destruct (p_reg s) eqn:P; cbn [negb].
  - destruct (n_id s) as [id|] eqn:Hid; [|easy]. destruct (n_tls s) as [cn|]; [|easy]. destruct (n_key s); [|easy].
    destruct (mem id (s_ecu s)) eqn:B.
    + apply mem_In in B. exfalso. now apply (q_ecu s H id Hid B).
    + rewrite andb_false_r. cbn zeta. unfold guard, st_ecustore, st_infostore, st_regflag, A5. flat. rewrite R. flat. rewrite R. flat. rewrite R. flat. split; [exact R|discriminate].
  - rewrite !NS; [now split|apply (q_posted s H)|apply (q_due s H)].
Qed.
Lemma go_counter s : go A5 s -> go A5 (guard st_counter s).
Proof.
  apply (go_keep A5 st_counter online); [constructor|constructor|]. intros _ R A. unfold st_counter.
  destruct (existsb _ _); [now split|]. unfold A5 in A. destruct (n_ecus s) eqn:E; [easy|]. split; [exact R|]. unfold A5. flat. congruence.
Qed.
Lemma go_pre s : Q s -> go A5 (exec (pre names newkey strict c online) (boot s)).
Proof.
  intros H. cbn [exec pre attempt map app fold_left]. change (online 0%nat) with NOk. change (online 1%nat) with NOk. change (online 2%nat) with NOk. change (online 3%nat) with NOk.
  apply go_counter, go_quad, go_info, go_serials, go_key, go_check, go_attempt, go_attempt, go_reset, go_pair, (go_device Q).
  split; [now apply Q_boot|]. split; [reflexivity|now apply Q_boot].
Qed.
Lemma guard_done z : p_status z = Running -> exec [guard (upd_status Done)] z = upd_status Done z.
Proof. intros R. unfold exec, guard. cbn [fold_left]. now rewrite R. Qed.
Lemma complete_eq s : Q s -> initialise s (complete online) = upd_status Done (exec (pre names newkey strict c online) (boot s)).
Proof.
  intros H. unfold InitModel.initialise. cbn [complete i_crash i_net]. rewrite firstn_all2 by apply le_n. rewrite steps_pre, exec_app.
  apply guard_done. apply (go_pre s H).
Qed.
Lemma go_done z : go A5 z -> p_status (upd_status Done z) = Done /\ n_reg (upd_status Done z) = true.
Proof. intros [[_ HK] [_ A]]. split; [reflexivity|]. flat. now apply (q_reg _ HK). Qed.
Theorem progress s : Q s -> p_status (initialise s (complete online)) = Done /\ provisioned c (initialise s (complete online)) /\ n_reg (initialise s (complete online)) = true.
Proof.
  intros H. assert (X := go_done _ (go_pre s H)). rewrite <- (complete_eq s H) in X. destruct X as [D N].
  split; [exact D|]. split; [|exact N]. exact (done_provisioned names newkey strict c s (complete online) (proj1 H) D).
Qed.
Lemma Q_irun ops s : Forall harmless ops -> Q s -> Q (irun s ops).
Proof. intros F. revert s. induction F as [|o ops Ho F IH]; intros s H; [exact H|]. cbn. apply IH. now apply Q_harmless. Qed.
Lemma Q_blank tls dev ecu : match g_mode c with Shared => tls = None | DeviceCred => tls <> None end ->
  (g_id c <> "" -> ~ In (g_id c) dev /\ ~ In (g_id c) ecu) -> (forall cn, tls = Some cn -> ~ In cn ecu) ->
  (forall i, ~ In (names i) dev /\ ~ In (names i) ecu) -> Q (blank tls dev ecu).
Proof.
  intros M G C N. split; [apply Inv_blank; intros E; now rewrite E in M|]. constructor; cbn; try easy; auto.
  - intros E. now rewrite E in M.
  - intros _ X. destruct (G X). auto.
  - intros _ _ i _. destruct (N i). repeat split; auto. discriminate.
Qed.
End P.
