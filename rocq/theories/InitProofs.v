From Verif Require Import Base InitModel InitSpec.

Section P.
Context (names : nat -> string) (newkey : string) (strict : bool) (c : pconf).
Notation steps := (steps names newkey strict c).
Notation initialise := (initialise names newkey strict c).
Notation irun := (irun names newkey strict c).

Lemma mem_In x l : mem x l = true <-> In x l.
Proof.
  unfold mem. rewrite existsb_exists. split.
  - intros [y [H E]]. apply String.eqb_eq in E. now subst.
  - intros H. exists x. split; [exact H|apply String.eqb_refl].
Qed.
Lemma mem_nIn x l : mem x l = false <-> ~ In x l.
Proof. rewrite <- mem_In. destruct (mem x l); split; congruence. Qed.

(** The steps, named. *)
Inductive is_step (n : nat -> net) : (ist -> ist) -> Prop :=
| is_device : is_step n (st_device names c)
| is_post i : is_step n (st_post c (n i))
| is_store : is_step n st_store
| is_reset : is_step n st_reset
| is_check : is_step n st_check
| is_key : is_step n (st_key newkey)
| is_serials : is_step n (st_serials c)
| is_info : is_step n (st_info c)
| is_ecupost i : is_step n (st_ecupost strict (n i))
| is_ecustore : is_step n (st_ecustore c)
| is_infostore : is_step n (st_infostore c)
| is_regflag : is_step n st_regflag
| is_counter : is_step n st_counter
| is_done : is_step n (upd_status Done).
Lemma steps_are n f : In f (steps n) -> exists g, f = guard g /\ is_step n g.
Proof.
  unfold InitModel.steps, attempt. intros H. apply in_map_iff in H as [g [E H]]. exists g. split; [easy|].
  cbn in H. repeat (destruct H as [<- | H]; [constructor|]). easy.
Qed.
Lemma firstn_In {A} k (l : list A) x : In x (firstn k l) -> In x l.
Proof. revert l. induction k as [|k IH]; intros [|a l]; cbn; try easy. intros [->|H]; [now left|right; auto]. Qed.
(** A property kept by every step is kept by initialisation, whatever the crash point. *)
Lemma exec_inv (P : ist -> Prop) n l s :
  (forall f, In f l -> In f (steps n)) -> (forall g x, is_step n g -> P x -> P (guard g x)) -> P s -> P (exec l s).
Proof.
  intros HI HP. revert s. induction l as [|f l IH]; intros s H; [exact H|]. cbn. apply IH.
  - intros g Hg. apply HI. now right.
  - destruct (steps_are n f (HI f (or_introl eq_refl))) as [g [-> G]]. now apply HP.
Qed.
Lemma initialise_inv (P : ist -> Prop) s o :
  (forall g x, is_step (i_net o) g -> P x -> P (guard g x)) -> P (boot s) -> P (initialise s o).
Proof. intros HP H. unfold InitModel.initialise. eapply exec_inv; [|exact HP|exact H]. intros f Hf. now apply firstn_In in Hf. Qed.

Ltac brk := repeat match goal with
  | |- context [match ?x with _ => _ end] => destruct x eqn:?
  | |- context [if ?x then _ else _] => destruct x eqn:?
  end.
Ltac step_cases H := destruct H; unfold guard, st_device, st_post, st_store, st_reset, st_check, st_key, st_serials, st_info, st_ecupost, st_ecustore, st_infostore, st_regflag, st_counter.
Ltac flat := cbn [n_id n_reg n_tls n_key n_ecus n_info n_cnt s_dev s_ecu n_seq p_resp p_occ p_reg p_posted p_due p_status
                  upd_id upd_status upd_tls upd_server upd_key upd_preg upd_info upd_ecus upd_regflag upd_cnt boot] in *.

Record Inv (s : ist) : Prop := {
  v_occ : p_occ s = true -> n_tls s = None /\ p_resp s = None;
  v_resp : forall r, p_resp s = Some r -> n_id s = Some r /\ n_tls s = None;
  v_cn : g_mode c = Shared -> forall cn, n_tls s = Some cn -> n_id s = Some cn;
  v_ecus : n_ecus s <> [] -> exists key, n_key s = Some key /\ n_ecus s = new_serials c key;
  v_posted : p_posted s = true \/ n_ecus s <> [] -> n_id s <> None /\ n_tls s <> None /\ n_key s <> None }.

Lemma new_serials_ne k : new_serials c k <> [].
Proof. discriminate. Qed.
Ltac chain := repeat match goal with
  | H : _ /\ _ |- _ => destruct H
  | H : exists _, _ |- _ => destruct H
  | H : ?P -> ?Q |- _ =>
      match type of P with Prop => idtac end;
      let T := fresh in assert (T : P) by (solve [congruence | left; congruence | right; congruence | tauto]); specialize (H T); clear T
  | H : forall r, ?x = Some r -> _, E : ?x = Some ?y |- _ => specialize (H y E)
  end.
Ltac fin := try solve [congruence | assumption | chain; repeat split; congruence | chain; eauto; repeat split; congruence | chain; eexists; split; [eassumption || reflexivity|congruence]].
Lemma Inv_step n g s : is_step n g -> Inv s -> Inv (guard g s).
Proof.
  intros G [H1 H2 H3 H4 H5]. step_cases G.
  all: brk; try (constructor; flat; assumption).
  all: constructor; flat; intros; fin.
  all: try (apply H3; congruence).
  all: try (match goal with E : n_id ?x = _, M : g_mode c = Shared, J : g_mode c = Shared -> _ |- n_id ?x = _ => rewrite E; apply J; congruence end).
  assert (E := H5 (or_introl eq_refl)). destruct E as [_ [_ K]]. unfold key_of. destruct (n_key s) as [k|]; [|easy]. now exists k.
Qed.
Lemma Inv_boot s : Inv s -> Inv (boot s).
Proof. intros [H1 H2 H3 H4 H5]. constructor; flat; try easy; auto. intros [X|X]; auto; easy. Qed.
Lemma Inv_initialise s o : Inv s -> Inv (initialise s o).
Proof. intros H. apply initialise_inv; [apply Inv_step|now apply Inv_boot]. Qed.
Lemma Inv_irun ops s : Inv s -> Inv (irun s ops).
Proof. revert s. induction ops as [|o ops IH]; intros s H; [exact H|]. cbn. apply IH. now apply Inv_initialise. Qed.
Lemma Inv_blank tls dev ecu : (g_mode c = Shared -> tls = None) -> Inv (blank tls dev ecu).
Proof. intros H. constructor; cbn; try easy. - intros M cn E. rewrite (H M) in E. easy. - intros [X|X]; now contradict X. Qed.

(** What is never changed again. *)
Record kept (a b : ist) : Prop := {
  k_tls : forall t, n_tls a = Some t -> n_tls b = Some t;
  k_id : forall i t, n_tls a = Some t -> n_id a = Some i -> n_id b = Some i;
  k_key : forall k, n_key a = Some k -> n_key b = Some k;
  k_ecus : n_ecus a <> [] -> n_ecus b = n_ecus a }.
Lemma kept_refl a : kept a a.
Proof. constructor; auto. Qed.
Lemma kept_trans a b d : kept a b -> kept b d -> kept a d.
Proof.
  intros H1 H2. constructor.
  - intros t E. apply (k_tls b d H2), (k_tls a b H1), E.
  - intros i t E F. apply (k_id b d H2 i t); [apply (k_tls a b H1), E|now apply (k_id a b H1 i t)].
  - intros k E. apply (k_key b d H2), (k_key a b H1), E.
  - intros E. rewrite (k_ecus b d H2); [now apply (k_ecus a b H1)|]. rewrite (k_ecus a b H1 E). exact E.
Qed.
Lemma kept_step n g s : is_step n g -> Inv s -> kept s (guard g s).
Proof.
  intros G [H1 H2 H3 H4 H5]. step_cases G.
  all: brk; try (constructor; flat; auto; fail).
  all: constructor; flat; intros; fin; auto.
  1: destruct (H2 _ eq_refl); congruence.
  destruct (H4 H) as [k [K E]]. unfold key_of. now rewrite K.
Qed.
Lemma kept_initialise s o : Inv s -> kept s (initialise s o).
Proof.
  intros I. assert (X : Inv (initialise s o) /\ kept s (initialise s o)); [|easy].
  apply (initialise_inv (fun x => Inv x /\ kept s x)).
  - intros g x G [Ix Kx]. split; [now apply (Inv_step (i_net o))|]. eapply kept_trans; [exact Kx|]. now apply (kept_step (i_net o)).
  - split; [now apply Inv_boot|]. constructor; auto.
Qed.
Lemma kept_irun ops s : Inv s -> kept s (irun s ops).
Proof.
  revert s. induction ops as [|o ops IH]; intros s I; [apply kept_refl|]. cbn. eapply kept_trans; [now apply kept_initialise|].
  apply IH. now apply Inv_initialise.
Qed.

(** What a run that is not stopped has established at each point. *)
Definition ok (P : ist -> Prop) (s : ist) : Prop := p_status s = Running -> P s.
Lemma same_ecus_refl l : same_ecus l l = true.
Proof.
  assert (X : forallb (fun x => pair_in x l) l = true); [|unfold same_ecus; now rewrite X].
  apply forallb_forall. intros x Hx. unfold pair_in. apply existsb_exists. exists x. split; [exact Hx|]. now rewrite !String.eqb_refl.
Qed.
Lemma filter_In_app (p : string -> bool) l : forall m x, In x m -> In x (filter (fun x => negb (mem x l)) m ++ l).
Proof.
  intros m x H. apply in_or_app. destruct (mem x l) eqn:E; [right; now apply mem_In|left]. apply filter_In. split; [exact H|now rewrite E].
Qed.
Definition quiet (s : ist) := p_posted s = false /\ p_due s = false.
Definition has_id (s : ist) := quiet s /\ (n_id s <> None \/ n_tls s = None).
Definition has_tls (s : ist) := quiet s /\ n_id s <> None /\ n_tls s <> None.
Definition has_all (s : ist) := n_id s <> None /\ n_tls s <> None /\ n_key s <> None.
Definition has_key (s : ist) := quiet s /\ has_all s.
Definition all_info (s : ist) := forall x, In x (g_secs c) -> In (fst x) (n_info s).
Definition knows_ecus (s : ist) := quiet s /\ has_all s /\ (p_reg s = false -> n_ecus s = new_serials c (key_of s)).
Definition knows_info (s : ist) := quiet s /\ has_all s /\ (p_reg s = false -> n_ecus s = new_serials c (key_of s) /\ all_info s).
Definition posted (s : ist) := has_all s /\ p_due s = false /\ p_posted s = p_reg s /\ (p_reg s = false -> n_ecus s = new_serials c (key_of s) /\ all_info s).
Definition recorded (s : ist) := has_all s /\ p_posted s = false /\ n_ecus s = new_serials c (key_of s) /\ (p_due s = false -> all_info s).
Definition listed (s : ist) := has_all s /\ n_ecus s = new_serials c (key_of s) /\ all_info s.
Definition counted (s : ist) := listed s /\ exists e, In e (n_ecus s) /\ In (fst e) (n_cnt s).
Definition tri (P : ist -> Prop) (f : ist -> ist) (Q : ist -> Prop) := forall s, Inv s -> P s -> p_status (f s) = Running -> Q (f s).
Lemma ok_tri P f Q s : tri P f Q -> Inv s -> ok P s -> ok Q (guard f s).
Proof. intros T I O. unfold ok, guard. destruct (p_status s) eqn:E; intros R; try congruence. apply T; auto. Qed.
Ltac tri_tac := let s := fresh "s" in let I := fresh "I" in intros s I; unfold has_key, has_tls, has_id, knows_ecus, knows_info, posted, recorded, counted, listed, has_all, quiet;
  unfold st_device, st_post, st_store, st_reset, st_check, st_key, st_serials, st_info, st_ecupost, st_ecustore, st_infostore, st_regflag; brk; flat; intros; try congruence; try (intuition congruence).
Lemma t_device (P : ist -> Prop) : (forall s, P s -> quiet s) -> tri P (st_device names c) has_id.
Proof. intros H s I Ps. apply H in Ps. revert s I Ps. tri_tac. Qed.
Lemma t_post n : tri has_id (st_post c n) has_id.
Proof. tri_tac. Qed.
Lemma t_store : tri has_id st_store has_id.
Proof. intros s I. destruct (p_resp s) eqn:E; revert I E; unfold st_store, has_id, quiet; intros I E; rewrite E; flat; [|easy]. destruct (v_resp s I _ E) as [X _]. intros. intuition congruence. Qed.
Lemma t_reset : tri has_id st_reset has_id.
Proof. intros s I. unfold st_reset, has_id, quiet. destruct (p_occ s) eqn:E; flat; [|easy]. destruct (v_occ s I E). intuition. Qed.
Lemma t_check : tri has_id st_check has_tls.
Proof. tri_tac. Qed.
Lemma t_key : tri has_tls (st_key newkey) has_key.
Proof. tri_tac. Qed.
Lemma t_serials : tri has_key (st_serials c) knows_ecus.
Proof.
  intros s I. unfold has_key, st_serials, knows_ecus, quiet, has_all, key_of. flat. intros [Q [A [B C]]] _.
  repeat split; try easy. intros R. destruct (n_ecus s) eqn:E; [easy|]. rewrite <- E in *.
  assert (N : n_ecus s <> []) by (rewrite E; easy).
  destruct (v_ecus s I N) as [k [K ->]]. now rewrite K.
Qed.
Lemma add_info_all s x : In x (g_secs c) -> In (fst x) (add_info c s).
Proof. intros H. unfold add_info. apply filter_In_app; [exact (fun _ => true)|]. now apply in_map. Qed.
Lemma t_info : tri knows_ecus (st_info c) knows_info.
Proof.
  intros s I [Q [A B]] _. unfold st_info, knows_info. destruct (p_reg s) eqn:E; [split; [exact Q|split; [exact A|rewrite E; discriminate]]|].
  split; [exact Q|]. split; [exact A|]. intros _. split; [exact (B eq_refl)|]. intros x H. flat. now apply add_info_all.
Qed.
Lemma t_ecupost n : tri knows_info (st_ecupost strict n) posted.
Proof.
  intros s I [[Q1 Q2] [A B]]. unfold st_ecupost, posted. destruct (p_reg s) eqn:E; cbn [negb].
  - brk; flat; try congruence; intros _; rewrite E; (split; [exact A|]); (split; [exact Q2|]); (split; [reflexivity|discriminate]).
  - intros _. rewrite E. split; [exact A|]. split; [exact Q2|]. split; [exact Q1|exact B].
Qed.
Lemma t_ecustore : tri posted (st_ecustore c) recorded.
Proof.
  intros s I [A [D [P B]]] _. unfold st_ecustore, recorded. destruct (p_posted s) eqn:E.
  - split; [exact A|]. split; [reflexivity|]. split; [reflexivity|]. flat. discriminate.
  - split; [exact A|]. rewrite <- P in B. destruct (B eq_refl) as [B1 B2]. split; [exact E|]. split; [exact B1|auto].
Qed.
Lemma t_infostore : tri recorded (st_infostore c) listed.
Proof.
  intros s I [A [P [E B]]] _. unfold st_infostore, listed. destruct (p_due s) eqn:D.
  - split; [exact A|]. split; [exact E|]. intros x H. flat. now apply add_info_all.
  - split; [exact A|]. split; [exact E|auto].
Qed.
Lemma t_regflag : tri listed st_regflag listed.
Proof. intros s I [A [E B]] _. unfold st_regflag. now destruct (p_due s). Qed.
Lemma t_counter : tri listed st_counter counted.
Proof.
  intros s I L. unfold st_counter. destruct (existsb _ (n_ecus s)) eqn:E.
  - intros _. split; [exact L|]. apply existsb_exists in E as [e [H M]]. exists e. split; [exact H|now apply mem_In].
  - destruct L as [A [N B]]. destruct (n_ecus s) as [|e l] eqn:F; [cbn; congruence|]. intros _. split.
    + split; [exact A|]. split; [flat; unfold key_of; flat; rewrite F; exact N|exact B].
    + exists e. flat. rewrite F. split; now left.
Qed.
Definition pre (n : nat -> net) : list (ist -> ist) := map guard (attempt names c (n 0%nat) ++ attempt names c (n 1%nat) ++ attempt names c (n 2%nat) ++
    [st_check; st_key newkey; st_serials c; st_info c; st_ecupost strict (n 3%nat); st_ecustore c; st_infostore c; st_regflag; st_counter]).
Lemma steps_pre n : steps n = pre n ++ [guard (upd_status Done)].
Proof. reflexivity. Qed.
Lemma exec_app l m s : exec (l ++ m) s = exec m (exec l s).
Proof. apply fold_left_app. Qed.
Lemma after n P f Q s : is_step n f -> tri P f Q -> Inv s /\ ok P s -> Inv (guard f s) /\ ok Q (guard f s).
Proof. intros F T [I O]. split; [now apply (Inv_step n)|now apply (ok_tri P)]. Qed.
Lemma pre_counted n s : Inv s -> Inv (exec (pre n) (boot s)) /\ ok counted (exec (pre n) (boot s)).
Proof.
  intros I. cbn [exec pre attempt map app fold_left].
  eapply (after n); [constructor|apply t_counter|].
  eapply (after n); [constructor|apply t_regflag|].
  eapply (after n); [constructor|apply t_infostore|].
  eapply (after n); [constructor|apply t_ecustore|].
  eapply (after n); [constructor|apply t_ecupost|].
  eapply (after n); [constructor|apply t_info|].
  eapply (after n); [constructor|apply t_serials|].
  eapply (after n); [constructor|apply t_key|].
  eapply (after n); [constructor|apply t_check|].
  do 2 (eapply (after n); [constructor|apply t_reset|];
  eapply (after n); [constructor|apply t_store|];
  eapply (after n); [constructor|apply t_post|];
  eapply (after n); [constructor|apply (t_device has_id); now intros ? [? _]|]).
  eapply (after n); [constructor|apply t_reset|];
  eapply (after n); [constructor|apply t_store|];
  eapply (after n); [constructor|apply t_post|];
  eapply (after n); [constructor|apply (t_device quiet); auto|].
  split; [now apply Inv_boot|]. intros _. now split.
Qed.
Lemma not_done n s : p_status s <> Done -> forall k, p_status (exec (firstn k (pre n)) s) <> Done.
Proof.
  intros H k.
  assert (X : forall f, In f (pre n) -> forall x, p_status x <> Done -> p_status (f x) <> Done).
  { intros f Hf x Hx. apply in_map_iff in Hf as [g [<- Hg]]. cbn in Hg. unfold guard. destruct (p_status x) eqn:E; try congruence.
    repeat (destruct Hg as [<- | Hg]; [unfold st_device, st_post, st_store, st_reset, st_check, st_key, st_serials, st_info, st_ecupost, st_ecustore, st_infostore, st_regflag, st_counter; brk; flat; congruence|]). easy. }
  assert (Y : forall l, (forall f, In f l -> In f (pre n)) -> forall x, p_status x <> Done -> p_status (exec l x) <> Done).
  { induction l as [|f l IH]; intros HI x Hx; [exact Hx|]. cbn. apply IH; [intros; apply HI; now right|]. apply X; [apply HI; now left|exact Hx]. }
  apply Y; [|exact H]. intros f. apply firstn_In.
Qed.
Lemma firstn_steps n k : firstn k (steps n) = firstn k (pre n) \/ firstn k (steps n) = pre n ++ [guard (upd_status Done)].
Proof.
  rewrite steps_pre. destruct (Nat.le_gt_cases k 21) as [L|L].
  - left. rewrite firstn_app. replace (k - Datatypes.length (pre n))%nat with 0%nat by (cbn; lia). now rewrite firstn_O, app_nil_r.
  - right. apply firstn_all2. cbn. lia.
Qed.
Lemma done_split s o : p_status (initialise s o) = Done ->
  p_status (exec (pre (i_net o)) (boot s)) = Running /\ initialise s o = upd_status Done (exec (pre (i_net o)) (boot s)).
Proof.
  unfold InitModel.initialise. destruct (firstn_steps (i_net o) (i_crash o)) as [-> | ->].
  - intros H. exfalso. revert H. now apply not_done.
  - rewrite exec_app.
    assert (N := not_done (i_net o) (boot s) ltac:(discriminate) 21%nat). rewrite firstn_all2 in N by (apply le_n).
    set (e := exec (pre (i_net o)) (boot s)) in *. change (exec [guard (upd_status Done)] e) with (guard (upd_status Done) e). unfold guard. intros H.
    destruct (p_status e) eqn:E; try congruence. now split.
Qed.
Theorem done_provisioned s o : Inv s -> p_status (initialise s o) = Done -> provisioned c (initialise s o).
Proof.
  intros I D. destruct (done_split s o D) as [R ->]. destruct (pre_counted (i_net o) s I) as [_ O].
  revert O R. generalize (exec (pre (i_net o)) (boot s)). intros z O R.
  destruct (O R) as [[[A1 [A2 A3]] [E B]] [e [He Hc]]]. unfold provisioned. flat.
  destruct (n_id z) as [id|]; [|easy]. destruct (n_tls z) as [cn|]; [|easy]. destruct (n_key z) as [key|] eqn:K; [|easy].
  exists id, cn, key. unfold key_of in E. rewrite K in E. do 3 (split; [reflexivity|]).
  split; [rewrite E; apply new_serials_ne|]. split; [rewrite E; apply same_ecus_refl|]. split; [exact B|]. now exists e.
Qed.
(** A second initialisation changes nothing. *)
Definition settled (a s : ist) : Prop := provisioned c s /\ p_status s <> Failed /\ p_resp s = None /\ p_occ s = false /\ p_reg s = false /\ p_posted s = false /\ p_due s = false /\ store_of s = store_of a /\ server_of s = server_of a.
Lemma filter_none {A} (p : A -> bool) l : (forall x, In x l -> p x = false) -> filter p l = [].
Proof. induction l as [|a l IH]; intros H; [easy|]. cbn. rewrite (H a); [|now left]. apply IH. intros x Hx. apply H. now right. Qed.
Lemma add_info_id s : all_info s -> add_info c s = n_info s.
Proof.
  intros H. unfold add_info. rewrite filter_none; [easy|]. intros x Hx. apply in_map_iff in Hx as [y [<- Hy]].
  apply H in Hy. apply mem_In in Hy. now rewrite Hy.
Qed.
Lemma settled_step a n g s : is_step n g -> settled a s -> settled a (guard g s).
Proof.
  intros G [P [R0 [R1 [R2 [R3 [R4 [R5 [S V]]]]]]]]. assert (P' := P). destruct P' as [id [cn [key [I [T [K [N [E [B [e [He Hc]]]]]]]]]]].
  unfold settled. step_cases G.
  all: try rewrite !I; try rewrite !T; try rewrite !K; try rewrite !R1; try rewrite !R2; try rewrite !R3; try rewrite !R4; try rewrite !R5; cbn [negb].
  all: try (destruct (p_status s) eqn:?; repeat split; flat; auto; congruence).
  - destruct (p_status s) eqn:SS; try (repeat split; auto; congruence). flat. unfold key_of. rewrite K.
    assert (X : match n_ecus s with [] => true | p :: l => negb (same_ecus (new_serials c key) (p :: l)) end = false).
    { destruct (n_ecus s); [easy|]. now rewrite E. }
    rewrite X. repeat split; auto; congruence.
  - rewrite add_info_id by exact B. destruct (p_status s) eqn:SS; repeat split; flat; auto; congruence.
  - assert (X : existsb (fun e0 => mem (fst e0) (n_cnt s)) (n_ecus s) = true).
    { apply existsb_exists. exists e. split; [exact He|now apply mem_In]. }
    rewrite X. destruct (p_status s) eqn:SS; repeat split; auto; congruence.
Qed.
Theorem settled_initialise s o : provisioned c s -> store_of (initialise s o) = store_of s /\ server_of (initialise s o) = server_of s /\
  ((22 <= i_crash o)%nat -> p_status (initialise s o) = Done).
Proof.
  intros P. assert (HB : settled s (boot s)) by (repeat split; auto; discriminate).
  assert (X : settled s (initialise s o)) by (apply initialise_inv; [intros g x; apply settled_step|exact HB]).
  destruct X as [_ [F [_ [_ [_ [_ [_ [A B]]]]]]]]. split; [exact A|]. split; [exact B|]. intros L.
  revert F. unfold InitModel.initialise. rewrite firstn_all2 by exact L. rewrite steps_pre, exec_app.
  generalize (exec (pre (i_net o)) (boot s)). intros z. change (exec [guard (upd_status Done)] z) with (guard (upd_status Done) z).
  unfold guard. destruct (p_status z) eqn:E; flat; congruence.
Qed.
End P.
