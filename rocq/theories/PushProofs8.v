(** Walking a tree: everything reachable is met, unless the pool was stopped. *)
From Verif Require Import Base RateModel PushModel PushSpec PushProofs PushProofs2 PushProofs3 PushProofs4 PushProofs5 PushProofs6 PushProofs7.

Definition met (s : pool) (o : obj) : Prop := pres (objs s o) <> Unknown.
Definition asked (s : pool) (o : obj) : Prop := In (THeadAns o 200 true) (trace s) \/ In (THeadAns o 404 true) (trace s).
Definition pop (R : repo) (s : pool) (o : obj) : Prop :=
  met s o /\ asked s o /\ forall c, In c (kids R o) -> have R c = true /\ met s c.
Section Walk.
Variable root0 : obj.
(** The invariant, for all objects but possibly [ex]. *)
Record WI (R : repo) (ex : obj -> Prop) (s : pool) : Prop := {
  w_met : forall o, ~ ex o -> met s o -> In o (qq s) \/ (In o (infl s) /\ op (objs s o) = OpHead) \/ pop R s o;
  w_uq : forall o, In o (uq s) -> pop R s o;
  w_par : forall c p it, In (p, it) (pars (objs s c)) -> ~ ex p -> pop R s p;
  w_qq : forall o, In o (qq s) -> met s o;
  w_infl : forall o, In o (infl s) -> met s o;
  w_post : forall o, In o (infl s) -> op (objs s o) = OpPost -> pop R s o;
  w_root : met s root0 }.
Definition nobody (o : obj) : Prop := False.
Definition W (R : repo) (s : pool) : Prop := stopped s = true \/ WI R nobody s.

Definition grows (s s' : pool) : Prop := incl (trace s) (trace s') /\ forall o, met s o -> met s' o.
Lemma pop_grows R s s' o : grows s s' -> pop R s o -> pop R s' o.
Proof.
  intros [T M] (A & B & C). split; [auto|]. split.
  - destruct B as [B|B]; [left|right]; now apply T.
  - intros c I. destruct (C c I). split; auto.
Qed.
(** What a change leaves alone. *)
Lemma WI_ext R ex s s' :
  trace s' = trace s -> (forall o, met s o <-> met s' o) -> qq s' = qq s -> uq s' = uq s -> infl s' = infl s ->
  (forall o, op (objs s' o) = op (objs s o)) -> (forall o, pars (objs s' o) = pars (objs s o)) -> WI R ex s -> WI R ex s'.
Proof.
  intros T M Q U I O P [A B C D E F RO]. assert (G : grows s s') by (split; [rewrite T; apply incl_refl|intros o; apply M]).
  constructor.
  - intros o X Y. apply M in Y. rewrite Q, I, O. destruct (A o X Y) as [K|[K|K]]; auto. right; right. eapply pop_grows; eauto.
  - intros o X. rewrite U in X. eapply pop_grows; eauto.
  - intros c p it X Y. rewrite P in X. eapply pop_grows; eauto.
  - intros o X. rewrite Q in X. apply M. auto.
  - intros o X. rewrite I in X. apply M. auto.
  - intros o X Y. rewrite I in X. rewrite O in Y. eapply pop_grows; eauto.
  - apply M. exact RO.
Qed.
Lemma upd_same f k v : upd f k v k = v.
Proof. unfold upd. now rewrite Nat.eqb_refl. Qed.
Lemma upd_other f k v x : x <> k -> upd f k v x = f x.
Proof. intros H. unfold upd. destruct (Nat.eqb_spec x k); [contradiction|reflexivity]. Qed.
Ltac upd_cases x k := destruct (Nat.eq_dec x k) as [->|?NE]; [rewrite ?upd_same in *|rewrite ?(upd_other _ _ _ _ NE) in *].

(** A new query. *)
Lemma WI_query R ex s s' o :
  trace s' = trace s -> qq s' = qq s ++ [o] -> uq s' = uq s -> infl s' = infl s ->
  (forall x, pres (objs s' x) = if Nat.eqb x o then InProgress else pres (objs s x)) ->
  (forall x, op (objs s' x) = op (objs s x)) -> (forall x, pars (objs s' x) = pars (objs s x)) -> WI R ex s -> WI R ex s'.
Proof.
  intros T Q U I P O PA [A B C D E F RO].
  assert (M : forall x, met s x -> met s' x) by (intros x X; unfold met in *; rewrite P; destruct (Nat.eqb x o); [discriminate|auto]).
  assert (G : grows s s') by (split; [rewrite T; apply incl_refl|exact M]).
  constructor.
  - intros x X Y. rewrite Q, I, O. destruct (Nat.eq_dec x o) as [->|N]; [left; apply in_or_app; right; now left|].
    assert (Y' : met s x) by (unfold met in *; rewrite P in Y; destruct (Nat.eqb_spec x o); [contradiction|auto]).
    destruct (A x X Y') as [K|[K|K]]; auto; [left; apply in_or_app; now left|]. right; right. eapply pop_grows; eauto.
  - intros x X. rewrite U in X. eapply pop_grows; eauto.
  - intros c p it X Y. rewrite PA in X. eapply pop_grows; eauto.
  - intros x X. rewrite Q in X. apply in_app_or in X. destruct X as [X|[<-|[]]]; [auto|]. unfold met. rewrite P, Nat.eqb_refl. discriminate.
  - intros x X. rewrite I in X. auto.
  - intros x X Y. rewrite I in X. rewrite O in Y. eapply pop_grows; eauto.
  - apply M. exact RO.
Qed.
Lemma objs_pres o p s x : pres (objs (set_pres o p s) x) = if Nat.eqb x o then p else pres (objs s x).
Proof. unfold set_pres, set_ob. cbn [objs]. unfold upd. destruct (Nat.eqb x o); reflexivity. Qed.
Lemma objs_pres_op o p s x : op (objs (set_pres o p s) x) = op (objs s x).
Proof. unfold set_pres, set_ob. cbn [objs]. unfold upd. destruct (Nat.eqb_spec x o); subst; reflexivity. Qed.
Lemma objs_pres_pars o p s x : pars (objs (set_pres o p s) x) = pars (objs s x).
Proof. unfold set_pres, set_ob. cbn [objs]. unfold upd. destruct (Nat.eqb_spec x o); subst; reflexivity. Qed.
Lemma objs_ok o p s x : pres (objs (set_ok o p s) x) = pres (objs s x) /\ op (objs (set_ok o p s) x) = op (objs s x) /\ pars (objs (set_ok o p s) x) = pars (objs s x).
Proof. unfold set_ok, set_ob. cbn [objs]. unfold upd. destruct (Nat.eqb_spec x o); subst; auto. Qed.
Lemma objs_left o l s x : pres (objs (set_left o l s) x) = pres (objs s x) /\ op (objs (set_left o l s) x) = op (objs s x) /\ pars (objs (set_left o l s) x) = pars (objs s x).
Proof. unfold set_left, set_ob. cbn [objs]. unfold upd. destruct (Nat.eqb_spec x o); subst; auto. Qed.
Lemma stopped_add_query o s : stopped (add_query o s) = stopped s.
Proof. unfold add_query. cbn zeta. change (stopped (set_pres o InProgress s)) with (stopped s). destruct (stopped s) eqn:E; unfold set_queues, set_pres, set_ob; cbn [stopped]; auto. Qed.
Lemma stopped_add_upload o s : stopped (add_upload o s) = stopped s.
Proof. unfold add_upload. cbn zeta. change (stopped (set_pres o InProgress s)) with (stopped s). destruct (stopped s) eqn:E; unfold set_queues, set_pres, set_ob; cbn [stopped]; auto. Qed.
Lemma add_query_W R ex o s : stopped s = false -> WI R ex s -> WI R ex (add_query o s).
Proof.
  intros S0 H. unfold add_query. cbn zeta. change (stopped (set_pres o InProgress s)) with (stopped s). rewrite S0.
  eapply (WI_query R ex s _ o); try reflexivity; [| | |exact H]; intros x; unfold set_queues; cbn [objs].
  - apply objs_pres.
  - apply objs_pres_op.
  - apply objs_pres_pars.
Qed.
Lemma presence_error_W R ex o s : stopped s = false -> WI R ex s -> WI R ex (presence_error o s).
Proof.
  intros S0 H. unfold presence_error, add_query. cbn zeta.
  change (stopped (set_pres o InProgress (set_ok o false (set_pres o Unknown s)))) with (stopped s). rewrite S0.
  eapply (WI_query R ex s _ o); try reflexivity; [| | |exact H]; intros x; unfold set_queues; cbn [objs].
  - rewrite objs_pres. destruct (Nat.eqb x o) eqn:E; [reflexivity|]. rewrite (proj1 (objs_ok _ _ _ _)), objs_pres, E. reflexivity.
  - rewrite objs_pres_op, (proj1 (proj2 (objs_ok _ _ _ _))), objs_pres_op. reflexivity.
  - rewrite objs_pres_pars, (proj2 (proj2 (objs_ok _ _ _ _))), objs_pres_pars. reflexivity.
Qed.
(** A new upload, of an object all of whose children were met. *)
Lemma WI_upload R s s' o :
  trace s' = trace s -> qq s' = qq s -> uq s' = uq s ++ [o] -> infl s' = infl s ->
  (forall x, pres (objs s' x) = if Nat.eqb x o then InProgress else pres (objs s x)) ->
  (forall x, op (objs s' x) = op (objs s x)) -> (forall x, pars (objs s' x) = pars (objs s x)) -> pop R s o -> WI R nobody s -> WI R nobody s'.
Proof.
  intros T Q U I P O PA PO [A B C D E F RO].
  assert (M : forall x, met s x -> met s' x) by (intros x X; unfold met in *; rewrite P; destruct (Nat.eqb x o); [discriminate|auto]).
  assert (G : grows s s') by (split; [rewrite T; apply incl_refl|exact M]).
  constructor.
  - intros x X Y. rewrite Q, I, O. destruct (Nat.eq_dec x o) as [->|N]; [right; right; eapply pop_grows; eauto|].
    assert (Y' : met s x) by (unfold met in *; rewrite P in Y; destruct (Nat.eqb_spec x o); [contradiction|auto]).
    destruct (A x X Y') as [K|[K|K]]; auto. right; right. eapply pop_grows; eauto.
  - intros x X. rewrite U in X. apply in_app_or in X. destruct X as [X|[<-|[]]]; eapply pop_grows; eauto.
  - intros c p it X Y. rewrite PA in X. eapply pop_grows; eauto.
  - intros x X. rewrite Q in X. auto.
  - intros x X. rewrite I in X. auto.
  - intros x X Y. rewrite I in X. rewrite O in Y. eapply pop_grows; eauto.
  - apply M. exact RO.
Qed.
Lemma add_upload_W R o s : stopped s = false -> pop R s o -> WI R nobody s -> WI R nobody (add_upload o s).
Proof.
  intros S0 PO H. unfold add_upload. cbn zeta. change (stopped (set_pres o InProgress s)) with (stopped s). rewrite S0.
  eapply (WI_upload R s _ o); try reflexivity; [| | |exact PO|exact H]; intros x; unfold set_queues; cbn [objs].
  - apply objs_pres.
  - apply objs_pres_op.
  - apply objs_pres_pars.
Qed.
Lemma grows_upload o s : grows s (add_upload o s).
Proof.
  split.
  - unfold add_upload. cbn zeta. destruct (stopped _); apply incl_refl.
  - intros x X. unfold met in *. unfold add_upload. cbn zeta. destruct (stopped _); unfold set_queues; cbn [objs]; rewrite objs_pres; destruct (Nat.eqb x o); auto; discriminate.
Qed.
Lemma upload_error_W R o s : stopped s = false -> pop R s o -> WI R nobody s -> WI R nobody (upload_error o s).
Proof.
  intros S0 PO H. unfold upload_error, add_upload. cbn zeta.
  change (stopped (set_pres o InProgress (set_ok o false (set_pres o Missing s)))) with (stopped s). rewrite S0.
  eapply (WI_upload R s _ o); try reflexivity; [| | |exact PO|exact H]; intros x; unfold set_queues; cbn [objs].
  - rewrite objs_pres. destruct (Nat.eqb x o) eqn:E; [reflexivity|]. rewrite (proj1 (objs_ok _ _ _ _)), objs_pres, E. reflexivity.
  - rewrite objs_pres_op, (proj1 (proj2 (objs_ok _ _ _ _))), objs_pres_op. reflexivity.
  - rewrite objs_pres_pars, (proj2 (proj2 (objs_ok _ _ _ _))), objs_pres_pars. reflexivity.
Qed.
(** Telling the parents. *)
Lemma child_notify_same p it s x : pres (objs (child_notify p it s) x) = pres (objs s x) /\ op (objs (child_notify p it s) x) = op (objs s x) /\ pars (objs (child_notify p it s) x) = pars (objs s x).
Proof. unfold child_notify. destruct (existsb _ _); [apply objs_left|auto]. Qed.
Lemma child_notify_W R ex p it s : WI R ex s -> WI R ex (child_notify p it s).
Proof.
  intros H. eapply WI_ext; [| | | | | | |exact H]; try (unfold child_notify; destruct (existsb _ _); reflexivity); intros o; [|apply child_notify_same|apply child_notify_same].
  unfold met. now rewrite (proj1 (child_notify_same p it s o)).
Qed.
Lemma child_notify_grows p it s : grows s (child_notify p it s).
Proof.
  split; [unfold child_notify; destruct (existsb _ _); apply incl_refl|]. intros o. unfold met. now rewrite (proj1 (child_notify_same p it s o)).
Qed.
Lemma stopped_child p it s : stopped (child_notify p it s) = stopped s.
Proof. unfold child_notify. destruct (existsb _ _); reflexivity. Qed.
Lemma grows_trans a b c : grows a b -> grows b c -> grows a c.
Proof. intros [A B] [C D]. split; [eapply incl_tran; eauto|auto]. Qed.
Lemma grows_refl a : grows a a.
Proof. split; [apply incl_refl|auto]. Qed.
Lemma notify_one_W R s r : stopped s = false -> pop R s (fst r) -> WI R nobody s -> WI R nobody (notify_one s r) /\ grows s (notify_one s r) /\ stopped (notify_one s r) = false.
Proof.
  intros S0 PO H. unfold notify_one. cbn zeta. pose proof (child_notify_grows (fst r) (snd r) s) as G.
  pose proof (child_notify_W R nobody (fst r) (snd r) s H) as H'. assert (S1 : stopped (child_notify (fst r) (snd r) s) = false) by now rewrite stopped_child.
  destruct (left _) as [|e l]; [|auto]. split; [apply add_upload_W; auto; eapply pop_grows; eauto|]. split; [eapply grows_trans; [exact G|apply grows_upload]|].
  now rewrite stopped_add_upload.
Qed.
Lemma notify_fold_W R l : forall s, stopped s = false -> (forall r, In r l -> pop R s (fst r)) -> WI R nobody s ->
  WI R nobody (fold_left notify_one l s) /\ grows s (fold_left notify_one l s) /\ stopped (fold_left notify_one l s) = false.
Proof.
  induction l as [|r l IH]; intros s S0 P H; cbn [fold_left]; [split; [auto|split; [apply grows_refl|auto]]|].
  destruct (notify_one_W R s r S0 (P r (or_introl eq_refl)) H) as (A & B & C).
  destruct (IH (notify_one s r) C) as (D & E & F); [intros x X; eapply pop_grows; [exact B|apply P; now right]|exact A|].
  split; [exact D|]. split; [eapply grows_trans; eauto|exact F].
Qed.
Lemma notify_parents_W R o s : stopped s = false -> WI R nobody s ->
  WI R nobody (notify_parents o s) /\ grows s (notify_parents o s) /\ stopped (notify_parents o s) = false.
Proof. intros S0 H. unfold notify_parents. apply notify_fold_W; auto. intros [p it] X. eapply (w_par _ _ _ H o p it X). intros []. Qed.
(** The children of an object. *)
Lemma append_child_W R o c s : WI R (fun x => x = o) s ->
  WI R (fun x => x = o) (append_child o c s) /\ (forall x, pres (objs (append_child o c s) x) = pres (objs s x)) /\
  stopped (append_child o c s) = stopped s /\ trace (append_child o c s) = trace s /\
  (pres (objs s c) = Present \/ exists it, In (it, c) (left (objs (append_child o c s) o))) /\
  (forall e, In e (left (objs s o)) -> In e (left (objs (append_child o c s) o))).
Proof.
  intros H. unfold append_child. destruct (pres (objs s c)) eqn:P; cbn zeta.
  2: { split; [exact H|]. split; [auto|]. split; [auto|]. split; [auto|]. split; [now left|auto]. }
  all: set (s1 := set_left o _ s);
    assert (X1 : forall x, pres (objs (set_pars c (pars (objs s1 c) ++ [(o, fresh s)]) s1) x) = pres (objs s x))
      by (intros x; unfold set_pars, set_ob; cbn [objs]; unfold upd; destruct (Nat.eqb_spec x c); subst; cbn [pres]; apply objs_left);
    (split; [|split; [exact X1|split; [reflexivity|split; [reflexivity|split]]]]);
    [ | right; exists (fresh s) | intros e Ie];
    try (unfold set_fresh; cbn [objs]; unfold set_pars, set_ob; cbn [objs]; unfold upd; destruct (Nat.eqb_spec o c); subst; cbn [left];
         unfold s1, set_left, set_ob; cbn [objs]; unfold upd; rewrite Nat.eqb_refl; cbn [left]; apply in_or_app; auto; right; left; reflexivity).
  all: destruct H as [A B C D E F RO];
    assert (M : forall x, met s x <-> met (set_fresh (S (fresh s)) (set_pars c (pars (objs s1 c) ++ [(o, fresh s)]) s1)) x)
      by (intros x; unfold met; unfold set_fresh; cbn [objs]; now rewrite X1);
    assert (O : forall x, op (objs (set_fresh (S (fresh s)) (set_pars c (pars (objs s1 c) ++ [(o, fresh s)]) s1)) x) = op (objs s x))
      by (intros x; unfold set_fresh; cbn [objs]; unfold set_pars, set_ob; cbn [objs]; unfold upd; destruct (Nat.eqb_spec x c); subst; cbn [op]; apply objs_left);
    assert (G : grows s (set_fresh (S (fresh s)) (set_pars c (pars (objs s1 c) ++ [(o, fresh s)]) s1))) by (split; [apply incl_refl|intros x; apply M]);
    constructor;
    [ intros x X Y; apply M in Y; rewrite O; destruct (A x X Y) as [K|[K|K]]; auto; right; right; eapply pop_grows; eauto
    | intros x X; eapply pop_grows; eauto
    | intros d p it X Y; eapply pop_grows; [exact G|]; unfold set_fresh in X; cbn [objs] in X; unfold set_pars, set_ob in X; cbn [objs] in X; unfold upd in X;
      destruct (Nat.eqb_spec d c) as [->|N]; cbn [pars] in X;
      [ apply in_app_or in X; destruct X as [X|[X|[]]]; [unfold s1 in X; rewrite (proj2 (proj2 (objs_left _ _ _ _))) in X; eapply C; eauto|inversion X; subst; now destruct Y]
      | unfold s1 in X; rewrite (proj2 (proj2 (objs_left _ _ _ _))) in X; eapply C; eauto ]
    | intros x X; apply M; auto
    | intros x X; apply M; auto
    | intros x X Y; rewrite O in Y; eapply pop_grows; eauto
    | apply M; exact RO ].
Qed.
Lemma populate_W R o l : forall s s' b, WI R (fun x => x = o) s -> populate R o l s = (s', b) ->
  WI R (fun x => x = o) s' /\ (forall x, pres (objs s' x) = pres (objs s x)) /\ stopped s' = stopped s /\ trace s' = trace s /\
  (forall e, In e (left (objs s o)) -> In e (left (objs s' o))) /\
  (b = true -> forall c, In c l -> have R c = true /\ (pres (objs s c) = Present \/ exists it, In (it, c) (left (objs s' o)))).
Proof.
  induction l as [|c l IH]; intros s s' b H; cbn [populate].
  - intros X. injection X as <- <-. split; [exact H|]. split; [auto|]. split; [auto|]. split; [auto|]. split; [auto|]. intros _ d [].
  - destruct (have R c) eqn:Hc.
    + destruct (append_child_W R o c s H) as (A & B & C & D & E & F). intros X. destruct (IH _ _ _ A X) as (A' & B' & C' & D' & F' & E').
      split; [exact A'|]. split; [intros x; rewrite B'; apply B|]. split; [congruence|]. split; [congruence|]. split; [auto|].
      intros Eb d [<-|Id].
      * split; [exact Hc|]. destruct E as [E|[it E]]; [now left|]. right. exists it. auto.
      * destruct (E' Eb d Id) as [K1 K2]. split; [exact K1|]. destruct K2 as [K2|K2]; [left; rewrite <- B; exact K2|right; exact K2].
    + intros X. injection X as <- <-. split; [exact H|]. split; [auto|]. split; [auto|]. split; [auto|]. split; [auto|]. discriminate.
Qed.
Lemma add_query_pres o s x : pres (objs (add_query o s) x) = if Nat.eqb x o then InProgress else pres (objs s x).
Proof. unfold add_query. cbn zeta. destruct (stopped _); unfold set_queues; cbn [objs]; apply objs_pres. Qed.
Lemma add_query_trace o s : trace (add_query o s) = trace s.
Proof. unfold add_query. cbn zeta. destruct (stopped _); reflexivity. Qed.
Lemma query_fold_W R ex l : forall s, stopped s = false -> WI R ex s ->
  WI R ex (fold_left query_one l s) /\ stopped (fold_left query_one l s) = false /\ grows s (fold_left query_one l s) /\
  (forall e, In e l -> met (fold_left query_one l s) (snd e)).
Proof.
  induction l as [|e l IH]; intros s S0 H; cbn [fold_left]; [split; [exact H|split; [exact S0|split; [apply grows_refl|intros e []]]]|].
  assert (K : WI R ex (query_one s e) /\ stopped (query_one s e) = false /\ grows s (query_one s e) /\ met (query_one s e) (snd e)).
  { unfold query_one. destruct (pres (objs s (snd e))) eqn:P.
    2,3,4: (split; [exact H|split; [exact S0|split; [apply grows_refl|unfold met; rewrite P; discriminate]]]).
    split; [now apply add_query_W|]. split; [now rewrite stopped_add_query|]. split.
    - split; [rewrite add_query_trace; apply incl_refl|]. intros x X. unfold met in *. rewrite add_query_pres. destruct (Nat.eqb x (snd e)); [discriminate|auto].
    - unfold met. rewrite add_query_pres, Nat.eqb_refl. discriminate. }
  destruct K as (A & B & C & D). destruct (IH _ B A) as (A' & B' & C' & D'). split; [exact A'|]. split; [exact B'|]. split; [eapply grows_trans; eauto|].
  intros x [<-|X]; [apply C'; exact D|now apply D'].
Qed.
Lemma WI_close R o s : pop R s o -> WI R (fun x => x = o) s -> WI R nobody s.
Proof.
  intros P [A B C D E F RO]. constructor; auto.
  - intros x _ Y. destruct (Nat.eq_dec x o) as [->|N]; auto.
  - intros c p it X _. destruct (Nat.eq_dec p o) as [->|N]; eauto.
Qed.
Lemma check_children_W R o code s : stopped s = false -> met s o -> asked s o -> WI R (fun x => x = o) s -> W R (check_children R o code s).
Proof.
  intros S0 M AS H. unfold check_children. destruct (populate R o (kids R o) s) as [s1 b] eqn:P.
  destruct (populate_W R o (kids R o) s s1 b H P) as (A & B & C & D & _ & F). destruct b; [|left; reflexivity].
  assert (S1 : stopped s1 = false) by congruence. assert (M1 : met s1 o) by (unfold met in *; now rewrite B).
  assert (A1 : asked s1 o) by (unfold asked; now rewrite D). destruct (left (objs s1 o)) as [|e l] eqn:L.
  - assert (PO : pop R s1 o).
    { split; [exact M1|]. split; [exact A1|]. intros c Ic. destruct (F eq_refl c Ic) as [F1 [F2|[it []]]]. split; [exact F1|]. unfold met. rewrite B, F2. discriminate. }
    right. apply (WI_close R o) in A; [|exact PO]. destruct (code =? 200); [exact A|]. now apply add_upload_W.
  - right. unfold query_children. destruct (query_fold_W R (fun x => x = o) (left (objs s1 o)) s1 S1 A) as (A' & B' & C' & D').
    apply (WI_close R o); [|exact A']. split; [now apply C'|]. split; [destruct A1 as [X|X]; [left|right]; now apply C'|].
    intros c Ic. destruct (F eq_refl c Ic) as [F1 F2]. split; [exact F1|]. destruct F2 as [F2|[it F2]]; [apply C'; unfold met; rewrite B, F2; discriminate|].
    apply (D' (it, c)). now rewrite L.
Qed.

(** An answer. *)
Lemma in_rm x o l : In x (rm o l) <-> In x l /\ x <> o.
Proof. unfold rm. rewrite filter_In. split; intros [A B]; (split; [exact A|]). - intros ->. now rewrite Nat.eqb_refl in B. - destruct (Nat.eqb_spec x o); [contradiction|reflexivity]. Qed.
Lemma emit_W R ex e s : WI R ex s -> WI R ex (emit e s).
Proof.
  intros [A B C D E F RO]. assert (G : grows s (emit e s)) by (split; [intros x X; apply in_or_app; now left|auto]). constructor.
  - intros o X Y. destruct (A o X Y) as [K|[K|K]]; auto. right; right. eapply pop_grows; eauto.
  - intros o X. eapply pop_grows; eauto.
  - intros c p it X Y. eapply pop_grows; eauto.
  - exact D.
  - exact E.
  - intros o X Y. eapply pop_grows; eauto.
  - exact RO.
Qed.
Lemma mark_W R ex o p r s : p <> Unknown -> met s o -> WI R ex s -> WI R ex (set_ok o r (set_pres o p s)).
Proof.
  intros P M H. apply (WI_ext R ex s); [reflexivity| |reflexivity|reflexivity|reflexivity| | |exact H]; intros x.
  - unfold met. rewrite (proj1 (objs_ok _ _ _ _)), objs_pres. destruct (Nat.eqb_spec x o) as [->|N]; [|tauto]. split; auto.
  - now rewrite (proj1 (proj2 (objs_ok _ _ _ _))), objs_pres_op.
  - now rewrite (proj2 (proj2 (objs_ok _ _ _ _))), objs_pres_pars.
Qed.
Lemma gone_W R o s : WI R nobody s -> WI R (fun x => x = o) (set_queues (qq s) (uq s) (rm o (infl s)) s).
Proof.
  intros [A B C D E F RO]. constructor; cbn [qq uq infl objs set_queues]; auto.
  - intros x X Y. destruct (A x (fun f => f) Y) as [K|[[K1 K2]|K]]; auto. right; left. split; [apply in_rm; auto|exact K2].
  - intros c p it X _. exact (C c p it X (fun f => f)).
  - intros x X. apply in_rm in X. now apply E.
  - intros x X Y. apply in_rm in X. now apply F.
Qed.
Lemma gone_post_W R o s : op (objs s o) = OpPost -> WI R nobody s -> WI R nobody (set_queues (qq s) (uq s) (rm o (infl s)) s).
Proof.
  intros P [A B C D E F RO]. constructor; cbn [qq uq infl objs set_queues]; auto.
  - intros x _ Y. destruct (A x (fun f => f) Y) as [K|[[K1 K2]|K]]; auto. right; left. split; [apply in_rm; split; [exact K1|intros ->; congruence]|exact K2].
  - intros x X. apply in_rm in X. now apply E.
  - intros x X Y. apply in_rm in X. now apply F.
Qed.
Lemma presence_error_close R o s : stopped s = false -> WI R (fun x => x = o) s -> (forall c it, In (o, it) (pars (objs s c)) -> pop R s o) -> WI R nobody (presence_error o s).
Proof.
  intros S0 H P. pose proof (presence_error_W R (fun x => x = o) o s S0 H) as [A B C D E F RO].
  assert (Q : In o (qq (presence_error o s))).
  { unfold presence_error, add_query. cbn zeta. change (stopped (set_pres o InProgress (set_ok o false (set_pres o Unknown s)))) with (stopped s). rewrite S0.
    unfold set_queues. cbn [qq]. apply in_or_app. right. now left. }
  assert (PR : forall x, pres (objs (presence_error o s) x) = if Nat.eqb x o then InProgress else pres (objs s x)).
  { intros x. unfold presence_error. rewrite add_query_pres. destruct (Nat.eqb x o) eqn:Ex; [reflexivity|]. now rewrite (proj1 (objs_ok _ _ _ _)), objs_pres, Ex. }
  assert (G : grows s (presence_error o s)).
  { split; [unfold presence_error; rewrite add_query_trace; apply incl_refl|]. intros x X. unfold met in *. rewrite PR. destruct (Nat.eqb x o); [discriminate|auto]. }
  constructor; auto.
  - intros x _ Y. destruct (Nat.eq_dec x o) as [->|N]; auto.
  - intros c p it X _. destruct (Nat.eq_dec p o) as [->|N]; [|eauto]. eapply pop_grows; [exact G|]. apply (P c it).
    unfold presence_error, add_query in X. cbn zeta in X. destruct (stopped _) in X; unfold set_queues in X; cbn [objs] in X;
      rewrite objs_pres_pars, (proj2 (proj2 (objs_ok _ _ _ _))), objs_pres_pars in X; exact X.
Qed.
Lemma curl_done_W R m o code url s : m = MWalkTree \/ m = MPushTree -> stopped s = false -> In o (infl s) -> WI R nobody s -> W R (curl_done R m o code url s).
Proof.
  intros Mm S0 Io H. unfold curl_done. cbn zeta. cbn [objs set_queues]. destruct (op (objs s o)) eqn:O.
  - pose proof (emit_W R _ (THeadAns o code url) _ (gone_W R o s H)) as H1. set (s1 := emit _ _) in *.
    assert (M1 : met s1 o) by (exact (w_infl _ _ _ H o Io)). assert (S1 : stopped s1 = false) by exact S0.
    assert (PE : W R (presence_error o s1)).
    { right. apply presence_error_close; [exact S1|exact H1|]. intros c it X. apply (pop_grows R s); [split; [intros x X'; apply in_or_app; now left|auto]|].
      exact (w_par _ _ _ H c o it X (fun f => f)). }
    destruct url; cbn [negb]; [|exact PE]. destruct (code =? 200) eqn:C2.
    + apply Z.eqb_eq in C2. subst code.
      assert (X : W R (check_children R o 200 (set_ok o true (set_pres o Present s1)))).
      { apply check_children_W; [exact S1| |left; apply in_or_app; right; now left|apply mark_W; [discriminate|exact M1|exact H1]].
        unfold met. rewrite (proj1 (objs_ok _ _ _ _)), objs_pres, Nat.eqb_refl. discriminate. }
      destruct Mm as [-> | ->]; exact X.
    + destruct (code =? 404) eqn:C4; [|exact PE]. apply Z.eqb_eq in C4. subst code.
      apply check_children_W; [exact S1| |right; apply in_or_app; right; now left|apply mark_W; [discriminate|exact M1|exact H1]].
      unfold met. rewrite (proj1 (objs_ok _ _ _ _)), objs_pres, Nat.eqb_refl. discriminate.
  - pose proof (emit_W R _ (TPostAns o code url) _ (gone_post_W R o s O H)) as H1.
    assert (PO : pop R (emit (TPostAns o code url) (set_queues (qq s) (uq s) (rm o (infl s)) s)) o).
    { apply (pop_grows R s); [split; [intros x X'; apply in_or_app; now left|auto]|]. exact (w_post _ _ _ H o Io O). }
    set (s1 := emit _ _) in *. assert (S1 : stopped s1 = false) by exact S0. right. destruct url; cbn [negb]; [|now apply upload_error_W].
    destruct ((code =? 204) || (code =? 409)); [|now apply upload_error_W].
    apply notify_parents_W; [exact S1|]. apply mark_W; [discriminate|exact (proj1 PO)|exact H1].
Qed.
Lemma listen_one_W R m s a : m = MWalkTree \/ m = MPushTree -> W R s -> W R (listen_one R m s a).
Proof.
  intros Mm [S0|H]; destruct a as [[[o code] url] now]; unfold listen_one.
  - (* stopped already *)
    destruct (existsb (Nat.eqb o) (infl s)); [|now left]. cbn zeta.
    left. assert (K : stopped (curl_done R m o code url s) = true).
    { pose proof (stopped_curl_done R m o code url s) as X. auto. }
    destruct (server_has_failed _); [reflexivity|exact K].
  - destruct (stopped s) eqn:S0; [left|].
    + destruct (existsb (Nat.eqb o) (infl s)); [|exact S0]. cbn zeta. assert (K : stopped (curl_done R m o code url s) = true) by (pose proof (stopped_curl_done R m o code url s) as X; auto).
      destruct (server_has_failed _); [reflexivity|exact K].
    + destruct (existsb (Nat.eqb o) (infl s)) eqn:I; [|now right]. apply existsb_exists in I. destruct I as (o' & I & E). apply Nat.eqb_eq in E. subst o'.
      cbn zeta. pose proof (curl_done_W R m o code url s Mm S0 I H) as K. destruct (server_has_failed _); [left; reflexivity|].
      destruct K as [K|K]; [left; exact K|right; destruct K; constructor; auto].
Qed.

(** Launching. *)
Lemma test_request_W R t o q s : qq s = o :: q -> WI R nobody s -> WI R nobody (make_test_request t o (set_queues q (uq s) (infl s) s)).
Proof.
  intros Eq [A B C D E F RO]. unfold make_test_request. cbn zeta.
  assert (K : forall b : bool, WI R nobody (emit (THead o) (set_op o OpHead t (set_queues q (uq s) (infl s ++ [o]) (if b then set_bad s else s))))).
  { intros b. set (s' := emit _ _).
    assert (PR : forall x, pres (objs s' x) = pres (objs s x)).
    { intros x. unfold s', emit, set_op, set_ob; cbn [objs]. unfold upd. destruct (Nat.eqb_spec x o); subst; cbn [pres]; destruct b; reflexivity. }
    assert (PA : forall x, pars (objs s' x) = pars (objs s x)).
    { intros x. unfold s', emit, set_op, set_ob; cbn [objs]. unfold upd. destruct (Nat.eqb_spec x o); subst; cbn [pars]; destruct b; reflexivity. }
    assert (OP : forall x, op (objs s' x) = if Nat.eqb x o then OpHead else op (objs s x)).
    { intros x. unfold s', emit, set_op, set_ob; cbn [objs]. unfold upd. destruct (Nat.eqb x o); [reflexivity|]. destruct b; reflexivity. }
    assert (G : grows s s') by (split; [intros x X; unfold s', emit; cbn [trace]; apply in_or_app; left; destruct b; exact X|intros x X; unfold met; now rewrite PR]).
    assert (IF : infl s' = infl s ++ [o]) by (unfold s'; destruct b; reflexivity). assert (QQ : qq s' = q) by (unfold s'; destruct b; reflexivity).
    assert (UU : uq s' = uq s) by (unfold s'; destruct b; reflexivity).
    constructor.
    - intros x _ Y. unfold met in Y. rewrite PR in Y. rewrite QQ, IF, OP. destruct (Nat.eqb_spec x o) as [->|N].
      + right; left. split; [apply in_or_app; right; now left|reflexivity].
      + destruct (A x (fun f => f) Y) as [K|[[K1 K2]|K]]; [left; rewrite Eq in K; destruct K; congruence| |right; right; eapply pop_grows; eauto].
        right; left. split; [apply in_or_app; now left|exact K2].
    - intros x X. rewrite UU in X. eapply pop_grows; eauto.
    - intros c p it X Y. rewrite PA in X. eapply pop_grows; eauto.
    - intros x X. rewrite QQ in X. apply G. apply D. rewrite Eq. now right.
    - intros x X. rewrite IF in X. apply G. apply in_app_or in X. destruct X as [X|[<-|[]]]; auto. apply D. rewrite Eq. now left.
    - intros x X Y. rewrite OP in Y. destruct (Nat.eqb_spec x o); [discriminate|]. rewrite IF in X. apply in_app_or in X.
      destruct X as [X|[<-|[]]]; [|congruence]. eapply pop_grows; eauto.
    - apply G. exact RO. }
  specialize (K (existsb (Nat.eqb o) (infl s))). cbn [infl set_queues]. destruct (existsb (Nat.eqb o) (infl s)); exact K.
Qed.
Lemma upload_W R m t o u s : m = MWalkTree \/ m = MPushTree -> stopped s = false -> qq s = [] -> uq s = o :: u -> WI R nobody s ->
  WI R nobody (let s := upload m t o (set_queues [] u (infl s) s) in match m with MDryRun | MWalkTree => notify_parents o s | _ => s end).
Proof.
  intros Mm S0 Eq Eu H. pose proof H as [A B C D E F RO]. assert (PO : pop R s o) by (apply B; rewrite Eu; now left). cbn zeta.
  assert (H1 : WI R nobody (set_queues [] u (infl s) s)).
  { constructor; auto; cbn [qq uq infl objs set_queues].
    - intros x X Y. destruct (A x X Y) as [K|[K|K]]; auto. rewrite Eq in K. destruct K.
    - intros x X. exact (B x ltac:(rewrite Eu; now right)).
    - intros x []. }
  destruct Mm as [-> | ->]; cbn [upload].
  - apply notify_parents_W; [exact S0|].
    apply (WI_ext R nobody (set_queues [] u (infl s) s)); [reflexivity| |reflexivity|reflexivity|reflexivity| | |exact H1]; intros x.
    + unfold met. rewrite objs_pres. destruct (Nat.eqb_spec x o) as [->|N]; [|tauto]. split; [discriminate|]. intros _. exact (proj1 PO).
    + apply objs_pres_op.
    + apply objs_pres_pars.
  - cbn zeta. assert (K : forall b : bool, WI R nobody (emit (TPost o) (set_op o OpPost t (set_queues [] u (infl s ++ [o]) (if b then set_bad s else s))))).
    { intros b. set (s' := emit _ _).
      assert (PR : forall x, pres (objs s' x) = pres (objs s x)).
      { intros x. unfold s', emit, set_op, set_ob; cbn [objs]. unfold upd. destruct (Nat.eqb_spec x o); subst; cbn [pres]; destruct b; reflexivity. }
      assert (PA : forall x, pars (objs s' x) = pars (objs s x)).
      { intros x. unfold s', emit, set_op, set_ob; cbn [objs]. unfold upd. destruct (Nat.eqb_spec x o); subst; cbn [pars]; destruct b; reflexivity. }
      assert (OP : forall x, op (objs s' x) = if Nat.eqb x o then OpPost else op (objs s x)).
      { intros x. unfold s', emit, set_op, set_ob; cbn [objs]. unfold upd. destruct (Nat.eqb x o); [reflexivity|]. destruct b; reflexivity. }
      assert (G : grows s s') by (split; [intros x X; unfold s', emit; cbn [trace]; apply in_or_app; left; destruct b; exact X|intros x X; unfold met; now rewrite PR]).
      assert (IF : infl s' = infl s ++ [o]) by (unfold s'; destruct b; reflexivity). assert (QQ : qq s' = []) by (unfold s'; destruct b; reflexivity).
      assert (UU : uq s' = u) by (unfold s'; destruct b; reflexivity).
      constructor.
      - intros x _ Y. unfold met in Y. rewrite PR in Y. rewrite IF, OP. destruct (Nat.eqb_spec x o) as [->|N]; [right; right; eapply pop_grows; eauto|].
        destruct (A x (fun f => f) Y) as [K|[[K1 K2]|K]]; [rewrite Eq in K; destruct K| |right; right; eapply pop_grows; eauto].
        right; left. split; [apply in_or_app; now left|exact K2].
      - intros x X. rewrite UU in X. eapply pop_grows; [exact G|]. apply B. rewrite Eu. now right.
      - intros c p it X Y. rewrite PA in X. eapply pop_grows; eauto.
      - intros x X. rewrite QQ in X. destruct X.
      - intros x X. rewrite IF in X. apply G. apply in_app_or in X. destruct X as [X|[<-|[]]]; auto. exact (proj1 PO).
      - intros x X Y. rewrite OP in Y. destruct (Nat.eqb_spec x o) as [->|N]; [eapply pop_grows; eauto|]. rewrite IF in X. apply in_app_or in X.
        destruct X as [X|[<-|[]]]; [|congruence]. eapply pop_grows; eauto.
      - apply G. exact RO. }
    specialize (K (existsb (Nat.eqb o) (infl s))). cbn [infl set_queues]. destruct (existsb (Nat.eqb o) (infl s)); exact K.
Qed.
Lemma launch_one_stopped m t s : m = MWalkTree \/ m = MPushTree -> stopped s = true -> stopped (launch_one m t s) = true.
Proof.
  intros Mm S0. unfold launch_one. destruct (qq s).
  - destruct (uq s); [exact S0|]. cbn zeta. destruct Mm as [-> | ->]; cbn [upload].
    + apply stopped_notify. exact S0.
    + destruct (existsb _ _); exact S0.
  - unfold make_test_request. cbn zeta. destruct (existsb _ _); exact S0.
Qed.
Lemma launch_one_W R m t s : m = MWalkTree \/ m = MPushTree -> W R s -> W R (launch_one m t s).
Proof.
  intros Mm H. destruct (stopped s) eqn:S0; [left; now apply launch_one_stopped|]. destruct H as [H|H]; [congruence|]. right.
  unfold launch_one. destruct (qq s) as [|o q] eqn:Eq; [|now apply test_request_W]. destruct (uq s) as [|o u] eqn:Eu; [exact H|].
  now apply upload_W.
Qed.
Lemma running_W R n s : W R s -> W R (set_running n s).
Proof. intros [H|H]; [left; exact H|right; destruct H; constructor; auto]. Qed.
Lemma launch_loop_W R m t n : m = MWalkTree \/ m = MPushTree -> forall s, W R s -> W R (launch_loop n m t s).
Proof.
  intros Mm. induction n as [|n IH]; intros s H; cbn [launch_loop]; [exact H|]. destruct (nothing_queued s); [exact H|]. cbn zeta.
  apply IH. apply running_W. now apply launch_one_W.
Qed.
Lemma loop_W R m e s : m = MWalkTree \/ m = MPushTree -> W R s -> W R (loop R m e s).
Proof.
  intros Mm H. unfold loop, loop_listen. generalize (snd e). intros l.
  assert (H1 : W R (loop_launch m (fst e) s)) by now apply launch_loop_W. revert H1. generalize (loop_launch m (fst e) s). intros s1 H1.
  apply (running_W R (Z.of_nat (List.length (infl s1)) - Z.of_nat (List.length (completes s1 l)))) in H1. revert H1.
  generalize (set_running (Z.of_nat (List.length (infl s1)) - Z.of_nat (List.length (completes s1 l))) s1).
  induction l as [|a l IH]; intros s2 H2; cbn [fold_left]; [exact H2|]. apply IH. now apply listen_one_W.
Qed.
Lemma rounds_W R m root l : m = MWalkTree \/ m = MPushTree -> forall s, W R s -> W R (fst (rounds R m root l s)).
Proof.
  intros Mm. induction l as [|e l IH]; intros s H; cbn [rounds]; [exact H|]. cbn zeta. destruct (check_pool_state _ _ _); [apply IH|cbn [fst]]; now apply loop_W.
Qed.
End Walk.

Lemma start_W R cap root : W root R (add_query root (pool0 cap)).
Proof.
  right. unfold add_query. cbn zeta. change (stopped (set_pres root InProgress (pool0 cap))) with false. cbv iota.
  constructor; unfold set_queues; cbn [qq uq infl objs pool0 set_pres set_ob app].
  - intros o _ M. left. destruct (Nat.eq_dec root o) as [E|N]; [now left|]. exfalso. unfold met in M. cbn [objs] in M. apply M.
    unfold upd. destruct (Nat.eqb_spec o root); [congruence|reflexivity].
  - intros o [].
  - intros c p it X. unfold upd in X. destruct (Nat.eqb c root); destruct X.
  - intros o [<-|[]]. unfold met. cbn [objs]. unfold upd. rewrite Nat.eqb_refl. discriminate.
  - intros o [].
  - intros o [].
  - unfold met. cbn [objs]. unfold upd. rewrite Nat.eqb_refl. discriminate.
Qed.
(** A walk that was not stopped has met everything: it exists, and the server said whether it has it. *)
Theorem walked R m cap root l s : m = MWalkTree \/ m = MPushTree -> push_run R m cap root l = (s, true) -> stopped s = false ->
  forall o, reachable R root o -> (o = root \/ have R o = true) /\ (In (THeadAns o 200 true) (trace s) \/ In (THeadAns o 404 true) (trace s)).
Proof.
  intros Mm H S0 o RC. destruct (tree_ends R m cap root l s Mm H) as [X|(_ & Q & U)]; [congruence|].
  assert (N : infl s = []).
  { assert (C : check_pool_state m root s = false).
    { unfold push_run in H. pose proof (rounds_end R m root l (add_query root (pool0 cap))) as X. rewrite H in X. now apply X. }
    assert (N : running s = Z.of_nat (List.length (infl s))).
    { unfold push_run in H. destruct (rounds_last R m root l (add_query root (pool0 cap))) as (e & s0 & X); [now rewrite H|]. rewrite H in X. cbn [fst] in X. rewrite X. apply loop_running. }
    assert (C' : negb (stopped s) && negb (is_idle s) = false) by (destruct Mm as [-> | ->]; exact C). rewrite S0 in C'. cbn [negb andb] in C'.
    apply negb_false_iff in C'. unfold is_idle in C'. apply andb_true_iff in C'. destruct C' as [_ C2]. apply Z.eqb_eq in C2.
    destruct (infl s); [reflexivity|cbn [List.length] in N; lia]. }
  assert (I : W root R s).
  { pose proof (rounds_W root R m root l Mm _ (start_W R cap root)) as X. unfold push_run in H. now rewrite H in X. }
  destruct I as [I|I]; [congruence|].
  assert (P : forall x, met s x -> pop R s x).
  { intros x M. destruct (w_met _ _ _ _ I x (fun f => f) M) as [K|[[K _]|K]]; [rewrite Q in K; destruct K|rewrite N in K; destruct K|exact K]. }
  assert (M : (o = root \/ have R o = true) /\ met s o).
  { induction RC as [|x c RC IH K]; [split; [now left|apply (w_root _ _ _ _ I)]|]. destruct IH as [_ IH]. destruct (P x IH) as (_ & _ & Z). destruct (Z c K). auto. }
  destruct M as [M1 M2]. split; [exact M1|]. exact (proj1 (proj2 (P o M2))).
Qed.
