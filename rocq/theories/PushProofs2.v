(** What the server has reported: invariant of the upload pool. *)
From Verif Require Import Base RateModel PushModel PushSpec PushProofs.
From Coq Require Import Lia Permutation.

Definition good_head (tr : list tev) (o : obj) : Prop := In (THeadAns o 200 true) tr \/ In (THeadAns o 404 true) tr.
Definition kids_reported (R : repo) (tr : list tev) (o : obj) : Prop := forall k, In k (kids R o) -> reported tr k.
Definition populated (R : repo) (s : pool) (p : obj) : Prop := forall k, In k (kids R p) -> reported (trace s) k \/ In k (map snd (left (objs s p))).

Record TInv (R : repo) (ex : obj -> Prop) (s : pool) : Prop := {
  t_present : forall o, pres (objs s o) = Present -> reported (trace s) o;
  t_pop : forall c p it, In (p, it) (pars (objs s c)) -> ex p \/ stopped s = true \/ populated R s p;
  t_up : forall o, In o (uq s) \/ (In o (infl s) /\ op (objs s o) = OpPost) -> kids_reported R (trace s) o;
  t_ord : ordered R (trace s);
  t_head : forall o, In o (qq s) \/ (In o (infl s) /\ op (objs s o) = OpHead) \/ pres (objs s o) = Unknown -> ~ good_head (trace s) o;
  t_once : forall o, ~ (In (THeadAns o 200 true) (trace s) /\ In (THeadAns o 404 true) (trace s));
  t_sent : forall o, (exists c u, In (TPostAns o c u) (trace s)) \/ (In o (infl s) /\ op (objs s o) = OpPost) -> In (TPost o) (trace s) }.

Lemma reported_mono tr e o : reported tr o -> reported (tr ++ [e]) o.
Proof. unfold reported. rewrite !in_app_iff. tauto. Qed.
Lemma kids_mono R tr e o : kids_reported R tr o -> kids_reported R (tr ++ [e]) o.
Proof. intros H k K. apply reported_mono; auto. Qed.
Lemma ordered_snoc R tr e : ordered R tr -> (forall o, e = TPost o -> kids_reported R tr o) -> ordered R (tr ++ [e]).
Proof.
  intros H K l1 o l2 E c C. destruct l2 as [|x l2] using rev_ind.
  - apply app_inj_tail in E. destruct E as [<- E]. apply (K o E c C).
  - clear IHl2. rewrite app_comm_cons, app_assoc in E. apply app_inj_tail in E. destruct E as [E _]. exact (H l1 o l2 E c C).
Qed.

(** States with the same content of everything that matters here. *)
Definition same_T (s s' : pool) : Prop :=
  (forall x, pres (objs s' x) = pres (objs s x)) /\ (forall x, left (objs s' x) = left (objs s x)) /\ (forall x, pars (objs s' x) = pars (objs s x)) /\ (forall x, op (objs s' x) = op (objs s x)) /\
  qq s' = qq s /\ uq s' = uq s /\ infl s' = infl s /\ stopped s' = stopped s /\ trace s' = trace s.
Lemma same_T_T R ex s s' : same_T s s' -> TInv R ex s -> TInv R ex s'.
Proof.
  intros (A & B & C & D & E & F & G & H & I) [].
  constructor; rewrite ?I; auto.
  - intros o. rewrite A. auto.
  - intros c p it X. rewrite C in X. unfold populated. rewrite H, I. destruct (t_pop0 _ _ _ X) as [Y|[Y|Y]]; auto. right; right. intros k K. rewrite B. auto.
  - intros o. rewrite F, G, D. auto.
  - intros o. rewrite E, G, D, A. auto.
  - intros o. rewrite G, D. auto.
Qed.
Lemma sameT_running n s : same_T s (set_running n s). Proof. repeat split. Qed.
Lemma sameT_rc r s : same_T s (set_rc r s). Proof. repeat split. Qed.
Lemma sameT_ok o r s : same_T s (set_ok o r s).
Proof. repeat split; intros; autorewrite with pv; auto. Qed.

Lemma set_pres_T R ex o p s : TInv R ex s -> (p = Present -> reported (trace s) o) -> (p = Unknown -> ~ good_head (trace s) o) -> TInv R ex (set_pres o p s).
Proof.
  intros [] P U. constructor; auto.
  - intros x. rewrite pres_set_pres. destruct (Nat.eqb_spec x o) as [->|]; auto.
  - intros c q it. rewrite pars_set_pres. intros X. destruct (t_pop0 _ _ _ X) as [Y|[Y|Y]]; auto. right; right. intros k K. rewrite left_set_pres. apply Y; auto.
  - intros x. rewrite op_set_pres. apply t_up0.
  - intros x. rewrite op_set_pres, pres_set_pres. destruct (Nat.eqb_spec x o) as [->|]; [|apply t_head0].
    intros [X|[X|X]]; [apply t_head0; auto|apply t_head0; auto|apply U; auto].
  - intros x. rewrite op_set_pres. apply t_sent0.
Qed.
Lemma add_upload_T R ex o s : TInv R ex s -> stopped s = true \/ kids_reported R (trace s) o -> TInv R ex (add_upload o s).
Proof.
  intros I K. unfold add_upload. cbv zeta.
  assert (I1 : TInv R ex (set_pres o InProgress s)) by (apply set_pres_T; auto; discriminate).
  change (stopped (set_pres o InProgress s)) with (stopped s). destruct (stopped s) eqn:E; auto. destruct K as [|K]; [discriminate|].
  destruct I1. constructor; auto.
  intros x. cbn [set_queues uq infl objs trace]. rewrite in_app_iff. cbn [In]. intros [[X|[<-|[]]]|X]; auto.
Qed.
Lemma add_query_T R ex o s : TInv R ex s -> ~ good_head (trace s) o -> TInv R ex (add_query o s).
Proof.
  intros I K. unfold add_query. cbv zeta.
  assert (I1 : TInv R ex (set_pres o InProgress s)) by (apply set_pres_T; auto; discriminate).
  change (stopped (set_pres o InProgress s)) with (stopped s). destruct (stopped s) eqn:E; auto.
  destruct I1. constructor; auto.
  intros x. cbn [set_queues qq infl objs trace]. rewrite in_app_iff. cbn [In]. intros [[X|[<-|[]]]|X]; auto.
Qed.
Lemma abort_T R ex ex' s : TInv R ex s -> TInv R ex' (abort s).
Proof.
  intros []. constructor; auto.
  - intros o [F|X]; [exact (False_ind _ F)|auto].
  - intros o [F|X]; [exact (False_ind _ F)|auto].
Qed.

(** NotifyParents *)
Lemma notify_one_T R ex o p it r s : NPre o ((p, it) :: r) s -> TInv R ex s -> ~ ex p -> TInv R ex (notify_one s (p, it)).
Proof.
  intros P T NE. rewrite (notify_one_eq _ _ _ _ _ P). destruct (notify_facts _ _ _ _ _ P) as (Npo & NQ & Lp & Inp & Own). cbv zeta.
  set (s1 := set_left p _ s).
  assert (Ro : reported (trace s) o) by (apply (t_present _ _ _ T); apply P).
  assert (PP : stopped s = true \/ populated R s1 p).
  { destruct (t_pop _ _ _ T _ _ _ Inp) as [X|[X|X]]; [contradiction|auto|right]. intros k K. unfold s1. rewrite left_set_left, Nat.eqb_refl.
    destruct (X k K) as [Y|Y]; auto. apply in_map_iff in Y. destruct Y as ([i c] & <- & Y). cbn [snd].
    destruct (Nat.eq_dec i it) as [E|E].
    - left. rewrite (Own c i Y E). exact Ro.
    - right. apply in_map_iff. exists (i, c). split; auto. apply in_drop. auto. }
  assert (T1 : TInv R ex s1).
  { destruct T. unfold s1. constructor; auto.
    - intros x. rewrite pres_set_left. apply t_present0.
    - intros c q i. rewrite pars_set_left. intros X. destruct (Nat.eq_dec q p) as [->|Nq].
      + right. exact PP.
      + destruct (t_pop0 _ _ _ X) as [Y|[Y|Y]]; auto. right; right. intros k K. rewrite left_set_left. apply Nat.eqb_neq in Nq. rewrite Nq. auto.
    - intros x. rewrite op_set_left. apply t_up0.
    - intros x. rewrite op_set_left, pres_set_left. apply t_head0.
    - intros x. rewrite op_set_left. apply t_sent0. }
  destruct (drop_it it (left (objs s p))) as [|e l] eqn:D; auto.
  apply add_upload_T; auto. destruct PP as [X|X]; [auto|right]. intros k K. destruct (X k K) as [Y|Y]; auto.
  exfalso. unfold s1 in Y. rewrite left_set_left, Nat.eqb_refl in Y. contradiction.
Qed.
Lemma notify_fold_T R o r : forall s, NPre o r s -> TInv R nob s -> TInv R nob (fold_left notify_one r s).
Proof.
  induction r as [|[p it] r IH]; intros s P T; cbn [fold_left]; auto. apply IH; [now apply notify_one_step in P|].
  eapply notify_one_T; eauto.
Qed.

(** PopulateChildren *)
Lemma append_child_T R o c s : TInv R (eq o) s -> TInv R (eq o) (append_child o c s).
Proof.
  intros []. destruct (append_child_view o c s) as (Vp & Vo & VQ & Vq & Vu & Vi & Vt & Vs & _ & Vl & _ & Vpar & _).
  constructor; rewrite ?Vt; auto.
  - intros x. rewrite Vp. auto.
  - intros x p it X. destruct (Vpar _ _ _ X) as [Y| ->]; auto. destruct (t_pop0 _ _ _ Y) as [Z|[Z|Z]]; [auto|rewrite Vs; auto|].
    right; right. intros k K. rewrite Vt. destruct (Z k K) as [W|W]; auto. right.
    apply in_map_iff in W. destruct W as (e & <- & W). apply in_map. auto.
  - intros x. rewrite Vu, Vi, Vo. auto.
  - intros x. rewrite Vq, Vi, Vo, Vp. auto.
  - intros x. rewrite Vi, Vo. auto.
Qed.
Lemma populate_T R o l : forall s, TInv R (eq o) s ->
  let (s', ok) := populate R o l s in
  TInv R (eq o) s' /\ trace s' = trace s /\ stopped s' = stopped s /\ qq s' = qq s /\ uq s' = uq s /\ infl s' = infl s /\ (forall x, pres (objs s' x) = pres (objs s x)) /\
  (forall x, op (objs s' x) = op (objs s x)) /\ rc s' = rc s /\
  (forall x e, In e (left (objs s x)) -> In e (left (objs s' x))) /\
  (forall x e, In e (left (objs s' x)) -> In e (left (objs s x)) \/ (x = o /\ In (snd e) l /\ pres (objs s (snd e)) <> Present)) /\
  (ok = true -> forall k, In k l -> reported (trace s) k \/ In k (map snd (left (objs s' o)))).
Proof.
  induction l as [|c l IH]; intros s T; cbn [populate].
  { do 10 (split; [now auto|]). split; auto. intros _ k []. }
  destruct (have R c).
  2:{ do 10 (split; [now auto|]). split; auto. discriminate. }
  destruct (append_child_view o c s) as (Vp & Vo & VQ & Vq & Vu & Vi & Vt & Vs & Vr & Vl & Vl2 & Vpar & Vc).
  specialize (IH _ (append_child_T R o c s T)).
  destruct (populate R o l (append_child o c s)) as [s' ok].
  destruct IH as (A & B & C & D & E & F & G & H & Hr & I & I2 & J).
  split; auto. split; [congruence|]. split; [congruence|]. split; [congruence|]. split; [congruence|]. split; [congruence|].
  split; [intros x; rewrite G; auto|]. split; [intros x; rewrite H; auto|]. split; [congruence|]. split; [auto|]. split.
  { intros x e X. destruct (I2 x e X) as [Y|(-> & Y & Z)].
    - destruct (Vl2 x e Y) as [W|(-> & <- & W)]; auto. right. split; auto. split; [left; auto|auto].
    - right. split; auto. split; [right; auto|]. rewrite <- Vp. auto. }
  intros O k [<-|K].
  - destruct Vc as [Vc|Vc]; [left; apply (t_present _ _ _ T); auto|right].
    apply in_map_iff in Vc. destruct Vc as (e & Ee & Vc). rewrite <- Ee. apply in_map. auto.
  - destruct (J O k K) as [X|X]; auto. left. congruence.
Qed.
Lemma query_one_T R ex s e : TInv R ex s -> TInv R ex (query_one s e).
Proof.
  intros T. unfold query_one. destruct (pres (objs s (snd e))) eqn:P; auto. apply add_query_T; auto. apply (t_head _ _ _ T). auto.
Qed.
Lemma query_fold_T R ex l : forall s, TInv R ex s -> TInv R ex (fold_left query_one l s).
Proof. induction l as [|e l IH]; intros s I; cbn [fold_left]; auto. apply IH. now apply query_one_T. Qed.
Lemma TInv_weaken R (ex ex' : obj -> Prop) s : (forall o, ex o -> ex' o) -> TInv R ex s -> TInv R ex' s.
Proof. intros H []. constructor; auto. intros c p it X. destruct (t_pop0 _ _ _ X); auto. Qed.
Lemma check_children_T R o code s : TInv R nob s -> TInv R nob (check_children R o code s).
Proof.
  intros T. unfold check_children.
  assert (T' : TInv R (eq o) s) by (eapply TInv_weaken; [|exact T]; intros ? []).
  pose proof (populate_T R o (kids R o) s T') as P. destruct (populate R o (kids R o) s) as [s1 ok].
  destruct P as (A & B & C & D & E & F & G & H & _ & I & _ & J). destruct ok; [|eapply abort_T; eauto].
  assert (T1 : TInv R nob s1).
  { destruct A. constructor; auto. intros c p it X. destruct (t_pop0 _ _ _ X) as [<-|Y]; auto. right; right. intros k K. rewrite B. apply J; auto. }
  destruct (left (objs s1 o)) as [|e l] eqn:L; [|now apply query_fold_T]. destruct (code =? 200); auto.
  apply add_upload_T; auto. right. intros k K. destruct (J eq_refl k K) as [X|X]; [now rewrite B|contradiction].
Qed.

(** An answer arrives. *)
Lemma answer_T R s o e : TInv R nob s -> SInv nob s -> In o (infl s) ->
  (exists c u, (op (objs s o) = OpHead /\ e = THeadAns o c u) \/ (op (objs s o) = OpPost /\ e = TPostAns o c u)) ->
  TInv R nob (emit e (set_queues (qq s) (uq s) (rm o (infl s)) s)).
Proof.
  intros T I X E. pose proof (finish_S o s I X) as (_ & NQ & _ & _ & NU). cbv zeta in NQ. rewrite in_Q in NQ. cbn [set_queues qq uq infl objs] in NQ, NU.
  destruct T. constructor; cbn [emit set_queues objs qq uq infl stopped trace].
  - intros x P. apply reported_mono; auto.
  - intros c p it Y. destruct (t_pop0 _ _ _ Y) as [Z|[Z|Z]]; auto. right; right. intros k K. destruct (Z k K) as [W|W]; auto. left. now apply reported_mono.
  - intros x Y. apply kids_mono. apply t_up0. rewrite in_rm in Y. tauto.
  - apply ordered_snoc; auto. destruct E as (c & u & [[_ ->]|[_ ->]]); discriminate.
  - intros x Y G. unfold good_head in G. rewrite !in_app_iff in G. cbn [In] in G. rewrite in_rm in Y.
    assert (O : x <> o). { intros ->. destruct Y as [Y|[[[_ Y] _]|Y]]; [now apply NQ; left|now apply Y|contradiction]. }
    apply (t_head0 x); [tauto|]. unfold good_head. destruct E as (c & u & [[_ ->]|[_ ->]]).
    + destruct G as [[G|[G|[]]]|[G|[G|[]]]]; auto; inversion G; congruence.
    + destruct G as [[G|[G|[]]]|[G|[G|[]]]]; auto; discriminate.
  - intros x. rewrite !in_app_iff. cbn [In]. intros [A B]. apply (t_once0 x).
    destruct E as (c & u & [[Eo ->]|[Eo ->]]).
    + assert (GH : ~ good_head (trace s) o) by (apply t_head0; auto). unfold good_head in GH.
      destruct A as [A|[A|[]]], B as [B|[B|[]]]; auto; [inversion B|inversion A|inversion A; inversion B]; subst; tauto || congruence.
    + destruct A as [A|[A|[]]], B as [B|[B|[]]]; auto; discriminate.
  - intros x Y. rewrite in_app_iff. left. apply t_sent0. rewrite in_rm in Y. destruct Y as [(c & u & Y)|Y]; [|tauto].
    rewrite in_app_iff in Y. destruct Y as [Y|[Y|[]]]; [left; eauto|]. right.
    destruct E as (c' & u' & [[Eo ->]|[Eo ->]]); inversion Y; subst; auto.
Qed.

Definition real (m : mode) : Prop := m = MDefault \/ m = MPushTree.
Definition ans (s : pool) (o : obj) (code : Z) (url : bool) : tev := match op (objs s o) with OpHead => THeadAns o code url | OpPost => TPostAns o code url end.
(** The state in which CurlDone handles the answer. *)
Definition arrived (s : pool) (o : obj) (code : Z) (url : bool) : pool := emit (ans s o code url) (set_queues (qq s) (uq s) (rm o (infl s)) s).
Lemma curl_done_eq R m o code url s : curl_done R m o code url s =
  let s2 := arrived s o code url in
  match op (objs s o) with
  | OpHead => if negb url then presence_error o s2
      else if code =? 200 then let s3 := set_ok o true (set_pres o Present s2) in
        match m with MWalkTree | MPushTree => check_children R o code s3 | _ => notify_parents o s3 end
      else if code =? 404 then check_children R o code (set_ok o true (set_pres o Missing s2))
      else presence_error o s2
  | OpPost => if negb url then upload_error o s2
      else if (code =? 204) || (code =? 409) then notify_parents o (set_ok o true (set_pres o Present s2)) else upload_error o s2
  end.
Proof. unfold curl_done, arrived, ans. cbn [set_queues objs]. destruct (op (objs s o)); reflexivity. Qed.
Lemma arrived_S o code url s : SInv nob s -> In o (infl s) -> let s2 := arrived s o code url in
  SInv nob s2 /\ ~ In o (Q s2) /\ left (objs s2 o) = [] /\ live s2 o /\ pres (objs s2 o) <> Unknown.
Proof.
  intros I X. destruct (finish_S o s I X) as (A & B & C & D & E). cbv zeta. unfold arrived.
  split; [eapply same_view_S; [apply view_emit|exact A]|]. split; [exact B|]. split; [exact C|]. split; [exact D|exact E].
Qed.
Lemma mark_S o p s : SInv nob s -> ~ In o (Q s) -> left (objs s o) = [] -> live s o -> p <> Unknown ->
  let s3 := set_ok o true (set_pres o p s) in
  SInv nob s3 /\ ~ In o (Q s3) /\ left (objs s3 o) = [] /\ live s3 o /\ pres (objs s3 o) = p.
Proof.
  intros I N L V U. cbv zeta. split; [eapply same_view_S; [apply view_ok|apply set_pres_S; auto; congruence]|].
  split; [exact N|]. split; [autorewrite with pv; auto|]. split; [intros q it; autorewrite with pv; apply V|]. autorewrite with pv. now rewrite Nat.eqb_refl.
Qed.
Lemma presence_error_S o s : SInv nob s -> ~ In o (Q s) -> left (objs s o) = [] -> live s o -> SInv nob (presence_error o s).
Proof.
  intros I N L V. unfold presence_error. apply add_query_S.
  - eapply same_view_S; [apply view_ok|]. apply set_pres_S; auto.
  - exact N.
  - autorewrite with pv; auto.
  - right. intros q it. autorewrite with pv. apply V.
Qed.
Lemma upload_error_S o s : SInv nob s -> ~ In o (Q s) -> left (objs s o) = [] -> live s o -> SInv nob (upload_error o s).
Proof.
  intros I N L V. unfold upload_error. apply add_upload_S.
  - eapply same_view_S; [apply view_ok|]. apply set_pres_S; auto; try discriminate.
  - exact N.
  - autorewrite with pv; auto.
  - right. intros q it. autorewrite with pv. apply V.
Qed.
Lemma curl_done_S R m o code url s : SInv nob s -> In o (infl s) -> SInv nob (curl_done R m o code url s).
Proof.
  intros I X. rewrite curl_done_eq. destruct (arrived_S o code url s I X) as (A & B & C & D & E). cbv zeta in *.
  set (s2 := arrived s o code url) in *.
  assert (N : SInv nob (notify_parents o (set_ok o true (set_pres o Present s2)))).
  { destruct (mark_S o Present s2 A B C D ltac:(discriminate)) as (A3 & B3 & C3 & D3 & E3). apply notify_parents_S. now apply notify_pre. }
  assert (K : forall p, p <> Unknown -> SInv nob (check_children R o code (set_ok o true (set_pres o p s2)))).
  { intros p U. destruct (mark_S o p s2 A B C D U) as (A3 & B3 & C3 & D3 & E3). apply check_children_S; auto. congruence. }
  destruct (op (objs s o)).
  - destruct (negb url); [now apply presence_error_S|]. destruct (code =? 200).
    + destruct m; auto; apply K; discriminate.
    + destruct (code =? 404); [apply K; discriminate|now apply presence_error_S].
  - destruct (negb url); [now apply upload_error_S|]. destruct ((code =? 204) || (code =? 409)); [exact N|now apply upload_error_S].
Qed.
Lemma curl_done_T R m o code url s : real m -> SInv nob s -> TInv R nob s -> In o (infl s) -> TInv R nob (curl_done R m o code url s).
Proof.
  intros RM I T X. rewrite curl_done_eq. destruct (arrived_S o code url s I X) as (A & B & C & D & E). cbv zeta in *.
  assert (T2 : TInv R nob (arrived s o code url)).
  { apply answer_T; auto. exists code, url. unfold ans. destruct (op (objs s o)); auto. }
  assert (Tr : trace (arrived s o code url) = trace s ++ [ans s o code url]) by reflexivity.
  assert (GH : op (objs s o) = OpHead -> ~ good_head (trace s) o) by (intros; apply (t_head _ _ _ T); auto).
  assert (KR : op (objs s o) = OpPost -> kids_reported R (trace s) o) by (intros; apply (t_up _ _ _ T); auto).
  unfold ans in Tr. set (s2 := arrived s o code url) in *.
  assert (N : reported (trace s2) o -> TInv R nob (notify_parents o (set_ok o true (set_pres o Present s2)))).
  { intros Rp. destruct (mark_S o Present s2 A B C D ltac:(discriminate)) as (A3 & B3 & C3 & D3 & E3). unfold notify_parents. apply (notify_fold_T R o).
    - now apply notify_pre.
    - eapply same_T_T; [apply sameT_ok|]. apply set_pres_T; auto; discriminate. }
  destruct (op (objs s o)) eqn:O.
  - assert (PE : (url = false \/ (code <> 200 /\ code <> 404)) -> TInv R nob (presence_error o s2)).
    { intros Bad. assert (NG : ~ good_head (trace s2) o).
      { rewrite Tr. unfold good_head. rewrite !in_app_iff. cbn [In]. specialize (GH eq_refl). unfold good_head in GH.
        intros [[G|[G|[]]]|[G|[G|[]]]]; try tauto; inversion G; subst; intuition congruence. }
      unfold presence_error. apply add_query_T; [|exact NG]. eapply same_T_T; [apply sameT_ok|]. apply set_pres_T; auto; discriminate. }
    destruct url; cbn [negb]; [|auto]. destruct (Z.eqb_spec code 200) as [->|N2].
    + assert (Rp : reported (trace s2) o) by (rewrite Tr; left; apply in_app_iff; cbn; auto).
      destruct m; auto; apply check_children_T; (eapply same_T_T; [apply sameT_ok|]); apply set_pres_T; auto; discriminate.
    + destruct (Z.eqb_spec code 404) as [->|N4]; [|auto]. apply check_children_T. eapply same_T_T; [apply sameT_ok|]. apply set_pres_T; auto; discriminate.
  - assert (UE : TInv R nob (upload_error o s2)).
    { unfold upload_error. apply add_upload_T; [|right; change (kids_reported R (trace s2) o); rewrite Tr; apply kids_mono; auto].
      eapply same_T_T; [apply sameT_ok|]. apply set_pres_T; auto; discriminate. }
    destruct url; cbn [negb]; [|auto]. destruct ((code =? 204) || (code =? 409)) eqn:Cd; auto. apply N. rewrite Tr. right.
    apply orb_true_iff in Cd. rewrite !Z.eqb_eq in Cd. destruct Cd as [-> | ->]; [left|right]; apply in_app_iff; cbn; auto.
Qed.

(** Launching. *)
Lemma not_in_flight s o q : SInv nob s -> qq s = o :: q \/ uq s = o :: q -> existsb (Nat.eqb o) (infl s) = false.
Proof.
  intros I E. destruct (existsb _ _) eqn:X; auto. apply existsb_exists in X. destruct X as (x & X & Y). apply Nat.eqb_eq in Y. subst x. exfalso.
  pose proof (s_nodup _ _ I) as N. unfold Q in N. destruct E as [E|E].
  - apply (NoDup_app_disj _ _ N o); [rewrite E; left; auto|rewrite in_app_iff; auto].
  - apply NoDup_app_r in N. apply (NoDup_app_disj _ _ N o); [rewrite E; left; auto|auto].
Qed.
Lemma move_S s q u i : SInv nob s -> Permutation (Q s) (q ++ u ++ i) -> (stopped s = true -> q = [] /\ u = []) -> SInv nob (set_queues q u i s).
Proof.
  intros I P S0. apply set_queues_S; auto.
  - eapply Permutation_NoDup; [exact P|apply I].
  - intros x X. assert (Y : In x (Q s)) by (eapply Permutation_in; [symmetry; exact P|exact X]).
    split; [eapply queued_left; eauto|]. split; auto. intros U. now apply (s_unk _ _ I x U).
Qed.
Lemma test_request_eq t o s q : SInv nob s -> qq s = o :: q ->
  make_test_request t o (set_queues q (uq s) (infl s) s) = emit (THead o) (set_op o OpHead t (set_queues q (uq s) (infl s ++ [o]) s)).
Proof. intros I E. unfold make_test_request. cbn [set_queues infl]. rewrite (not_in_flight s o q I (or_introl E)). reflexivity. Qed.
Lemma upload_eq m t o s u : real m -> SInv nob s -> qq s = [] -> uq s = o :: u ->
  upload m t o (set_queues [] u (infl s) s) = emit (TPost o) (set_op o OpPost t (set_queues [] u (infl s ++ [o]) s)).
Proof. intros RM I E1 E2. unfold upload. cbn [set_queues infl]. rewrite (not_in_flight s o u I (or_intror E2)). destruct RM as [-> | ->]; reflexivity. Qed.

Lemma launch_one_S m t s : SInv nob s -> SInv nob (launch_one m t s).
Proof.
  intros I. unfold launch_one. destruct (qq s) as [|o q] eqn:E.
  - destruct (uq s) as [|o u] eqn:E2; auto.
    assert (PM : forall i, i = infl s ++ [o] -> SInv nob (set_queues [] u i s)).
    { intros i ->. apply move_S; auto.
      - unfold Q. rewrite E, E2. cbn [app]. rewrite app_assoc. apply Permutation_cons_append.
      - intros S0. destruct (s_stop _ _ I S0). congruence. }
    assert (RC : real m -> SInv nob (upload m t o (set_queues [] u (infl s) s))).
    { intros RM. rewrite (upload_eq m t o s u RM I E E2). eapply same_view_S; [apply view_emit|]. eapply same_view_S; [apply view_op|]. now apply PM. }
    assert (PC : SInv nob (notify_parents o (set_pres o Present (set_queues [] u (infl s) s)))).
    { assert (Oq : In o (Q s)) by (apply in_Q; rewrite E2; cbn; auto).
      assert (NQ : ~ In o (u ++ infl s)).
      { pose proof (s_nodup _ _ I) as N. unfold Q in N. rewrite E, E2 in N. cbn in N. now inversion N. }
      assert (I1 : SInv nob (set_queues [] u (infl s) s)).
      { apply set_queues_S; auto.
        - pose proof (s_nodup _ _ I) as N. unfold Q in N. rewrite E, E2 in N. cbn in N. now inversion N.
        - intros x X. cbn [app] in X. assert (Y : In x (Q s)) by (apply in_Q; rewrite E2; cbn; rewrite in_app_iff in X; tauto).
          split; [eapply queued_left; eauto|]. split; auto. intros U. now apply (s_unk _ _ I x U).
        - intros S0. destruct (s_stop _ _ I S0). congruence. }
      assert (L : left (objs s o) = []) by (eapply queued_left; eauto).
      assert (V : live s o) by (destruct (s_state _ _ I o) as [F|[F|(_ & F & _)]]; [exact (False_ind _ F)|exact F|contradiction]).
      apply notify_parents_S. apply notify_pre.
      - apply set_pres_S; auto; try discriminate.
      - rewrite pres_set_pres, Nat.eqb_refl. reflexivity.
      - exact NQ.
      - rewrite left_set_pres. exact L.
      - apply live_set_pres. exact V. }
    destruct m; [apply RC; left; auto|exact PC|exact PC|apply RC; right; auto].
  - rewrite (test_request_eq t o s q I E). eapply same_view_S; [apply view_emit|]. eapply same_view_S; [apply view_op|].
    apply move_S; auto.
    + unfold Q. rewrite E. cbn [app]. rewrite !app_assoc. apply Permutation_cons_append.
    + intros S0. destruct (s_stop _ _ I S0). congruence.
Qed.
Lemma launch_one_T R m t s : real m -> SInv nob s -> TInv R nob s -> TInv R nob (launch_one m t s).
Proof.
  intros RM I T. unfold launch_one. destruct (qq s) as [|o q] eqn:E.
  - destruct (uq s) as [|o u] eqn:E2; auto.
    assert (G : TInv R nob (upload m t o (set_queues [] u (infl s) s))).
    { rewrite (upload_eq m t o s u RM I E E2). assert (KR : kids_reported R (trace s) o) by (apply (t_up _ _ _ T); rewrite E2; cbn; auto).
      assert (NF : ~ In o (infl s)).
      { intros Y. pose proof (not_in_flight s o u I (or_intror E2)) as F. assert (existsb (Nat.eqb o) (infl s) = true); [|congruence].
        apply existsb_exists. exists o. split; auto. apply Nat.eqb_refl. }
      destruct T. constructor; cbn [emit trace qq uq infl stopped]; unfold set_op; cbn [set_ob qq uq infl stopped trace set_queues].
      - intros x. change (pres (objs (set_op o OpPost t (set_queues [] u (infl s ++ [o]) s)) x) = Present -> reported (trace s ++ [TPost o]) x). autorewrite with pv.
        intros P. apply reported_mono. apply t_present0; auto.
      - intros c p it. change (In (p, it) (pars (objs (set_op o OpPost t (set_queues [] u (infl s ++ [o]) s)) c)) -> nob p \/ stopped s = true \/ populated R (emit (TPost o) (set_op o OpPost t (set_queues [] u (infl s ++ [o]) s))) p).
        autorewrite with pv. intros X. destruct (t_pop0 _ _ _ X) as [Y|[Y|Y]]; auto. right; right. intros k K. cbn [emit objs trace]. autorewrite with pv.
        destruct (Y k K); auto. left. now apply reported_mono.
      - intros x. change (In x u \/ In x (infl s ++ [o]) /\ op (objs (set_op o OpPost t (set_queues [] u (infl s ++ [o]) s)) x) = OpPost -> kids_reported R (trace s ++ [TPost o]) x).
        autorewrite with pv. intros X. apply kids_mono. destruct (Nat.eqb_spec x o) as [Ex|Nx]; [subst x; exact KR|]. apply t_up0. rewrite E2. cbn [In]. rewrite in_app_iff in X. cbn [In] in X. cbn [set_queues objs] in X. intuition congruence.
      - apply ordered_snoc; auto. intros x Ex. inversion Ex; subst; auto.
      - intros x. change (In x [] \/ (In x (infl s ++ [o]) /\ op (objs (set_op o OpPost t (set_queues [] u (infl s ++ [o]) s)) x) = OpHead) \/ pres (objs (set_op o OpPost t (set_queues [] u (infl s ++ [o]) s)) x) = Unknown -> ~ good_head (trace s ++ [TPost o]) x).
        autorewrite with pv. cbn [set_queues objs]. intros X G. apply (t_head0 x).
        + rewrite in_app_iff in X. cbn [In] in X. destruct (Nat.eqb_spec x o) as [Ex|Nx]; [rewrite Ex in *|]; intuition congruence.
        + unfold good_head in *. rewrite !in_app_iff in G. cbn [In] in G. intuition discriminate.
      - intros x. rewrite !in_app_iff. cbn [In]. intros [X Y]. apply (t_once0 x). intuition discriminate.
      - intros x. change ((exists c u0, In (TPostAns x c u0) (trace s ++ [TPost o])) \/ (In x (infl s ++ [o]) /\ op (objs (set_op o OpPost t (set_queues [] u (infl s ++ [o]) s)) x) = OpPost) -> In (TPost x) (trace s ++ [TPost o])).
        autorewrite with pv. cbn [set_queues objs]. rewrite in_app_iff. intros X. rewrite !in_app_iff. cbn [In].
        destruct (Nat.eqb_spec x o) as [Ex|Nx]; [subst x; auto|]. left. apply t_sent0. destruct X as [(c & u0 & X)|[[X|[X|[]]] Y]]; [left; exists c, u0|auto|congruence].
        rewrite in_app_iff in X. cbn [In] in X. intuition discriminate. }
    destruct RM as [-> | ->]; exact G.
  - rewrite (test_request_eq t o s q I E).
    assert (NF : ~ In o (infl s)).
    { intros Y. pose proof (not_in_flight s o q I (or_introl E)) as F. assert (existsb (Nat.eqb o) (infl s) = true); [|congruence].
      apply existsb_exists. exists o. split; auto. apply Nat.eqb_refl. }
    set (s0 := set_queues q (uq s) (infl s ++ [o]) s). set (s1 := set_op o OpHead t s0). destruct T. constructor.
    + intros x. change (pres (objs s1 x) = Present -> reported (trace s ++ [THead o]) x). unfold s1. autorewrite with pv. intros P. apply reported_mono. apply t_present0; auto.
    + intros c p it. change (In (p, it) (pars (objs s1 c)) -> nob p \/ stopped s = true \/ populated R (emit (THead o) s1) p). unfold s1.
      autorewrite with pv. intros X. destruct (t_pop0 _ _ _ X) as [Y|[Y|Y]]; auto. right; right. intros k K. cbn [emit objs trace]. autorewrite with pv.
      destruct (Y k K); auto. left. now apply reported_mono.
    + intros x. change (In x (uq s) \/ In x (infl s ++ [o]) /\ op (objs s1 x) = OpPost -> kids_reported R (trace s ++ [THead o]) x). unfold s1.
      autorewrite with pv. intros X. apply kids_mono. apply t_up0. rewrite in_app_iff in X. cbn [In] in X. destruct (Nat.eqb_spec x o) as [Ex|Nx]; [subst x; intuition congruence|].
      unfold s0 in X. cbn [set_queues objs] in X. intuition congruence.
    + apply ordered_snoc; auto. discriminate.
    + intros x. change (In x q \/ (In x (infl s ++ [o]) /\ op (objs s1 x) = OpHead) \/ pres (objs s1 x) = Unknown -> ~ good_head (trace s ++ [THead o]) x). unfold s1.
      autorewrite with pv. unfold s0. cbn [set_queues objs]. intros X G. apply (t_head0 x).
      * rewrite E. cbn [In]. rewrite in_app_iff in X. cbn [In] in X. destruct (Nat.eqb_spec x o) as [Ex|Nx]; [subst x; auto|]. intuition congruence.
      * unfold good_head in *. cbn [emit trace set_op set_ob set_queues] in G. rewrite !in_app_iff in G. cbn [In] in G. intuition discriminate.
    + intros x. cbn [emit trace set_op set_ob set_queues]. change (trace s1) with (trace s). rewrite !in_app_iff. cbn [In]. intros [X Y]. apply (t_once0 x). intuition discriminate.
    + intros x. change ((exists c u0, In (TPostAns x c u0) (trace s ++ [THead o])) \/ (In x (infl s ++ [o]) /\ op (objs s1 x) = OpPost) -> In (TPost x) (trace s ++ [THead o])). unfold s1.
      autorewrite with pv. unfold s0. cbn [set_queues objs]. intros X. rewrite !in_app_iff. left. apply t_sent0.
      destruct X as [(c & u0 & X)|[X Y]].
      * left. exists c, u0. rewrite in_app_iff in X. cbn [In] in X. intuition discriminate.
      * right. rewrite in_app_iff in X. cbn [In] in X. destruct (Nat.eqb_spec x o); [discriminate|]. intuition congruence.
Qed.
