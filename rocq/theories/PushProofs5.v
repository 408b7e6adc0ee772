(** Termination in the default mode: every good answer is new, and as long as the upload has not ended a request is open. *)
From Verif Require Import Base RateModel PushModel PushSpec PushProofs PushProofs2 PushProofs3 PushProofs4.
From Coq Require Import Lia Permutation.

(** Steps that leave finished objects alone; what becomes known is in [U]. *)
Definition mild (U : list obj) (s s' : pool) : Prop := forall x,
  (pres (objs s' x) = pres (objs s x) /\ (In x (Q s') -> In x (Q s)) /\ (left (objs s x) = [] -> left (objs s' x) = [])) \/
  (~ dead s x /\ pres (objs s' x) <> Unknown /\ In x U).
Definition within (U : list obj) (s : pool) : Prop := forall x, pres (objs s x) <> Unknown -> In x U.
Lemma mild_dead U s s' x : mild U s s' -> dead s x -> dead s' x.
Proof. intros M D. destruct (M x) as [(A & B & C)|(A & _)]; [|contradiction]. destruct D as (D1 & D2 & D3). split; [congruence|split; auto]. Qed.
Lemma mild_known U s s' x : mild U s s' -> pres (objs s x) <> Unknown -> pres (objs s' x) <> Unknown.
Proof. intros M D. destruct (M x) as [(A & _)|(_ & A & _)]; congruence. Qed.
Lemma mild_within U s s' : mild U s s' -> within U s -> within U s'.
Proof. intros M W x X. destruct (M x) as [(A & _)|(_ & _ & A)]; auto. apply W. congruence. Qed.
Lemma mild_refl U s : mild U s s. Proof. intros x. left. auto. Qed.
Lemma mild_trans U a b c : mild U a b -> mild U b c -> mild U a c.
Proof.
  intros M N x. destruct (N x) as [(A & B & C)|(A & B & C)].
  - destruct (M x) as [(D & E & F)|(D & E & F)]; [left; split; [congruence|auto]|right; split; auto; split; auto; congruence].
  - right. split; auto. intros D. apply A. eapply mild_dead; eauto.
Qed.
Lemma mild_view U s s' : same_view s s' -> mild U s s'.
Proof. intros (A & B & C & D & E & F & _) x. left. unfold Q. rewrite A, B, D, E, F. auto. Qed.
Lemma mild_abort U s : mild U s (abort s).
Proof. intros x. left. split; auto. split; auto. rewrite !in_Q. cbn. tauto. Qed.
Lemma mild_queue U o s s' : (s' = add_upload o s \/ s' = add_query o s) -> ~ dead s o -> In o U -> mild U s s'.
Proof.
  intros E D Io x.
  assert (Pr : pres (objs s' x) = if Nat.eqb x o then InProgress else pres (objs s x)) by (destruct E as [-> | ->]; autorewrite with pv; auto).
  assert (Le : left (objs s' x) = left (objs s x)) by (destruct E as [-> | ->]; autorewrite with pv; auto).
  assert (Qi : In x (Q s') -> x = o \/ In x (Q s)) by (destruct E as [-> | ->]; [apply in_Q_add_upload|apply in_Q_add_query]).
  destruct (Nat.eqb_spec x o) as [Ex|N].
  - subst x. right. rewrite Pr. split; auto. split; auto. discriminate.
  - left. rewrite Pr, Le. split; auto. split; auto. intros X. destruct (Qi X); [contradiction|auto].
Qed.
Lemma mild_notify_one U o p it r s : NPre o ((p, it) :: r) s -> within U s -> mild U s (notify_one s (p, it)).
Proof.
  intros P W. pose proof (n_inv _ _ _ P) as I. pose proof (n_live _ _ _ P p it (or_introl eq_refl)) as Inl. rewrite (notify_one_eq _ _ _ _ _ P). destruct (notify_facts _ _ _ _ _ P) as (Npo & NQ & Lp & Inp & Own). cbv zeta.
  set (s1 := set_left p _ s).
  assert (NL : left (objs s p) <> []) by (intros E; rewrite E in Inl; contradiction).
  assert (Kp : In p U) by (apply W; intros E; destruct (s_unk _ _ I p E); contradiction).
  assert (M1 : mild U s s1).
  { intros x. left. split; [apply pres_set_left|]. split; auto. unfold s1. rewrite left_set_left. destruct (Nat.eqb_spec x p) as [->|]; auto. intros; contradiction. }
  destruct (drop_it it (left (objs s p))) eqn:D; auto.
  intros x. destruct (Nat.eq_dec x p) as [->|N].
  - right. split; [intros (_ & _ & X); contradiction|]. rewrite pres_add_upload, Nat.eqb_refl. split; [discriminate|auto].
  - apply Nat.eqb_neq in N. left. rewrite pres_add_upload, left_add_upload, N. destruct (M1 x) as [(A & B & C)|(A & B & C)].
    + split; auto. split; auto. intros X. apply B. apply in_Q_add_upload in X. destruct X as [->|X]; auto. rewrite Nat.eqb_refl in N. discriminate.
    + unfold s1. rewrite pres_set_left, left_set_left, N. split; auto. split; auto. intros X. apply in_Q_add_upload in X. destruct X as [->|X]; auto. rewrite Nat.eqb_refl in N. discriminate.
Qed.
Lemma mild_notify_fold U o r : forall s, NPre o r s -> within U s -> mild U s (fold_left notify_one r s).
Proof.
  induction r as [|[p it] r IH]; intros s P W; cbn [fold_left]; [apply mild_refl|].
  assert (M : mild U s (notify_one s (p, it))) by (eapply mild_notify_one; eauto).
  eapply mild_trans; [exact M|]. apply IH; [now apply notify_one_step in P|eapply mild_within; eauto].
Qed.
Lemma mild_append U o c s : pres (objs s o) = Missing -> In o U -> mild U s (append_child o c s).
Proof.
  intros Po Io x. destruct (append_child_view o c s) as (Vp & Vo & VQ & Vq & Vu & Vi & Vt & Vs & Vr & Vl & Vl2 & Vpar & Vc).
  destruct (Nat.eq_dec x o) as [->|N].
  - right. split; [intros (D & _); congruence|]. rewrite Vp, Po. split; [discriminate|auto].
  - left. rewrite Vp, VQ. split; auto. split; auto. intros L. destruct (left (objs (append_child o c s) x)) as [|e l] eqn:E; auto.
    assert (X : In e (left (objs (append_child o c s) x))) by (rewrite E; left; auto). destruct (Vl2 _ _ X) as [Y|(Y & _)]; [rewrite L in Y; contradiction|contradiction].
Qed.
Lemma mild_populate U R o l : forall s, pres (objs s o) = Missing -> In o U -> mild U s (fst (populate R o l s)).
Proof.
  induction l as [|c l IH]; intros s Po Io; cbn [populate fst]; [apply mild_refl|]. destruct (have R c); cbn [fst]; [|apply mild_refl].
  eapply mild_trans; [apply (mild_append U o c s Po Io)|]. apply IH; auto. destruct (append_child_view o c s) as (Vp & _). now rewrite Vp.
Qed.
Lemma mild_query_fold U l : forall s, (forall it c, In (it, c) l -> In c U) -> mild U s (fold_left query_one l s).
Proof.
  induction l as [|[i c] l IH]; intros s K; cbn [fold_left]; [apply mild_refl|]. eapply mild_trans; [|apply IH; intros; apply (K it); right; auto].
  unfold query_one. cbn [snd]. destruct (pres (objs s c)) eqn:P; try apply mild_refl. eapply mild_queue; [right; reflexivity| |].
  - intros (D & _). congruence.
  - apply (K i). left; auto.
Qed.
Definition closed (R : repo) (U : list obj) : Prop := forall o c, In o U -> In c (kids R o) -> In c U /\ have R c = true.
Lemma populate_have R U o l : closed R U -> In o U -> (forall c, In c l -> In c (kids R o)) -> forall s, snd (populate R o l s) = true.
Proof.
  intros C Io. induction l as [|c l IH]; intros K s; cbn [populate]; auto. destruct (C o c Io (K c (or_introl eq_refl))) as [_ H]. rewrite H. apply IH. intros; apply K; right; auto.
Qed.
(** The first component also for any list of children. *)
Lemma mild_check U R o code s : closed R U -> pres (objs s o) = Missing -> In o U -> code <> 200 -> LInv R (eq o) no2 s -> stopped s = false ->
  mild U s (check_children R o code s) /\ stopped (check_children R o code s) = false.
Proof.
  intros C Po Io N L NS. unfold check_children. pose proof (mild_populate U R o (kids R o) s Po Io) as M. pose proof (populate_have R U o (kids R o) C Io (fun c X => X) s) as H.
  pose proof (populate_pres R o (kids R o) s) as PP. pose proof (populate_stopped R o (kids R o) s) as PS.
  assert (I0 : LInv R (eq o) (fun p it c => p = o /\ pres (objs s c) = Unknown) s) by (eapply LInv_weaken; [| |exact L]; auto; intros ? ? ? []).
  pose proof (populate_L R o (kids R o) (fun c X => X) s I0) as PL.
  destruct (populate R o (kids R o) s) as [s1 ok]. cbn [fst snd] in *. subst ok. rewrite NS in PS.
  destruct (left (objs s1 o)) eqn:E.
  - destruct (Z.eqb_spec code 200); [contradiction|]. split.
    + eapply mild_trans; [exact M|]. eapply mild_queue; [left; reflexivity| |auto]. intros (D & _). rewrite PP in D. congruence.
    + destruct (qs_add_upload o s1) as (_ & _ & _ & _ & _ & X & _). congruence.
  - unfold query_children. split.
    + eapply mild_trans; [exact M|]. apply mild_query_fold. intros it c X. pose proof (l_kids _ _ _ _ PL o it c X) as K. now apply (C o c Io).
    + destruct (query_fold_L R _ _ (left (objs s1 o)) s1 PS PL) as (_ & _ & _ & _ & X). exact X.
Qed.

(** An answer arrives. *)
Lemma mild_arrived U o code url p b s : In o (infl s) -> p <> Unknown -> In o U -> mild U s (set_ok o b (set_pres o p (arrived s o code url))).
Proof.
  intros X P Io x. autorewrite with pv. destruct (Nat.eqb_spec x o) as [Ex|N].
  - subst x. right. split; [intros (_ & D & _); apply D; apply in_Q; auto|auto].
  - left. split; auto. split; auto. rewrite !in_Q. cbn [set_ok set_pres set_ob arrived emit set_queues qq uq infl]. rewrite in_rm. tauto.
Qed.
(** A proper answer to the open request of the object. *)
Definition proper (s : pool) (o : obj) (code : Z) (url : bool) : Prop :=
  url = true /\ match op (objs s o) with OpHead => code = 200 \/ code = 404 | OpPost => code = 204 \/ code = 409 end.
Lemma lok_notify o s x : last_ok (objs (notify_parents o s) x) = last_ok (objs s x).
Proof.
  unfold notify_parents. generalize (pars (objs s o)). intros l. revert s. induction l as [|[p it] l IH]; intros s; cbn [fold_left]; auto. rewrite IH.
  assert (AU : forall y t, last_ok (objs (add_upload y t) x) = last_ok (objs t x)).
  { intros y t. unfold add_upload. cbv zeta. destruct (stopped _); cbn [set_queues set_pres set_ob objs]; unfold upd; destruct (Nat.eqb_spec x y) as [->|]; auto. }
  assert (SL : forall y l0 t, last_ok (objs (set_left y l0 t) x) = last_ok (objs t x)).
  { intros y l0 t. cbn [set_left set_ob objs]. unfold upd. destruct (Nat.eqb_spec x y) as [->|]; auto. }
  unfold notify_one, child_notify. cbv zeta. cbn [fst snd]. destruct (existsb _ _); destruct (left _); rewrite ?AU, ?SL; auto.
Qed.
Lemma lok_check R o code s x : last_ok (objs (check_children R o code s) x) = last_ok (objs s x).
Proof.
  assert (AU : forall y t, last_ok (objs (add_upload y t) x) = last_ok (objs t x)).
  { intros y t. unfold add_upload. cbv zeta. destruct (stopped _); cbn [set_queues set_pres set_ob objs]; unfold upd; destruct (Nat.eqb_spec x y) as [->|]; auto. }
  assert (AQ : forall y t, last_ok (objs (add_query y t) x) = last_ok (objs t x)).
  { intros y t. unfold add_query. cbv zeta. destruct (stopped _); cbn [set_queues set_pres set_ob objs]; unfold upd; destruct (Nat.eqb_spec x y) as [->|]; auto. }
  assert (PO : forall l t, last_ok (objs (fst (populate R o l t)) x) = last_ok (objs t x)).
  { induction l as [|c l IH]; intros t; cbn [populate fst]; auto. destruct (have R c); cbn [fst]; auto. rewrite IH. unfold append_child.
    assert (SL : forall y l0 t0, last_ok (objs (set_left y l0 t0) x) = last_ok (objs t0 x)).
    { intros y l0 t0. cbn [set_left set_ob objs]. unfold upd. destruct (Nat.eqb_spec x y) as [->|]; auto. }
    assert (SP : forall y l0 t0, last_ok (objs (set_pars y l0 t0) x) = last_ok (objs t0 x)).
    { intros y l0 t0. cbn [set_pars set_ob objs]. unfold upd. destruct (Nat.eqb_spec x y) as [->|]; auto. }
    destruct (pres (objs t c)); auto; cbv zeta; match goal with |- last_ok (objs (set_fresh ?n ?b) x) = _ => change (objs (set_fresh n b)) with (objs b) end; now rewrite SP, SL. }
  assert (QF : forall l t, last_ok (objs (fold_left query_one l t) x) = last_ok (objs t x)).
  { induction l as [|e l IH]; intros t; cbn [fold_left]; auto. rewrite IH. unfold query_one. destruct (pres _); auto. }
  unfold check_children. specialize (PO (kids R o) s). destruct (populate R o (kids R o) s) as [s1 ok]. cbn [fst] in PO. destruct ok; auto.
  destruct (left (objs s1 o)); [destruct (code =? 200); auto; now rewrite AU|]. unfold query_children. now rewrite QF.
Qed.
Lemma stopped_notify_keep o s : stopped (notify_parents o s) = stopped s.
Proof.
  unfold notify_parents. generalize (pars (objs s o)). intros l. revert s. induction l as [|[p it] l IH]; intros s; cbn [fold_left]; auto. rewrite IH.
  unfold notify_one, child_notify. cbv zeta. cbn [fst snd]. destruct (existsb _ _); destruct (left _); auto.
  all: match goal with |- stopped (add_upload ?a ?b) = _ => destruct (qs_add_upload a b) as (_ & _ & _ & _ & _ & X & _); rewrite X; reflexivity end.
Qed.
Lemma curl_done_mild U R o code url s : closed R U -> SInv nob s -> LInv R nob no2 s -> within U s -> stopped s = false -> In o (infl s) -> proper s o code url ->
  let s' := curl_done R MDefault o code url s in
  mild U s s' /\ stopped s' = false /\ last_ok (objs s' o) = true /\ (code <> 404 -> dead s' o).
Proof.
  intros C I L W NS X [-> P]. cbv zeta. rewrite curl_done_eq. cbv zeta. cbn [negb].
  assert (Io : In o U). { apply W. intros E. apply (s_unk _ _ I o E). apply in_Q. auto. }
  destruct (arrived_S o code true s I X) as (A & B & D & E & _). cbv zeta in *.
  pose proof (arrived_L R o code true s L) as L2.
  pose proof (fun p b H => mild_arrived U o code true p b s X H Io) as MA.
  set (s2 := arrived s o code true) in *.
  assert (NF : let s' := notify_parents o (set_ok o true (set_pres o Present s2)) in mild U s s' /\ stopped s' = false /\ last_ok (objs s' o) = true /\ (code <> 404 -> dead s' o)).
  { cbv zeta. destruct (mark_S o Present s2 A B D E ltac:(discriminate)) as (A3 & B3 & C3 & D3 & E3). set (s3 := set_ok o true (set_pres o Present s2)) in *.
    assert (M3 : mild U s s3) by (exact (MA Present true ltac:(discriminate))). assert (NP : NPre o (pars (objs s3 o)) s3) by now apply notify_pre.
    assert (M4 : mild U s3 (notify_parents o s3)) by (apply (mild_notify_fold U o); [exact NP|eapply mild_within; eauto]).
    split; [eapply mild_trans; eauto|]. split; [rewrite stopped_notify_keep; exact NS|]. split.
    - rewrite lok_notify. unfold s3. cbn [set_ok set_ob objs]. unfold upd. now rewrite Nat.eqb_refl.
    - intros _. eapply mild_dead; [exact M4|]. split; auto. }
  destruct (op (objs s o)).
  - destruct P as [-> | ->]; cbn [Z.eqb Pos.eqb]; [exact NF|].
    assert (P3 : pres (objs (set_ok o true (set_pres o Missing s2)) o) = Missing) by (autorewrite with pv; now rewrite Nat.eqb_refl).
    assert (L3 : LInv R (eq o) no2 (set_ok o true (set_pres o Missing s2))) by (apply mark_missing_L; auto; right; auto).
    destruct (mild_check U R o 404 _ C P3 Io ltac:(discriminate) L3 NS) as [M5 S5].
    split; [eapply mild_trans; [exact (MA Missing true ltac:(discriminate))|exact M5]|]. split; [exact S5|]. split; [|congruence].
    rewrite lok_check. cbn [set_ok set_ob objs]. unfold upd. now rewrite Nat.eqb_refl.
  - destruct P as [-> | ->]; cbn [Z.eqb Pos.eqb orb]; exact NF.
Qed.
