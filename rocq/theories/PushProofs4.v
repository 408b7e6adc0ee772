(** Progress in the default mode: nobody waits for something that will not happen. *)
From Verif Require Import Base RateModel PushModel PushSpec PushProofs PushProofs2 PushProofs3.
From Coq Require Import Lia Permutation.

Definition active (p : presence) : Prop := p = InProgress \/ p = Missing.
(** [e1]: objects just being handled; [e2]: entries just being handled. *)
Record LInv (R : repo) (e1 : obj -> Prop) (e2 : obj -> nat -> obj -> Prop) (s : pool) : Prop := {
  l_act : forall c, active (pres (objs s c)) -> In c (Q s) \/ left (objs s c) <> [] \/ e1 c;
  l_left : forall p it c, In (it, c) (left (objs s p)) -> active (pres (objs s c)) \/ e2 p it c;
  l_kids : forall p it c, In (it, c) (left (objs s p)) -> In c (kids R p) }.
Definition no2 : obj -> nat -> obj -> Prop := fun _ _ _ => False.
Definition PInv (R : repo) (s : pool) : Prop := stopped s = true \/ LInv R nob no2 s.

Lemma LInv_weaken R (e1 e1' : obj -> Prop) (e2 e2' : obj -> nat -> obj -> Prop) s :
  (forall c, e1 c -> e1' c) -> (forall p it c, e2 p it c -> e2' p it c) -> LInv R e1 e2 s -> LInv R e1' e2' s.
Proof. intros H1 H2 []. constructor; auto. - intros c A. destruct (l_act0 c A) as [X|[X|X]]; auto. - intros p it c A. destruct (l_left0 p it c A); auto. Qed.
Lemma same_view_L R e1 e2 s s' : same_view s s' -> LInv R e1 e2 s -> LInv R e1 e2 s'.
Proof.
  intros (A & B & C & D & E & F & _) []. assert (HQ : Q s' = Q s) by (unfold Q; congruence).
  constructor.
  - intros c. rewrite A, B, HQ. auto.
  - intros p it c. rewrite B, A. auto.
  - intros p it c. rewrite B. eauto.
Qed.
Lemma queue_L R e1 e2 o s s' : (s' = add_upload o s \/ s' = add_query o s) -> stopped s = false -> LInv R e1 e2 s -> LInv R e1 e2 s'.
Proof.
  intros E NS [].
  assert (Pr : forall x, pres (objs s' x) = if Nat.eqb x o then InProgress else pres (objs s x)) by (intros; destruct E as [-> | ->]; autorewrite with pv; auto).
  assert (Le : forall x, left (objs s' x) = left (objs s x)) by (intros; destruct E as [-> | ->]; autorewrite with pv; auto).
  assert (Qi : forall x, In x (Q s) -> In x (Q s')).
  { intros x. rewrite !in_Q. destruct E as [-> | ->]; [destruct (qs_add_upload o s) as (A & B & C & _)|destruct (qs_add_query o s) as (A & B & C & _)]; rewrite A, B, C, NS, in_app_iff; tauto. }
  assert (Qo : In o (Q s')).
  { rewrite in_Q. destruct E as [-> | ->]; [destruct (qs_add_upload o s) as (A & B & C & _)|destruct (qs_add_query o s) as (A & B & C & _)]; rewrite A, B, C, NS, in_app_iff; cbn; tauto. }
  constructor.
  - intros c. rewrite Pr, Le. destruct (Nat.eqb_spec c o) as [->|]; auto. intros X. destruct (l_act0 c X) as [Y|[Y|Y]]; auto.
  - intros p it c. rewrite Le, Pr. intros X. destruct (Nat.eqb_spec c o) as [->|]; [left; left; auto|eauto].
  - intros p it c. rewrite Le. eauto.
Qed.
(** After queueing, the object itself is no longer exempt. *)
Lemma queue_done R e1 e2 o s s' : (s' = add_upload o s \/ s' = add_query o s) -> stopped s = false -> LInv R (fun x => x = o \/ e1 x) e2 s -> LInv R e1 e2 s'.
Proof.
  intros E NS I. assert (I1 : LInv R (fun x => x = o \/ e1 x) e2 s') by (eapply queue_L; eauto).
  assert (Qo : In o (Q s')).
  { rewrite in_Q. destruct E as [-> | ->]; [destruct (qs_add_upload o s) as (A & B & C & _)|destruct (qs_add_query o s) as (A & B & C & _)]; rewrite A, B, C, NS, in_app_iff; cbn; tauto. }
  destruct I1. constructor; auto. intros c X. destruct (l_act0 c X) as [Y|[Y|[->|Y]]]; auto.
Qed.

(** NotifyParents *)
Definition pend (o : obj) (r : list (obj * nat)) : obj -> nat -> obj -> Prop := fun p it c => c = o /\ In (p, it) r.
Lemma notify_one_L R o p it r s : NPre o ((p, it) :: r) s -> stopped s = false -> LInv R nob (pend o ((p, it) :: r)) s ->
  LInv R nob (pend o r) (notify_one s (p, it)) /\ stopped (notify_one s (p, it)) = false.
Proof.
  intros P NS I. rewrite (notify_one_eq _ _ _ _ _ P). destruct (notify_facts _ _ _ _ _ P) as (Npo & NQ & Lp & Inp & Own). cbv zeta.
  set (s1 := set_left p _ s).
  assert (Le : forall x, left (objs s1 x) = if Nat.eqb x p then drop_it it (left (objs s p)) else left (objs s x)) by (intros; apply left_set_left).
  assert (Pr : forall x, pres (objs s1 x) = pres (objs s x)) by (intros; apply pres_set_left).
  assert (Sub : forall x e, In e (left (objs s1 x)) -> In e (left (objs s x)) /\ (x = p -> fst e <> it)).
  { intros x e. rewrite Le. destruct (Nat.eqb_spec x p) as [->|]; [rewrite in_drop; tauto|]. intros X. split; auto; congruence. }
  assert (I1 : LInv R (fun x => x = p /\ left (objs s1 p) = []) (pend o r) s1).
  { destruct I. constructor.
    - intros c. rewrite Pr. intros X. destruct (l_act0 c X) as [Y|[Y|Y]]; [left; exact Y| |exact (False_ind _ Y)].
      destruct (Nat.eq_dec c p) as [->|Nc].
      + destruct (left (objs s1 p)) eqn:E; [right; right; auto|right; left; discriminate].
      + right; left. rewrite Le. apply Nat.eqb_neq in Nc. now rewrite Nc.
    - intros q i c X. rewrite Pr. destruct (Sub _ _ X) as [Y Z]. destruct (l_left0 q i c Y) as [W|[-> [W|W]]]; auto; [|right; split; auto].
      inversion W; subst. exfalso. now apply Z.
    - intros q i c X. destruct (Sub _ _ X) as [Y Z]. eauto. }
  assert (L1 : left (objs s1 p) = drop_it it (left (objs s p))) by (rewrite Le, Nat.eqb_refl; auto).
  destruct (drop_it it (left (objs s p))) as [|e l] eqn:D.
  - split; [|destruct (qs_add_upload p s1) as (_ & _ & _ & _ & _ & A & _); rewrite A; exact NS].
    apply (queue_done R nob (pend o r) p s1 _ (or_introl eq_refl)); [exact NS|]. eapply LInv_weaken; [| |exact I1]; auto. intros c [-> _]; auto.
  - split; auto. eapply LInv_weaken; [| |exact I1]; auto. intros c [-> X]. congruence.
Qed.
Lemma notify_fold_L R o r : forall s, NPre o r s -> stopped s = false -> LInv R nob (pend o r) s -> LInv R nob no2 (fold_left notify_one r s).
Proof.
  induction r as [|[p it] r IH]; intros s P NS I; cbn [fold_left].
  - eapply LInv_weaken; [| |exact I]; auto. intros p it c [_ []].
  - destruct (notify_one_L R o p it r s P NS I) as [A B]. apply IH; auto. now apply notify_one_step in P.
Qed.

(** PopulateChildren, QueryChildren *)
Lemma populate_L R o l : (forall c, In c l -> In c (kids R o)) -> forall s, LInv R (eq o) (fun p it c => p = o /\ pres (objs s c) = Unknown) s ->
  let (s', ok) := populate R o l s in LInv R (eq o) (fun p it c => p = o /\ pres (objs s c) = Unknown) s'.
Proof.
  intros K. assert (G : forall l', incl l' l -> forall s, LInv R (eq o) (fun p it c => p = o /\ pres (objs s c) = Unknown) s ->
    let (s', ok) := populate R o l' s in LInv R (eq o) (fun p it c => p = o /\ pres (objs s c) = Unknown) s').
  2:{ intros s I. apply (G l); auto. apply incl_refl. }
  induction l' as [|c l' IH]; intros Inc s I; cbn [populate]; auto. destruct (have R c); auto.
  destruct (append_child_view o c s) as (Vp & Vo & VQ & Vq & Vu & Vi & Vt & Vs & Vr & Vl & Vl2 & Vpar & Vc).
  assert (I1 : LInv R (eq o) (fun p it c0 => p = o /\ pres (objs (append_child o c s) c0) = Unknown) (append_child o c s)).
  { destruct I. constructor.
    - intros x. rewrite Vp, VQ. intros X. destruct (l_act0 x X) as [Y|[Y|Y]]; auto. right; left. intros E. destruct (left (objs s x)) as [|e ll] eqn:F; [congruence|].
      assert (Z : In e (left (objs (append_child o c s) x))) by (apply Vl; rewrite F; left; auto). rewrite E in Z. contradiction.
    - intros p it x X. rewrite Vp. destruct (Vl2 _ _ X) as [Y|(-> & Ex & Y)]; [eauto|]. cbn in Ex. subst x. unfold active.
      destruct (pres (objs s c)); auto. congruence.
    - intros p it x X. destruct (Vl2 _ _ X) as [Y|(-> & Ex & Y)]; [eauto|]. cbn in Ex. subst x. apply K. apply Inc. left; auto. }
  assert (Inc' : incl l' l) by (intros x X; apply Inc; right; auto).
  specialize (IH Inc' _ I1). destruct (populate R o l' (append_child o c s)) as [s' ok].
  eapply LInv_weaken; [| |exact IH]; auto. intros p it x [A B]. split; auto. now rewrite <- Vp.
Qed.
Lemma query_fold_L R e1 e2 l : forall s, stopped s = false -> LInv R e1 e2 s -> let s' := fold_left query_one l s in
  LInv R e1 e2 s' /\ (forall it c, In (it, c) l -> pres (objs s' c) <> Unknown) /\ (forall c, pres (objs s c) <> Unknown -> pres (objs s' c) <> Unknown) /\
  (forall x, left (objs s' x) = left (objs s x)) /\ stopped s' = false.
Proof.
  induction l as [|[i c] l IH]; intros s NS I; cbn [fold_left]; cbv zeta.
  { split; auto; try (split; [intros ? ? []|]); auto. }
  set (s1 := query_one s (i, c)).
  assert (A : LInv R e1 e2 s1 /\ stopped s1 = false /\ pres (objs s1 c) <> Unknown /\ (forall x, pres (objs s x) <> Unknown -> pres (objs s1 x) <> Unknown) /\ (forall x, left (objs s1 x) = left (objs s x))).
  { unfold s1, query_one. cbn [snd]. destruct (pres (objs s c)) eqn:P; try (split; [exact I|]; split; [exact NS|]; split; [congruence|]; split; auto; fail).
    split; [eapply queue_L; [right; reflexivity|auto|auto]|]. split; [destruct (qs_add_query c s) as (_ & _ & _ & _ & _ & X & _); congruence|].
    split; [rewrite pres_add_query, Nat.eqb_refl; discriminate|]. split; [|intros; apply left_add_query].
    intros x X. rewrite pres_add_query. destruct (Nat.eqb x c); [discriminate|auto]. }
  destruct A as (A1 & A2 & A3 & A4 & A5). destruct (IH s1 A2 A1) as (B1 & B2 & B3 & B4 & B5). cbv zeta in *.
  split; auto. split; [intros it x [E|X]; [inversion E; subst; auto|eauto]|]. split; auto. split; auto. intros x. rewrite B4. auto.
Qed.
Lemma populate_stopped R o l : forall s, stopped (fst (populate R o l s)) = stopped s.
Proof.
  induction l as [|c l IH]; intros s; cbn [populate fst]; auto. destruct (have R c); cbn [fst]; auto. rewrite IH.
  destruct (append_child_view o c s) as (Vp & Vo & VQ & Vq & Vu & Vi & Vt & Vs & _). exact Vs.
Qed.
Lemma populate_pres R o l : forall s x, pres (objs (fst (populate R o l s)) x) = pres (objs s x).
Proof.
  induction l as [|c l IH]; intros s x; cbn [populate fst]; auto. destruct (have R c); cbn [fst]; auto. rewrite IH.
  destruct (append_child_view o c s) as (Vp & _). apply Vp.
Qed.
(** A query makes nothing present. *)
Lemma query_present l c : forall s, pres (objs (fold_left query_one l s) c) = Present -> pres (objs s c) = Present.
Proof.
  induction l as [|[i x] l IH]; intros s; cbn [fold_left]; auto. intros H. apply IH in H. unfold query_one in H. cbn [snd] in H.
  destruct (pres (objs s x)) eqn:P; auto. rewrite pres_add_query in H. destruct (Nat.eqb c x); [discriminate|auto].
Qed.
Lemma check_children_L R o code s : code <> 200 -> stopped s = false -> LInv R (eq o) no2 s -> PInv R (check_children R o code s).
Proof.
  intros NC NS I. unfold check_children.
  pose proof (populate_L R o (kids R o) (fun c X => X) s) as P. pose proof (populate_stopped R o (kids R o) s) as PS.
  assert (I0 : LInv R (eq o) (fun p it c => p = o /\ pres (objs s c) = Unknown) s) by (eapply LInv_weaken; [| |exact I]; auto; intros ? ? ? []).
  specialize (P I0). pose proof (populate_pres R o (kids R o) s) as PP. destruct (populate R o (kids R o) s) as [s1 ok]. cbn [fst] in *.
  destruct ok; [|left; reflexivity]. right.
  assert (P1 : LInv R (eq o) (fun p it c => p = o /\ pres (objs s1 c) = Unknown) s1) by (eapply LInv_weaken; [| |exact P]; auto; intros p it c [A B]; split; auto; now rewrite PP).
  destruct (left (objs s1 o)) as [|e l] eqn:L.
  - destruct (Z.eqb_spec code 200); [contradiction|]. apply (queue_done R nob no2 o s1 _ (or_introl eq_refl)); [congruence|].
    destruct P1. constructor; auto.
    + intros c X. destruct (l_act0 c X) as [Y|[Y|Y]]; auto.
    + intros p it c X. destruct (l_left0 p it c X) as [Y|[-> Y]]; auto. rewrite L in X. contradiction.
  - unfold query_children. rewrite L. rewrite <- L.
    destruct (query_fold_L R (eq o) (fun p it c => p = o /\ pres (objs s1 c) = Unknown) (left (objs s1 o)) s1 ltac:(congruence) P1) as (A & B & C & D & E). cbv zeta in *.
    set (s2 := fold_left _ _ s1) in *. destruct A. constructor; auto.
    + intros c X. destruct (l_act0 c X) as [Y|[Y|<-]]; auto. right; left. rewrite D, L. discriminate.
    + intros p it c X. destruct (l_left0 p it c X) as [Y|[-> Y]]; auto. rewrite D in X. specialize (B _ _ X).
      destruct (pres (objs s2 c)) eqn:Pc; unfold active; auto; [contradiction|].
      unfold s2 in Pc. apply query_present in Pc. congruence.
Qed.

(** An answer arrives. *)
Lemma arrived_L R o code url s : LInv R nob no2 s -> LInv R (eq o) no2 (arrived s o code url).
Proof.
  intros []. constructor; auto. intros c X. destruct (l_act0 c X) as [Y|[Y|Y]]; [|auto|exact (False_ind _ Y)].
  destruct (Nat.eq_dec o c) as [->|N]; auto. left. rewrite in_Q in *. cbn [arrived emit set_queues qq uq infl]. rewrite in_rm. intuition.
Qed.
Lemma mark_missing_L R o p s : LInv R (eq o) no2 s -> active p -> LInv R (eq o) no2 (set_ok o true (set_pres o p s)).
Proof.
  intros I A. eapply same_view_L; [apply view_ok|]. destruct I. constructor.
  - intros c. rewrite pres_set_pres, left_set_pres. change (Q (set_pres o p s)) with (Q s). destruct (Nat.eqb_spec c o) as [->|]; auto.
  - intros q it c. rewrite left_set_pres, pres_set_pres. intros X. destruct (l_left0 _ _ _ X) as [Y|Y]; auto. destruct (Nat.eqb c o); auto.
  - intros q it c. rewrite left_set_pres. eauto.
Qed.
Lemma stopped_notify_one s r : stopped s = true -> stopped (notify_one s r) = true.
Proof.
  intros H. unfold notify_one, child_notify. cbv zeta. destruct (existsb _ _); destruct (left _); auto.
  all: match goal with |- stopped (add_upload ?a ?b) = _ => destruct (qs_add_upload a b) as (_ & _ & _ & _ & _ & X & _); rewrite X; exact H end.
Qed.
Lemma stopped_notify o s : stopped s = true -> stopped (notify_parents o s) = true.
Proof. unfold notify_parents. generalize (pars (objs s o)). intros l. revert s. induction l as [|r l IH]; intros s H; cbn [fold_left]; auto. apply IH. now apply stopped_notify_one. Qed.
Lemma stopped_check R o code s : stopped s = true -> stopped (check_children R o code s) = true.
Proof.
  intros H. unfold check_children. pose proof (populate_stopped R o (kids R o) s) as PS. destruct (populate R o (kids R o) s) as [s1 ok]. cbn [fst] in PS.
  destruct ok; [|reflexivity]. destruct (left (objs s1 o)).
  - destruct (code =? 200); [congruence|]. destruct (qs_add_upload o s1) as (_ & _ & _ & _ & _ & X & _). congruence.
  - unfold query_children. generalize (left (objs s1 o)). intros l0. rewrite H in PS. clear H. revert s1 PS. induction l0 as [|e l0 IH]; intros s1 PS; cbn [fold_left]; auto. apply IH.
    unfold query_one. destruct (pres (objs s1 (snd e))); auto. destruct (qs_add_query (snd e) s1) as (_ & _ & _ & _ & _ & X & _). congruence.
Qed.
Lemma stopped_curl_done R m o code url s : stopped s = true -> stopped (curl_done R m o code url s) = true.
Proof.
  intros H. rewrite curl_done_eq. cbv zeta. set (s2 := arrived s o code url). assert (H2 : stopped s2 = true) by exact H.
  assert (PE : stopped (presence_error o s2) = true).
  { unfold presence_error. match goal with |- stopped (add_query ?a ?b) = _ => destruct (qs_add_query a b) as (_ & _ & _ & _ & _ & X & _); rewrite X; exact H2 end. }
  assert (UE : stopped (upload_error o s2) = true).
  { unfold upload_error. match goal with |- stopped (add_upload ?a ?b) = _ => destruct (qs_add_upload a b) as (_ & _ & _ & _ & _ & X & _); rewrite X; exact H2 end. }
  destruct (op (objs s o)).
  - destruct (negb url); auto. destruct (code =? 200).
    + destruct m; (apply stopped_check || apply stopped_notify); exact H2.
    + destruct (code =? 404); auto. apply stopped_check. exact H2.
  - destruct (negb url); auto. destruct (_ || _); auto. apply stopped_notify. exact H2.
Qed.
Lemma mark_notify_L R o s : SInv nob s -> ~ In o (Q s) -> left (objs s o) = [] -> live s o -> stopped s = false -> LInv R (eq o) no2 s ->
  LInv R nob no2 (notify_parents o (set_ok o true (set_pres o Present s))).
Proof.
  intros A B C D NS I. destruct (mark_S o Present s A B C D ltac:(discriminate)) as (A3 & B3 & C3 & D3 & E3).
  unfold notify_parents. apply (notify_fold_L R o).
  - now apply notify_pre.
  - exact NS.
  - eapply same_view_L; [apply view_ok|]. destruct I. constructor.
    + intros c. rewrite pres_set_pres, left_set_pres. change (Q (set_pres o Present s)) with (Q s). destruct (Nat.eqb_spec c o) as [->|N].
      * intros [X|X]; discriminate.
      * intros X. destruct (l_act0 c X) as [Y|[Y|Y]]; auto; congruence.
    + intros p it c. rewrite left_set_pres, pres_set_pres. intros X. destruct (Nat.eqb_spec c o) as [->|N].
      * right. split; auto. autorewrite with pv. apply (s_match _ _ A). exact X.
      * destruct (l_left0 _ _ _ X) as [Y|Y]; auto. exact (False_ind _ Y).
    + intros p it c. rewrite left_set_pres. eauto.
Qed.
Lemma requeue_L R o s : stopped s = false -> LInv R (eq o) no2 s -> LInv R nob no2 (presence_error o s) /\ LInv R nob no2 (upload_error o s).
Proof.
  intros NS I.
  assert (G : forall p s', s' = add_upload o (set_ok o false (set_pres o p s)) \/ s' = add_query o (set_ok o false (set_pres o p s)) -> LInv R nob no2 s').
  { intros p s' E. set (s1 := set_ok o false (set_pres o p s)) in *. assert (N1 : stopped s1 = false) by exact NS.
    assert (Pr : forall x, pres (objs s' x) = if Nat.eqb x o then InProgress else pres (objs s x)).
    { intros x. destruct E as [-> | ->]; [rewrite pres_add_upload|rewrite pres_add_query]; unfold s1; autorewrite with pv; destruct (Nat.eqb x o); auto. }
    assert (Le : forall x, left (objs s' x) = left (objs s x)).
    { intros x. destruct E as [-> | ->]; [rewrite left_add_upload|rewrite left_add_query]; unfold s1; autorewrite with pv; auto. }
    assert (Qi : forall x, In x (Q s) -> In x (Q s')).
    { intros x. rewrite !in_Q. destruct E as [-> | ->]; [destruct (qs_add_upload o s1) as (A & B & C & _)|destruct (qs_add_query o s1) as (A & B & C & _)]; rewrite A, B, C, N1, in_app_iff; cbn [s1 set_ok set_pres set_ob qq uq infl]; tauto. }
    assert (Qo : In o (Q s')).
    { rewrite in_Q. destruct E as [-> | ->]; [destruct (qs_add_upload o s1) as (A & B & C & _)|destruct (qs_add_query o s1) as (A & B & C & _)]; rewrite A, B, C, N1, in_app_iff; cbn; tauto. }
    destruct I. constructor.
    - intros c. rewrite Pr, Le. destruct (Nat.eqb_spec c o) as [->|N]; auto. intros X. destruct (l_act0 c X) as [Y|[Y|Y]]; auto; congruence.
    - intros q it c. rewrite Le, Pr. intros X. destruct (Nat.eqb_spec c o) as [->|]; [left; left; auto|eauto].
    - intros q it c. rewrite Le. eauto. }
  split; eapply G; [right|left]; reflexivity.
Qed.
Lemma curl_done_L R o code url s : SInv nob s -> In o (infl s) -> PInv R s -> PInv R (curl_done R MDefault o code url s).
Proof.
  intros I X [St|L]; [left; now apply stopped_curl_done|].
  destruct (stopped s) eqn:NS; [left; now apply stopped_curl_done|].
  rewrite curl_done_eq. destruct (arrived_S o code url s I X) as (A & B & C & D & E). cbv zeta in *.
  pose proof (arrived_L R o code url s L) as L2. set (s2 := arrived s o code url) in *. assert (NS2 : stopped s2 = false) by exact NS.
  assert (N : PInv R (notify_parents o (set_ok o true (set_pres o Present s2)))) by (right; apply mark_notify_L; auto).
  destruct (op (objs s o)).
  - destruct url; cbn [negb]; [|right; apply requeue_L; auto].
    destruct (Z.eqb_spec code 200) as [->|N2]; [exact N|].
    destruct (Z.eqb_spec code 404) as [->|N4]; [|right; apply requeue_L; auto].
    apply check_children_L; auto. apply mark_missing_L; auto. right; auto.
  - destruct url; cbn [negb]; [|right; apply requeue_L; auto]. destruct (_ || _); [exact N|right; apply requeue_L; auto].
Qed.
Lemma move_L R s q u i : Permutation (Q s) (q ++ u ++ i) -> LInv R nob no2 s -> LInv R nob no2 (set_queues q u i s).
Proof.
  intros P []. constructor; auto. intros c X. destruct (l_act0 c X) as [Y|[Y|Y]]; auto. left. unfold Q. cbn [set_queues qq uq infl].
  now apply (Permutation_in _ P).
Qed.
Lemma real_default : real MDefault. Proof. left; reflexivity. Qed.
Lemma launch_one_L R t s : SInv nob s -> PInv R s -> PInv R (launch_one MDefault t s).
Proof.
  intros I L. unfold launch_one. destruct (qq s) as [|o q] eqn:E.
  - destruct (uq s) as [|o u] eqn:E2; auto. rewrite (upload_eq MDefault t o s u real_default I E E2).
    destruct L as [St|L]; [left; exact St|right]. eapply same_view_L; [apply view_emit|]. eapply same_view_L; [apply view_op|]. apply move_L; auto.
    unfold Q. rewrite E, E2. cbn [app]. rewrite app_assoc. apply Permutation_cons_append.
  - rewrite (test_request_eq t o s q I E). destruct L as [St|L]; [left; exact St|right]. eapply same_view_L; [apply view_emit|]. eapply same_view_L; [apply view_op|].
    apply move_L; auto. unfold Q. rewrite E. cbn [app]. rewrite !app_assoc. apply Permutation_cons_append.
Qed.
Lemma PInv_running R n s : PInv R s -> PInv R (set_running n s).
Proof. intros [A|A]; [left; exact A|right; eapply same_view_L; [apply view_running|exact A]]. Qed.
Lemma launch_loop_L R n t : forall s, SInv nob s -> PInv R s -> PInv R (launch_loop n MDefault t s).
Proof.
  induction n as [|n IH]; intros s I L; cbn [launch_loop]; auto. destruct (nothing_queued s); auto. apply IH.
  - eapply same_view_S; [apply view_running|]. now apply launch_one_S.
  - apply PInv_running. now apply launch_one_L.
Qed.
Lemma listen_one_L R s a : SInv nob s -> PInv R s -> PInv R (listen_one R MDefault s a).
Proof.
  intros I L. destruct a as [[[o code] url] now]. unfold listen_one. destruct (existsb _ _) eqn:E; auto. apply in_infl in E. cbv zeta.
  destruct (server_has_failed _); [left; reflexivity|].
  destruct (curl_done_L R o code url s I E L) as [A|A]; [left; exact A|right; eapply same_view_L; [apply view_rc|exact A]].
Qed.
Lemma listen_fold_L R l : forall s, SInv nob s -> PInv R s -> PInv R (fold_left (listen_one R MDefault) l s).
Proof. induction l as [|a l IH]; intros s I L; cbn [fold_left]; auto. apply IH; [now apply listen_one_S|now apply listen_one_L]. Qed.
Lemma loop_L R e s : SInv nob s -> PInv R s -> PInv R (loop R MDefault e s).
Proof.
  intros I L. unfold loop, loop_listen, loop_launch. apply listen_fold_L.
  - eapply same_view_S; [apply view_running|]. now apply launch_loop_S.
  - apply PInv_running. now apply launch_loop_L.
Qed.
Lemma start_L R cap root : LInv R nob no2 (add_query root (pool0 cap)).
Proof.
  apply (queue_done R nob no2 root (pool0 cap) _ (or_intror eq_refl)); [reflexivity|]. constructor.
  - intros c [X|X]; discriminate X.
  - intros p it c [].
  - intros p it c [].
Qed.
Lemma run_L R cap root l : PInv R (fst (push_run R MDefault cap root l)).
Proof.
  unfold push_run. apply (rounds_ind R MDefault root (fun s => SInv nob s /\ PInv R s)).
  - intros e s [A B]. split; [now apply loop_S|now apply loop_L].
  - split; [apply start_S|right; apply start_L].
Qed.
