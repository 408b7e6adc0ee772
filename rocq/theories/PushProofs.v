(** Structural invariant of the upload pool: queues, children and parents. *)
From Verif Require Import Base RateModel PushModel PushSpec.
From Coq Require Import Lia Permutation.

Definition Q (s : pool) : list obj := qq s ++ uq s ++ infl s.
Definition live (s : pool) (o : obj) : Prop := forall p it, In (p, it) (pars (objs s o)) -> In (it, o) (left (objs s p)).
Definition dead (s : pool) (o : obj) : Prop := pres (objs s o) = Present /\ ~ In o (Q s) /\ left (objs s o) = [].

Record SInv (ex : obj -> Prop) (s : pool) : Prop := {
  s_nodup : NoDup (Q s);
  s_wait : forall o, left (objs s o) <> [] -> ~ In o (Q s);
  s_ids : forall p, NoDup (map fst (left (objs s p)));
  s_fresh : forall p c it, In (p, it) (pars (objs s c)) -> (it < fresh s)%nat;
  s_uniq : forall p p' c c' it, In (p, it) (pars (objs s c)) -> In (p', it) (pars (objs s c')) -> p = p' /\ c = c';
  s_match : forall p c it, In (it, c) (left (objs s p)) -> In (p, it) (pars (objs s c));
  s_pnd : forall c, NoDup (pars (objs s c));
  s_state : forall o, ex o \/ live s o \/ dead s o;
  s_bad : bad s = false;
  s_stop : stopped s = true -> qq s = [] /\ uq s = [];
  s_unk : forall o, pres (objs s o) = Unknown -> ~ In o (Q s) /\ left (objs s o) = [] }.

Lemma in_Q s o : In o (Q s) <-> In o (qq s) \/ In o (uq s) \/ In o (infl s).
Proof. unfold Q. rewrite !in_app_iff. tauto. Qed.

(** Views of the setters. *)
Section V.
Variables (o x : obj) (s : pool).
Lemma pres_set_pres p : pres (objs (set_pres o p s) x) = if Nat.eqb x o then p else pres (objs s x).
Proof. unfold set_pres, set_ob, upd; cbn. destruct (Nat.eqb_spec x o); subst; reflexivity. Qed.
Lemma left_set_pres p : left (objs (set_pres o p s) x) = left (objs s x).
Proof. unfold set_pres, set_ob, upd; cbn. destruct (Nat.eqb_spec x o); subst; reflexivity. Qed.
Lemma pars_set_pres p : pars (objs (set_pres o p s) x) = pars (objs s x).
Proof. unfold set_pres, set_ob, upd; cbn. destruct (Nat.eqb_spec x o); subst; reflexivity. Qed.
Lemma op_set_pres p : op (objs (set_pres o p s) x) = op (objs s x).
Proof. unfold set_pres, set_ob, upd; cbn. destruct (Nat.eqb_spec x o); subst; reflexivity. Qed.
Lemma pres_set_left l : pres (objs (set_left o l s) x) = pres (objs s x).
Proof. unfold set_left, set_ob, upd; cbn. destruct (Nat.eqb_spec x o); subst; reflexivity. Qed.
Lemma left_set_left l : left (objs (set_left o l s) x) = if Nat.eqb x o then l else left (objs s x).
Proof. unfold set_left, set_ob, upd; cbn. destruct (Nat.eqb_spec x o); subst; reflexivity. Qed.
Lemma pars_set_left l : pars (objs (set_left o l s) x) = pars (objs s x).
Proof. unfold set_left, set_ob, upd; cbn. destruct (Nat.eqb_spec x o); subst; reflexivity. Qed.
Lemma op_set_left l : op (objs (set_left o l s) x) = op (objs s x).
Proof. unfold set_left, set_ob, upd; cbn. destruct (Nat.eqb_spec x o); subst; reflexivity. Qed.
Lemma pres_set_pars l : pres (objs (set_pars o l s) x) = pres (objs s x).
Proof. unfold set_pars, set_ob, upd; cbn. destruct (Nat.eqb_spec x o); subst; reflexivity. Qed.
Lemma left_set_pars l : left (objs (set_pars o l s) x) = left (objs s x).
Proof. unfold set_pars, set_ob, upd; cbn. destruct (Nat.eqb_spec x o); subst; reflexivity. Qed.
Lemma pars_set_pars l : pars (objs (set_pars o l s) x) = if Nat.eqb x o then l else pars (objs s x).
Proof. unfold set_pars, set_ob, upd; cbn. destruct (Nat.eqb_spec x o); subst; reflexivity. Qed.
Lemma op_set_pars l : op (objs (set_pars o l s) x) = op (objs s x).
Proof. unfold set_pars, set_ob, upd; cbn. destruct (Nat.eqb_spec x o); subst; reflexivity. Qed.
Lemma pres_set_op p t : pres (objs (set_op o p t s) x) = pres (objs s x).
Proof. unfold set_op, set_ob, upd; cbn. destruct (Nat.eqb_spec x o); subst; reflexivity. Qed.
Lemma left_set_op p t : left (objs (set_op o p t s) x) = left (objs s x).
Proof. unfold set_op, set_ob, upd; cbn. destruct (Nat.eqb_spec x o); subst; reflexivity. Qed.
Lemma pars_set_op p t : pars (objs (set_op o p t s) x) = pars (objs s x).
Proof. unfold set_op, set_ob, upd; cbn. destruct (Nat.eqb_spec x o); subst; reflexivity. Qed.
Lemma op_set_op p t : op (objs (set_op o p t s) x) = if Nat.eqb x o then p else op (objs s x).
Proof. unfold set_op, set_ob, upd; cbn. destruct (Nat.eqb_spec x o); subst; reflexivity. Qed.
Lemma pres_set_ok r : pres (objs (set_ok o r s) x) = pres (objs s x).
Proof. unfold set_ok, set_ob, upd; cbn. destruct (Nat.eqb_spec x o); subst; reflexivity. Qed.
Lemma left_set_ok r : left (objs (set_ok o r s) x) = left (objs s x).
Proof. unfold set_ok, set_ob, upd; cbn. destruct (Nat.eqb_spec x o); subst; reflexivity. Qed.
Lemma pars_set_ok r : pars (objs (set_ok o r s) x) = pars (objs s x).
Proof. unfold set_ok, set_ob, upd; cbn. destruct (Nat.eqb_spec x o); subst; reflexivity. Qed.
Lemma op_set_ok r : op (objs (set_ok o r s) x) = op (objs s x).
Proof. unfold set_ok, set_ob, upd; cbn. destruct (Nat.eqb_spec x o); subst; reflexivity. Qed.
End V.
Global Hint Rewrite pres_set_pres left_set_pres pars_set_pres op_set_pres pres_set_left left_set_left pars_set_left op_set_left
  pres_set_pars left_set_pars pars_set_pars op_set_pars pres_set_op left_set_op pars_set_op op_set_op
  pres_set_ok left_set_ok pars_set_ok op_set_ok : pv.

(** Two states that look the same. *)
Definition same_view (s s' : pool) : Prop :=
  (forall x, pres (objs s' x) = pres (objs s x)) /\ (forall x, left (objs s' x) = left (objs s x)) /\ (forall x, pars (objs s' x) = pars (objs s x)) /\
  qq s' = qq s /\ uq s' = uq s /\ infl s' = infl s /\ fresh s' = fresh s /\ bad s' = bad s /\ stopped s' = stopped s.
Lemma same_view_S ex s s' : same_view s s' -> SInv ex s -> SInv ex s'.
Proof.
  intros (A & B & C & D & E & F & G & H & I) [].
  assert (HQ : Q s' = Q s) by (unfold Q; congruence).
  constructor; rewrite ?HQ, ?G, ?H, ?I, ?D, ?E; auto.
  - intros o. rewrite B. apply s_wait0.
  - intros p. rewrite B. apply s_ids0.
  - intros p c it. rewrite C. apply s_fresh0.
  - intros p p' c c' it. rewrite !C. apply s_uniq0.
  - intros p c it. rewrite B, C. apply s_match0.
  - intros c. rewrite C. apply s_pnd0.
  - intros o. destruct (s_state0 o) as [X|[X|(X & Y & Z)]]; [auto|right; left|right; right].
    + intros p it. rewrite C, B. apply X.
    + split; [rewrite A; auto|]. rewrite HQ, B. auto.
  - intros o. rewrite A, B. apply s_unk0.
Qed.
Lemma same_view_live s s' o : same_view s s' -> live s o -> live s' o.
Proof. intros (A & B & C & _) L p it. rewrite C, B. apply L. Qed.

Lemma view_emit e s : same_view s (emit e s). Proof. repeat split. Qed.
Lemma view_running n s : same_view s (set_running n s). Proof. repeat split. Qed.
Lemma view_rc r s : same_view s (set_rc r s). Proof. repeat split. Qed.
Lemma view_ok o r s : same_view s (set_ok o r s).
Proof. repeat split; intros; autorewrite with pv; auto. Qed.
Lemma view_op o p t s : same_view s (set_op o p t s).
Proof. repeat split; intros; autorewrite with pv; auto. Qed.
Lemma view_trans a b c : same_view a b -> same_view b c -> same_view a c.
Proof. intros (A & B & C & D & E & F & G & H & I) (A' & B' & C' & D' & E' & F' & G' & H' & I'). repeat split; intros; congruence. Qed.

(** Changing one object's presence. *)
Lemma set_pres_S ex o p s : SInv ex s -> (p = Unknown -> ~ In o (Q s) /\ left (objs s o) = []) -> (p = Present \/ ex o \/ live s o) -> SInv ex (set_pres o p s).
Proof.
  intros [] U K. constructor; try exact s_nodup0; auto; try exact s_bad0; try exact s_stop0.
  - intros x. rewrite left_set_pres. apply s_wait0.
  - intros x. rewrite left_set_pres. auto.
  - intros q c it. rewrite pars_set_pres. apply s_fresh0.
  - intros q q' c c' it. rewrite !pars_set_pres. apply s_uniq0.
  - intros q c it. rewrite left_set_pres, pars_set_pres. apply s_match0.
  - intros c. rewrite pars_set_pres. auto.
  - intros x. destruct (s_state0 x) as [X|[X|(X & Y & Z)]]; [auto|right; left|].
    + intros q it. rewrite pars_set_pres, left_set_pres. apply X.
    + destruct (Nat.eqb_spec x o) as [->|N].
      * destruct K as [->|[K|K]]; [|auto|right; left].
        -- right; right. repeat split; autorewrite with pv; auto. now rewrite Nat.eqb_refl.
        -- intros q it. rewrite pars_set_pres, left_set_pres. apply K.
      * right; right. repeat split; autorewrite with pv; auto. apply Nat.eqb_neq in N. now rewrite N.
  - intros x. rewrite pres_set_pres, left_set_pres. change (Q (set_pres o p s)) with (Q s).
    destruct (Nat.eqb_spec x o) as [->|N]; auto.
Qed.
Lemma live_set_pres o p s x : live s x -> live (set_pres o p s) x.
Proof. intros L q it. autorewrite with pv. apply L. Qed.

Lemma queued_left ex s x : SInv ex s -> In x (Q s) -> left (objs s x) = [].
Proof. intros I X. destruct (left (objs s x)) eqn:L; auto. exfalso. apply (s_wait _ _ I x); auto. congruence. Qed.

(** Queueing. *)
Lemma set_queues_S ex q u i s : SInv ex s -> NoDup (q ++ u ++ i) -> (forall o, In o (q ++ u ++ i) -> left (objs s o) = [] /\ pres (objs s o) <> Unknown /\ (In o (Q s) \/ ex o \/ live s o)) ->
  (stopped s = true -> q = [] /\ u = []) -> SInv ex (set_queues q u i s).
Proof.
  intros [] N A S0. constructor; auto.
  - intros o L I. apply L. exact (proj1 (A o I)).
  - intros o. destruct (s_state0 o) as [X|[X|(X & Y & Z)]]; [auto|right; left; exact X|].
    destruct (in_dec Nat.eq_dec o (q ++ u ++ i)) as [I|I].
    + destruct (proj2 (proj2 (A o I))) as [B|[B|B]]; [contradiction|auto|right; left; exact B].
    + right; right. repeat split; auto.
  - intros o U. split.
    + intros I. destruct (A o I) as (_ & B & _). now apply B.
    + apply (s_unk0 o U).
Qed.

Lemma NoDup_snoc {A} (l : list A) x : NoDup l -> ~ In x l -> NoDup (l ++ [x]).
Proof. intros N I. apply (Permutation_NoDup (l := x :: l)); [apply Permutation_cons_append|constructor; auto]. Qed.

Lemma add_upload_S ex o s : SInv ex s -> ~ In o (Q s) -> left (objs s o) = [] -> (ex o \/ live s o) -> SInv ex (add_upload o s).
Proof.
  intros I N L K. unfold add_upload. cbv zeta.
  assert (I1 : SInv ex (set_pres o InProgress s)) by (apply set_pres_S; [auto|discriminate|auto]).
  destruct (stopped (set_pres o InProgress s)) eqn:E; auto.
  apply set_queues_S; auto; [..|congruence].
  - apply (Permutation_NoDup (l := o :: Q s)); [|constructor; auto; apply I].
    unfold Q. cbn [set_pres set_ob qq uq infl]. rewrite <- app_assoc. cbn [app].
    rewrite app_assoc. rewrite (app_assoc (qq s) (uq s) (o :: infl s)). apply Permutation_middle.
  - intros x X. cbn [set_pres set_ob qq uq infl] in X. rewrite !in_app_iff in X. cbn [In] in X.
    autorewrite with pv. destruct (Nat.eqb_spec x o) as [->|Nx].
    + split; auto. split; [discriminate|]. destruct K; auto. right; right. now apply live_set_pres.
    + assert (Xq : In x (Q s)) by (apply in_Q; intuition congruence).
      split; [|split].
      * eapply queued_left; eauto.
      * intros U. now apply (s_unk _ _ I x U).
      * left. exact Xq.
Qed.

Lemma add_query_S ex o s : SInv ex s -> ~ In o (Q s) -> left (objs s o) = [] -> (ex o \/ live s o) -> SInv ex (add_query o s).
Proof.
  intros I N L K. unfold add_query. cbv zeta.
  assert (I1 : SInv ex (set_pres o InProgress s)) by (apply set_pres_S; [auto|discriminate|auto]).
  destruct (stopped (set_pres o InProgress s)) eqn:E; auto.
  apply set_queues_S; auto; [..|congruence].
  - apply (Permutation_NoDup (l := o :: Q s)); [|constructor; auto; apply I].
    unfold Q. cbn [set_pres set_ob qq uq infl]. rewrite <- app_assoc. cbn [app]. apply Permutation_middle.
  - intros x X. cbn [set_pres set_ob qq uq infl] in X. rewrite !in_app_iff in X. cbn [In] in X.
    autorewrite with pv. destruct (Nat.eqb_spec x o) as [->|Nx].
    + split; auto. split; [discriminate|]. destruct K; auto. right; right. now apply live_set_pres.
    + assert (Xq : In x (Q s)) by (apply in_Q; intuition congruence).
      split; [|split].
      * eapply queued_left; eauto.
      * intros U. now apply (s_unk _ _ I x U).
      * left. exact Xq.
Qed.

(** What adding to a queue shows. *)
Lemma left_add_upload o s x : left (objs (add_upload o s) x) = left (objs s x).
Proof. unfold add_upload. cbv zeta. destruct (stopped _); cbn [set_queues objs]; autorewrite with pv; auto. Qed.
Lemma pars_add_upload o s x : pars (objs (add_upload o s) x) = pars (objs s x).
Proof. unfold add_upload. cbv zeta. destruct (stopped _); cbn [set_queues objs]; autorewrite with pv; auto. Qed.
Lemma op_add_upload o s x : op (objs (add_upload o s) x) = op (objs s x).
Proof. unfold add_upload. cbv zeta. destruct (stopped _); cbn [set_queues objs]; autorewrite with pv; auto. Qed.
Lemma pres_add_upload o s x : pres (objs (add_upload o s) x) = if Nat.eqb x o then InProgress else pres (objs s x).
Proof. unfold add_upload. cbv zeta. destruct (stopped _); cbn [set_queues objs]; autorewrite with pv; auto. Qed.
Lemma left_add_query o s x : left (objs (add_query o s) x) = left (objs s x).
Proof. unfold add_query. cbv zeta. destruct (stopped _); cbn [set_queues objs]; autorewrite with pv; auto. Qed.
Lemma pars_add_query o s x : pars (objs (add_query o s) x) = pars (objs s x).
Proof. unfold add_query. cbv zeta. destruct (stopped _); cbn [set_queues objs]; autorewrite with pv; auto. Qed.
Lemma op_add_query o s x : op (objs (add_query o s) x) = op (objs s x).
Proof. unfold add_query. cbv zeta. destruct (stopped _); cbn [set_queues objs]; autorewrite with pv; auto. Qed.
Lemma pres_add_query o s x : pres (objs (add_query o s) x) = if Nat.eqb x o then InProgress else pres (objs s x).
Proof. unfold add_query. cbv zeta. destruct (stopped _); cbn [set_queues objs]; autorewrite with pv; auto. Qed.
Global Hint Rewrite left_add_upload pars_add_upload op_add_upload pres_add_upload left_add_query pars_add_query op_add_query pres_add_query : pv.
Lemma qs_add_upload o s : qq (add_upload o s) = qq s /\ infl (add_upload o s) = infl s /\ uq (add_upload o s) = (if stopped s then uq s else uq s ++ [o]) /\
  fresh (add_upload o s) = fresh s /\ bad (add_upload o s) = bad s /\ stopped (add_upload o s) = stopped s /\ trace (add_upload o s) = trace s /\ rc (add_upload o s) = rc s.
Proof. unfold add_upload. cbv zeta. change (stopped (set_pres o InProgress s)) with (stopped s). destruct (stopped s) eqn:E; cbn; rewrite ?E; repeat split. Qed.
Lemma qs_add_query o s : uq (add_query o s) = uq s /\ infl (add_query o s) = infl s /\ qq (add_query o s) = (if stopped s then qq s else qq s ++ [o]) /\
  fresh (add_query o s) = fresh s /\ bad (add_query o s) = bad s /\ stopped (add_query o s) = stopped s /\ trace (add_query o s) = trace s /\ rc (add_query o s) = rc s.
Proof. unfold add_query. cbv zeta. change (stopped (set_pres o InProgress s)) with (stopped s). destruct (stopped s) eqn:E; cbn; rewrite ?E; repeat split. Qed.
Lemma live_add_upload o s x : live s x -> live (add_upload o s) x.
Proof. intros L q it. autorewrite with pv. apply L. Qed.
Lemma live_add_query o s x : live s x -> live (add_query o s) x.
Proof. intros L q it. autorewrite with pv. apply L. Qed.
Lemma in_Q_add_upload o s x : In x (Q (add_upload o s)) -> x = o \/ In x (Q s).
Proof.
  destruct (qs_add_upload o s) as (A & B & C & _). rewrite !in_Q, A, B, C. destruct (stopped s); [tauto|].
  rewrite in_app_iff. cbn [In]. intuition.
Qed.
Lemma in_Q_add_query o s x : In x (Q (add_query o s)) -> x = o \/ In x (Q s).
Proof.
  destruct (qs_add_query o s) as (A & B & C & _). rewrite !in_Q, A, B, C. destruct (stopped s); [tauto|].
  rewrite in_app_iff. cbn [In]. intuition.
Qed.

(** AppendChild. *)
Lemma append_child_S ex o c s : SInv ex s -> ~ In o (Q s) -> pres (objs s o) <> Unknown -> (ex o \/ live s o) -> SInv ex (append_child o c s).
Proof.
  intros I N U K. unfold append_child.
  assert (G : pres (objs s c) <> Present -> SInv ex (set_fresh (S (fresh s)) (set_pars c (pars (objs (set_left o (left (objs s o) ++ [(fresh s, c)]) s) c) ++ [(o, fresh s)])
      (set_left o (left (objs s o) ++ [(fresh s, c)]) s)))).
  { intros NP. set (s1 := set_fresh _ _).
    assert (Epars : forall x, pars (objs s1 x) = if Nat.eqb x c then pars (objs s c) ++ [(o, fresh s)] else pars (objs s x)).
    { intros x. unfold s1. cbn [set_fresh objs]. rewrite pars_set_pars, !pars_set_left. reflexivity. }
    assert (Eleft : forall x, left (objs s1 x) = if Nat.eqb x o then left (objs s o) ++ [(fresh s, c)] else left (objs s x)).
    { intros x. unfold s1. cbn [set_fresh objs]. rewrite left_set_pars, left_set_left. reflexivity. }
    assert (Epres : forall x, pres (objs s1 x) = pres (objs s x)).
    { intros x. unfold s1. cbn [set_fresh objs]. rewrite pres_set_pars, pres_set_left. reflexivity. }
    assert (EQ : Q s1 = Q s) by reflexivity. assert (EF : fresh s1 = S (fresh s)) by reflexivity.
    assert (Inp : forall p it x, In (p, it) (pars (objs s1 x)) -> In (p, it) (pars (objs s x)) \/ (x = c /\ p = o /\ it = fresh s)).
    { intros p it x. rewrite Epars. destruct (Nat.eqb_spec x c) as [->|]; auto. rewrite in_app_iff. cbn [In]. intros [A|[A|[]]]; auto. inversion A; auto. }
    assert (Inl : forall p it x, In (it, x) (left (objs s1 p)) -> In (it, x) (left (objs s p)) \/ (x = c /\ p = o /\ it = fresh s)).
    { intros p it x. rewrite Eleft. destruct (Nat.eqb_spec p o) as [->|]; auto. rewrite in_app_iff. cbn [In]. intros [A|[A|[]]]; auto. inversion A; auto. }
    assert (Inl2 : forall p it x, In (it, x) (left (objs s p)) -> In (it, x) (left (objs s1 p))).
    { intros p it x A. rewrite Eleft. destruct (Nat.eqb_spec p o) as [->|]; auto. rewrite in_app_iff. auto. }
    assert (Inp2 : forall p it x, In (p, it) (pars (objs s x)) -> In (p, it) (pars (objs s1 x))).
    { intros p it x A. rewrite Epars. destruct (Nat.eqb_spec x c) as [->|]; auto. rewrite in_app_iff. auto. }
    destruct I. constructor; auto.
    - intros x. rewrite Eleft, EQ. destruct (Nat.eqb_spec x o) as [->|]; auto.
    - intros p. rewrite Eleft. destruct (Nat.eqb_spec p o) as [->|]; auto. rewrite map_app. cbn [map fst]. apply NoDup_snoc; auto.
      rewrite in_map_iff. intros ([it x] & A & B). cbn in A. subst it. apply s_match0 in B. apply s_fresh0 in B. lia.
    - intros p x it A. rewrite EF. destruct (Inp _ _ _ A) as [B|(_ & _ & ->)]; [|lia]. apply s_fresh0 in B. lia.
    - intros p p' x x' it A B. destruct (Inp _ _ _ A) as [A'|(-> & -> & ->)]; destruct (Inp _ _ _ B) as [B'|(-> & -> & E)]; auto.
      + eapply s_uniq0; eauto.
      + subst it. apply s_fresh0 in A'. lia.
      + apply s_fresh0 in B'. lia.
    - intros p x it A. destruct (Inl _ _ _ A) as [B|(-> & -> & ->)]; [auto|]. rewrite Epars, Nat.eqb_refl, in_app_iff. cbn; auto.
    - intros x. rewrite Epars. destruct (Nat.eqb_spec x c) as [->|]; auto. apply NoDup_snoc; auto.
      intros A. apply s_fresh0 in A. lia.
    - intros x. destruct (s_state0 x) as [X|[X|(X & Y & Z)]]; [auto|right; left|].
      + intros p it A. destruct (Inp _ _ _ A) as [B|(-> & -> & ->)]; [apply Inl2; auto|]. rewrite Eleft, Nat.eqb_refl, in_app_iff. cbn; auto.
      + destruct (Nat.eqb_spec x o) as [->|Nx].
        * destruct K as [K|K]; auto. right; left. intros p it A. destruct (Inp _ _ _ A) as [B|(E & -> & ->)]; [apply Inl2; auto|]. subst c. congruence.
        * right; right. repeat split; [rewrite Epres; auto|rewrite EQ; auto|]. rewrite Eleft. destruct (Nat.eqb_spec x o); congruence.
    - intros x. rewrite Epres, EQ, Eleft. intros Ux. destruct (Nat.eqb_spec x o) as [->|]; [contradiction|]. auto. }
  destruct (pres (objs s c)) eqn:P; try (apply G; congruence). exact I.
Qed.
Lemma append_child_view o c s : (forall x, pres (objs (append_child o c s) x) = pres (objs s x)) /\ (forall x, op (objs (append_child o c s) x) = op (objs s x)) /\
  Q (append_child o c s) = Q s /\ qq (append_child o c s) = qq s /\ uq (append_child o c s) = uq s /\ infl (append_child o c s) = infl s /\
  trace (append_child o c s) = trace s /\ stopped (append_child o c s) = stopped s /\ rc (append_child o c s) = rc s /\
  (forall x e, In e (left (objs s x)) -> In e (left (objs (append_child o c s) x))) /\
  (forall x e, In e (left (objs (append_child o c s) x)) -> In e (left (objs s x)) \/ (x = o /\ snd e = c /\ pres (objs s c) <> Present)) /\
  (forall x p it, In (p, it) (pars (objs (append_child o c s) x)) -> In (p, it) (pars (objs s x)) \/ p = o) /\
  (pres (objs s c) = Present \/ In c (map snd (left (objs (append_child o c s) o)))).
Proof.
  unfold append_child. destruct (pres (objs s c)) eqn:P.
  2:{ repeat split; auto. }
  all: cbv zeta; set (s1 := set_left o _ s); repeat split; auto.
  all: try (intros; cbn [set_fresh objs]; unfold s1; autorewrite with pv; reflexivity).
  all: try (intros x e A; cbn [set_fresh objs] in *; unfold s1 in *; autorewrite with pv in *; destruct (Nat.eqb_spec x o) as [->|]; auto; rewrite ?in_app_iff in *; auto; fail).
  all: try (intros x e A; cbn [set_fresh objs] in *; unfold s1 in *; autorewrite with pv in *; destruct (Nat.eqb_spec x o) as [->|]; auto; rewrite in_app_iff in A;
            destruct A as [A|[<-|[]]]; auto; right; cbn; repeat split; auto; congruence).
  all: try (intros x p it A; cbn [set_fresh objs] in *; unfold s1 in *; autorewrite with pv in *; destruct (Nat.eqb_spec x c) as [->|]; auto; rewrite in_app_iff in A;
            destruct A as [A|[A|[]]]; auto; inversion A; auto).
  all: right; cbn [set_fresh objs]; unfold s1; autorewrite with pv; rewrite Nat.eqb_refl, map_app, in_app_iff; cbn; auto.
Qed.
Lemma append_child_live o c s x : live s x -> live (append_child o c s) x.
Proof.
  intros L p it. unfold append_child. destruct (pres (objs s c)) eqn:P; auto.
  all: cbv zeta; cbn [set_fresh objs]; autorewrite with pv; intros A.
  all: assert (B : In (p, it) (pars (objs s x)) \/ (x = c /\ p = o /\ it = fresh s)) by
    (destruct (Nat.eqb_spec x c) as [->|]; auto; rewrite in_app_iff in A; destruct A as [A|[A|[]]]; auto; inversion A; auto).
  all: destruct B as [B|(-> & -> & ->)]; [apply L in B; destruct (Nat.eqb_spec p o) as [->|]; auto; rewrite in_app_iff; auto|rewrite Nat.eqb_refl, in_app_iff; cbn; auto].
Qed.

Lemma NoDup_app_disj {A} (a b : list A) : NoDup (a ++ b) -> forall x, In x a -> ~ In x b.
Proof. induction a as [|y a IH]; cbn; [tauto|]. intros H x [->|X] Y; inversion H; subst; [apply H2; rewrite in_app_iff; auto|eapply IH; eauto]. Qed.
Lemma NoDup_app_r {A} (a b : list A) : NoDup (a ++ b) -> NoDup b.
Proof. induction a as [|x a IH]; cbn; auto. intros H. inversion H; auto. Qed.

Lemma abort_S ex s : SInv ex s -> SInv ex (abort s).
Proof.
  intros []. assert (HQ : forall x, In x (Q (abort s)) -> In x (Q s)) by (intros x; rewrite !in_Q; cbn; tauto).
  constructor; auto.
  - unfold Q in *. cbn. apply NoDup_app_r in s_nodup0. now apply NoDup_app_r in s_nodup0.
  - intros o L I. apply (s_wait0 o L). auto.
  - intros o. destruct (s_state0 o) as [X|[X|(X & Y & Z)]]; [auto|right; left; exact X|right; right; repeat split; auto].
  - intros o U. destruct (s_unk0 o U). split; auto.
Qed.

(** NotifyParents. *)
Record NPre (o : obj) (r : list (obj * nat)) (s : pool) : Prop := {
  n_inv : SInv (eq o) s; n_pres : pres (objs s o) = Present; n_Q : ~ In o (Q s); n_left : left (objs s o) = [];
  n_nd : NoDup r; n_live : forall p it, In (p, it) r -> In (it, o) (left (objs s p)) }.
Definition drop_it (it : nat) (l : list (nat * obj)) : list (nat * obj) := filter (fun e => negb (Nat.eqb (fst e) it)) l.
Lemma in_drop it l e : In e (drop_it it l) <-> In e l /\ fst e <> it.
Proof. unfold drop_it. rewrite filter_In, negb_true_iff, Nat.eqb_neq. tauto. Qed.
Lemma NoDup_drop it l : NoDup (map fst l) -> NoDup (map fst (drop_it it l)).
Proof.
  induction l as [|[i c] l IH]; intros H; [exact H|]. unfold drop_it. cbn [filter fst]. fold (drop_it it l). cbn [map fst] in H. inversion H; subst.
  destruct (negb (Nat.eqb i it)); auto. cbn [map fst]. constructor; auto.
  intros A. apply H2. apply in_map_iff in A. destruct A as (e & E & F). apply in_drop in F. apply in_map_iff. exists e. tauto.
Qed.
Lemma notify_one_eq o p it r s : NPre o ((p, it) :: r) s ->
  notify_one s (p, it) = let s1 := set_left p (drop_it it (left (objs s p))) s in match drop_it it (left (objs s p)) with [] => add_upload p s1 | _ :: _ => s1 end.
Proof.
  intros []. unfold notify_one, child_notify. cbn [fst snd].
  assert (E : existsb (fun e => Nat.eqb (fst e) it) (left (objs s p)) = true).
  { apply existsb_exists. exists (it, o). split; [apply n_live0; left; auto|apply Nat.eqb_refl]. }
  rewrite E. fold (drop_it it (left (objs s p))). cbv zeta. rewrite left_set_left, Nat.eqb_refl. reflexivity.
Qed.
Lemma notify_facts o p it r s : NPre o ((p, it) :: r) s ->
  p <> o /\ ~ In p (Q s) /\ live s p /\ In (p, it) (pars (objs s o)) /\
  (forall c it', In (it', c) (left (objs s p)) -> it' = it -> c = o).
Proof.
  intros []. assert (A : In (it, o) (left (objs s p))) by (apply n_live0; left; auto).
  assert (B : p <> o) by (intros ->; rewrite n_left0 in A; contradiction).
  assert (C : left (objs s p) <> []) by (intros E; rewrite E in A; contradiction).
  split; auto. split; [apply (s_wait _ _ n_inv0); auto|]. split; [|split].
  - destruct (s_state _ _ n_inv0 p) as [X|[X|(_ & _ & X)]]; [congruence|auto|contradiction].
  - apply (s_match _ _ n_inv0); auto.
  - intros c it' D ->. apply (s_match _ _ n_inv0) in A. apply (s_match _ _ n_inv0) in D. now destruct (s_uniq _ _ n_inv0 _ _ _ _ _ D A).
Qed.
Lemma set_left_drop o p it r s : NPre o ((p, it) :: r) s -> let s1 := set_left p (drop_it it (left (objs s p))) s in
  SInv (eq o) s1 /\ (forall x, x <> o -> live s x -> live s1 x) /\ NPre o r s1.
Proof.
  intros P. destruct (notify_facts _ _ _ _ _ P) as (Npo & NQ & Lp & Inp & Own). destruct P. cbv zeta.
  set (s1 := set_left p _ s).
  assert (EQ : Q s1 = Q s) by reflexivity.
  assert (El : forall x, left (objs s1 x) = if Nat.eqb x p then drop_it it (left (objs s p)) else left (objs s x)) by (intros; apply left_set_left).
  assert (Sub : forall x e, In e (left (objs s1 x)) -> In e (left (objs s x))).
  { intros x e. rewrite El. destruct (Nat.eqb_spec x p) as [->|]; auto. rewrite in_drop. tauto. }
  assert (Ep : forall x, pars (objs s1 x) = pars (objs s x)) by (intros; apply pars_set_left).
  assert (Er : forall x, pres (objs s1 x) = pres (objs s x)) by (intros; apply pres_set_left).
  assert (Nil : forall x, left (objs s x) = [] -> left (objs s1 x) = []).
  { intros x E. rewrite El. destruct (Nat.eqb_spec x p) as [->|]; auto. rewrite E. reflexivity. }
  assert (LV : forall x, x <> o -> live s x -> live s1 x).
  { intros x Nx L q it' A. rewrite Ep in A. apply L in A. rewrite El. destruct (Nat.eqb_spec q p) as [->|]; auto.
    apply in_drop. split; auto. cbn. intros ->. apply Nx. eapply Own; eauto. }
  assert (I1 : SInv (eq o) s1).
  { destruct n_inv0. constructor; try exact s_nodup0; try exact s_bad0; try exact s_stop0; auto.
    - intros x. rewrite El. destruct (Nat.eqb_spec x p) as [->|]; auto.
      now apply NoDup_drop.
    - intros q c i. rewrite Ep. apply s_fresh0.
    - intros q q' c c' i. rewrite !Ep. apply s_uniq0.
    - intros q c i A. rewrite Ep. apply s_match0. auto.
    - intros c. rewrite Ep. auto.
    - intros x. destruct (s_state0 x) as [X|[X|(X & Y & Z)]]; [auto|..].
      + destruct (Nat.eq_dec x o) as [->|Nx]; [left; auto|right; left; auto].
      + right; right. repeat split; auto. rewrite Er; auto.
    - intros x. rewrite Er, EQ. intros U. destruct (s_unk0 x U). auto. }
  split; auto. split; auto. inversion n_nd0; subst. constructor; auto.
  - rewrite Er; auto.
  - intros q i A. specialize (n_live0 q i (or_intror A)). rewrite El. destruct (Nat.eqb_spec q p) as [->|]; auto.
    apply in_drop. split; auto. cbn. intros ->. contradiction.
Qed.
Lemma notify_one_step o p it r s : NPre o ((p, it) :: r) s -> NPre o r (notify_one s (p, it)).
Proof.
  intros P. rewrite (notify_one_eq _ _ _ _ _ P). destruct (set_left_drop _ _ _ _ _ P) as (I1 & LV & P1).
  destruct (notify_facts _ _ _ _ _ P) as (Npo & NQ & Lp & Inp & Own). cbv zeta in *.
  set (s1 := set_left p _ s) in *. destruct (drop_it it (left (objs s p))) as [|e l] eqn:D; [|exact P1].
  assert (NQ1 : ~ In p (Q s1)) by exact NQ.
  assert (L1 : left (objs s1 p) = []) by (unfold s1; rewrite left_set_left, Nat.eqb_refl; auto).
  destruct P1. constructor; auto.
  - apply add_upload_S; auto.
  - rewrite pres_add_upload. destruct (Nat.eqb_spec o p); [congruence|auto].
  - intros A. apply in_Q_add_upload in A. destruct A; [congruence|contradiction].
  - rewrite left_add_upload. auto.
  - intros q i A. rewrite left_add_upload. auto.
Qed.
Lemma notify_fold o r : forall s, NPre o r s -> NPre o [] (fold_left notify_one r s).
Proof. induction r as [|[p it] r IH]; intros s P; cbn [fold_left]; [exact P|]. apply IH. now apply notify_one_step in P. Qed.

Definition nob : obj -> Prop := fun _ => False.
Lemma SInv_weaken (ex ex' : obj -> Prop) s : (forall o, ex o -> ex' o) -> SInv ex s -> SInv ex' s.
Proof. intros H []. constructor; auto. intros o. destruct (s_state0 o); auto. Qed.
(** An object that is present, idle and alive can notify its parents. *)
Lemma notify_pre o s : SInv nob s -> pres (objs s o) = Present -> ~ In o (Q s) -> left (objs s o) = [] -> live s o -> NPre o (pars (objs s o)) s.
Proof. intros I P N L V. constructor; auto; [eapply SInv_weaken; [|exact I]; intros ? []|apply (s_pnd _ _ I)]. Qed.
Lemma notify_parents_S o s : NPre o (pars (objs s o)) s -> SInv nob (notify_parents o s).
Proof.
  intros P. unfold notify_parents. apply notify_fold in P. set (s' := fold_left _ _ s) in *. destruct P.
  destruct n_inv0. constructor; auto. intros x. destruct (s_state0 x) as [<-|H]; auto. right; right. repeat split; auto.
Qed.

(** PopulateChildren. *)
Lemma populate_S R ex o l : forall s, SInv ex s -> ~ In o (Q s) -> pres (objs s o) <> Unknown -> live s o ->
  let s' := fst (populate R o l s) in SInv ex s' /\ Q s' = Q s /\ (forall x, pres (objs s' x) = pres (objs s x)) /\ live s' o.
Proof.
  induction l as [|c l IH]; intros s I N U L; cbn [populate fst]; auto.
  destruct (have R c); cbn [fst]; auto.
  destruct (append_child_view o c s) as (Vp & Vo & VQ & _).
  destruct (IH (append_child o c s)) as (A & B & C & D).
  - apply append_child_S; auto.
  - now rewrite VQ.
  - now rewrite Vp.
  - now apply append_child_live.
  - cbv zeta in *. split; [exact A|]. split; [congruence|]. split; [|exact D]. intros x. rewrite C. apply Vp.
Qed.
(** QueryChildren. *)
Lemma query_one_S ex s e : SInv ex s -> SInv ex (query_one s e).
Proof.
  intros I. unfold query_one. destruct (pres (objs s (snd e))) eqn:P; auto. destruct (s_unk _ _ I _ P) as [A B]. apply add_query_S; auto.
  destruct (s_state _ _ I (snd e)) as [X|[X|(X & _)]]; auto. congruence.
Qed.
Lemma query_fold_S ex l : forall s, SInv ex s -> SInv ex (fold_left query_one l s).
Proof. induction l as [|e l IH]; intros s I; cbn [fold_left]; auto. apply IH. now apply query_one_S. Qed.
Lemma check_children_S R o code s : SInv nob s -> ~ In o (Q s) -> pres (objs s o) <> Unknown -> live s o -> SInv nob (check_children R o code s).
Proof.
  intros I N U L. unfold check_children. destruct (populate_S R nob o (kids R o) s I N U L) as (A & B & C & D).
  destruct (populate R o (kids R o) s) as [s1 ok]. cbn [fst] in *. destruct ok; [|now apply abort_S].
  destruct (left (objs s1 o)) as [|e l] eqn:E; [|now apply query_fold_S]. destruct (code =? 200); auto. apply add_upload_S; auto. now rewrite B.
Qed.

Lemma in_rm o x l : In x (rm o l) <-> In x l /\ x <> o.
Proof. unfold rm. rewrite filter_In, negb_true_iff, Nat.eqb_neq. tauto. Qed.
Lemma NoDup_filter_app (a b c : list obj) f : NoDup (a ++ b ++ c) -> NoDup (a ++ b ++ filter f c).
Proof.
  rewrite !app_assoc. generalize (a ++ b). intros d. revert c. induction d as [|x d IH]; cbn; intros c H.
  - now apply NoDup_filter.
  - inversion H; subst. constructor; auto. rewrite in_app_iff in *. rewrite filter_In. tauto.
Qed.
(** Taking a finished request out. *)
Lemma finish_S o s : SInv nob s -> In o (infl s) ->
  let s1 := set_queues (qq s) (uq s) (rm o (infl s)) s in SInv nob s1 /\ ~ In o (Q s1) /\ left (objs s1 o) = [] /\ live s1 o /\ pres (objs s1 o) <> Unknown.
Proof.
  intros I X. cbv zeta. set (s1 := set_queues _ _ _ s).
  assert (IQ : In o (Q s)) by (apply in_Q; auto).
  assert (I1 : SInv nob s1).
  { apply set_queues_S; auto.
    - unfold rm. apply NoDup_filter_app. apply I.
    - intros x A. assert (B : In x (Q s)) by (apply in_Q; rewrite !in_app_iff, in_rm in A; tauto). split; [eapply queued_left; eauto|]. split; auto.
      intros U. now apply (s_unk _ _ I x U).
    - apply I. }
  assert (NQ : ~ In o (Q s1)).
  { pose proof (s_nodup _ _ I) as N. unfold Q in N. unfold s1. rewrite in_Q. cbn [set_queues qq uq infl]. rewrite in_rm. intros [A|[A|[_ A]]]; [..|congruence].
    - apply (NoDup_app_disj _ _ N o A). rewrite in_app_iff; auto.
    - apply NoDup_app_r in N. now apply (NoDup_app_disj _ _ N o A). }
  split; [exact I1|]. split; [exact NQ|]. split; [exact (queued_left nob s o I IQ)|]. split.
  - destruct (s_state _ _ I o) as [F|[L|(_ & N & _)]]; [exact (False_ind _ F)|exact L|contradiction].
  - intros U. now apply (s_unk _ _ I o U).
Qed.
