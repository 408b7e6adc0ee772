(** C195: memory of messages. *)
From Verif Require Import Base MemModel.
Local Open Scope nat_scope.

(** ** Independent specification *)
(** The memory that belongs to a message: given back with it, exactly once, and never used afterwards. *)
(** Whatever is done with pointers to messages, a message exists exactly as long as somebody has a pointer to it. *)
Definition lives_while_referenced (s : mem) : Prop :=
  forall a, (exists m, get a (heap s) = Some m) <-> (exists x, get x (vars s) = Some a).
(** All memory was given back. *)
Definition all_given_back (s : mem) : Prop := heap s = [] /\ freed s = taken s /\ lost s = 0.
Definition C195_statement : Prop :=
  (forall ops, run ops mem0 <> UseAfterFree /\ forall s, run ops mem0 = Fine s -> lives_while_referenced s) /\
  (forall h : list exchange, exists s, run (flat_map ops_of h) mem0 = Fine s /\ all_given_back s).
(** The answer to the request was begun, and then malformed or cut off. *)
Definition broken_answer (e : exchange) : Prop := match e with Primary _ _ (Broken _ _) => True | _ => False end.
(** The blocks that a broken answer holds. *)
Definition broken_blocks (e : exchange) : nat := match e with Primary _ _ (Broken Nothing _) => 0 | Primary _ _ (Broken _ n) => n | _ => 0 end.

(** ** Lemmas about finite maps *)
Lemma get_del_same {A} (l : list (nat * A)) k : get k (del k l) = None.
Proof.
  induction l as [|[k' a] l IH]; [reflexivity|]. cbn [del]. destruct (k =? k') eqn:E; [exact IH|]. cbn [get]. rewrite E. exact IH.
Qed.
Lemma get_del_other {A} (l : list (nat * A)) k j : j <> k -> get j (del k l) = get j l.
Proof.
  intro Hn. induction l as [|[k' a] l IH]; [reflexivity|]. cbn [del get]. destruct (k =? k') eqn:E.
  - apply Nat.eqb_eq in E. subst k'. rewrite (proj2 (Nat.eqb_neq j k) Hn). exact IH.
  - cbn [get]. rewrite IH. reflexivity.
Qed.
Lemma get_put_same {A} (l : list (nat * A)) k a : get k (put k a l) = Some a.
Proof. unfold put. cbn [get]. rewrite Nat.eqb_refl. reflexivity. Qed.
Lemma get_put_other {A} (l : list (nat * A)) k j a : j <> k -> get j (put k a l) = get j l.
Proof. intro Hn. unfold put. cbn [get]. rewrite (proj2 (Nat.eqb_neq j k) Hn). apply get_del_other. exact Hn. Qed.

(** The number of pointers to a message. *)
Fixpoint refs (a : nat) (v : list (nat * nat)) : nat :=
  match v with [] => 0 | (_, b) :: r => (if a =? b then 1 else 0) + refs a r end.
Fixpoint distinct (v : list (nat * nat)) : Prop :=
  match v with [] => True | (x, _) :: r => get x r = None /\ distinct r end.
Lemma distinct_del v x : distinct v -> distinct (del x v).
Proof.
  induction v as [|[y b] v IH]; [trivial|]. cbn [del distinct]. intros [Hn Hd]. destruct (x =? y) eqn:E; [exact (IH Hd)|].
  cbn [distinct]. split; [|exact (IH Hd)]. rewrite get_del_other; [exact Hn|]. apply Nat.eqb_neq in E. congruence.
Qed.
Lemma distinct_put v x a : distinct v -> distinct (put x a v).
Proof. intro Hd. unfold put. cbn [distinct]. split; [apply get_del_same | apply distinct_del; exact Hd]. Qed.
Lemma refs_del_none v x a : get x v = None -> refs a (del x v) = refs a v.
Proof.
  induction v as [|[y b] v IH]; [reflexivity|]. cbn [del get]. destruct (x =? y) eqn:E; [discriminate|].
  intro Hg. cbn [refs]. rewrite (IH Hg). reflexivity.
Qed.
Lemma refs_del_some v x b a : distinct v -> get x v = Some b -> refs a v = (if a =? b then 1 else 0) + refs a (del x v).
Proof.
  induction v as [|[y c] v IH]; [discriminate|]. cbn [del get distinct]. intros [Hn Hd]. destruct (x =? y) eqn:E; intro Hg.
  - apply Nat.eqb_eq in E. subst y. injection Hg as ->. cbn [refs]. rewrite (refs_del_none v x a Hn). reflexivity.
  - cbn [refs]. rewrite (IH Hd Hg). destruct (a =? c), (a =? b); reflexivity.
Qed.
Lemma refs_pos v a : distinct v -> (0 < refs a v <-> exists x, get x v = Some a).
Proof.
  induction v as [|[y c] v IH].
  - intros _. cbn. split; [lia | intros [x Hx]; discriminate].
  - cbn [distinct]. intros [Hn Hd]. cbn [refs]. split.
    + intro Hp. destruct (a =? c) eqn:E.
      * apply Nat.eqb_eq in E. subst c. exists y. cbn [get]. rewrite Nat.eqb_refl. reflexivity.
      * cbn in Hp. destruct (proj1 (IH Hd) Hp) as [x Hx]. exists x. cbn [get]. destruct (x =? y) eqn:Ex; [|exact Hx].
        apply Nat.eqb_eq in Ex. subst x. rewrite Hn in Hx. discriminate.
    + intros [x Hx]. cbn [get] in Hx. destruct (x =? y) eqn:Ex.
      * injection Hx as ->. rewrite Nat.eqb_refl. lia.
      * assert (0 < refs a v) by (apply (IH Hd); exists x; exact Hx). lia.
Qed.

(** ** The counters are right *)
Definition counted (s : mem) : Prop :=
  distinct (vars s) /\
  (forall a, match get a (heap s) with Some m => count m = refs a (vars s) /\ 0 < count m | None => refs a (vars s) = 0 end) /\
  (forall a, next s <= a -> get a (heap s) = None).
(** All counters are right, except that the pointers to [a] are one fewer than counted (before a release). *)
Definition counted_but (b : nat) (s : mem) : Prop :=
  distinct (vars s) /\
  (forall a, match get a (heap s) with Some m => count m = refs a (vars s) + (if a =? b then 1 else 0) /\ 0 < count m | None => refs a (vars s) = 0 /\ a <> b end) /\
  (forall a, next s <= a -> get a (heap s) = None).

Lemma release_counted b s : counted_but b s -> release b s = WrongMember \/ exists s', release b s = Fine s' /\ counted s'.
Proof.
  intros (Hd & Hc & Hf). unfold release. pose proof (Hc b) as Hb. destruct (get b (heap s)) as [m|] eqn:Eg; [|destruct Hb as [_ Hb]; congruence].
  rewrite Nat.eqb_refl in Hb. destruct Hb as [Hb Hp].
  assert (Hdel : counted (mkMem (del b (heap s)) (vars s) (next s) (taken s) (freed s) (lost s)) \/ count m - 1 <> 0).
  { destruct (Nat.eq_dec (count m - 1) 0) as [E0|E0]; [left|right; exact E0]. split; [exact Hd|]. split; cbn [heap vars next].
    - intro a. destruct (Nat.eq_dec a b) as [->|Hn].
      + rewrite get_del_same. lia.
      + rewrite (get_del_other _ _ _ Hn). pose proof (Hc a) as Ha. rewrite (proj2 (Nat.eqb_neq a b) Hn) in Ha.
        destruct (get a (heap s)); [rewrite Nat.add_0_r in Ha; exact Ha | exact (proj1 Ha)].
    - intros a Ha. destruct (Nat.eq_dec a b) as [->|Hn]; [apply get_del_same | rewrite (get_del_other _ _ _ Hn); exact (Hf a Ha)]. }
  destruct (count m - 1 =? 0) eqn:E.
  - apply Nat.eqb_eq in E. destruct Hdel as [Hdel|Hdel]; [|congruence]. unfold destroy.
    destruct (tag_eqb (present m) (member m)).
    + right. eexists. split; [reflexivity|]. exact Hdel.
    + destruct ((blocks m =? 0) || tag_eqb (present m) Nothing)%bool; [|left; reflexivity].
      right. eexists. split; [reflexivity|]. exact Hdel.
  - apply Nat.eqb_neq in E. right. eexists. split; [reflexivity|]. split; [exact Hd|]. split; cbn [heap vars next].
    + intro a. destruct (Nat.eq_dec a b) as [->|Hn].
      * rewrite get_put_same. cbn [count]. lia.
      * rewrite (get_put_other _ _ _ _ Hn). pose proof (Hc a) as Ha. rewrite (proj2 (Nat.eqb_neq a b) Hn) in Ha.
        destruct (get a (heap s)); [rewrite Nat.add_0_r in Ha; exact Ha | exact (proj1 Ha)].
    + intros a Ha. destruct (Nat.eq_dec a b) as [->|Hn]; [|rewrite (get_put_other _ _ _ _ Hn); exact (Hf a Ha)].
      rewrite (Hf b Ha) in Eg. discriminate.
Qed.

(** Before an assignment: counters are right, or the message is new and not counted yet. *)
Definition ready (a : nat) (s : mem) : Prop :=
  distinct (vars s) /\
  (forall b, match get b (heap s) with Some m => count m = refs b (vars s) /\ (b <> a -> 0 < count m) | None => refs b (vars s) = 0 /\ b <> a end) /\
  (forall b, next s <= b -> get b (heap s) = None).
Lemma assign_counted x a s : ready a s -> assign x a s = WrongMember \/ exists s', assign x a s = Fine s' /\ counted s'.
Proof.
  intros (Hd & Hc & Hf). unfold assign, add_ref. pose proof (Hc a) as Ha.
  destruct (get a (heap s)) as [m|] eqn:Eg; [|destruct Ha; congruence]. destruct Ha as [Ha _]. cbn [andthen vars].
  set (m' := mkMsg (S (count m)) (present m) (member m) (blocks m)).
  set (s1 := mkMem (put a m' (heap s)) (vars s) (next s) (taken s) (freed s) (lost s)).
  assert (Hf1 : forall b, next s <= b -> get b (put a m' (heap s)) = None).
  { intros b Hb. destruct (Nat.eq_dec b a) as [->|Hn]; [rewrite (Hf a Hb) in Eg; discriminate|]. rewrite (get_put_other _ _ _ _ Hn). exact (Hf b Hb). }
  destruct (get x (vars s)) as [c|] eqn:Ev.
  - apply release_counted. unfold set_vars, s1. split; [apply distinct_put; exact Hd|]. split; cbn [heap vars next]; [|exact Hf1].
    intro b. unfold put at 2 3. cbn [refs]. pose proof (refs_del_some _ _ _ b Hd Ev) as Hr. pose proof (Hc b) as Hb.
    destruct (Nat.eq_dec b a) as [->|Hn].
    + rewrite get_put_same. unfold m'. cbn [count]. rewrite Nat.eqb_refl. lia.
    + rewrite (get_put_other _ _ _ _ Hn), (proj2 (Nat.eqb_neq b a) Hn). destruct (get b (heap s)) as [mb|].
      * destruct Hb as [Hb1 Hb2]. specialize (Hb2 Hn). lia.
      * destruct Hb as [Hb1 Hb2]. split; [lia|]. intros ->. rewrite Nat.eqb_refl in Hr. lia.
  - right. eexists. split; [reflexivity|]. unfold set_vars, s1. split; [apply distinct_put; exact Hd|]. split; cbn [heap vars next]; [|exact Hf1].
    intro b. unfold put at 2 3. cbn [refs]. rewrite (refs_del_none _ _ b Ev). pose proof (Hc b) as Hb.
    destruct (Nat.eq_dec b a) as [->|Hn].
    + rewrite get_put_same. unfold m'. cbn [count]. rewrite Nat.eqb_refl. lia.
    + rewrite (get_put_other _ _ _ _ Hn), (proj2 (Nat.eqb_neq b a) Hn). destruct (get b (heap s)) as [mb|].
      * destruct Hb as [Hb1 Hb2]. specialize (Hb2 Hn). lia.
      * lia.
Qed.
Lemma alloc_ready m s : counted s -> count m = 0 -> ready (next s) (alloc m s).
Proof.
  intros (Hd & Hc & Hf) Hm. unfold alloc. split; [exact Hd|]. split; cbn [heap vars next].
  - intro b. cbn [get]. destruct (b =? next s) eqn:E.
    + apply Nat.eqb_eq in E. subst b. pose proof (Hc (next s)) as Hn. rewrite (Hf (next s) (le_n _)) in Hn. lia.
    + apply Nat.eqb_neq in E. pose proof (Hc b) as Hb. destruct (get b (heap s)); [tauto | split; [exact Hb | exact E]].
  - intros b Hb. cbn [get]. destruct (b =? next s) eqn:E; [apply Nat.eqb_eq in E; lia | apply Hf; lia].
Qed.
Lemma counted_ready a s : counted s -> get a (heap s) <> None -> ready a s.
Proof.
  intros (Hd & Hc & Hf) Ha. split; [exact Hd|]. split; [|exact Hf]. intro b. pose proof (Hc b) as Hb.
  destruct (get b (heap s)) eqn:E; [tauto|]. split; [exact Hb | intros ->; exact (Ha E)].
Qed.
Lemma var_alive s x a : counted s -> get x (vars s) = Some a -> exists m, get a (heap s) = Some m.
Proof.
  intros (Hd & Hc & _) Hx. pose proof (Hc a) as Ha. destruct (get a (heap s)) as [m|]; [exists m; reflexivity|].
  assert (0 < refs a (vars s)) by (apply (refs_pos _ _ Hd); exists x; exact Hx). lia.
Qed.
Lemma modify_counted a m m' s t : counted s -> get a (heap s) = Some m -> count m' = count m ->
  counted (mkMem (put a m' (heap s)) (vars s) (next s) t (freed s) (lost s)).
Proof.
  intros (Hd & Hc & Hf) Hg He. split; [exact Hd|]. split; cbn [heap vars next].
  - intro b. destruct (Nat.eq_dec b a) as [->|Hn].
    + rewrite get_put_same, He. pose proof (Hc a) as Ha. rewrite Hg in Ha. exact Ha.
    + rewrite (get_put_other _ _ _ _ Hn). exact (Hc b).
  - intros b Hb. destruct (Nat.eq_dec b a) as [->|Hn]; [rewrite (Hf a Hb) in Hg; discriminate|]. rewrite (get_put_other _ _ _ _ Hn). exact (Hf b Hb).
Qed.
Lemma step_counted o s : counted s -> step o s = WrongMember \/ exists s', step o s = Fine s' /\ counted s'.
Proof.
  intro H. destruct o as [x|x p n|x y|x|x p|x p n|x p]; cbn [step].
  - apply assign_counted. apply alloc_ready; [exact H | reflexivity].
  - apply assign_counted. apply alloc_ready; [exact H | reflexivity].
  - destruct (get x (vars s)) as [a|] eqn:Ev; [|right; exists s; split; [reflexivity | exact H]].
    apply assign_counted. apply counted_ready; [exact H|]. destruct (var_alive s x a H Ev) as [m Hm]. rewrite Hm. discriminate.
  - destruct (get x (vars s)) as [a|] eqn:Ev; [|right; exists s; split; [reflexivity | exact H]].
    apply release_counted. destruct (var_alive s x a H Ev) as [m0 Hm0]. destruct H as (Hd & Hc & Hf).
    unfold set_vars. split; [apply distinct_del; exact Hd|]. split; cbn [heap vars next]; [|exact Hf].
    intro b. pose proof (refs_del_some _ _ _ b Hd Ev) as Hr. pose proof (Hc b) as Hb. destruct (get b (heap s)) as [m|] eqn:Eb.
    + lia.
    + split; [lia|]. intros ->. rewrite Hm0 in Eb. discriminate.
  - destruct (get x (vars s)) as [a|] eqn:Ev; [|right; exists s; split; [reflexivity | exact H]].
    destruct (var_alive s x a H Ev) as [m Hm]. rewrite Hm. right. eexists. split; [reflexivity|]. apply (modify_counted a m); [exact H | exact Hm | reflexivity].
  - destruct (get x (vars s)) as [a|] eqn:Ev; [|right; exists s; split; [reflexivity | exact H]].
    destruct (var_alive s x a H Ev) as [m Hm]. rewrite Hm. destruct ((blocks m =? 0) || tag_eqb (member m) p)%bool; [|left; reflexivity].
    right. eexists. split; [reflexivity|]. apply (modify_counted a m); [exact H | exact Hm | reflexivity].
  - destruct (get x (vars s)) as [a|] eqn:Ev; [|right; exists s; split; [reflexivity | exact H]].
    destruct (var_alive s x a H Ev) as [m Hm]. rewrite Hm. destruct (tag_eqb (present m) p); [right; exists s; split; [reflexivity | exact H] | left; reflexivity].
Qed.
Lemma run_counted ops : forall s, counted s -> run ops s = WrongMember \/ exists s', run ops s = Fine s' /\ counted s'.
Proof.
  induction ops as [|o r IH]; intros s H; cbn [run]; [right; exists s; split; [reflexivity | exact H]|].
  destruct (step_counted o s H) as [-> | (s' & -> & H')]; cbn [andthen]; [left; reflexivity | exact (IH s' H')].
Qed.
Lemma counted_mem0 : counted mem0.
Proof. split; [exact Logic.I|]. split; intros; reflexivity. Qed.

(** Whatever is done with the pointers, no message is used after it was destroyed, and each exists exactly as long as there is a pointer to it. *)
Theorem C195_lifetime_partial : forall ops,
  run ops mem0 <> UseAfterFree /\ forall s, run ops mem0 = Fine s -> lives_while_referenced s.
Proof.
  intro ops. destruct (run_counted ops mem0 counted_mem0) as [E | (s' & E & (Hd & Hc & Hf))]; rewrite E; (split; [discriminate|]).
  - intros s H. discriminate.
  - intros s H. injection H as <-. intro a. pose proof (Hc a) as Ha. rewrite <- (refs_pos _ _ Hd). destruct (get a (heap s')) as [m|].
    + split; [intros _; lia | intros _; exists m; reflexivity].
    + split; [intros [m Hm]; discriminate | lia].
Qed.

(** ** Histories of exchanges *)
Lemma eqb_n_Sn n : (n =? S n) = false. Proof. apply Nat.eqb_neq. lia. Qed.
Lemma eqb_Sn_n n : (S n =? n) = false. Proof. apply Nat.eqb_neq. lia. Qed.
Lemma eqb_match k : match k with 0 => false | S m' => k =? m' end = false. Proof. exact (eqb_Sn_n k). Qed.
Lemma tag_eqb_refl p : tag_eqb p p = true. Proof. unfold tag_eqb. destruct (tag_dec p p); [reflexivity | congruence]. Qed.
Lemma tag_eqb_eq p q : tag_eqb p q = true -> p = q. Proof. unfold tag_eqb. destruct (tag_dec p q); [trivial | discriminate]. Qed.
Ltac go := repeat progress (
  unfold assign, alloc, add_ref, release, destroy, set_vars, put, v_req, v_m, v_resp, v_r;
  cbn [run step andthen get del heap vars next taken freed lost count present member blocks rpc_answer app answer_present Nat.sub Nat.eqb orb];
  rewrite ?Nat.eqb_refl, ?eqb_n_Sn, ?eqb_Sn_n, ?eqb_match, ?tag_eqb_refl).
(** What is allocated in an exchange. *)
Definition answer_blocks (a : answer) : nat := match a with Decoded _ m | Broken _ m => m | _ => 0 end.
Definition used (e : exchange) : nat :=
  match e with
  | Primary r n a => (if rq_member r then n else 0) + answer_blocks a
  | Secondary (IDecoded p n) k => n + (if handler_of p then k else 0)
  | Secondary (IBroken _ n) _ => n
  | Secondary INothing _ => 0
  end.
Definition messages (e : exchange) : nat := match e with Secondary (IDecoded _ _) _ => 2 | Secondary _ _ => 1 | Primary _ _ _ => 2 end.
Lemma one_exchange e k t f l : exists f',
  run (ops_of e) (mkMem [] [] k t f l) = Fine (mkMem [] [] (messages e + k) (t + used e) f' (l + broken_blocks e)) /\
  f' + broken_blocks e = f + used e.
Proof.
  destruct e as [r n a | i j].
  - assert (Hq : rq_member r = Some (rq_present r) \/ rq_member r = None) by (destruct r; cbn; auto).
    assert (Hs : rs_member r = Some (rs_expected r) \/ rs_member r = None) by (destruct r; cbn; auto).
    unfold ops_of, request, used, messages.
    destruct Hq as [Hq|Hq]; rewrite Hq; generalize (rq_present r); intro q; clear Hq;
    (destruct Hs as [Hs|Hs]; rewrite Hs; generalize (rs_expected r); intro w; clear Hs);
    (destruct a as [ | |p m|p m]; cbn [answer_present answer_blocks broken_blocks]).
    all: destruct (tag_eqb _ w) eqn:Ew.
    all: try (apply tag_eqb_eq in Ew; subst w).
    all: go.
    all: try match goal with |- context [tag_eqb ?x Nothing] => destruct (tag_eqb x Nothing) end.
    all: go.
    all: try match goal with |- context [tag_eqb Nothing ?x] =>
           let Ep := fresh "Ep" in destruct (tag_eqb Nothing x) eqn:Ep; [apply tag_eqb_eq in Ep; subst x | destruct x; try (rewrite tag_eqb_refl in Ep; discriminate)] end.
    all: go.
    all: try match goal with |- context [?x =? 0] => destruct (x =? 0) end; go.
    all: repeat (match goal with |- context [tag_eqb ?x Nothing] => destruct (tag_eqb x Nothing) end; go).
    all: try solve [eexists; (split; [f_equal; f_equal; try reflexivity; lia | cbn; lia])].
  - destruct i as [|p n|p n]; cbn [ops_of serve used messages broken_blocks].
    + go. eexists. split; [f_equal; f_equal; try reflexivity; lia | lia].
    + go. eexists. split; [f_equal; f_equal; try reflexivity; lia | lia].
    + assert (Hr : forall h, handler_of p = Some h -> p = h_for h /\ (h_reads h = Some (h_for h) \/ h_reads h = None) /\ h_member h = h_present h).
      { intros h Hh. unfold handler_of in Hh. apply find_some in Hh. destruct Hh as [_ Hh]. apply tag_eqb_eq in Hh.
        split; [congruence|]. destruct h; cbn; auto. }
      destruct (handler_of p) as [h|].
      * destruct (Hr h eq_refl) as (Hp & Hd & Hm). rewrite Hm. clear Hm Hr. rewrite Hp. clear Hp. generalize (h_present h). intro w.
        destruct Hd as [Hd|Hd]; rewrite Hd; generalize (h_for h); intro q; clear Hd;
        go; eexists; (split; [f_equal; f_equal; try reflexivity; lia | lia]).
      * go. eexists. split; [f_equal; f_equal; try reflexivity; lia | lia].
Qed.

Definition total (g : exchange -> nat) (h : list exchange) : nat := fold_right (fun e t => g e + t) 0 h.
Lemma run_app a : forall b s, run (a ++ b) s = andthen (run a s) (run b).
Proof.
  induction a as [|o a IH]; intros b s; [reflexivity|]. cbn [run app]. destruct (step o s); cbn [andthen]; [apply IH | reflexivity | reflexivity].
Qed.
Lemma exchanges h : forall k t f l, exists k' f',
  run (flat_map ops_of h) (mkMem [] [] k t f l) = Fine (mkMem [] [] k' (t + total used h) f' (l + total broken_blocks h)) /\
  f' + total broken_blocks h = f + total used h.
Proof.
  induction h as [|e h IH]; intros k t f l.
  - exists k, f. cbn. rewrite !Nat.add_0_r. split; reflexivity.
  - cbn [flat_map total fold_right]. rewrite run_app. destruct (one_exchange e k t f l) as (f1 & -> & E1). cbn [andthen].
    destruct (IH (messages e + k) (t + used e) f1 (l + broken_blocks e)) as (k2 & f2 & -> & E2).
    exists k2, f2. fold (total used h). fold (total broken_blocks h). rewrite !Nat.add_assoc. split; [reflexivity | lia].
Qed.

(** No exchange frees or reads a member of a message other than the one that is in it, no message stays behind, and what
    is lost is exactly what broken answers had. *)
Theorem C195_exact_partial : forall h : list exchange, exists s,
  run (flat_map ops_of h) mem0 = Fine s /\ heap s = [] /\ vars s = [] /\
  lost s = total broken_blocks h /\ freed s + lost s = taken s.
Proof.
  intro h. destruct (exchanges h 0 0 0 0) as (k & f & E & Ef). unfold mem0. rewrite E. eexists. split; [reflexivity|]. cbn in *.
  repeat split; lia.
Qed.
(** Unless an answer is broken off, everything is given back. *)
Theorem C195_given_back_partial : forall h : list exchange, Forall (fun e => ~ broken_answer e) h ->
  exists s, run (flat_map ops_of h) mem0 = Fine s /\ all_given_back s.
Proof.
  intros h Hh. destruct (C195_exact_partial h) as (s & E & Hheap & _ & Hl & Hf). exists s. split; [exact E|].
  assert (H0 : total broken_blocks h = 0).
  { clear - Hh. induction Hh as [|e h He _ IH]; [reflexivity|]. cbn [total fold_right]. fold (total broken_blocks h). rewrite IH.
    destruct e as [r n [ | |p m|p m]|i j]; try reflexivity. exfalso. exact (He Logic.I). }
  split; [exact Hheap|]. rewrite H0 in Hl. split; [lia | exact Hl].
Qed.
(** A Secondary that answers with broken messages makes the Primary lose memory without bound. *)
Theorem C195_unbounded : forall bound, exists h s, run (flat_map ops_of h) mem0 = Fine s /\ bound <= lost s.
Proof.
  intro bound. exists (repeat (Primary RPing 0 (Broken GetInfoResp 1)) bound).
  destruct (C195_exact_partial (repeat (Primary RPing 0 (Broken GetInfoResp 1)) bound)) as (s & E & _ & _ & Hl & _).
  exists s. split; [exact E|]. rewrite Hl. clear. induction bound as [|b IH]; [lia|].
  change (S b <= 1 + total broken_blocks (repeat (Primary RPing 0 (Broken GetInfoResp 1)) b)). lia.
Qed.
Theorem C195_refuted : ~ C195_statement.
Proof.
  intros [_ H]. destruct (H [Primary RPing 0 (Broken GetInfoResp 3)]) as (s & E & _ & _ & Hl). vm_compute in E. injection E as <-.
  discriminate.
Qed.

(** A whole session: three requests, one of them not answered as expected. *)
Example C195_example :
  run (flat_map ops_of [Primary RVersion 0 (Decoded VersionResp 0); Primary RPutMeta2 14 (Decoded PutMetaResp2 1);
                        Primary RInstall2 1 (Decoded GetInfoResp 3); Secondary (IDecoded UploadDataReq 1) 1; Secondary (IBroken PutMetaReq2 5) 0]) mem0
  = Fine (mkMem [] [] 9 26 26 0).
Proof. vm_compute. reflexivity. Qed.
(** Pointers outlive each other: the message goes with the last of them. *)
Example C195_example_lifetime :
  run [OEmpty 0; OCopy 0 1; ODrop 0; OPresent 1 InstallReq; OFill 1 InstallReq 2] mem0 = Fine (mkMem [(0, mkMsg 1 InstallReq InstallReq 2)] [(1, 0)] 1 2 0 0) /\
  run [OEmpty 0; OCopy 0 1; ODrop 0; OPresent 1 InstallReq; OFill 1 InstallReq 2; ODrop 1] mem0 = Fine (mkMem [] [] 1 2 2 0) /\
  run [OEmpty 0; OFill 0 InstallReq 2; OPresent 0 VersionReq; ODrop 0] mem0 = WrongMember.
Proof. vm_compute. auto. Qed.

Print Assumptions C195_lifetime_partial.
Print Assumptions C195_exact_partial.
Print Assumptions C195_given_back_partial.
Print Assumptions C195_unbounded.
Print Assumptions C195_refuted.
